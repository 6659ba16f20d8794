(* pywasm/core.py 12-303: value types and values. *)
From Coq Require Import ZArith List Bool.
From Verif Require Import Py Arith Floatops.
Import ListNotations.
Open Scope Z_scope.

(* core.py 12-66: the seven byte codes a ValType accepts *)
Inductive valtype : Set := T_i32 | T_i64 | T_f32 | T_f64 | T_v128 | T_func | T_extern.

Definition vt_code (t : valtype) : Z :=
  match t with
  | T_i32 => 0x7f | T_i64 => 0x7e | T_f32 => 0x7d | T_f64 => 0x7c | T_v128 => 0x7b
  | T_func => 0x70 | T_extern => 0x6f
  end.

(* core.py 15-17: ValType(data) *)
Definition vt_of_code (z : Z) : res valtype :=
  if z =? 0x7f then Ok T_i32 else if z =? 0x7e then Ok T_i64 else if z =? 0x7d then Ok T_f32
  else if z =? 0x7c then Ok T_f64 else if z =? 0x7b then Ok T_v128 else if z =? 0x70 then Ok T_func
  else if z =? 0x6f then Ok T_extern else Err EAssert.

(* core.py 19-20 *)
Definition vt_eqb (a b : valtype) : bool := vt_code a =? vt_code b.

(* core.py 64-66 *)
Definition vt_from_reader (r : list Z) : res (valtype * list Z) :=
  let? (b, r) := read_ord r in let? t := vt_of_code b in Ok (t, r).

(* core.py 69-77 *)
Record val : Set := mkval { v_type : valtype; v_data : list Z }.
Definition blen : Z := 16.
(* the constructor asserts the length *)
Definition mk_val (t : valtype) (d : list Z) : res val :=
  let? _ := py_assert (len d =? blen) in Ok (mkval t d).

(* core.py 101-115 *)
Definition from_i32 (n : Z) : res val := let? b := i_into_bytearray 4 n in mk_val T_i32 (b ++ zeros (blen - 4)).
Definition from_i64 (n : Z) : res val := let? b := i_into_bytearray 8 n in mk_val T_i64 (b ++ zeros (blen - 8)).
Definition from_u32 (n : Z) : res val := let? b := u_into_bytearray 4 n in mk_val T_i32 (b ++ zeros (blen - 4)).
Definition from_u64 (n : Z) : res val := let? b := u_into_bytearray 8 n in mk_val T_i64 (b ++ zeros (blen - 8)).

(* core.py 117-120: n is first rounded by ctypes.c_float; packing then converts to single precision *)
Definition from_f32 (F : fops) (n : Z) : res val :=
  let n := f32_fit F n in mk_val T_f32 (to_le 4 (f_to32 F n) ++ zeros (blen - 4)).
(* core.py 122-126 *)
Definition from_f32_u32 (n : Z) : res val := let? o := from_u32 n in Ok (mkval T_f32 (v_data o)).
(* core.py 128-130 *)
Definition from_f64 (n : Z) : res val := mk_val T_f64 (to_le 8 n ++ zeros (blen - 8)).
(* core.py 132-136 *)
Definition from_f64_u64 (n : Z) : res val := let? o := from_u64 n in Ok (mkval T_f64 (v_data o)).

(* core.py 138-141 *)
Definition from_v128 (n : list Z) : res val :=
  let? _ := py_assert (len n =? 16) in mk_val T_v128 (n ++ zeros (blen - 16)).

(* core.py 143-189: lanes of w bytes; `assert len(n) == 16 // w` *)
Definition from_lanes (into : Z -> Z -> res (list Z)) (w : Z) (n : list Z) : res val :=
  let? _ := py_assert (len n =? 16 / w) in
  let? bs := rmapl (into w) n in
  mk_val T_v128 (concat bs ++ zeros (blen - 16)).
Definition from_v128_i (w : Z) (n : list Z) : res val := from_lanes i_into_bytearray w n.
Definition from_v128_u (w : Z) (n : list Z) : res val := from_lanes u_into_bytearray w n.
(* core.py 191-201: struct.pack in native mode, a plain C cast for 'f' *)
Definition from_v128_f32 (F : fops) (n : list Z) : res val :=
  let? _ := py_assert (len n =? 4) in
  mk_val T_v128 (concat (map (fun e => to_le 4 (f_to32 F e)) n) ++ zeros (blen - 16)).
Definition from_v128_f64 (n : list Z) : res val :=
  let? _ := py_assert (len n =? 2) in
  mk_val T_v128 (concat (map (to_le 8) n) ++ zeros (blen - 16)).

(* core.py 203-205 *)
Definition from_ref (t : valtype) (n : Z) : res val :=
  let? b := pack_s 4 n in mk_val t (b ++ [0x01] ++ zeros (blen - 5)).

(* core.py 227-243 *)
Definition into_i32 (v : val) : res Z := unpack_s 4 (py_slice (v_data v) 0 4).
Definition into_i64 (v : val) : res Z := unpack_s 8 (py_slice (v_data v) 0 8).
Definition into_u32 (v : val) : res Z := unpack_u 4 (py_slice (v_data v) 0 4).
Definition into_u64 (v : val) : res Z := unpack_u 8 (py_slice (v_data v) 0 8).
Definition into_f32 (F : fops) (v : val) : res Z := let? b := unpack_u 4 (py_slice (v_data v) 0 4) in Ok (f_of32 F b).
Definition into_f64 (v : val) : res Z := unpack_u 8 (py_slice (v_data v) 0 8).

(* core.py 245-246 *)
Definition into_v128 (v : val) : res (list Z) := Ok (py_slice (v_data v) 0 16).
(* core.py 248-252 *)
Definition into_v128_i8 (v : val) : res (list Z) := Ok (map (i_fit 1) (v_data v)).
Definition into_v128_u8 (v : val) : res (list Z) := Ok (map (u_fit 1) (v_data v)).
(* core.py 254-276: `data[i:i+w] for i in range(0, 16, w)` *)
Definition lane_slices (w : Z) (d : list Z) : list (list Z) :=
  map (fun k => py_slice d (k * w) (k * w + w)) (py_range (16 / w)).
Definition into_lanes (from : Z -> list Z -> res Z) (w : Z) (v : val) : res (list Z) :=
  rmapl (from w) (lane_slices w (v_data v)).
Definition into_v128_i (w : Z) (v : val) : res (list Z) :=
  if w =? 1 then into_v128_i8 v else into_lanes i_from_bytearray w v.
Definition into_v128_u (w : Z) (v : val) : res (list Z) :=
  if w =? 1 then into_v128_u8 v else into_lanes u_from_bytearray w v.
Definition into_v128_f32 (F : fops) (v : val) : res (list Z) :=
  let? l := into_lanes u_from_bytearray 4 v in Ok (map (f_of32 F) l).
Definition into_v128_f64 (v : val) : res (list Z) := into_lanes u_from_bytearray 8 v.

(* core.py 278-280 *)
Definition into_ref (v : val) : res Z :=
  let? b := py_index (v_data v) 4 in let? _ := py_assert (b =? 1) in into_i32 v.

(* core.py 301-303 *)
Definition val_zero (t : valtype) : val := mkval t (zeros blen).

(* What crosses the API boundary: a Python int, float (as its bit pattern), byte string, or None. *)
Inductive pyval : Set :=
| PInt (z : Z)
| PFloat (x : Z)
| PBytes (b : list Z)
| PNone.

(* core.py 207-225. An argument of the wrong Python type raises: `int.to_bytes` does not exist on it (AttributeError),
   ctypes.c_float or len() refuse it (TypeError), struct.pack refuses it (struct.error). *)
Definition from_all (F : fops) (t : valtype) (p : pyval) : res val :=
  match t with
  | T_i32 => match p with PInt n => from_i32 n | _ => Err EAttr end
  | T_i64 => match p with PInt n => from_i64 n | _ => Err EAttr end
  | T_f32 =>
    match p with
    | PFloat x => from_f32 F x
    | PInt n => let? x := fl_of_int F n in from_f32 F x
    | _ => Err EType
    end
  | T_f64 =>
    match p with
    | PFloat x => from_f64 x
    | PInt n => let? x := fl_of_int F n in from_f64 x
    | _ => Err EStruct
    end
  | T_v128 => match p with PBytes b => from_v128 b | _ => Err EType end
  | T_func | T_extern => match p with PInt n => from_ref t n | _ => Err EStruct end
  end.

(* core.py 282-299 *)
Definition into_all (F : fops) (v : val) : res pyval :=
  match v_type v with
  | T_i32 => rmap PInt (into_i32 v)
  | T_i64 => rmap PInt (into_i64 v)
  | T_f32 => rmap PFloat (into_f32 F v)
  | T_f64 => rmap PFloat (into_f64 v)
  | T_v128 => rmap PBytes (into_v128 v)
  | T_func | T_extern => rmap PInt (into_ref v)
  end.

(* a value as the constructor leaves it, holding bytes *)
Definition val_wf (v : val) : Prop := length (v_data v) = 16%nat /\ bytes (v_data v).
