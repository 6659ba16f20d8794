(* What memory, table and variable instructions should do, in terms of byte and entry positions. *)
From Coq Require Import ZArith List Bool.
From Verif Require Import Py Val Opcode Numeric Syntax Store SpecNum SpecMachine.
Import ListNotations.
Open Scope Z_scope.

(* the [n] items of [d] from position [a] on *)
Definition range_of {A} (d : list A) (a n : Z) : list A := firstn (Z.to_nat n) (skipn (Z.to_nat a) d).

(* [d'] is [d] with the items from position [a] on replaced by [bs]; nothing else changes, the length neither *)
Definition overwritten {A} (d d' : list A) (a : Z) (bs : list A) : Prop :=
  length d' = length d /\
  forall i, nth_error d' i =
    if (a <=? Z.of_nat i) && (Z.of_nat i <? a + len bs) then nth_error bs (i - Z.to_nat a) else nth_error d i.

(* the first memory / the table number [j] / the global number [j] of the module of frame [fr] is object number [a] of
   the store *)
Definition the_memory (m : machine) (fr : frame) (a : nat) (mem : meminst) : Prop :=
  nth_error (m_mems (mod_of (k_store m) (fr_module fr))) 0 = Some (Z.of_nat a) /\
  nth_error (s_mems (k_store m)) a = Some mem.
Definition the_table (m : machine) (fr : frame) (j : nat) (a : nat) (t : tableinst) : Prop :=
  nth_error (m_tabl (mod_of (k_store m) (fr_module fr))) j = Some (Z.of_nat a) /\
  nth_error (s_tabl (k_store m)) a = Some t.
Definition the_global (m : machine) (fr : frame) (j : nat) (a : nat) (g : globalinst) : Prop :=
  nth_error (m_glob (mod_of (k_store m) (fr_module fr))) j = Some (Z.of_nat a) /\
  nth_error (s_glob (k_store m)) a = Some g.
Definition the_elem (m : machine) (fr : frame) (j : nat) (a : nat) (e : eleminst) : Prop :=
  nth_error (m_elem (mod_of (k_store m) (fr_module fr))) j = Some (Z.of_nat a) /\
  nth_error (s_elem (k_store m)) a = Some e.
(* data segment number [j]: data instance [a], whose bytes are bytearray number [b] *)
Definition the_data (m : machine) (fr : frame) (j : nat) (b : nat) (d : list Z) : Prop :=
  exists a, nth_error (m_data (mod_of (k_store m) (fr_module fr))) j = Some (Z.of_nat a) /\
  nth_error (s_data (k_store m)) a = Some b /\ nth_error (s_blob (k_store m)) b = Some d.

(* the store with one object replaced *)
Definition with_mem (s : store) (a : nat) (x : meminst) : store :=
  mkstore (s_func s) (s_tabl s) (upd (s_mems s) a x) (s_glob s) (s_elem s) (s_data s) (s_inst s) (s_blob s).
Definition with_table (s : store) (a : nat) (x : tableinst) : store :=
  mkstore (s_func s) (upd (s_tabl s) a x) (s_mems s) (s_glob s) (s_elem s) (s_data s) (s_inst s) (s_blob s).
Definition with_global (s : store) (a : nat) (x : globalinst) : store :=
  mkstore (s_func s) (s_tabl s) (s_mems s) (upd (s_glob s) a x) (s_elem s) (s_data s) (s_inst s) (s_blob s).
Definition with_elem (s : store) (a : nat) (x : eleminst) : store :=
  mkstore (s_func s) (s_tabl s) (s_mems s) (s_glob s) (upd (s_elem s) a x) (s_data s) (s_inst s) (s_blob s).
Definition with_blob (s : store) (b : nat) (x : list Z) : store :=
  mkstore (s_func s) (s_tabl s) (s_mems s) (s_glob s) (s_elem s) (s_data s) (s_inst s) (upd (s_blob s) b x).

(* a memory in order: 64 KiB per page, bytes only, the declared (non-zero) maximum respected *)
Definition mem_wf (x : meminst) : Prop :=
  len (mi_data x) = 65536 * mi_size x /\ 0 <= mi_size x <= 65536 /\
  (l_m (mi_type x) <> 0 -> mi_size x <= l_m (mi_type x)) /\ bytes (mi_data x).
(* a table in order *)
Definition table_wf (x : tableinst) : Prop :=
  len (ti_elem x) = ti_size x /\ (l_m (tt_limits (ti_type x)) <> 0 -> ti_size x <= l_m (tt_limits (ti_type x))).

(* The loads: number of bytes read, type of the result, and the result's bits from the little-endian number that the
   bytes read make up. *)
Definition lane (w x k : Z) : Z := (x / 2 ^ (w * k)) mod 2 ^ w.
(* lanes of w bits, lowest first, put together *)
Fixpoint join (w : Z) (l : list Z) : Z := match l with [] => 0 | x :: l' => x + 2 ^ w * join w l' end.
Definition lanes (w : Z) (n : nat) (x : Z) : list Z := map (fun k => lane w x (Z.of_nat k)) (seq 0 n).

Definition sx (M N x : Z) : Z := unsgn N (sgn M x).
Definition wasm_load (o : opc) : option (Z * valtype * (Z -> Z)) :=
  match o with
  | O_i32_load => Some (4, T_i32, fun x => x)
  | O_i64_load => Some (8, T_i64, fun x => x)
  | O_f32_load => Some (4, T_f32, fun x => x)
  | O_f64_load => Some (8, T_f64, fun x => x)
  | O_i32_load8_s => Some (1, T_i32, sx 8 32)
  | O_i32_load8_u => Some (1, T_i32, fun x => x)
  | O_i32_load16_s => Some (2, T_i32, sx 16 32)
  | O_i32_load16_u => Some (2, T_i32, fun x => x)
  | O_i64_load8_s => Some (1, T_i64, sx 8 64)
  | O_i64_load8_u => Some (1, T_i64, fun x => x)
  | O_i64_load16_s => Some (2, T_i64, sx 16 64)
  | O_i64_load16_u => Some (2, T_i64, fun x => x)
  | O_i64_load32_s => Some (4, T_i64, sx 32 64)
  | O_i64_load32_u => Some (4, T_i64, fun x => x)
  | O_v128_load => Some (16, T_v128, fun x => x)
  | O_v128_load8x8_s => Some (8, T_v128, fun x => join 16 (map (sx 8 16) (lanes 8 8 x)))
  | O_v128_load8x8_u => Some (8, T_v128, fun x => join 16 (lanes 8 8 x))
  | O_v128_load16x4_s => Some (8, T_v128, fun x => join 32 (map (sx 16 32) (lanes 16 4 x)))
  | O_v128_load16x4_u => Some (8, T_v128, fun x => join 32 (lanes 16 4 x))
  | O_v128_load32x2_s => Some (8, T_v128, fun x => join 64 (map (sx 32 64) (lanes 32 2 x)))
  | O_v128_load32x2_u => Some (8, T_v128, fun x => join 64 (lanes 32 2 x))
  | O_v128_load8_splat => Some (1, T_v128, fun x => join 8 (repeat x 16))
  | O_v128_load16_splat => Some (2, T_v128, fun x => join 16 (repeat x 8))
  | O_v128_load32_splat => Some (4, T_v128, fun x => join 32 (repeat x 4))
  | O_v128_load64_splat => Some (8, T_v128, fun x => join 64 (repeat x 2))
  | O_v128_load32_zero => Some (4, T_v128, fun x => x)
  | O_v128_load64_zero => Some (8, T_v128, fun x => x)
  | _ => None
  end.

(* The stores: number of bytes written *)
Definition wasm_store (o : opc) : option Z :=
  match o with
  | O_i32_store | O_f32_store | O_i64_store32 => Some 4
  | O_i64_store | O_f64_store => Some 8
  | O_i32_store8 | O_i64_store8 => Some 1
  | O_i32_store16 | O_i64_store16 => Some 2
  | O_v128_store => Some 16
  | _ => None
  end.

(* the vector lane loads and stores: lane size in bytes *)
Definition wasm_load_lane (o : opc) : option Z :=
  match o with
  | O_v128_load8_lane => Some 1 | O_v128_load16_lane => Some 2
  | O_v128_load32_lane => Some 4 | O_v128_load64_lane => Some 8
  | _ => None
  end.
Definition wasm_store_lane (o : opc) : option Z :=
  match o with
  | O_v128_store8_lane => Some 1 | O_v128_store16_lane => Some 2
  | O_v128_store32_lane => Some 4 | O_v128_store64_lane => Some 8
  | _ => None
  end.
(* lane number k of w bytes replaced by x *)
Definition set_lane (w z k x : Z) : Z := z - lane (8 * w) z k * 2 ^ (8 * w * k) + x * 2 ^ (8 * w * k).
