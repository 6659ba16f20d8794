(* The instructions of Machine.evaluate (pywasm/core.py 1795-4107) that only pop operands, compute and push one result.
   The tables below are one line per `case` of the match statement, each citing the lines of that case.
   [F] is the host's floating-point unit (Floatops.v). *)
From Coq Require Import ZArith List Bool.
From Verif Require Import Py Arith Floatops Val Opcode.
Import ListNotations.
Open Scope Z_scope.

(* An immediate argument of an instruction: an int, a list of ints, or a byte string (core.py 341-343, 364-708). *)
Inductive arg : Set :=
| AInt (z : Z)
| AList (l : list Z)
| ABytes (b : list Z).

(* instr.args[k], used as an int, a list or a bytearray; TypeError when it is something else *)
Definition arg_int (args : list arg) (k : Z) : res Z :=
  let? a := py_index args k in match a with AInt z => Ok z | _ => Err EType end.
Definition arg_list (args : list arg) (k : Z) : res (list Z) :=
  let? a := py_index args k in match a with AList l => Ok l | _ => Err EType end.
Definition arg_bytes (args : list arg) (k : Z) : res (list Z) :=
  let? a := py_index args k in match a with ABytes b => Ok b | _ => Err EType end.

(* A computation on popped operands; the deepest operand comes first. Python converts each operand right after popping
   it; here all pops come first. The two orders differ only if a conversion raises while a later pop would raise too, and
   the conversions into_* never raise on a 16-byte value. *)
Inductive numop : Type :=
| N0 (f : list arg -> res val)
| N1 (f : list arg -> val -> res val)
| N2 (f : list arg -> val -> val -> res val)
| N3 (f : list arg -> val -> val -> val -> res val).

(* read the operands, compute, write the result *)
Definition wr0 {R} (r : res R) (wr : R -> res val) : res val := let? x := r in wr x.
Definition op1 {A R} (rd : val -> res A) (f : list arg -> A -> res R) (wr : R -> res val) : numop :=
  N1 (fun args a => let? a := rd a in let? r := f args a in wr r).
Definition op2 {A B R} (rda : val -> res A) (rdb : val -> res B) (f : list arg -> A -> B -> res R) (wr : R -> res val)
  : numop :=
  N2 (fun args a b => let? b := rdb b in let? a := rda a in let? r := f args a b in wr r).
Definition op3 {A B C R} (rda : val -> res A) (rdb : val -> res B) (rdc : val -> res C)
  (f : list arg -> A -> B -> C -> res R) (wr : R -> res val) : numop :=
  N3 (fun args a b c => let? c := rdc c in let? b := rdb b in let? a := rda a in let? r := f args a b c in wr r).

(* a bool where Python uses it as an int *)
Definition b2z (b : bool) : Z := if b then 1 else 0.
(* `t in [ValType.ref_func(), ValType.ref_extern()]` *)
Definition is_ref (t : valtype) : bool := match t with T_func | T_extern => true | _ => false end.
(* `range(lo, hi)`, `range(lo, hi, step)` *)
Definition py_range_from (lo hi : Z) : list Z := map (fun k => lo + k) (py_range (hi - lo)).
Definition py_range_step (lo hi step : Z) : list Z := map (fun k => lo + k * step) (py_range ((hi - lo + step - 1) / step)).
(* `[f(a[i], b[i]) for i in range(lo, hi)]` and the three-operand form *)
Definition lanes2 (lo hi : Z) (f : Z -> Z -> res Z) (a b : list Z) : res (list Z) :=
  rmapl (fun i => let? x := py_index a i in let? y := py_index b i in f x y) (py_range_from lo hi).
Definition lanes3 (lo hi : Z) (f : Z -> Z -> Z -> res Z) (a b c : list Z) : res (list Z) :=
  rmapl (fun i => let? x := py_index a i in let? y := py_index b i in let? z := py_index c i in f x y z)
    (py_range_from lo hi).
(* the bit mask loop, core.py 3347-3354 and its three copies *)
Definition bitmask (n : Z) (a : list Z) : res Z :=
  fold_left (fun r i => let? b := r in let? x := py_index a i in Ok (if x <? 0 then Z.lor b (Z.shiftl 1 i) else b))
    (py_range n) (Ok 0).
(* `b.data[k] = f(b.data[k])`, core.py 2362-2371, 2435-2444 *)
Definition byte_op (f : Z -> Z) (k : Z) (d : list Z) : res (list Z) :=
  let? x := py_index d k in py_setitem d k (f x).
(* `c = ValInst.from_X(b); assert c.into_X() == b`, core.py 2512-2567 *)
Definition checked (wr : Z -> res val) (rd : val -> res Z) (b : Z) : res val :=
  let? c := wr b in let? x := rd c in let? _ := py_assert (x =? b) in Ok c.

(* core.py 1883-1896 and 2000-2717: scalar instructions *)
Definition num_scalar (F : fops) (o : opc) : option numop :=
  match o with
  (* 1883-1888 *)
  | O_select => Some (op3 Ok Ok into_i32 (fun _ a b c => Ok (if negb (c =? 0) then a else b)) Ok)
  (* 1889-1896 *)
  | O_select_type => Some (
    op3 Ok Ok into_i32 (fun args a b c => let? t := arg_list args 0 in let? t0 := py_index t 0 in let? _ :=
      py_assert (vt_code (v_type a) =? t0) in let? _ := py_assert (vt_code (v_type b) =? t0) in Ok (if negb (c =?
      0) then a else b)) Ok)
  (* 2000-2002 *)
  | O_i32_const => Some (N0 (fun args => wr0 (arg_int args 0) from_i32))
  (* 2003-2005 *)
  | O_i64_const => Some (N0 (fun args => wr0 (arg_int args 0) from_i64))
  (* 2006-2009 *)
  | O_f32_const => Some (
    N0 (fun args => let? n := arg_int args 0 in let? a := from_i32 n in Ok (mkval T_f32 (v_data a))))
  (* 2010-2013 *)
  | O_f64_const => Some (
    N0 (fun args => let? n := arg_int args 0 in let? a := from_i64 n in Ok (mkval T_f64 (v_data a))))
  (* 2014-2017 *)
  | O_i32_eqz => Some (op1 into_i32 (fun _ a => Ok (b2z (a =? 0))) from_i32)
  (* 2018-2022 *)
  | O_i32_eq => Some (op2 into_i32 into_i32 (fun _ a b => Ok (b2z (a =? b))) from_i32)
  (* 2023-2027 *)
  | O_i32_ne => Some (op2 into_i32 into_i32 (fun _ a b => Ok (b2z (negb (a =? b)))) from_i32)
  (* 2028-2032 *)
  | O_i32_lt_s => Some (op2 into_i32 into_i32 (fun _ a b => Ok (b2z (a <? b))) from_i32)
  (* 2033-2037 *)
  | O_i32_lt_u => Some (op2 into_u32 into_u32 (fun _ a b => Ok (b2z (a <? b))) from_i32)
  (* 2038-2042 *)
  | O_i32_gt_s => Some (op2 into_i32 into_i32 (fun _ a b => Ok (b2z (a >? b))) from_i32)
  (* 2043-2047 *)
  | O_i32_gt_u => Some (op2 into_u32 into_u32 (fun _ a b => Ok (b2z (a >? b))) from_i32)
  (* 2048-2052 *)
  | O_i32_le_s => Some (op2 into_i32 into_i32 (fun _ a b => Ok (b2z (a <=? b))) from_i32)
  (* 2053-2057 *)
  | O_i32_le_u => Some (op2 into_u32 into_u32 (fun _ a b => Ok (b2z (a <=? b))) from_i32)
  (* 2058-2062 *)
  | O_i32_ge_s => Some (op2 into_i32 into_i32 (fun _ a b => Ok (b2z (a >=? b))) from_i32)
  (* 2063-2067 *)
  | O_i32_ge_u => Some (op2 into_u32 into_u32 (fun _ a b => Ok (b2z (a >=? b))) from_i32)
  (* 2068-2071 *)
  | O_i64_eqz => Some (op1 into_i64 (fun _ a => Ok (b2z (a =? 0))) from_i32)
  (* 2072-2076 *)
  | O_i64_eq => Some (op2 into_i64 into_i64 (fun _ a b => Ok (b2z (a =? b))) from_i32)
  (* 2077-2081 *)
  | O_i64_ne => Some (op2 into_i64 into_i64 (fun _ a b => Ok (b2z (negb (a =? b)))) from_i32)
  (* 2082-2086 *)
  | O_i64_lt_s => Some (op2 into_i64 into_i64 (fun _ a b => Ok (b2z (a <? b))) from_i32)
  (* 2087-2091 *)
  | O_i64_lt_u => Some (op2 into_u64 into_u64 (fun _ a b => Ok (b2z (a <? b))) from_i32)
  (* 2092-2096 *)
  | O_i64_gt_s => Some (op2 into_i64 into_i64 (fun _ a b => Ok (b2z (a >? b))) from_i32)
  (* 2097-2101 *)
  | O_i64_gt_u => Some (op2 into_u64 into_u64 (fun _ a b => Ok (b2z (a >? b))) from_i32)
  (* 2102-2106 *)
  | O_i64_le_s => Some (op2 into_i64 into_i64 (fun _ a b => Ok (b2z (a <=? b))) from_i32)
  (* 2107-2111 *)
  | O_i64_le_u => Some (op2 into_u64 into_u64 (fun _ a b => Ok (b2z (a <=? b))) from_i32)
  (* 2112-2116 *)
  | O_i64_ge_s => Some (op2 into_i64 into_i64 (fun _ a b => Ok (b2z (a >=? b))) from_i32)
  (* 2117-2121 *)
  | O_i64_ge_u => Some (op2 into_u64 into_u64 (fun _ a b => Ok (b2z (a >=? b))) from_i32)
  (* 2122-2126 *)
  | O_f32_eq => Some (op2 (into_f32 F) (into_f32 F) (fun _ a b => Ok (b2z (fl_eqb a b))) from_i32)
  (* 2127-2131 *)
  | O_f32_ne => Some (op2 (into_f32 F) (into_f32 F) (fun _ a b => Ok (b2z (negb (fl_eqb a b)))) from_i32)
  (* 2132-2136 *)
  | O_f32_lt => Some (op2 (into_f32 F) (into_f32 F) (fun _ a b => Ok (b2z (fl_ltb a b))) from_i32)
  (* 2137-2141 *)
  | O_f32_gt => Some (op2 (into_f32 F) (into_f32 F) (fun _ a b => Ok (b2z (fl_ltb b a))) from_i32)
  (* 2142-2146 *)
  | O_f32_le => Some (op2 (into_f32 F) (into_f32 F) (fun _ a b => Ok (b2z (fl_leb a b))) from_i32)
  (* 2147-2151 *)
  | O_f32_ge => Some (op2 (into_f32 F) (into_f32 F) (fun _ a b => Ok (b2z (fl_leb b a))) from_i32)
  (* 2152-2156 *)
  | O_f64_eq => Some (op2 into_f64 into_f64 (fun _ a b => Ok (b2z (fl_eqb a b))) from_i32)
  (* 2157-2161 *)
  | O_f64_ne => Some (op2 into_f64 into_f64 (fun _ a b => Ok (b2z (negb (fl_eqb a b)))) from_i32)
  (* 2162-2166 *)
  | O_f64_lt => Some (op2 into_f64 into_f64 (fun _ a b => Ok (b2z (fl_ltb a b))) from_i32)
  (* 2167-2171 *)
  | O_f64_gt => Some (op2 into_f64 into_f64 (fun _ a b => Ok (b2z (fl_ltb b a))) from_i32)
  (* 2172-2176 *)
  | O_f64_le => Some (op2 into_f64 into_f64 (fun _ a b => Ok (b2z (fl_leb a b))) from_i32)
  (* 2177-2181 *)
  | O_f64_ge => Some (op2 into_f64 into_f64 (fun _ a b => Ok (b2z (fl_leb b a))) from_i32)
  (* 2182-2186 *)
  | O_i32_clz => Some (op1 into_u32 (fun _ a => Ok (u_clz 4 a)) from_i32)
  (* 2187-2191 *)
  | O_i32_ctz => Some (op1 into_u32 (fun _ a => Ok (u_ctz 4 a)) from_i32)
  (* 2192-2196 *)
  | O_i32_popcnt => Some (op1 into_u32 (fun _ a => Ok (u_popcnt 4 a)) from_i32)
  (* 2197-2201 *)
  | O_i32_add => Some (op2 into_i32 into_i32 (fun _ a b => Ok (i_add 4 a b)) from_i32)
  (* 2202-2206 *)
  | O_i32_sub => Some (op2 into_i32 into_i32 (fun _ a b => Ok (i_sub 4 a b)) from_i32)
  (* 2207-2211 *)
  | O_i32_mul => Some (op2 into_i32 into_i32 (fun _ a b => Ok (i_mul 4 a b)) from_i32)
  (* 2212-2216 *)
  | O_i32_div_s => Some (op2 into_i32 into_i32 (fun _ a b => i_div 4 a b) from_i32)
  (* 2217-2221 *)
  | O_i32_div_u => Some (op2 into_u32 into_u32 (fun _ a b => u_div 4 a b) from_u32)
  (* 2222-2226 *)
  | O_i32_rem_s => Some (op2 into_i32 into_i32 (fun _ a b => i_rem 4 a b) from_i32)
  (* 2227-2231 *)
  | O_i32_rem_u => Some (op2 into_u32 into_u32 (fun _ a b => u_rem 4 a b) from_u32)
  (* 2232-2236 *)
  | O_i32_and => Some (op2 into_i32 into_i32 (fun _ a b => Ok (Z.land a b)) from_i32)
  (* 2237-2241 *)
  | O_i32_or => Some (op2 into_i32 into_i32 (fun _ a b => Ok (Z.lor a b)) from_i32)
  (* 2242-2246 *)
  | O_i32_xor => Some (op2 into_i32 into_i32 (fun _ a b => Ok (Z.lxor a b)) from_i32)
  (* 2247-2251 *)
  | O_i32_shl => Some (op2 into_i32 into_i32 (fun _ a b => Ok (i_shl 4 a b)) from_i32)
  (* 2252-2256 *)
  | O_i32_shr_s => Some (op2 into_i32 into_i32 (fun _ a b => Ok (i_shr 4 a b)) from_i32)
  (* 2257-2261 *)
  | O_i32_shr_u => Some (op2 into_u32 into_u32 (fun _ a b => Ok (u_shr 4 a b)) from_u32)
  (* 2262-2266 *)
  | O_i32_rotl => Some (op2 into_u32 into_u32 (fun _ a b => Ok (u_rotl 4 a b)) from_u32)
  (* 2267-2271 *)
  | O_i32_rotr => Some (op2 into_u32 into_u32 (fun _ a b => Ok (u_rotr 4 a b)) from_u32)
  (* 2272-2276 *)
  | O_i64_clz => Some (op1 into_u64 (fun _ a => Ok (u_clz 8 a)) from_i64)
  (* 2277-2281 *)
  | O_i64_ctz => Some (op1 into_u64 (fun _ a => Ok (u_ctz 8 a)) from_i64)
  (* 2282-2286 *)
  | O_i64_popcnt => Some (op1 into_u64 (fun _ a => Ok (u_popcnt 8 a)) from_i64)
  (* 2287-2291 *)
  | O_i64_add => Some (op2 into_i64 into_i64 (fun _ a b => Ok (i_add 8 a b)) from_i64)
  (* 2292-2296 *)
  | O_i64_sub => Some (op2 into_i64 into_i64 (fun _ a b => Ok (i_sub 8 a b)) from_i64)
  (* 2297-2301 *)
  | O_i64_mul => Some (op2 into_i64 into_i64 (fun _ a b => Ok (i_mul 8 a b)) from_i64)
  (* 2302-2306 *)
  | O_i64_div_s => Some (op2 into_i64 into_i64 (fun _ a b => i_div 8 a b) from_i64)
  (* 2307-2311 *)
  | O_i64_div_u => Some (op2 into_u64 into_u64 (fun _ a b => u_div 8 a b) from_i64)
  (* 2312-2316 *)
  | O_i64_rem_s => Some (op2 into_i64 into_i64 (fun _ a b => i_rem 8 a b) from_i64)
  (* 2317-2321 *)
  | O_i64_rem_u => Some (op2 into_u64 into_u64 (fun _ a b => u_rem 8 a b) from_u64)
  (* 2322-2326 *)
  | O_i64_and => Some (op2 into_i64 into_i64 (fun _ a b => Ok (Z.land a b)) from_i64)
  (* 2327-2331 *)
  | O_i64_or => Some (op2 into_i64 into_i64 (fun _ a b => Ok (Z.lor a b)) from_i64)
  (* 2332-2336 *)
  | O_i64_xor => Some (op2 into_i64 into_i64 (fun _ a b => Ok (Z.lxor a b)) from_i64)
  (* 2337-2341 *)
  | O_i64_shl => Some (op2 into_i64 into_i64 (fun _ a b => Ok (i_shl 8 a b)) from_i64)
  (* 2342-2346 *)
  | O_i64_shr_s => Some (op2 into_i64 into_i64 (fun _ a b => Ok (i_shr 8 a b)) from_i64)
  (* 2347-2351 *)
  | O_i64_shr_u => Some (op2 into_u64 into_u64 (fun _ a b => Ok (u_shr 8 a b)) from_u64)
  (* 2352-2356 *)
  | O_i64_rotl => Some (op2 into_u64 into_u64 (fun _ a b => Ok (u_rotl 8 a b)) from_u64)
  (* 2357-2361 *)
  | O_i64_rotr => Some (op2 into_u64 into_u64 (fun _ a b => Ok (u_rotr 8 a b)) from_u64)
  (* 2362-2366 *)
  | O_f32_abs => Some (op1 Ok (fun _ a => byte_op (fun x => Z.land x 0x7f) 3 (v_data a)) (mk_val T_f32))
  (* 2367-2371 *)
  | O_f32_neg => Some (op1 Ok (fun _ a => byte_op (fun x => Z.lxor x 0x80) 3 (v_data a)) (mk_val T_f32))
  (* 2372-2376 *)
  | O_f32_ceil => Some (op1 (into_f32 F) (fun _ a => fl_integral F fl_ceil a) (from_f32 F))
  (* 2377-2381 *)
  | O_f32_floor => Some (op1 (into_f32 F) (fun _ a => fl_integral F fl_floor a) (from_f32 F))
  (* 2382-2386 *)
  | O_f32_trunc => Some (op1 (into_f32 F) (fun _ a => fl_integral F fl_trunc a) (from_f32 F))
  (* 2387-2391 *)
  | O_f32_nearest => Some (op1 (into_f32 F) (fun _ a => fl_integral F fl_round a) (from_f32 F))
  (* 2392-2396 *)
  | O_f32_sqrt => Some (op1 (into_f32 F) (fun _ a => Ok (fl_sqrt F a)) (from_f32 F))
  (* 2397-2401 *)
  | O_f32_add => Some (op2 (into_f32 F) (into_f32 F) (fun _ a b => Ok (f_add F a b)) (from_f32 F))
  (* 2402-2406 *)
  | O_f32_sub => Some (op2 (into_f32 F) (into_f32 F) (fun _ a b => Ok (f_sub F a b)) (from_f32 F))
  (* 2407-2411 *)
  | O_f32_mul => Some (op2 (into_f32 F) (into_f32 F) (fun _ a b => Ok (f_mul F a b)) (from_f32 F))
  (* 2412-2417 *)
  | O_f32_div => Some (op2 (into_f32 F) (into_f32 F) (fun _ a b => Ok (f32_div F a b)) (from_f32 F))
  (* 2418-2423 *)
  | O_f32_min => Some (op2 (into_f32 F) (into_f32 F) (fun _ a b => Ok (f32_min F a b)) (from_f32 F))
  (* 2424-2429 *)
  | O_f32_max => Some (op2 (into_f32 F) (into_f32 F) (fun _ a b => Ok (f32_max F a b)) (from_f32 F))
  (* 2430-2434 *)
  | O_f32_copysign => Some (op2 (into_f32 F) (into_f32 F) (fun _ a b => Ok (fl_copysign a b)) (from_f32 F))
  (* 2435-2439 *)
  | O_f64_abs => Some (op1 Ok (fun _ a => byte_op (fun x => Z.land x 0x7f) 7 (v_data a)) (mk_val T_f64))
  (* 2440-2444 *)
  | O_f64_neg => Some (op1 Ok (fun _ a => byte_op (fun x => Z.lxor x 0x80) 7 (v_data a)) (mk_val T_f64))
  (* 2445-2449 *)
  | O_f64_ceil => Some (op1 into_f64 (fun _ a => fl_integral F fl_ceil a) from_f64)
  (* 2450-2454 *)
  | O_f64_floor => Some (op1 into_f64 (fun _ a => fl_integral F fl_floor a) from_f64)
  (* 2455-2459 *)
  | O_f64_trunc => Some (op1 into_f64 (fun _ a => fl_integral F fl_trunc a) from_f64)
  (* 2460-2464 *)
  | O_f64_nearest => Some (op1 into_f64 (fun _ a => fl_integral F fl_round a) from_f64)
  (* 2465-2469 *)
  | O_f64_sqrt => Some (op1 into_f64 (fun _ a => Ok (fl_sqrt F a)) from_f64)
  (* 2470-2474 *)
  | O_f64_add => Some (op2 into_f64 into_f64 (fun _ a b => Ok (f_add F a b)) from_f64)
  (* 2475-2479 *)
  | O_f64_sub => Some (op2 into_f64 into_f64 (fun _ a b => Ok (f_sub F a b)) from_f64)
  (* 2480-2484 *)
  | O_f64_mul => Some (op2 into_f64 into_f64 (fun _ a b => Ok (f_mul F a b)) from_f64)
  (* 2485-2490 *)
  | O_f64_div => Some (op2 into_f64 into_f64 (fun _ a b => Ok (f64_div F a b)) from_f64)
  (* 2491-2496 *)
  | O_f64_min => Some (op2 into_f64 into_f64 (fun _ a b => Ok (f64_min a b)) from_f64)
  (* 2497-2502 *)
  | O_f64_max => Some (op2 into_f64 into_f64 (fun _ a b => Ok (f64_max a b)) from_f64)
  (* 2503-2507 *)
  | O_f64_copysign => Some (op2 into_f64 into_f64 (fun _ a b => Ok (fl_copysign a b)) from_f64)
  (* 2508-2511 *)
  | O_i32_wrap_i64 => Some (op1 into_i64 (fun _ a => Ok (i_fit 4 a)) from_i32)
  (* 2512-2517 *)
  | O_i32_trunc_f32_s => Some (op1 (into_f32 F) (fun _ a => fl_int a) (checked from_i32 into_i32))
  (* 2518-2523 *)
  | O_i32_trunc_f32_u => Some (op1 (into_f32 F) (fun _ a => fl_int a) (checked from_u32 into_u32))
  (* 2524-2529 *)
  | O_i32_trunc_f64_s => Some (op1 into_f64 (fun _ a => fl_int a) (checked from_i32 into_i32))
  (* 2530-2535 *)
  | O_i32_trunc_f64_u => Some (op1 into_f64 (fun _ a => fl_int a) (checked from_u32 into_u32))
  (* 2536-2539 *)
  | O_i64_extend_i32_s => Some (op1 into_i32 (fun _ a => Ok a) from_i64)
  (* 2540-2543 *)
  | O_i64_extend_i32_u => Some (op1 into_u32 (fun _ a => Ok a) from_i64)
  (* 2544-2549 *)
  | O_i64_trunc_f32_s => Some (op1 (into_f32 F) (fun _ a => fl_int a) (checked from_i64 into_i64))
  (* 2550-2555 *)
  | O_i64_trunc_f32_u => Some (op1 (into_f32 F) (fun _ a => fl_int a) (checked from_u64 into_u64))
  (* 2556-2561 *)
  | O_i64_trunc_f64_s => Some (op1 into_f64 (fun _ a => fl_int a) (checked from_i64 into_i64))
  (* 2562-2567 *)
  | O_i64_trunc_f64_u => Some (op1 into_f64 (fun _ a => fl_int a) (checked from_u64 into_u64))
  (* 2568-2571 *)
  | O_f32_convert_i32_s => Some (op1 into_i32 (fun _ a => fl_of_int F a) (from_f32 F))
  (* 2572-2575 *)
  | O_f32_convert_i32_u => Some (op1 into_u32 (fun _ a => fl_of_int F a) (from_f32 F))
  (* 2576-2579 *)
  | O_f32_convert_i64_s => Some (op1 into_i64 (fun _ a => fl_of_int F a) (from_f32 F))
  (* 2580-2583 *)
  | O_f32_convert_i64_u => Some (op1 into_u64 (fun _ a => fl_of_int F a) (from_f32 F))
  (* 2584-2587 *)
  | O_f32_demote_f64 => Some (op1 into_f64 (fun _ a => Ok a) (from_f32 F))
  (* 2588-2591 *)
  | O_f64_convert_i32_s => Some (op1 into_i32 (fun _ a => fl_of_int F a) from_f64)
  (* 2592-2595 *)
  | O_f64_convert_i32_u => Some (op1 into_u32 (fun _ a => fl_of_int F a) from_f64)
  (* 2596-2599 *)
  | O_f64_convert_i64_s => Some (op1 into_i64 (fun _ a => fl_of_int F a) from_f64)
  (* 2600-2603 *)
  | O_f64_convert_i64_u => Some (op1 into_u64 (fun _ a => fl_of_int F a) from_f64)
  (* 2604-2607 *)
  | O_f64_promote_f32 => Some (op1 (into_f32 F) (fun _ a => Ok a) from_f64)
  (* 2608-2611 *)
  | O_i32_reinterpret_f32 => Some (op1 Ok (fun _ a => Ok (v_data a)) (mk_val T_i32))
  (* 2612-2615 *)
  | O_i64_reinterpret_f64 => Some (op1 Ok (fun _ a => Ok (v_data a)) (mk_val T_i64))
  (* 2616-2619 *)
  | O_f32_reinterpret_i32 => Some (op1 Ok (fun _ a => Ok (v_data a)) (mk_val T_f32))
  (* 2620-2623 *)
  | O_f64_reinterpret_i64 => Some (op1 Ok (fun _ a => Ok (v_data a)) (mk_val T_f64))
  (* 2624-2628 *)
  | O_i32_extend8_s => Some (op1 into_i32 (fun _ a => Ok (i_fit 1 a)) from_i32)
  (* 2629-2633 *)
  | O_i32_extend16_s => Some (op1 into_i32 (fun _ a => Ok (i_fit 2 a)) from_i32)
  (* 2634-2638 *)
  | O_i64_extend8_s => Some (op1 into_i64 (fun _ a => Ok (i_fit 1 a)) from_i64)
  (* 2639-2643 *)
  | O_i64_extend16_s => Some (op1 into_i64 (fun _ a => Ok (i_fit 2 a)) from_i64)
  (* 2644-2648 *)
  | O_i64_extend32_s => Some (op1 into_i64 (fun _ a => Ok (i_fit 4 a)) from_i64)
  (* 2649-2651 *)
  | O_ref_null => Some (N0 (fun args => let? n := arg_int args 0 in let? t := vt_of_code n in Ok (val_zero t)))
  (* 2652-2657 *)
  | O_ref_is_null => Some (
    op1 Ok (fun _ a => let? _ := py_assert (is_ref (v_type a)) in let? x := py_index (v_data a) 4 in Ok (if x =? 0
      then 1 else 0)) from_i32)
  (* 2662-2668 *)
  | O_i32_trunc_sat_f32_s => Some (
    op1 (into_f32 F) (fun _ a => fl_sat_int (i_min 4) (i_max 4) (if fl_isnan a then fl_zero else a)) from_i32)
  (* 2669-2675 *)
  | O_i32_trunc_sat_f32_u => Some (
    op1 (into_f32 F) (fun _ a => fl_sat_int (u_min 4) (u_max 4) (if fl_isnan a then fl_zero else a)) from_u32)
  (* 2676-2682 *)
  | O_i32_trunc_sat_f64_s => Some (
    op1 into_f64 (fun _ a => fl_sat_int (i_min 4) (i_max 4) (if fl_isnan a then fl_zero else a)) from_i32)
  (* 2683-2689 *)
  | O_i32_trunc_sat_f64_u => Some (
    op1 into_f64 (fun _ a => fl_sat_int (u_min 4) (u_max 4) (if fl_isnan a then fl_zero else a)) from_u32)
  (* 2690-2696 *)
  | O_i64_trunc_sat_f32_s => Some (
    op1 (into_f32 F) (fun _ a => fl_sat_int (i_min 8) (i_max 8) (if fl_isnan a then fl_zero else a)) from_i64)
  (* 2697-2703 *)
  | O_i64_trunc_sat_f32_u => Some (
    op1 (into_f32 F) (fun _ a => fl_sat_int (u_min 8) (u_max 8) (if fl_isnan a then fl_zero else a)) from_u64)
  (* 2704-2710 *)
  | O_i64_trunc_sat_f64_s => Some (
    op1 into_f64 (fun _ a => fl_sat_int (i_min 8) (i_max 8) (if fl_isnan a then fl_zero else a)) from_i64)
  (* 2711-2717 *)
  | O_i64_trunc_sat_f64_u => Some (
    op1 into_f64 (fun _ a => fl_sat_int (u_min 8) (u_max 8) (if fl_isnan a then fl_zero else a)) from_u64)
  | _ => None
  end.

(* core.py 2856-4105: vector instructions *)
Definition num_simd (F : fops) (o : opc) : option numop :=
  match o with
  (* 2856-2858 *)
  | O_v128_const => Some (N0 (fun args => wr0 (arg_bytes args 0) from_v128))
  (* 2859-2865 *)
  | O_i8x16_shuffle => Some (
    op2 (into_v128_i 1) (into_v128_i 1) (fun args a b => rmapl (fun i => let? t11 := arg_int args i in py_index (a
      ++ b) t11) (py_range 16)) (from_v128_i 1))
  (* 2866-2871 *)
  | O_i8x16_swizzle => Some (
    op2 (into_v128_i 1) (into_v128_u 1) (fun _ a b => rmapl (fun i => let? k := py_index b i in if k <? 16 then
      py_index a k else Ok 0) (py_range 16)) (from_v128_i 1))
  (* 2872-2875 *)
  | O_i8x16_splat => Some (op1 into_i32 (fun _ a => Ok (repeat (i_fit 1 a) 16)) (from_v128_i 1))
  (* 2876-2879 *)
  | O_i16x8_splat => Some (op1 into_i32 (fun _ a => Ok (repeat (i_fit 2 a) 8)) (from_v128_i 2))
  (* 2880-2883 *)
  | O_i32x4_splat => Some (op1 into_i32 (fun _ a => Ok (repeat a 4)) (from_v128_i 4))
  (* 2884-2887 *)
  | O_i64x2_splat => Some (op1 into_i64 (fun _ a => Ok (repeat a 2)) (from_v128_i 8))
  (* 2888-2891 *)
  | O_f32x4_splat => Some (op1 Ok (fun _ a => Ok (concat (repeat (py_slice (v_data a) 0 4) (Z.to_nat 4)))) from_v128)
  (* 2892-2895 *)
  | O_f64x2_splat => Some (op1 Ok (fun _ a => Ok (concat (repeat (py_slice (v_data a) 0 8) (Z.to_nat 2)))) from_v128)
  (* 2896-2899 *)
  | O_i8x16_extract_lane_s => Some (
    op1 (into_v128_i 1) (fun args a => let? t1 := arg_int args 0 in py_index a t1) from_i32)
  (* 2900-2903 *)
  | O_i8x16_extract_lane_u => Some (
    op1 (into_v128_u 1) (fun args a => let? t1 := arg_int args 0 in py_index a t1) from_i32)
  (* 2904-2909 *)
  | O_i8x16_replace_lane => Some (
    op2 (into_v128_i 1) into_i32 (fun args a b => let? k := arg_int args 0 in py_setitem a k (i_fit 1 b))
      (from_v128_i 1))
  (* 2910-2913 *)
  | O_i16x8_extract_lane_s => Some (
    op1 (into_v128_i 2) (fun args a => let? t1 := arg_int args 0 in py_index a t1) from_i32)
  (* 2914-2917 *)
  | O_i16x8_extract_lane_u => Some (
    op1 (into_v128_u 2) (fun args a => let? t1 := arg_int args 0 in py_index a t1) from_i32)
  (* 2918-2923 *)
  | O_i16x8_replace_lane => Some (
    op2 (into_v128_i 2) into_i32 (fun args a b => let? k := arg_int args 0 in py_setitem a k (i_fit 2 b))
      (from_v128_i 2))
  (* 2924-2927 *)
  | O_i32x4_extract_lane => Some (
    op1 (into_v128_i 4) (fun args a => let? t1 := arg_int args 0 in py_index a t1) from_i32)
  (* 2928-2933 *)
  | O_i32x4_replace_lane => Some (
    op2 (into_v128_i 4) into_i32 (fun args a b => let? k := arg_int args 0 in py_setitem a k b) (from_v128_i 4))
  (* 2934-2937 *)
  | O_i64x2_extract_lane => Some (
    op1 (into_v128_i 8) (fun args a => let? t1 := arg_int args 0 in py_index a t1) from_i64)
  (* 2938-2943 *)
  | O_i64x2_replace_lane => Some (
    op2 (into_v128_i 8) into_i64 (fun args a b => let? k := arg_int args 0 in py_setitem a k b) (from_v128_i 8))
  (* 2944-2948 *)
  | O_f32x4_extract_lane => Some (
    op1 into_v128 (fun args a => let? b := arg_int args 0 in Ok ((py_slice a (b * 4) ((b * 4) + 4)) ++ (zeros
      (blen - 4)))) (mk_val T_f32))
  (* 2949-2955 *)
  | O_f32x4_replace_lane => Some (
    op2 into_v128 into_u32 (fun args a b => let? c := arg_int args 0 in let? x := u_into_bytearray 4 b in Ok
      (py_slice_set a (c * 4) ((c * 4) + 4) x)) (mk_val T_v128))
  (* 2956-2960 *)
  | O_f64x2_extract_lane => Some (
    op1 into_v128 (fun args a => let? b := arg_int args 0 in Ok ((py_slice a (b * 8) ((b * 8) + 8)) ++ (zeros
      (blen - 8)))) (mk_val T_f64))
  (* 2961-2967 *)
  | O_f64x2_replace_lane => Some (
    op2 into_v128 into_u64 (fun args a b => let? c := arg_int args 0 in let? x := u_into_bytearray 8 b in Ok
      (py_slice_set a (c * 8) ((c * 8) + 8) x)) (mk_val T_v128))
  (* 2968-2973 *)
  | O_i8x16_eq => Some (
    op2 (into_v128_i 1) (into_v128_i 1) (fun _ a b => lanes2 0 16 (fun a_i b_i => Ok (if a_i =? b_i then (-1) else
      0)) a b) (from_v128_i 1))
  (* 2974-2979 *)
  | O_i8x16_ne => Some (
    op2 (into_v128_i 1) (into_v128_i 1) (fun _ a b => lanes2 0 16 (fun a_i b_i => Ok (if negb (a_i =? b_i) then
      (-1) else 0)) a b) (from_v128_i 1))
  (* 2980-2985 *)
  | O_i8x16_lt_s => Some (
    op2 (into_v128_i 1) (into_v128_i 1) (fun _ a b => lanes2 0 16 (fun a_i b_i => Ok (if a_i <? b_i then (-1) else
      0)) a b) (from_v128_i 1))
  (* 2986-2991 *)
  | O_i8x16_lt_u => Some (
    op2 (into_v128_u 1) (into_v128_u 1) (fun _ a b => lanes2 0 16 (fun a_i b_i => Ok (if a_i <? b_i then (-1) else
      0)) a b) (from_v128_i 1))
  (* 2992-2997 *)
  | O_i8x16_gt_s => Some (
    op2 (into_v128_i 1) (into_v128_i 1) (fun _ a b => lanes2 0 16 (fun a_i b_i => Ok (if a_i >? b_i then (-1) else
      0)) a b) (from_v128_i 1))
  (* 2998-3003 *)
  | O_i8x16_gt_u => Some (
    op2 (into_v128_u 1) (into_v128_u 1) (fun _ a b => lanes2 0 16 (fun a_i b_i => Ok (if a_i >? b_i then (-1) else
      0)) a b) (from_v128_i 1))
  (* 3004-3009 *)
  | O_i8x16_le_s => Some (
    op2 (into_v128_i 1) (into_v128_i 1) (fun _ a b => lanes2 0 16 (fun a_i b_i => Ok (if a_i <=? b_i then (-1)
      else 0)) a b) (from_v128_i 1))
  (* 3010-3015 *)
  | O_i8x16_le_u => Some (
    op2 (into_v128_u 1) (into_v128_u 1) (fun _ a b => lanes2 0 16 (fun a_i b_i => Ok (if a_i <=? b_i then (-1)
      else 0)) a b) (from_v128_i 1))
  (* 3016-3021 *)
  | O_i8x16_ge_s => Some (
    op2 (into_v128_i 1) (into_v128_i 1) (fun _ a b => lanes2 0 16 (fun a_i b_i => Ok (if a_i >=? b_i then (-1)
      else 0)) a b) (from_v128_i 1))
  (* 3022-3027 *)
  | O_i8x16_ge_u => Some (
    op2 (into_v128_u 1) (into_v128_u 1) (fun _ a b => lanes2 0 16 (fun a_i b_i => Ok (if a_i >=? b_i then (-1)
      else 0)) a b) (from_v128_i 1))
  (* 3028-3033 *)
  | O_i16x8_eq => Some (
    op2 (into_v128_i 2) (into_v128_i 2) (fun _ a b => lanes2 0 8 (fun a_i b_i => Ok (if a_i =? b_i then (-1) else
      0)) a b) (from_v128_i 2))
  (* 3034-3039 *)
  | O_i16x8_ne => Some (
    op2 (into_v128_i 2) (into_v128_i 2) (fun _ a b => lanes2 0 8 (fun a_i b_i => Ok (if negb (a_i =? b_i) then
      (-1) else 0)) a b) (from_v128_i 2))
  (* 3040-3045 *)
  | O_i16x8_lt_s => Some (
    op2 (into_v128_i 2) (into_v128_i 2) (fun _ a b => lanes2 0 8 (fun a_i b_i => Ok (if a_i <? b_i then (-1) else
      0)) a b) (from_v128_i 2))
  (* 3046-3051 *)
  | O_i16x8_lt_u => Some (
    op2 (into_v128_u 2) (into_v128_u 2) (fun _ a b => lanes2 0 8 (fun a_i b_i => Ok (if a_i <? b_i then (-1) else
      0)) a b) (from_v128_i 2))
  (* 3052-3057 *)
  | O_i16x8_gt_s => Some (
    op2 (into_v128_i 2) (into_v128_i 2) (fun _ a b => lanes2 0 8 (fun a_i b_i => Ok (if a_i >? b_i then (-1) else
      0)) a b) (from_v128_i 2))
  (* 3058-3063 *)
  | O_i16x8_gt_u => Some (
    op2 (into_v128_u 2) (into_v128_u 2) (fun _ a b => lanes2 0 8 (fun a_i b_i => Ok (if a_i >? b_i then (-1) else
      0)) a b) (from_v128_i 2))
  (* 3064-3069 *)
  | O_i16x8_le_s => Some (
    op2 (into_v128_i 2) (into_v128_i 2) (fun _ a b => lanes2 0 8 (fun a_i b_i => Ok (if a_i <=? b_i then (-1) else
      0)) a b) (from_v128_i 2))
  (* 3070-3075 *)
  | O_i16x8_le_u => Some (
    op2 (into_v128_u 2) (into_v128_u 2) (fun _ a b => lanes2 0 8 (fun a_i b_i => Ok (if a_i <=? b_i then (-1) else
      0)) a b) (from_v128_i 2))
  (* 3076-3081 *)
  | O_i16x8_ge_s => Some (
    op2 (into_v128_i 2) (into_v128_i 2) (fun _ a b => lanes2 0 8 (fun a_i b_i => Ok (if a_i >=? b_i then (-1) else
      0)) a b) (from_v128_i 2))
  (* 3082-3087 *)
  | O_i16x8_ge_u => Some (
    op2 (into_v128_u 2) (into_v128_u 2) (fun _ a b => lanes2 0 8 (fun a_i b_i => Ok (if a_i >=? b_i then (-1) else
      0)) a b) (from_v128_i 2))
  (* 3088-3093 *)
  | O_i32x4_eq => Some (
    op2 (into_v128_i 4) (into_v128_i 4) (fun _ a b => lanes2 0 4 (fun a_i b_i => Ok (if a_i =? b_i then (-1) else
      0)) a b) (from_v128_i 4))
  (* 3094-3099 *)
  | O_i32x4_ne => Some (
    op2 (into_v128_i 4) (into_v128_i 4) (fun _ a b => lanes2 0 4 (fun a_i b_i => Ok (if negb (a_i =? b_i) then
      (-1) else 0)) a b) (from_v128_i 4))
  (* 3100-3105 *)
  | O_i32x4_lt_s => Some (
    op2 (into_v128_i 4) (into_v128_i 4) (fun _ a b => lanes2 0 4 (fun a_i b_i => Ok (if a_i <? b_i then (-1) else
      0)) a b) (from_v128_i 4))
  (* 3106-3111 *)
  | O_i32x4_lt_u => Some (
    op2 (into_v128_u 4) (into_v128_u 4) (fun _ a b => lanes2 0 4 (fun a_i b_i => Ok (if a_i <? b_i then (-1) else
      0)) a b) (from_v128_i 4))
  (* 3112-3117 *)
  | O_i32x4_gt_s => Some (
    op2 (into_v128_i 4) (into_v128_i 4) (fun _ a b => lanes2 0 4 (fun a_i b_i => Ok (if a_i >? b_i then (-1) else
      0)) a b) (from_v128_i 4))
  (* 3118-3123 *)
  | O_i32x4_gt_u => Some (
    op2 (into_v128_u 4) (into_v128_u 4) (fun _ a b => lanes2 0 4 (fun a_i b_i => Ok (if a_i >? b_i then (-1) else
      0)) a b) (from_v128_i 4))
  (* 3124-3129 *)
  | O_i32x4_le_s => Some (
    op2 (into_v128_i 4) (into_v128_i 4) (fun _ a b => lanes2 0 4 (fun a_i b_i => Ok (if a_i <=? b_i then (-1) else
      0)) a b) (from_v128_i 4))
  (* 3130-3135 *)
  | O_i32x4_le_u => Some (
    op2 (into_v128_u 4) (into_v128_u 4) (fun _ a b => lanes2 0 4 (fun a_i b_i => Ok (if a_i <=? b_i then (-1) else
      0)) a b) (from_v128_i 4))
  (* 3136-3141 *)
  | O_i32x4_ge_s => Some (
    op2 (into_v128_i 4) (into_v128_i 4) (fun _ a b => lanes2 0 4 (fun a_i b_i => Ok (if a_i >=? b_i then (-1) else
      0)) a b) (from_v128_i 4))
  (* 3142-3147 *)
  | O_i32x4_ge_u => Some (
    op2 (into_v128_u 4) (into_v128_u 4) (fun _ a b => lanes2 0 4 (fun a_i b_i => Ok (if a_i >=? b_i then (-1) else
      0)) a b) (from_v128_i 4))
  (* 3148-3153 *)
  | O_f32x4_eq => Some (
    op2 (into_v128_f32 F) (into_v128_f32 F) (fun _ a b => lanes2 0 4 (fun a_i b_i => Ok (if fl_eqb a_i b_i then
      (-1) else 0)) a b) (from_v128_i 4))
  (* 3154-3159 *)
  | O_f32x4_ne => Some (
    op2 (into_v128_f32 F) (into_v128_f32 F) (fun _ a b => lanes2 0 4 (fun a_i b_i => Ok (if negb (fl_eqb a_i b_i)
      then (-1) else 0)) a b) (from_v128_i 4))
  (* 3160-3165 *)
  | O_f32x4_lt => Some (
    op2 (into_v128_f32 F) (into_v128_f32 F) (fun _ a b => lanes2 0 4 (fun a_i b_i => Ok (if fl_ltb a_i b_i then
      (-1) else 0)) a b) (from_v128_i 4))
  (* 3166-3171 *)
  | O_f32x4_gt => Some (
    op2 (into_v128_f32 F) (into_v128_f32 F) (fun _ a b => lanes2 0 4 (fun a_i b_i => Ok (if fl_ltb b_i a_i then
      (-1) else 0)) a b) (from_v128_i 4))
  (* 3172-3177 *)
  | O_f32x4_le => Some (
    op2 (into_v128_f32 F) (into_v128_f32 F) (fun _ a b => lanes2 0 4 (fun a_i b_i => Ok (if fl_leb a_i b_i then
      (-1) else 0)) a b) (from_v128_i 4))
  (* 3178-3183 *)
  | O_f32x4_ge => Some (
    op2 (into_v128_f32 F) (into_v128_f32 F) (fun _ a b => lanes2 0 4 (fun a_i b_i => Ok (if fl_leb b_i a_i then
      (-1) else 0)) a b) (from_v128_i 4))
  (* 3184-3189 *)
  | O_f64x2_eq => Some (
    op2 into_v128_f64 into_v128_f64 (fun _ a b => lanes2 0 2 (fun a_i b_i => Ok (if fl_eqb a_i b_i then (-1) else
      0)) a b) (from_v128_i 8))
  (* 3190-3195 *)
  | O_f64x2_ne => Some (
    op2 into_v128_f64 into_v128_f64 (fun _ a b => lanes2 0 2 (fun a_i b_i => Ok (if negb (fl_eqb a_i b_i) then
      (-1) else 0)) a b) (from_v128_i 8))
  (* 3196-3201 *)
  | O_f64x2_lt => Some (
    op2 into_v128_f64 into_v128_f64 (fun _ a b => lanes2 0 2 (fun a_i b_i => Ok (if fl_ltb a_i b_i then (-1) else
      0)) a b) (from_v128_i 8))
  (* 3202-3207 *)
  | O_f64x2_gt => Some (
    op2 into_v128_f64 into_v128_f64 (fun _ a b => lanes2 0 2 (fun a_i b_i => Ok (if fl_ltb b_i a_i then (-1) else
      0)) a b) (from_v128_i 8))
  (* 3208-3213 *)
  | O_f64x2_le => Some (
    op2 into_v128_f64 into_v128_f64 (fun _ a b => lanes2 0 2 (fun a_i b_i => Ok (if fl_leb a_i b_i then (-1) else
      0)) a b) (from_v128_i 8))
  (* 3214-3219 *)
  | O_f64x2_ge => Some (
    op2 into_v128_f64 into_v128_f64 (fun _ a b => lanes2 0 2 (fun a_i b_i => Ok (if fl_leb b_i a_i then (-1) else
      0)) a b) (from_v128_i 8))
  (* 3220-3223 *)
  | O_v128_not => Some (op1 into_v128 (fun _ a => Ok (map (fun e => u_fit 1 (Z.lnot e)) a)) from_v128)
  (* 3224-3228 *)
  | O_v128_and => Some (
    op2 into_v128 into_v128 (fun _ a b => lanes2 0 16 (fun a_i b_i => Ok (Z.land a_i b_i)) a b) from_v128)
  (* 3229-3233 *)
  | O_v128_andnot => Some (
    op2 into_v128 into_v128 (fun _ a b => lanes2 0 16 (fun a_i b_i => Ok (Z.land a_i (Z.lnot b_i))) a b) from_v128)
  (* 3234-3238 *)
  | O_v128_or => Some (
    op2 into_v128 into_v128 (fun _ a b => lanes2 0 16 (fun a_i b_i => Ok (Z.lor a_i b_i)) a b) from_v128)
  (* 3239-3243 *)
  | O_v128_xor => Some (
    op2 into_v128 into_v128 (fun _ a b => lanes2 0 16 (fun a_i b_i => Ok (Z.lxor a_i b_i)) a b) from_v128)
  (* 3244-3249 *)
  | O_v128_bitselect => Some (
    op3 into_v128 into_v128 into_v128 (fun _ a b c => lanes3 0 16 (fun a_i b_i c_i => Ok (Z.lor (Z.land a_i c_i)
      (Z.land b_i (Z.lnot c_i)))) a b c) from_v128)
  (* 3250-3254 *)
  | O_v128_any_true => Some (
    op1 into_v128 (fun _ a => Ok (if existsb (fun e => negb (e =? 0)) a then 1 else 0)) from_i32)
  (* 3317-3321 *)
  | O_f32x4_demote_f64x2_zero => Some (
    op1 into_v128_f64 (fun _ a => Ok (a ++ ([fl_zero; fl_zero]))) (from_v128_f32 F))
  (* 3322-3326 *)
  | O_f64x2_promote_low_f32x4 => Some (op1 (into_v128_f32 F) (fun _ a => Ok (py_slice a 0 2)) from_v128_f64)
  (* 3327-3331 *)
  | O_i8x16_abs => Some (op1 (into_v128_i 1) (fun _ a => Ok (map (fun e => i_fit 1 (Z.abs e)) a)) (from_v128_i 1))
  (* 3332-3336 *)
  | O_i8x16_neg => Some (op1 (into_v128_i 1) (fun _ a => Ok (map (fun e => i_fit 1 (- e)) a)) (from_v128_i 1))
  (* 3337-3341 *)
  | O_i8x16_popcnt => Some (op1 (into_v128_u 1) (fun _ a => Ok (map (fun e => u_popcnt 1 e) a)) (from_v128_u 1))
  (* 3342-3346 *)
  | O_i8x16_all_true => Some (
    op1 (into_v128_i 1) (fun _ a => Ok (if forallb (fun e => negb (e =? 0)) a then 1 else 0)) from_i32)
  (* 3347-3354 *)
  | O_i8x16_bitmask => Some (op1 (into_v128_i 1) (fun _ a => bitmask 16 a) from_i32)
  (* 3355-3361 *)
  | O_i8x16_narrow_i16x8_s => Some (
    op2 (into_v128_i 2) (into_v128_i 2) (fun _ a b => Ok (map (fun e => i_sat 1 e) (a ++ b))) (from_v128_i 1))
  (* 3362-3368 *)
  | O_i8x16_narrow_i16x8_u => Some (
    op2 (into_v128_i 2) (into_v128_i 2) (fun _ a b => Ok (map (fun e => u_sat 1 e) (a ++ b))) (from_v128_u 1))
  (* 3369-3373 *)
  | O_f32x4_ceil => Some (
    op1 (into_v128_f32 F) (fun _ a => rmapl (fun e => fl_integral F fl_ceil e) a) (from_v128_f32 F))
  (* 3374-3378 *)
  | O_f32x4_floor => Some (
    op1 (into_v128_f32 F) (fun _ a => rmapl (fun e => fl_integral F fl_floor e) a) (from_v128_f32 F))
  (* 3379-3383 *)
  | O_f32x4_trunc => Some (
    op1 (into_v128_f32 F) (fun _ a => rmapl (fun e => fl_integral F fl_trunc e) a) (from_v128_f32 F))
  (* 3384-3388 *)
  | O_f32x4_nearest => Some (
    op1 (into_v128_f32 F) (fun _ a => rmapl (fun e => fl_integral F fl_round e) a) (from_v128_f32 F))
  (* 3389-3393 *)
  | O_i8x16_shl => Some (
    op2 (into_v128_i 1) into_i32 (fun _ a b => Ok (map (fun e => i_shl 1 e b) a)) (from_v128_i 1))
  (* 3394-3398 *)
  | O_i8x16_shr_s => Some (
    op2 (into_v128_i 1) into_i32 (fun _ a b => Ok (map (fun e => i_shr 1 e b) a)) (from_v128_i 1))
  (* 3399-3403 *)
  | O_i8x16_shr_u => Some (
    op2 (into_v128_u 1) into_i32 (fun _ a b => Ok (map (fun e => u_shr 1 e b) a)) (from_v128_u 1))
  (* 3404-3409 *)
  | O_i8x16_add => Some (
    op2 (into_v128_i 1) (into_v128_i 1) (fun _ a b => lanes2 0 16 (fun a_i b_i => Ok (i_add 1 a_i b_i)) a b)
      (from_v128_i 1))
  (* 3410-3415 *)
  | O_i8x16_add_sat_s => Some (
    op2 (into_v128_i 1) (into_v128_i 1) (fun _ a b => lanes2 0 16 (fun a_i b_i => Ok (i_add_sat 1 a_i b_i)) a b)
      (from_v128_i 1))
  (* 3416-3421 *)
  | O_i8x16_add_sat_u => Some (
    op2 (into_v128_u 1) (into_v128_u 1) (fun _ a b => lanes2 0 16 (fun a_i b_i => Ok (u_add_sat 1 a_i b_i)) a b)
      (from_v128_u 1))
  (* 3422-3427 *)
  | O_i8x16_sub => Some (
    op2 (into_v128_i 1) (into_v128_i 1) (fun _ a b => lanes2 0 16 (fun a_i b_i => Ok (i_sub 1 a_i b_i)) a b)
      (from_v128_i 1))
  (* 3428-3433 *)
  | O_i8x16_sub_sat_s => Some (
    op2 (into_v128_i 1) (into_v128_i 1) (fun _ a b => lanes2 0 16 (fun a_i b_i => Ok (i_sub_sat 1 a_i b_i)) a b)
      (from_v128_i 1))
  (* 3434-3439 *)
  | O_i8x16_sub_sat_u => Some (
    op2 (into_v128_u 1) (into_v128_u 1) (fun _ a b => lanes2 0 16 (fun a_i b_i => Ok (u_sub_sat 1 a_i b_i)) a b)
      (from_v128_u 1))
  (* 3440-3444 *)
  | O_f64x2_ceil => Some (op1 into_v128_f64 (fun _ a => rmapl (fun e => fl_integral F fl_ceil e) a) from_v128_f64)
  (* 3445-3449 *)
  | O_f64x2_floor => Some (op1 into_v128_f64 (fun _ a => rmapl (fun e => fl_integral F fl_floor e) a) from_v128_f64)
  (* 3450-3455 *)
  | O_i8x16_min_s => Some (
    op2 (into_v128_i 1) (into_v128_i 1) (fun _ a b => lanes2 0 16 (fun a_i b_i => Ok (Z.min a_i b_i)) a b)
      (from_v128_i 1))
  (* 3456-3461 *)
  | O_i8x16_min_u => Some (
    op2 (into_v128_u 1) (into_v128_u 1) (fun _ a b => lanes2 0 16 (fun a_i b_i => Ok (Z.min a_i b_i)) a b)
      (from_v128_u 1))
  (* 3462-3467 *)
  | O_i8x16_max_s => Some (
    op2 (into_v128_i 1) (into_v128_i 1) (fun _ a b => lanes2 0 16 (fun a_i b_i => Ok (Z.max a_i b_i)) a b)
      (from_v128_i 1))
  (* 3468-3473 *)
  | O_i8x16_max_u => Some (
    op2 (into_v128_u 1) (into_v128_u 1) (fun _ a b => lanes2 0 16 (fun a_i b_i => Ok (Z.max a_i b_i)) a b)
      (from_v128_u 1))
  (* 3474-3478 *)
  | O_f64x2_trunc => Some (op1 into_v128_f64 (fun _ a => rmapl (fun e => fl_integral F fl_trunc e) a) from_v128_f64)
  (* 3479-3484 *)
  | O_i8x16_avgr_u => Some (
    op2 (into_v128_u 1) (into_v128_u 1) (fun _ a b => lanes2 0 16 (fun a_i b_i => py_floordiv ((a_i + b_i) + 1) 2)
      a b) (from_v128_u 1))
  (* 3485-3489 *)
  | O_i16x8_extadd_pairwise_i8x16_s => Some (
    op1 (into_v128_i 1) (fun _ a => rmapl (fun i => let? t11 := py_index a i in let? t12 := py_index a (i + 1) in
      Ok (t11 + t12)) (py_range_step 0 16 2)) (from_v128_i 2))
  (* 3490-3494 *)
  | O_i16x8_extadd_pairwise_i8x16_u => Some (
    op1 (into_v128_u 1) (fun _ a => rmapl (fun i => let? t11 := py_index a i in let? t12 := py_index a (i + 1) in
      Ok (t11 + t12)) (py_range_step 0 16 2)) (from_v128_u 2))
  (* 3495-3499 *)
  | O_i32x4_extadd_pairwise_i16x8_s => Some (
    op1 (into_v128_i 2) (fun _ a => rmapl (fun i => let? t11 := py_index a i in let? t12 := py_index a (i + 1) in
      Ok (t11 + t12)) (py_range_step 0 8 2)) (from_v128_i 4))
  (* 3500-3504 *)
  | O_i32x4_extadd_pairwise_i16x8_u => Some (
    op1 (into_v128_u 2) (fun _ a => rmapl (fun i => let? t11 := py_index a i in let? t12 := py_index a (i + 1) in
      Ok (t11 + t12)) (py_range_step 0 8 2)) (from_v128_u 4))
  (* 3505-3509 *)
  | O_i16x8_abs => Some (op1 (into_v128_i 2) (fun _ a => Ok (map (fun e => i_fit 2 (Z.abs e)) a)) (from_v128_i 2))
  (* 3510-3514 *)
  | O_i16x8_neg => Some (op1 (into_v128_i 2) (fun _ a => Ok (map (fun e => i_fit 2 (- e)) a)) (from_v128_i 2))
  (* 3515-3520 *)
  | O_i16x8_q15mulr_sat_s => Some (
    op2 (into_v128_i 2) (into_v128_i 2) (fun _ a b => lanes2 0 8 (fun a_i b_i => Ok (i_sat 2 (Z.shiftr ((a_i *
      b_i) + 0x4000) 15))) a b) (from_v128_i 2))
  (* 3521-3525 *)
  | O_i16x8_all_true => Some (
    op1 (into_v128_i 2) (fun _ a => Ok (if forallb (fun e => negb (e =? 0)) a then 1 else 0)) from_i32)
  (* 3526-3533 *)
  | O_i16x8_bitmask => Some (op1 (into_v128_i 2) (fun _ a => bitmask 8 a) from_i32)
  (* 3534-3540 *)
  | O_i16x8_narrow_i32x4_s => Some (
    op2 (into_v128_i 4) (into_v128_i 4) (fun _ a b => Ok (map (fun e => i_sat 2 e) (a ++ b))) (from_v128_i 2))
  (* 3541-3547 *)
  | O_i16x8_narrow_i32x4_u => Some (
    op2 (into_v128_i 4) (into_v128_i 4) (fun _ a b => Ok (map (fun e => u_sat 2 e) (a ++ b))) (from_v128_u 2))
  (* 3548-3551 *)
  | O_i16x8_extend_low_i8x16_s => Some (op1 (into_v128_i 1) (fun _ a => Ok (py_slice a 0 8)) (from_v128_i 2))
  (* 3552-3555 *)
  | O_i16x8_extend_high_i8x16_s => Some (op1 (into_v128_i 1) (fun _ a => Ok (py_slice a 8 (len a))) (from_v128_i 2))
  (* 3556-3559 *)
  | O_i16x8_extend_low_i8x16_u => Some (op1 (into_v128_u 1) (fun _ a => Ok (py_slice a 0 8)) (from_v128_i 2))
  (* 3560-3563 *)
  | O_i16x8_extend_high_i8x16_u => Some (op1 (into_v128_u 1) (fun _ a => Ok (py_slice a 8 (len a))) (from_v128_i 2))
  (* 3564-3568 *)
  | O_i16x8_shl => Some (
    op2 (into_v128_i 2) into_i32 (fun _ a b => Ok (map (fun e => i_shl 2 e b) a)) (from_v128_i 2))
  (* 3569-3573 *)
  | O_i16x8_shr_s => Some (
    op2 (into_v128_i 2) into_i32 (fun _ a b => Ok (map (fun e => i_shr 2 e b) a)) (from_v128_i 2))
  (* 3574-3578 *)
  | O_i16x8_shr_u => Some (
    op2 (into_v128_u 2) into_i32 (fun _ a b => Ok (map (fun e => u_shr 2 e b) a)) (from_v128_u 2))
  (* 3579-3584 *)
  | O_i16x8_add => Some (
    op2 (into_v128_i 2) (into_v128_i 2) (fun _ a b => lanes2 0 8 (fun a_i b_i => Ok (i_add 2 a_i b_i)) a b)
      (from_v128_i 2))
  (* 3585-3590 *)
  | O_i16x8_add_sat_s => Some (
    op2 (into_v128_i 2) (into_v128_i 2) (fun _ a b => lanes2 0 8 (fun a_i b_i => Ok (i_add_sat 2 a_i b_i)) a b)
      (from_v128_i 2))
  (* 3591-3596 *)
  | O_i16x8_add_sat_u => Some (
    op2 (into_v128_u 2) (into_v128_u 2) (fun _ a b => lanes2 0 8 (fun a_i b_i => Ok (u_add_sat 2 a_i b_i)) a b)
      (from_v128_u 2))
  (* 3597-3602 *)
  | O_i16x8_sub => Some (
    op2 (into_v128_i 2) (into_v128_i 2) (fun _ a b => lanes2 0 8 (fun a_i b_i => Ok (i_sub 2 a_i b_i)) a b)
      (from_v128_i 2))
  (* 3603-3608 *)
  | O_i16x8_sub_sat_s => Some (
    op2 (into_v128_i 2) (into_v128_i 2) (fun _ a b => lanes2 0 8 (fun a_i b_i => Ok (i_sub_sat 2 a_i b_i)) a b)
      (from_v128_i 2))
  (* 3609-3614 *)
  | O_i16x8_sub_sat_u => Some (
    op2 (into_v128_u 2) (into_v128_u 2) (fun _ a b => lanes2 0 8 (fun a_i b_i => Ok (u_sub_sat 2 a_i b_i)) a b)
      (from_v128_u 2))
  (* 3615-3619 *)
  | O_f64x2_nearest => Some (op1 into_v128_f64 (fun _ a => rmapl (fun e => fl_integral F fl_round e) a) from_v128_f64)
  (* 3620-3625 *)
  | O_i16x8_mul => Some (
    op2 (into_v128_i 2) (into_v128_i 2) (fun _ a b => lanes2 0 8 (fun a_i b_i => Ok (i_mul 2 a_i b_i)) a b)
      (from_v128_i 2))
  (* 3626-3631 *)
  | O_i16x8_min_s => Some (
    op2 (into_v128_i 2) (into_v128_i 2) (fun _ a b => lanes2 0 8 (fun a_i b_i => Ok (Z.min a_i b_i)) a b)
      (from_v128_i 2))
  (* 3632-3637 *)
  | O_i16x8_min_u => Some (
    op2 (into_v128_u 2) (into_v128_u 2) (fun _ a b => lanes2 0 8 (fun a_i b_i => Ok (Z.min a_i b_i)) a b)
      (from_v128_u 2))
  (* 3638-3643 *)
  | O_i16x8_max_s => Some (
    op2 (into_v128_i 2) (into_v128_i 2) (fun _ a b => lanes2 0 8 (fun a_i b_i => Ok (Z.max a_i b_i)) a b)
      (from_v128_i 2))
  (* 3644-3649 *)
  | O_i16x8_max_u => Some (
    op2 (into_v128_u 2) (into_v128_u 2) (fun _ a b => lanes2 0 8 (fun a_i b_i => Ok (Z.max a_i b_i)) a b)
      (from_v128_u 2))
  (* 3650-3655 *)
  | O_i16x8_avgr_u => Some (
    op2 (into_v128_u 2) (into_v128_u 2) (fun _ a b => lanes2 0 8 (fun a_i b_i => py_floordiv ((a_i + b_i) + 1) 2)
      a b) (from_v128_u 2))
  (* 3656-3661 *)
  | O_i16x8_extmul_low_i8x16_s => Some (
    op2 (into_v128_i 1) (into_v128_i 1) (fun _ a b => lanes2 0 8 (fun a_i b_i => Ok (a_i * b_i)) a b) (from_v128_i
      2))
  (* 3662-3667 *)
  | O_i16x8_extmul_high_i8x16_s => Some (
    op2 (into_v128_i 1) (into_v128_i 1) (fun _ a b => lanes2 8 16 (fun a_i b_i => Ok (a_i * b_i)) a b)
      (from_v128_i 2))
  (* 3668-3673 *)
  | O_i16x8_extmul_low_i8x16_u => Some (
    op2 (into_v128_u 1) (into_v128_u 1) (fun _ a b => lanes2 0 8 (fun a_i b_i => Ok (a_i * b_i)) a b) (from_v128_u
      2))
  (* 3674-3679 *)
  | O_i16x8_extmul_high_i8x16_u => Some (
    op2 (into_v128_u 1) (into_v128_u 1) (fun _ a b => lanes2 8 16 (fun a_i b_i => Ok (a_i * b_i)) a b)
      (from_v128_u 2))
  (* 3680-3684 *)
  | O_i32x4_abs => Some (op1 (into_v128_i 4) (fun _ a => Ok (map (fun e => i_fit 4 (Z.abs e)) a)) (from_v128_i 4))
  (* 3685-3689 *)
  | O_i32x4_neg => Some (op1 (into_v128_i 4) (fun _ a => Ok (map (fun e => i_fit 4 (- e)) a)) (from_v128_i 4))
  (* 3690-3694 *)
  | O_i32x4_all_true => Some (
    op1 (into_v128_i 4) (fun _ a => Ok (if forallb (fun e => negb (e =? 0)) a then 1 else 0)) from_i32)
  (* 3695-3702 *)
  | O_i32x4_bitmask => Some (op1 (into_v128_i 4) (fun _ a => bitmask 4 a) from_i32)
  (* 3703-3706 *)
  | O_i32x4_extend_low_i16x8_s => Some (op1 (into_v128_i 2) (fun _ a => Ok (py_slice a 0 4)) (from_v128_i 4))
  (* 3707-3710 *)
  | O_i32x4_extend_high_i16x8_s => Some (op1 (into_v128_i 2) (fun _ a => Ok (py_slice a 4 (len a))) (from_v128_i 4))
  (* 3711-3714 *)
  | O_i32x4_extend_low_i16x8_u => Some (op1 (into_v128_u 2) (fun _ a => Ok (py_slice a 0 4)) (from_v128_i 4))
  (* 3715-3718 *)
  | O_i32x4_extend_high_i16x8_u => Some (op1 (into_v128_u 2) (fun _ a => Ok (py_slice a 4 (len a))) (from_v128_i 4))
  (* 3719-3723 *)
  | O_i32x4_shl => Some (
    op2 (into_v128_i 4) into_i32 (fun _ a b => Ok (map (fun e => i_shl 4 e b) a)) (from_v128_i 4))
  (* 3724-3728 *)
  | O_i32x4_shr_s => Some (
    op2 (into_v128_i 4) into_i32 (fun _ a b => Ok (map (fun e => i_shr 4 e b) a)) (from_v128_i 4))
  (* 3729-3733 *)
  | O_i32x4_shr_u => Some (
    op2 (into_v128_u 4) into_i32 (fun _ a b => Ok (map (fun e => u_shr 4 e b) a)) (from_v128_u 4))
  (* 3734-3739 *)
  | O_i32x4_add => Some (
    op2 (into_v128_i 4) (into_v128_i 4) (fun _ a b => lanes2 0 4 (fun a_i b_i => Ok (i_add 4 a_i b_i)) a b)
      (from_v128_i 4))
  (* 3740-3745 *)
  | O_i32x4_sub => Some (
    op2 (into_v128_i 4) (into_v128_i 4) (fun _ a b => lanes2 0 4 (fun a_i b_i => Ok (i_sub 4 a_i b_i)) a b)
      (from_v128_i 4))
  (* 3746-3751 *)
  | O_i32x4_mul => Some (
    op2 (into_v128_i 4) (into_v128_i 4) (fun _ a b => lanes2 0 4 (fun a_i b_i => Ok (i_mul 4 a_i b_i)) a b)
      (from_v128_i 4))
  (* 3752-3757 *)
  | O_i32x4_min_s => Some (
    op2 (into_v128_i 4) (into_v128_i 4) (fun _ a b => lanes2 0 4 (fun a_i b_i => Ok (Z.min a_i b_i)) a b)
      (from_v128_i 4))
  (* 3758-3763 *)
  | O_i32x4_min_u => Some (
    op2 (into_v128_u 4) (into_v128_u 4) (fun _ a b => lanes2 0 4 (fun a_i b_i => Ok (Z.min a_i b_i)) a b)
      (from_v128_u 4))
  (* 3764-3769 *)
  | O_i32x4_max_s => Some (
    op2 (into_v128_i 4) (into_v128_i 4) (fun _ a b => lanes2 0 4 (fun a_i b_i => Ok (Z.max a_i b_i)) a b)
      (from_v128_i 4))
  (* 3770-3775 *)
  | O_i32x4_max_u => Some (
    op2 (into_v128_u 4) (into_v128_u 4) (fun _ a b => lanes2 0 4 (fun a_i b_i => Ok (Z.max a_i b_i)) a b)
      (from_v128_u 4))
  (* 3776-3781 *)
  | O_i32x4_dot_i16x8_s => Some (
    op2 (into_v128_i 2) (into_v128_i 2) (fun _ a b => rmapl (fun i => let? a0 := py_index a (i * 2) in let? b0 :=
      py_index b (i * 2) in let? a1 := py_index a (i * 2 + 1) in let? b1 := py_index b (i * 2 + 1) in Ok (i_fit 4
      (a0 * b0 + a1 * b1))) (py_range 4)) (from_v128_i 4))
  (* 3782-3787 *)
  | O_i32x4_extmul_low_i16x8_s => Some (
    op2 (into_v128_i 2) (into_v128_i 2) (fun _ a b => lanes2 0 4 (fun a_i b_i => Ok (a_i * b_i)) a b) (from_v128_i
      4))
  (* 3788-3793 *)
  | O_i32x4_extmul_high_i16x8_s => Some (
    op2 (into_v128_i 2) (into_v128_i 2) (fun _ a b => lanes2 4 8 (fun a_i b_i => Ok (a_i * b_i)) a b) (from_v128_i
      4))
  (* 3794-3799 *)
  | O_i32x4_extmul_low_i16x8_u => Some (
    op2 (into_v128_u 2) (into_v128_u 2) (fun _ a b => lanes2 0 4 (fun a_i b_i => Ok (a_i * b_i)) a b) (from_v128_u
      4))
  (* 3800-3805 *)
  | O_i32x4_extmul_high_i16x8_u => Some (
    op2 (into_v128_u 2) (into_v128_u 2) (fun _ a b => lanes2 4 8 (fun a_i b_i => Ok (a_i * b_i)) a b) (from_v128_u
      4))
  (* 3806-3810 *)
  | O_i64x2_abs => Some (op1 (into_v128_i 8) (fun _ a => Ok (map (fun e => i_fit 8 (Z.abs e)) a)) (from_v128_i 8))
  (* 3811-3815 *)
  | O_i64x2_neg => Some (op1 (into_v128_i 8) (fun _ a => Ok (map (fun e => i_fit 8 (- e)) a)) (from_v128_i 8))
  (* 3816-3820 *)
  | O_i64x2_all_true => Some (
    op1 (into_v128_i 8) (fun _ a => Ok (if forallb (fun e => negb (e =? 0)) a then 1 else 0)) from_i32)
  (* 3821-3828 *)
  | O_i64x2_bitmask => Some (op1 (into_v128_i 8) (fun _ a => bitmask 2 a) from_i32)
  (* 3829-3832 *)
  | O_i64x2_extend_low_i32x4_s => Some (op1 (into_v128_i 4) (fun _ a => Ok (py_slice a 0 2)) (from_v128_i 8))
  (* 3833-3836 *)
  | O_i64x2_extend_high_i32x4_s => Some (op1 (into_v128_i 4) (fun _ a => Ok (py_slice a 2 (len a))) (from_v128_i 8))
  (* 3837-3840 *)
  | O_i64x2_extend_low_i32x4_u => Some (op1 (into_v128_u 4) (fun _ a => Ok (py_slice a 0 2)) (from_v128_i 8))
  (* 3841-3844 *)
  | O_i64x2_extend_high_i32x4_u => Some (op1 (into_v128_u 4) (fun _ a => Ok (py_slice a 2 (len a))) (from_v128_i 8))
  (* 3845-3849 *)
  | O_i64x2_shl => Some (
    op2 (into_v128_i 8) into_i32 (fun _ a b => Ok (map (fun e => i_shl 8 e b) a)) (from_v128_i 8))
  (* 3850-3854 *)
  | O_i64x2_shr_s => Some (
    op2 (into_v128_i 8) into_i32 (fun _ a b => Ok (map (fun e => i_shr 8 e b) a)) (from_v128_i 8))
  (* 3855-3859 *)
  | O_i64x2_shr_u => Some (
    op2 (into_v128_u 8) into_i32 (fun _ a b => Ok (map (fun e => u_shr 8 e b) a)) (from_v128_u 8))
  (* 3860-3865 *)
  | O_i64x2_add => Some (
    op2 (into_v128_i 8) (into_v128_i 8) (fun _ a b => lanes2 0 2 (fun a_i b_i => Ok (i_add 8 a_i b_i)) a b)
      (from_v128_i 8))
  (* 3866-3871 *)
  | O_i64x2_sub => Some (
    op2 (into_v128_i 8) (into_v128_i 8) (fun _ a b => lanes2 0 2 (fun a_i b_i => Ok (i_sub 8 a_i b_i)) a b)
      (from_v128_i 8))
  (* 3872-3877 *)
  | O_i64x2_mul => Some (
    op2 (into_v128_i 8) (into_v128_i 8) (fun _ a b => lanes2 0 2 (fun a_i b_i => Ok (i_mul 8 a_i b_i)) a b)
      (from_v128_i 8))
  (* 3878-3883 *)
  | O_i64x2_eq => Some (
    op2 (into_v128_i 8) (into_v128_i 8) (fun _ a b => lanes2 0 2 (fun a_i b_i => Ok (if a_i =? b_i then (-1) else
      0)) a b) (from_v128_i 8))
  (* 3884-3889 *)
  | O_i64x2_ne => Some (
    op2 (into_v128_i 8) (into_v128_i 8) (fun _ a b => lanes2 0 2 (fun a_i b_i => Ok (if negb (a_i =? b_i) then
      (-1) else 0)) a b) (from_v128_i 8))
  (* 3890-3895 *)
  | O_i64x2_lt_s => Some (
    op2 (into_v128_i 8) (into_v128_i 8) (fun _ a b => lanes2 0 2 (fun a_i b_i => Ok (if a_i <? b_i then (-1) else
      0)) a b) (from_v128_i 8))
  (* 3896-3901 *)
  | O_i64x2_gt_s => Some (
    op2 (into_v128_i 8) (into_v128_i 8) (fun _ a b => lanes2 0 2 (fun a_i b_i => Ok (if a_i >? b_i then (-1) else
      0)) a b) (from_v128_i 8))
  (* 3902-3907 *)
  | O_i64x2_le_s => Some (
    op2 (into_v128_i 8) (into_v128_i 8) (fun _ a b => lanes2 0 2 (fun a_i b_i => Ok (if a_i <=? b_i then (-1) else
      0)) a b) (from_v128_i 8))
  (* 3908-3913 *)
  | O_i64x2_ge_s => Some (
    op2 (into_v128_i 8) (into_v128_i 8) (fun _ a b => lanes2 0 2 (fun a_i b_i => Ok (if a_i >=? b_i then (-1) else
      0)) a b) (from_v128_i 8))
  (* 3914-3919 *)
  | O_i64x2_extmul_low_i32x4_s => Some (
    op2 (into_v128_i 4) (into_v128_i 4) (fun _ a b => lanes2 0 2 (fun a_i b_i => Ok (a_i * b_i)) a b) (from_v128_i
      8))
  (* 3920-3925 *)
  | O_i64x2_extmul_high_i32x4_s => Some (
    op2 (into_v128_i 4) (into_v128_i 4) (fun _ a b => lanes2 2 4 (fun a_i b_i => Ok (a_i * b_i)) a b) (from_v128_i
      8))
  (* 3926-3931 *)
  | O_i64x2_extmul_low_i32x4_u => Some (
    op2 (into_v128_u 4) (into_v128_u 4) (fun _ a b => lanes2 0 2 (fun a_i b_i => Ok (a_i * b_i)) a b) (from_v128_u
      8))
  (* 3932-3937 *)
  | O_i64x2_extmul_high_i32x4_u => Some (
    op2 (into_v128_u 4) (into_v128_u 4) (fun _ a b => lanes2 2 4 (fun a_i b_i => Ok (a_i * b_i)) a b) (from_v128_u
      8))
  (* 3938-3942 *)
  | O_f32x4_abs => Some (op1 (into_v128_f32 F) (fun _ a => Ok (map (fun e => fl_abs e) a)) (from_v128_f32 F))
  (* 3943-3947 *)
  | O_f32x4_neg => Some (op1 (into_v128_f32 F) (fun _ a => Ok (map (fun e => fl_neg e) a)) (from_v128_f32 F))
  (* 3948-3952 *)
  | O_f32x4_sqrt => Some (op1 (into_v128_f32 F) (fun _ a => Ok (map (fun e => fl_sqrt F e) a)) (from_v128_f32 F))
  (* 3953-3958 *)
  | O_f32x4_add => Some (
    op2 (into_v128_f32 F) (into_v128_f32 F) (fun _ a b => lanes2 0 4 (fun a_i b_i => Ok (f_add F a_i b_i)) a b)
      (from_v128_f32 F))
  (* 3959-3964 *)
  | O_f32x4_sub => Some (
    op2 (into_v128_f32 F) (into_v128_f32 F) (fun _ a b => lanes2 0 4 (fun a_i b_i => Ok (f_sub F a_i b_i)) a b)
      (from_v128_f32 F))
  (* 3965-3970 *)
  | O_f32x4_mul => Some (
    op2 (into_v128_f32 F) (into_v128_f32 F) (fun _ a b => lanes2 0 4 (fun a_i b_i => Ok (f_mul F a_i b_i)) a b)
      (from_v128_f32 F))
  (* 3971-3976 *)
  | O_f32x4_div => Some (
    op2 (into_v128_f32 F) (into_v128_f32 F) (fun _ a b => lanes2 0 4 (fun a_i b_i => Ok (f32_div F a_i b_i)) a b)
      (from_v128_f32 F))
  (* 3977-3982 *)
  | O_f32x4_min => Some (
    op2 (into_v128_f32 F) (into_v128_f32 F) (fun _ a b => lanes2 0 4 (fun a_i b_i => Ok (f32_min F a_i b_i)) a b)
      (from_v128_f32 F))
  (* 3983-3988 *)
  | O_f32x4_max => Some (
    op2 (into_v128_f32 F) (into_v128_f32 F) (fun _ a b => lanes2 0 4 (fun a_i b_i => Ok (f32_max F a_i b_i)) a b)
      (from_v128_f32 F))
  (* 3989-3994 *)
  | O_f32x4_pmin => Some (
    op2 (into_v128_f32 F) (into_v128_f32 F) (fun _ a b => lanes2 0 4 (fun a_i b_i => Ok (fl_min a_i b_i)) a b)
      (from_v128_f32 F))
  (* 3995-4000 *)
  | O_f32x4_pmax => Some (
    op2 (into_v128_f32 F) (into_v128_f32 F) (fun _ a b => lanes2 0 4 (fun a_i b_i => Ok (fl_max a_i b_i)) a b)
      (from_v128_f32 F))
  (* 4001-4005 *)
  | O_f64x2_abs => Some (op1 into_v128_f64 (fun _ a => Ok (map (fun e => fl_abs e) a)) from_v128_f64)
  (* 4006-4010 *)
  | O_f64x2_neg => Some (op1 into_v128_f64 (fun _ a => Ok (map (fun e => fl_neg e) a)) from_v128_f64)
  (* 4011-4015 *)
  | O_f64x2_sqrt => Some (op1 into_v128_f64 (fun _ a => Ok (map (fun e => fl_sqrt F e) a)) from_v128_f64)
  (* 4016-4021 *)
  | O_f64x2_add => Some (
    op2 into_v128_f64 into_v128_f64 (fun _ a b => lanes2 0 2 (fun a_i b_i => Ok (f_add F a_i b_i)) a b)
      from_v128_f64)
  (* 4022-4027 *)
  | O_f64x2_sub => Some (
    op2 into_v128_f64 into_v128_f64 (fun _ a b => lanes2 0 2 (fun a_i b_i => Ok (f_sub F a_i b_i)) a b)
      from_v128_f64)
  (* 4028-4033 *)
  | O_f64x2_mul => Some (
    op2 into_v128_f64 into_v128_f64 (fun _ a b => lanes2 0 2 (fun a_i b_i => Ok (f_mul F a_i b_i)) a b)
      from_v128_f64)
  (* 4034-4039 *)
  | O_f64x2_div => Some (
    op2 into_v128_f64 into_v128_f64 (fun _ a b => lanes2 0 2 (fun a_i b_i => Ok (f64_div F a_i b_i)) a b)
      from_v128_f64)
  (* 4040-4045 *)
  | O_f64x2_min => Some (
    op2 into_v128_f64 into_v128_f64 (fun _ a b => lanes2 0 2 (fun a_i b_i => Ok (f64_min a_i b_i)) a b)
      from_v128_f64)
  (* 4046-4051 *)
  | O_f64x2_max => Some (
    op2 into_v128_f64 into_v128_f64 (fun _ a b => lanes2 0 2 (fun a_i b_i => Ok (f64_max a_i b_i)) a b)
      from_v128_f64)
  (* 4052-4057 *)
  | O_f64x2_pmin => Some (
    op2 into_v128_f64 into_v128_f64 (fun _ a b => lanes2 0 2 (fun a_i b_i => Ok (fl_min a_i b_i)) a b)
      from_v128_f64)
  (* 4058-4063 *)
  | O_f64x2_pmax => Some (
    op2 into_v128_f64 into_v128_f64 (fun _ a b => lanes2 0 2 (fun a_i b_i => Ok (fl_max a_i b_i)) a b)
      from_v128_f64)
  (* 4064-4069 *)
  | O_i32x4_trunc_sat_f32x4_s => Some (
    op1 (into_v128_f32 F) (fun _ a => rmapl (fun e => fl_sat_int (i_min 4) (i_max 4) e) (map (fun e => if fl_isnan
      e then fl_zero else e) a)) (from_v128_i 4))
  (* 4070-4075 *)
  | O_i32x4_trunc_sat_f32x4_u => Some (
    op1 (into_v128_f32 F) (fun _ a => rmapl (fun e => fl_sat_int (u_min 4) (u_max 4) e) (map (fun e => if fl_isnan
      e then fl_zero else e) a)) (from_v128_u 4))
  (* 4076-4079 *)
  | O_f32x4_convert_i32x4_s => Some (
    op1 (into_v128_i 4) (fun _ a => rmapl (fun e => fl_of_int F e) a) (from_v128_f32 F))
  (* 4080-4083 *)
  | O_f32x4_convert_i32x4_u => Some (
    op1 (into_v128_u 4) (fun _ a => rmapl (fun e => fl_of_int F e) a) (from_v128_f32 F))
  (* 4084-4090 *)
  | O_i32x4_trunc_sat_f64x2_s_zero => Some (
    op1 into_v128_f64 (fun _ a => let? c := rmapl (fun e => fl_sat_int (i_min 4) (i_max 4) e) (map (fun e => if
      fl_isnan e then fl_zero else e) a) in Ok (c ++ [0; 0])) (from_v128_i 4))
  (* 4091-4097 *)
  | O_i32x4_trunc_sat_f64x2_u_zero => Some (
    op1 into_v128_f64 (fun _ a => let? c := rmapl (fun e => fl_sat_int (u_min 4) (u_max 4) e) (map (fun e => if
      fl_isnan e then fl_zero else e) a) in Ok (c ++ [0; 0])) (from_v128_u 4))
  (* 4098-4101 *)
  | O_f64x2_convert_low_i32x4_s => Some (
    op1 (into_v128_i 4) (fun _ a => rmapl (fun e => fl_of_int F e) (py_slice a 0 2)) from_v128_f64)
  (* 4102-4105 *)
  | O_f64x2_convert_low_i32x4_u => Some (
    op1 (into_v128_u 4) (fun _ a => rmapl (fun e => fl_of_int F e) (py_slice a 0 2)) from_v128_f64)
  | _ => None
  end.

Definition num_op (F : fops) (o : opc) : option numop :=
  match num_scalar F o with Some x => Some x | None => num_simd F o end.
