(* What the vector instructions compute according to the WebAssembly specification (section 4.3, "lane-wise"
   operators): a 128-bit number cut into lanes, an operator applied lane by lane, the lanes put together again.
   Lanes are N-bit integers given by their unsigned value, as in SpecNum.v. Nothing here refers to the model. *)
From Coq Require Import ZArith List Bool.
From Verif Require Import Py Val Opcode SpecNum SpecMachine SpecMem.
Import ListNotations.
Open Scope Z_scope.

(* the 128/N lanes of a value, lowest first, and the v128 with given lanes *)
Definition vlanes (N : Z) (v : val) : list Z := lanes N (Z.to_nat (128 / N)) (low 128 v).
Definition vec (N : Z) (l : list Z) : val := num_val T_v128 (join N l).
(* [f] on the corresponding elements of two lists *)
Fixpoint map2 {A B C} (f : A -> B -> C) (la : list A) (lb : list B) : list C :=
  match la, lb with a :: la', b :: lb' => f a b :: map2 f la' lb' | _, _ => [] end.

(* ---- operators ---- *)
Definition sat_s (N z : Z) : Z := unsgn N (Z.max (- 2 ^ (N - 1)) (Z.min z (2 ^ (N - 1) - 1))).
Definition sat_u (N z : Z) : Z := Z.max 0 (Z.min z (2 ^ N - 1)).
Definition iabs (N a : Z) : Z := unsgn N (Z.abs (sgn N a)).
Definition ineg (N a : Z) : Z := (2 ^ N - a) mod 2 ^ N.
Definition iadd_sat_s (N a b : Z) : Z := sat_s N (sgn N a + sgn N b).
Definition iadd_sat_u (N a b : Z) : Z := sat_u N (a + b).
Definition isub_sat_s (N a b : Z) : Z := sat_s N (sgn N a - sgn N b).
Definition isub_sat_u (N a b : Z) : Z := sat_u N (a - b).
Definition imin_s (N a b : Z) : Z := if sgn N a <=? sgn N b then a else b.
Definition imax_s (N a b : Z) : Z := if sgn N a <=? sgn N b then b else a.
Definition imin_u (N a b : Z) : Z := if a <=? b then a else b.
Definition imax_u (N a b : Z) : Z := if a <=? b then b else a.
Definition iavgr_u (N a b : Z) : Z := (a + b + 1) / 2.
Definition iq15mulr_sat_s (N a b : Z) : Z := sat_s N ((sgn N a * sgn N b + 2 ^ 14) / 2 ^ 15).

(* lane width and operator *)
Definition lane_unop (o : opc) : option (Z * (Z -> Z)) :=
  match o with
  | O_i8x16_abs => Some (8, iabs 8)
  | O_i8x16_neg => Some (8, ineg 8)
  | O_i8x16_popcnt => Some (8, ipopcnt 8)
  | O_i16x8_abs => Some (16, iabs 16)
  | O_i16x8_neg => Some (16, ineg 16)
  | O_i32x4_abs => Some (32, iabs 32)
  | O_i32x4_neg => Some (32, ineg 32)
  | O_i64x2_abs => Some (64, iabs 64)
  | O_i64x2_neg => Some (64, ineg 64)
  | _ => None
  end.
Definition lane_binop (o : opc) : option (Z * (Z -> Z -> Z)) :=
  match o with
  | O_i8x16_add => Some (8, iadd 8)
  | O_i8x16_sub => Some (8, isub 8)
  | O_i8x16_add_sat_s => Some (8, iadd_sat_s 8)
  | O_i8x16_add_sat_u => Some (8, iadd_sat_u 8)
  | O_i8x16_sub_sat_s => Some (8, isub_sat_s 8)
  | O_i8x16_sub_sat_u => Some (8, isub_sat_u 8)
  | O_i8x16_avgr_u => Some (8, iavgr_u 8)
  | O_i8x16_min_s => Some (8, imin_s 8)
  | O_i8x16_min_u => Some (8, imin_u 8)
  | O_i8x16_max_s => Some (8, imax_s 8)
  | O_i8x16_max_u => Some (8, imax_u 8)
  | O_i16x8_add => Some (16, iadd 16)
  | O_i16x8_sub => Some (16, isub 16)
  | O_i16x8_mul => Some (16, imul 16)
  | O_i16x8_add_sat_s => Some (16, iadd_sat_s 16)
  | O_i16x8_add_sat_u => Some (16, iadd_sat_u 16)
  | O_i16x8_sub_sat_s => Some (16, isub_sat_s 16)
  | O_i16x8_sub_sat_u => Some (16, isub_sat_u 16)
  | O_i16x8_avgr_u => Some (16, iavgr_u 16)
  | O_i16x8_min_s => Some (16, imin_s 16)
  | O_i16x8_min_u => Some (16, imin_u 16)
  | O_i16x8_max_s => Some (16, imax_s 16)
  | O_i16x8_max_u => Some (16, imax_u 16)
  | O_i16x8_q15mulr_sat_s => Some (16, iq15mulr_sat_s 16)
  | O_i32x4_add => Some (32, iadd 32)
  | O_i32x4_sub => Some (32, isub 32)
  | O_i32x4_mul => Some (32, imul 32)
  | O_i32x4_min_s => Some (32, imin_s 32)
  | O_i32x4_min_u => Some (32, imin_u 32)
  | O_i32x4_max_s => Some (32, imax_s 32)
  | O_i32x4_max_u => Some (32, imax_u 32)
  | O_i64x2_add => Some (64, iadd 64)
  | O_i64x2_sub => Some (64, isub 64)
  | O_i64x2_mul => Some (64, imul 64)
  | _ => None
  end.
(* the shift count is an i32 and is taken modulo the lane width *)
Definition lane_shift (o : opc) : option (Z * (Z -> Z -> Z)) :=
  match o with
  | O_i8x16_shl => Some (8, ishl 8)
  | O_i8x16_shr_s => Some (8, ishr_s 8)
  | O_i8x16_shr_u => Some (8, ishr_u 8)
  | O_i16x8_shl => Some (16, ishl 16)
  | O_i16x8_shr_s => Some (16, ishr_s 16)
  | O_i16x8_shr_u => Some (16, ishr_u 16)
  | O_i32x4_shl => Some (32, ishl 32)
  | O_i32x4_shr_s => Some (32, ishr_s 32)
  | O_i32x4_shr_u => Some (32, ishr_u 32)
  | O_i64x2_shl => Some (64, ishl 64)
  | O_i64x2_shr_s => Some (64, ishr_s 64)
  | O_i64x2_shr_u => Some (64, ishr_u 64)
  | _ => None
  end.
(* comparisons give all ones or all zeros *)
Definition lane_relop (o : opc) : option (Z * (Z -> Z -> bool)) :=
  match o with
  | O_i8x16_eq => Some (8, Z.eqb)
  | O_i8x16_ne => Some (8, fun a b => negb (a =? b))
  | O_i8x16_lt_s => Some (8, fun a b => sgn 8 a <? sgn 8 b)
  | O_i8x16_lt_u => Some (8, fun a b => a <? b)
  | O_i8x16_gt_s => Some (8, fun a b => sgn 8 b <? sgn 8 a)
  | O_i8x16_gt_u => Some (8, fun a b => b <? a)
  | O_i8x16_le_s => Some (8, fun a b => sgn 8 a <=? sgn 8 b)
  | O_i8x16_le_u => Some (8, fun a b => a <=? b)
  | O_i8x16_ge_s => Some (8, fun a b => sgn 8 b <=? sgn 8 a)
  | O_i8x16_ge_u => Some (8, fun a b => b <=? a)
  | O_i16x8_eq => Some (16, Z.eqb)
  | O_i16x8_ne => Some (16, fun a b => negb (a =? b))
  | O_i16x8_lt_s => Some (16, fun a b => sgn 16 a <? sgn 16 b)
  | O_i16x8_lt_u => Some (16, fun a b => a <? b)
  | O_i16x8_gt_s => Some (16, fun a b => sgn 16 b <? sgn 16 a)
  | O_i16x8_gt_u => Some (16, fun a b => b <? a)
  | O_i16x8_le_s => Some (16, fun a b => sgn 16 a <=? sgn 16 b)
  | O_i16x8_le_u => Some (16, fun a b => a <=? b)
  | O_i16x8_ge_s => Some (16, fun a b => sgn 16 b <=? sgn 16 a)
  | O_i16x8_ge_u => Some (16, fun a b => b <=? a)
  | O_i32x4_eq => Some (32, Z.eqb)
  | O_i32x4_ne => Some (32, fun a b => negb (a =? b))
  | O_i32x4_lt_s => Some (32, fun a b => sgn 32 a <? sgn 32 b)
  | O_i32x4_lt_u => Some (32, fun a b => a <? b)
  | O_i32x4_gt_s => Some (32, fun a b => sgn 32 b <? sgn 32 a)
  | O_i32x4_gt_u => Some (32, fun a b => b <? a)
  | O_i32x4_le_s => Some (32, fun a b => sgn 32 a <=? sgn 32 b)
  | O_i32x4_le_u => Some (32, fun a b => a <=? b)
  | O_i32x4_ge_s => Some (32, fun a b => sgn 32 b <=? sgn 32 a)
  | O_i32x4_ge_u => Some (32, fun a b => b <=? a)
  | O_i64x2_eq => Some (64, Z.eqb)
  | O_i64x2_ne => Some (64, fun a b => negb (a =? b))
  | O_i64x2_lt_s => Some (64, fun a b => sgn 64 a <? sgn 64 b)
  | O_i64x2_gt_s => Some (64, fun a b => sgn 64 b <? sgn 64 a)
  | O_i64x2_le_s => Some (64, fun a b => sgn 64 a <=? sgn 64 b)
  | O_i64x2_ge_s => Some (64, fun a b => sgn 64 b <=? sgn 64 a)
  | _ => None
  end.
Definition all_ones (N : Z) (b : bool) : Z := if b then 2 ^ N - 1 else 0.

(* ---- moving lanes ---- *)
(* lane width *)
Definition splat_op (o : opc) : option (Z) :=
  match o with
  | O_i8x16_splat => Some (8)
  | O_i16x8_splat => Some (16)
  | O_i32x4_splat => Some (32)
  | O_i64x2_splat => Some (64)
  | O_f32x4_splat => Some (32)
  | O_f64x2_splat => Some (64)
  | _ => None
  end.
(* lane width, result type, what becomes of the lane *)
Definition extract_op (o : opc) : option (Z * valtype * (Z -> Z)) :=
  match o with
  | O_i8x16_extract_lane_s => Some (8, T_i32, fun a => unsgn 32 (sgn 8 a))
  | O_i8x16_extract_lane_u => Some (8, T_i32, fun a => a)
  | O_i16x8_extract_lane_s => Some (16, T_i32, fun a => unsgn 32 (sgn 16 a))
  | O_i16x8_extract_lane_u => Some (16, T_i32, fun a => a)
  | O_i32x4_extract_lane => Some (32, T_i32, fun a => a)
  | O_i64x2_extract_lane => Some (64, T_i64, fun a => a)
  | O_f32x4_extract_lane => Some (32, T_f32, fun a => a)
  | O_f64x2_extract_lane => Some (64, T_f64, fun a => a)
  | _ => None
  end.
Definition replace_op (o : opc) : option (Z) :=
  match o with
  | O_i8x16_replace_lane => Some (8)
  | O_i16x8_replace_lane => Some (16)
  | O_i32x4_replace_lane => Some (32)
  | O_i64x2_replace_lane => Some (64)
  | O_f32x4_replace_lane => Some (32)
  | O_f64x2_replace_lane => Some (64)
  | _ => None
  end.
(* the list with element number [k] replaced *)
Definition put_lane (k : Z) (x : Z) (l : list Z) : list Z := firstn (Z.to_nat k) l ++ x :: skipn (S (Z.to_nat k)) l.
Definition nth_lane (l : list Z) (k : Z) : Z := nth (Z.to_nat k) l 0.

(* ---- changing the lane width ---- *)
(* the low or the high half of the lanes *)
Definition half {A} (high : bool) (l : list A) : list A :=
  let n := Nat.div2 (length l) in if high then skipn n l else firstn n l.
(* a lane of M bits as an integer *)
Definition as_int (M : Z) (sg : bool) (a : Z) : Z := if sg then sgn M a else a.
(* source lane width, signed, high half; the result has lanes of twice the width *)
Definition extend_op (o : opc) : option (Z * bool * bool) :=
  match o with
  | O_i16x8_extend_low_i8x16_s => Some (8, true, false)
  | O_i16x8_extend_low_i8x16_u => Some (8, false, false)
  | O_i16x8_extend_high_i8x16_s => Some (8, true, true)
  | O_i16x8_extend_high_i8x16_u => Some (8, false, true)
  | O_i32x4_extend_low_i16x8_s => Some (16, true, false)
  | O_i32x4_extend_low_i16x8_u => Some (16, false, false)
  | O_i32x4_extend_high_i16x8_s => Some (16, true, true)
  | O_i32x4_extend_high_i16x8_u => Some (16, false, true)
  | O_i64x2_extend_low_i32x4_s => Some (32, true, false)
  | O_i64x2_extend_low_i32x4_u => Some (32, false, false)
  | O_i64x2_extend_high_i32x4_s => Some (32, true, true)
  | O_i64x2_extend_high_i32x4_u => Some (32, false, true)
  | _ => None
  end.
Definition extmul_op (o : opc) : option (Z * bool * bool) :=
  match o with
  | O_i16x8_extmul_low_i8x16_s => Some (8, true, false)
  | O_i16x8_extmul_low_i8x16_u => Some (8, false, false)
  | O_i16x8_extmul_high_i8x16_s => Some (8, true, true)
  | O_i16x8_extmul_high_i8x16_u => Some (8, false, true)
  | O_i32x4_extmul_low_i16x8_s => Some (16, true, false)
  | O_i32x4_extmul_low_i16x8_u => Some (16, false, false)
  | O_i32x4_extmul_high_i16x8_s => Some (16, true, true)
  | O_i32x4_extmul_high_i16x8_u => Some (16, false, true)
  | O_i64x2_extmul_low_i32x4_s => Some (32, true, false)
  | O_i64x2_extmul_low_i32x4_u => Some (32, false, false)
  | O_i64x2_extmul_high_i32x4_s => Some (32, true, true)
  | O_i64x2_extmul_high_i32x4_u => Some (32, false, true)
  | _ => None
  end.
(* source lane width, signed *)
Definition pairwise_op (o : opc) : option (Z * bool) :=
  match o with
  | O_i16x8_extadd_pairwise_i8x16_s => Some (8, true)
  | O_i16x8_extadd_pairwise_i8x16_u => Some (8, false)
  | O_i32x4_extadd_pairwise_i16x8_s => Some (16, true)
  | O_i32x4_extadd_pairwise_i16x8_u => Some (16, false)
  | _ => None
  end.
(* sums of neighbours *)
Fixpoint pair_sums (l : list Z) : list Z := match l with a :: b :: l' => (a + b) :: pair_sums l' | _ => [] end.
(* result lane width, signed result; the source lanes are signed and of twice the width *)
Definition narrow_op (o : opc) : option (Z * bool) :=
  match o with
  | O_i8x16_narrow_i16x8_s => Some (8, true)
  | O_i8x16_narrow_i16x8_u => Some (8, false)
  | O_i16x8_narrow_i32x4_s => Some (16, true)
  | O_i16x8_narrow_i32x4_u => Some (16, false)
  | _ => None
  end.
Definition sat (N : Z) (sg : bool) (z : Z) : Z := if sg then sat_s N z else sat_u N z.

(* ---- 128-bit logic ---- *)
Definition logic_op (o : opc) : option (Z -> Z -> Z) :=
  match o with
  | O_v128_and => Some Z.land
  | O_v128_andnot => Some Z.ldiff
  | O_v128_or => Some Z.lor
  | O_v128_xor => Some Z.lxor
  | _ => None
  end.
(* lane widths of all_true and bitmask *)
Definition all_true_op (o : opc) : option (Z) :=
  match o with
  | O_i8x16_all_true => Some (8)
  | O_i16x8_all_true => Some (16)
  | O_i32x4_all_true => Some (32)
  | O_i64x2_all_true => Some (64)
  | _ => None
  end.
Definition bitmask_op (o : opc) : option (Z) :=
  match o with
  | O_i8x16_bitmask => Some (8)
  | O_i16x8_bitmask => Some (16)
  | O_i32x4_bitmask => Some (32)
  | O_i64x2_bitmask => Some (64)
  | _ => None
  end.
