(* Integer vector instructions. Specification: SpecSimd.v (lanes and the operators on them), SpecNum.v, SpecMachine.v. *)
From Coq Require Import ZArith List Bool Lia.
From Verif Require Import Py Arith Floatops Val Opcode Numeric Syntax Store Basic Machine SpecInt SpecNum SpecMachine SpecMem SpecSimd.
From Verif Require Import SimdStepFacts PropNum.
Import ListNotations.
Open Scope Z_scope.

(* [vec N l] is the 128-bit value whose N-bit lanes are [l]: reading its lanes back gives [l] *)
Theorem C54_lanes_of_a_vector : forall N l, N = 8 \/ N = 16 \/ N = 32 \/ N = 64 ->
  len l = 128 / N -> Forall (urange N) l -> vlanes N (vec N l) = l.
Proof. exact vlanes_vec. Qed.
Print Assumptions C54_lanes_of_a_vector.

(* C54: each lane of the result is the scalar operation on the corresponding lanes. *)
Theorem C54_lane_unary : forall F host m o args fr N f va V,
  about_to_run m (IOp o args) fr -> lane_unop o = Some (N, f) ->
  k_value m = va :: V -> val_wf va ->
  step F host m = (Ok tt, moved_on m (vec N (map f (vlanes N va)) :: V)).
Proof. exact lane_unary_step. Qed.
Print Assumptions C54_lane_unary.


Theorem C54_lane_binary : forall F host m o args fr N f va vb V,
  about_to_run m (IOp o args) fr -> lane_binop o = Some (N, f) ->
  k_value m = vb :: va :: V -> val_wf va -> val_wf vb ->
  step F host m = (Ok tt, moved_on m (vec N (map2 f (vlanes N va) (vlanes N vb)) :: V)).
Proof. exact lane_binary_step. Qed.
Print Assumptions C54_lane_binary.

(* shifts: one i32 count for all lanes *)
Theorem C54_lane_shifts : forall F host m o args fr N f va vb V,
  about_to_run m (IOp o args) fr -> lane_shift o = Some (N, f) ->
  k_value m = vb :: va :: V -> val_wf va -> val_wf vb ->
  step F host m = (Ok tt, moved_on m (vec N (map (fun a => f a (low 32 vb)) (vlanes N va)) :: V)).
Proof. exact lane_shifts_step. Qed.
Print Assumptions C54_lane_shifts.

(* 0x7f + 1 wraps in its lane, 0xff + 1 does not carry into the next one; -128 has no negative; counts wrap *)
Example C54_example F host : let a := vec 8 (0x7f :: 0xff :: 3 :: repeat 0 13) in let b := vec 8 (repeat 1 16) in
  lane_binop O_i8x16_add = Some (8, iadd 8) /\ val_wf a /\
  step F host (one_inst (IOp O_i8x16_add []) [b; a]) =
    (Ok tt, moved_on (one_inst (IOp O_i8x16_add []) []) [vec 8 (0x80 :: 0 :: 4 :: repeat 1 13)]) /\
  step F host (one_inst (IOp O_i8x16_neg []) [vec 8 (repeat 0x80 16)]) =
    (Ok tt, moved_on (one_inst (IOp O_i8x16_neg []) []) [vec 8 (repeat 0x80 16)]) /\
  step F host (one_inst (IOp O_i64x2_shr_s []) [num_val T_i32 65; vec 64 [2 ^ 63; 6]]) =
    (Ok tt, moved_on (one_inst (IOp O_i64x2_shr_s []) []) [vec 64 [2 ^ 63 + 2 ^ 62; 3]]).
Proof.
  repeat split; try (vm_compute; reflexivity).
  apply Forall_forall. intros x H. repeat destruct H as [<-|H]; try (vm_compute; split; congruence). destruct H.
Qed.

(* C55: a comparison gives all ones or all zeros in each lane. *)
Theorem C55_lane_comparisons : forall F host m o args fr N f va vb V,
  about_to_run m (IOp o args) fr -> lane_relop o = Some (N, f) ->
  k_value m = vb :: va :: V -> val_wf va -> val_wf vb ->
  step F host m = (Ok tt, moved_on m (vec N (map2 (fun a b => all_ones N (f a b)) (vlanes N va) (vlanes N vb)) :: V)).
Proof. exact lane_comparisons_step. Qed.
Print Assumptions C55_lane_comparisons.

Example C55_example F host :
  step F host (one_inst (IOp O_i16x8_lt_s []) [vec 16 [1; 1; 0xffff; 5; 5; 0; 0; 0]; vec 16 [0xffff; 1; 0x8000; 4; 6; 0; 0; 0]]) =
    (Ok tt, moved_on (one_inst (IOp O_i16x8_lt_s []) []) [vec 16 [0xffff; 0; 0xffff; 0xffff; 0; 0; 0; 0]]) /\
  step F host (one_inst (IOp O_i16x8_lt_u []) [vec 16 [1; 1; 0xffff; 5; 5; 0; 0; 0]; vec 16 [0xffff; 1; 0x8000; 4; 6; 0; 0; 0]]) =
    (Ok tt, moved_on (one_inst (IOp O_i16x8_lt_u []) []) [vec 16 [0; 0; 0xffff; 0xffff; 0; 0; 0; 0]]).
Proof. split; vm_compute; reflexivity. Qed.

(* C56: splat repeats the low bits of the operand in every lane. *)
Theorem C56_splat : forall F host m o args fr N va V,
  about_to_run m (IOp o args) fr -> splat_op o = Some N ->
  k_value m = va :: V -> val_wf va ->
  step F host m = (Ok tt, moved_on m (vec N (repeat (low N va) (Z.to_nat (128 / N))) :: V)).
Proof. exact splat_step. Qed.
Print Assumptions C56_splat.

(* extract_lane and replace_lane touch lane number [k], for every lane index the encoding allows *)
Theorem C56_extract_lane : forall F host m o fr N t f k va V,
  about_to_run m (IOp o [AInt k]) fr -> extract_op o = Some (N, t, f) -> 0 <= k < 128 / N ->
  k_value m = va :: V -> val_wf va ->
  step F host m = (Ok tt, moved_on m (num_val t (f (nth_lane (vlanes N va) k)) :: V)).
Proof. exact extract_lane_step. Qed.
Print Assumptions C56_extract_lane.


Theorem C56_replace_lane : forall F host m o fr N k va vb V,
  about_to_run m (IOp o [AInt k]) fr -> replace_op o = Some N -> 0 <= k < 128 / N ->
  k_value m = vb :: va :: V -> val_wf va -> val_wf vb ->
  step F host m = (Ok tt, moved_on m (vec N (put_lane k (low N vb) (vlanes N va)) :: V)).
Proof. exact replace_lane_step. Qed.
Print Assumptions C56_replace_lane.

(* shuffle takes its 16 bytes from the 32 bytes of both operands *)
Theorem C56_shuffle : forall F host m fr ks va vb V,
  about_to_run m (IOp O_i8x16_shuffle (map AInt ks)) fr -> length ks = 16%nat -> Forall (fun k => 0 <= k < 32) ks ->
  k_value m = vb :: va :: V -> val_wf va -> val_wf vb ->
  step F host m = (Ok tt, moved_on m (vec 8 (map (nth_lane (vlanes 8 va ++ vlanes 8 vb)) ks) :: V)).
Proof. exact shuffle_step. Qed.
Print Assumptions C56_shuffle.

(* swizzle: an index of 16 or more selects zero *)
Theorem C56_swizzle : forall F host m args fr va vb V,
  about_to_run m (IOp O_i8x16_swizzle args) fr ->
  k_value m = vb :: va :: V -> val_wf va -> val_wf vb ->
  step F host m = (Ok tt, moved_on m (vec 8 (map (fun k => if k <? 16 then nth_lane (vlanes 8 va) k else 0) (vlanes 8 vb)) :: V)).
Proof. exact swizzle_step. Qed.
Print Assumptions C56_swizzle.

Example C56_example F host : let ks := [31; 0; 15; 16; 1; 1; 1; 1; 2; 2; 2; 2; 3; 3; 3; 30] in
  let a := vec 8 [10; 11; 12; 13; 14; 15; 16; 17; 18; 19; 20; 21; 22; 23; 24; 25] in let b := vec 8 (repeat 99 15 ++ [200]) in
  step F host (one_inst (IOp O_i8x16_shuffle (map AInt ks)) [b; a]) =
    (Ok tt, moved_on (one_inst (IOp O_i8x16_shuffle (map AInt ks)) [])
      [vec 8 [200; 10; 25; 99; 11; 11; 11; 11; 12; 12; 12; 12; 13; 13; 13; 99]]) /\
  step F host (one_inst (IOp O_i8x16_extract_lane_s [AInt 15]) [b]) =
    (Ok tt, moved_on (one_inst (IOp O_i8x16_extract_lane_s [AInt 15]) []) [num_val T_i32 (2 ^ 32 - 56)]) /\
  step F host (one_inst (IOp O_f64x2_replace_lane [AInt 1]) [num_val T_f64 0x3ff0000000000000; vec 64 [7; 8]]) =
    (Ok tt, moved_on (one_inst (IOp O_f64x2_replace_lane [AInt 1]) []) [vec 64 [7; 0x3ff0000000000000]]).
Proof. repeat split; vm_compute; reflexivity. Qed.

(* C57: the lanes of one half, sign- or zero-extended to twice the width *)
Theorem C57_extend : forall F host m o args fr M sg high va V,
  about_to_run m (IOp o args) fr -> extend_op o = Some (M, sg, high) ->
  k_value m = va :: V -> val_wf va ->
  step F host m = (Ok tt, moved_on m (vec (2 * M) (map (fun a => unsgn (2 * M) (as_int M sg a)) (half high (vlanes M va))) :: V)).
Proof. exact extend_step. Qed.
Print Assumptions C57_extend.

(* full products of the lanes of one half *)
Theorem C57_extmul : forall F host m o args fr M sg high va vb V,
  about_to_run m (IOp o args) fr -> extmul_op o = Some (M, sg, high) ->
  k_value m = vb :: va :: V -> val_wf va -> val_wf vb ->
  step F host m = (Ok tt, moved_on m (vec (2 * M) (map2 (fun a b => unsgn (2 * M) (as_int M sg a * as_int M sg b)) (half high (vlanes M va)) (half high (vlanes M vb))) :: V)).
Proof. exact extmul_step. Qed.
Print Assumptions C57_extmul.

(* sums of neighbouring lanes *)
Theorem C57_extadd_pairwise : forall F host m o args fr M sg va V,
  about_to_run m (IOp o args) fr -> pairwise_op o = Some (M, sg) ->
  k_value m = va :: V -> val_wf va ->
  step F host m = (Ok tt, moved_on m (vec (2 * M) (map (unsgn (2 * M)) (pair_sums (map (as_int M sg) (vlanes M va)))) :: V)).
Proof. exact extadd_pairwise_step. Qed.
Print Assumptions C57_extadd_pairwise.


Theorem C57_dot_product : forall F host m args fr va vb V,
  about_to_run m (IOp O_i32x4_dot_i16x8_s args) fr ->
  k_value m = vb :: va :: V -> val_wf va -> val_wf vb ->
  step F host m = (Ok tt, moved_on m (vec 32 (map (unsgn 32) (pair_sums (map2 (fun a b => sgn 16 a * sgn 16 b) (vlanes 16 va) (vlanes 16 vb)))) :: V)).
Proof. exact dot_product_step. Qed.
Print Assumptions C57_dot_product.

(* the lanes of both operands, clamped to the range of half the width *)
Theorem C57_narrow : forall F host m o args fr N sg va vb V,
  about_to_run m (IOp o args) fr -> narrow_op o = Some (N, sg) ->
  k_value m = vb :: va :: V -> val_wf va -> val_wf vb ->
  step F host m = (Ok tt, moved_on m (vec N (map (fun a => sat N sg (sgn (2 * N) a)) (vlanes (2 * N) va ++ vlanes (2 * N) vb)) :: V)).
Proof. exact narrow_step. Qed.
Print Assumptions C57_narrow.

Example C57_example F host :
  step F host (one_inst (IOp O_i32x4_dot_i16x8_s []) [vec 16 (repeat 0x8000 8); vec 16 (repeat 0x8000 8)]) =
    (Ok tt, moved_on (one_inst (IOp O_i32x4_dot_i16x8_s []) []) [vec 32 (repeat (2 ^ 31) 4)]) /\
  step F host (one_inst (IOp O_i16x8_narrow_i32x4_u []) [vec 32 [5; 2 ^ 32 - 5; 70000; 1]; vec 32 [0; 1; 2; 3]]) =
    (Ok tt, moved_on (one_inst (IOp O_i16x8_narrow_i32x4_u []) []) [vec 16 [0; 1; 2; 3; 5; 0; 65535; 1]]) /\
  step F host (one_inst (IOp O_i64x2_extend_high_i32x4_s []) [vec 32 [0; 1; 2; 2 ^ 32 - 3]]) =
    (Ok tt, moved_on (one_inst (IOp O_i64x2_extend_high_i32x4_s []) []) [vec 64 [2; 2 ^ 64 - 3]]).
Proof. repeat split; vm_compute; reflexivity. Qed.

(* C58: bitwise operators on all 128 bits *)
Theorem C58_logic : forall F host m o args fr f va vb V,
  about_to_run m (IOp o args) fr -> logic_op o = Some f ->
  k_value m = vb :: va :: V -> val_wf va -> val_wf vb ->
  step F host m = (Ok tt, moved_on m (num_val T_v128 (f (low 128 va) (low 128 vb)) :: V)).
Proof. exact logic_step. Qed.
Print Assumptions C58_logic.


Theorem C58_not : forall F host m args fr va V,
  about_to_run m (IOp O_v128_not args) fr ->
  k_value m = va :: V -> val_wf va ->
  step F host m = (Ok tt, moved_on m (num_val T_v128 (2 ^ 128 - 1 - low 128 va) :: V)).
Proof. exact not_step. Qed.
Print Assumptions C58_not.

(* a where the mask is set, b elsewhere *)
Theorem C58_bitselect : forall F host m args fr va vb vc V,
  about_to_run m (IOp O_v128_bitselect args) fr ->
  k_value m = vc :: vb :: va :: V -> val_wf va -> val_wf vb -> val_wf vc ->
  step F host m = (Ok tt, moved_on m (num_val T_v128 (Z.lor (Z.land (low 128 va) (low 128 vc)) (Z.ldiff (low 128 vb) (low 128 vc))) :: V)).
Proof. exact bitselect_step. Qed.
Print Assumptions C58_bitselect.


Theorem C58_any_true : forall F host m args fr va V,
  about_to_run m (IOp O_v128_any_true args) fr ->
  k_value m = va :: V -> val_wf va ->
  step F host m = (Ok tt, moved_on m (num_val T_i32 (truth (negb (low 128 va =? 0))) :: V)).
Proof. exact any_true_step. Qed.
Print Assumptions C58_any_true.


Theorem C58_all_true : forall F host m o args fr N va V,
  about_to_run m (IOp o args) fr -> all_true_op o = Some N ->
  k_value m = va :: V -> val_wf va ->
  step F host m = (Ok tt, moved_on m (num_val T_i32 (truth (forallb (fun a => negb (a =? 0)) (vlanes N va))) :: V)).
Proof. exact all_true_step. Qed.
Print Assumptions C58_all_true.

(* the top bits of the lanes, lane 0 lowest *)
Theorem C58_bitmask : forall F host m o args fr N va V,
  about_to_run m (IOp o args) fr -> bitmask_op o = Some N ->
  k_value m = va :: V -> val_wf va ->
  step F host m = (Ok tt, moved_on m (num_val T_i32 (join 1 (map (fun a => a / 2 ^ (N - 1)) (vlanes N va))) :: V)).
Proof. exact bitmask_step. Qed.
Print Assumptions C58_bitmask.

Example C58_example F host :
  step F host (one_inst (IOp O_v128_bitselect []) [vec 64 [0xff; 0xf0]; vec 64 [0x1234; 0x5678]; vec 64 [0xabcd; 0xef01]]) =
    (Ok tt, moved_on (one_inst (IOp O_v128_bitselect []) []) [vec 64 [0x12cd; 0x5608]]) /\
  step F host (one_inst (IOp O_i32x4_bitmask []) [vec 32 [2 ^ 31; 1; 2 ^ 32 - 1; 2 ^ 31 + 7]]) =
    (Ok tt, moved_on (one_inst (IOp O_i32x4_bitmask []) []) [num_val T_i32 13]) /\
  step F host (one_inst (IOp O_i32x4_all_true []) [vec 32 [1; 0; 1; 1]]) =
    (Ok tt, moved_on (one_inst (IOp O_i32x4_all_true []) []) [num_val T_i32 0]).
Proof. repeat split; vm_compute; reflexivity. Qed.
