(* The vector lemmas as statements about one step of the machine. *)
From Coq Require Import ZArith List Bool Lia ZifyBool ZifyNat.
From Verif Require Import Py Arith Floatops Val Opcode Numeric Syntax Store Basic Machine SpecInt SpecNum SpecMachine SpecMem SpecSimd.
From Verif Require Import PyFacts ArithFacts ValFacts LaneFacts StepFacts NumFacts SimdFacts SimdMoveFacts SimdWideFacts.
Import ListNotations.
Open Scope Z_scope.

Lemma step1 F host m o args fr va V r g : about_to_run m (IOp o args) fr -> num_op F o = Some (N1 g) -> k_value m = va :: V ->
  g args va = Ok r -> step F host m = (Ok tt, moved_on m (r :: V)).
Proof. intros H Hg Hv E. rewrite (step_num1 F host m o args fr g va V H Hg Hv), E. reflexivity. Qed.
Lemma step2 F host m o args fr va vb V r g : about_to_run m (IOp o args) fr -> num_op F o = Some (N2 g) -> k_value m = vb :: va :: V ->
  g args va vb = Ok r -> step F host m = (Ok tt, moved_on m (r :: V)).
Proof. intros H Hg Hv E. rewrite (step_num2 F host m o args fr g va vb V H Hg Hv), E. reflexivity. Qed.
Lemma step3 F host m o args fr va vb vc V r g : about_to_run m (IOp o args) fr -> num_op F o = Some (N3 g) -> k_value m = vc :: vb :: va :: V ->
  g args va vb vc = Ok r -> step F host m = (Ok tt, moved_on m (r :: V)).
Proof. intros H Hg Hv E. rewrite (step_num3 F host m o args fr g va vb vc V H Hg Hv), E. reflexivity. Qed.

(* a vector has the lanes it was made of *)
Lemma vlanes_vec N l : N = 8 \/ N = 16 \/ N = 32 \/ N = 64 -> len l = 128 / N -> Forall (urange N) l -> vlanes N (vec N l) = l.
Proof.
  intros HN L R. unfold vlanes, vec. replace (Z.to_nat (128 / N)) with (length l) by (unfold len in L; lia).
  assert (E : low 128 (num_val T_v128 (join N l)) = join N l).
  { unfold low, num_val, uval. cbn [v_data]. rewrite le_of_to_le. change (8 * Z.of_nat 16) with 128. 
    pose proof (join_range N l ltac:(lia) R) as J. rewrite L in J. unfold urange in J.
    replace (N * (128 / N)) with 128 in J by (destruct HN as [->|[->|[->| ->]]]; reflexivity).
    rewrite !(Z.mod_small (join N l)) by exact J. reflexivity. }
  rewrite E. apply lanes_join; [lia|exact R].
Qed.

Lemma lane_unary_step : forall F host m o args fr N f va V,
  about_to_run m (IOp o args) fr -> lane_unop o = Some (N, f) ->
  k_value m = va :: V -> val_wf va ->
  step F host m = (Ok tt, moved_on m (vec N (map f (vlanes N va)) :: V)).
Proof.
  intros * H Ho Hv Wva. destruct (lane_unop_ok F o N f Ho) as (g & Hg & E).
  exact (step1 F host m o args fr va V _ g H Hg Hv (E args va Wva)).
Qed.

Lemma lane_binary_step : forall F host m o args fr N f va vb V,
  about_to_run m (IOp o args) fr -> lane_binop o = Some (N, f) ->
  k_value m = vb :: va :: V -> val_wf va -> val_wf vb ->
  step F host m = (Ok tt, moved_on m (vec N (map2 f (vlanes N va) (vlanes N vb)) :: V)).
Proof.
  intros * H Ho Hv Wva Wvb. destruct (lane_binop_ok F o N f Ho) as (g & Hg & E).
  exact (step2 F host m o args fr va vb V _ g H Hg Hv (E args va vb Wva Wvb)).
Qed.

Lemma lane_shifts_step : forall F host m o args fr N f va vb V,
  about_to_run m (IOp o args) fr -> lane_shift o = Some (N, f) ->
  k_value m = vb :: va :: V -> val_wf va -> val_wf vb ->
  step F host m = (Ok tt, moved_on m (vec N (map (fun a => f a (low 32 vb)) (vlanes N va)) :: V)).
Proof.
  intros * H Ho Hv Wva Wvb. destruct (lane_shift_ok F o N f Ho) as (g & Hg & E).
  exact (step2 F host m o args fr va vb V _ g H Hg Hv (E args va vb Wva Wvb)).
Qed.

Lemma lane_comparisons_step : forall F host m o args fr N f va vb V,
  about_to_run m (IOp o args) fr -> lane_relop o = Some (N, f) ->
  k_value m = vb :: va :: V -> val_wf va -> val_wf vb ->
  step F host m = (Ok tt, moved_on m (vec N (map2 (fun a b => all_ones N (f a b)) (vlanes N va) (vlanes N vb)) :: V)).
Proof.
  intros * H Ho Hv Wva Wvb. destruct (lane_relop_ok F o N f Ho) as (g & Hg & E).
  exact (step2 F host m o args fr va vb V _ g H Hg Hv (E args va vb Wva Wvb)).
Qed.

Lemma splat_step : forall F host m o args fr N va V,
  about_to_run m (IOp o args) fr -> splat_op o = Some N ->
  k_value m = va :: V -> val_wf va ->
  step F host m = (Ok tt, moved_on m (vec N (repeat (low N va) (Z.to_nat (128 / N))) :: V)).
Proof.
  intros * H Ho Hv Wva. destruct (splat_ok F o N Ho) as (g & Hg & E).
  exact (step1 F host m o args fr va V _ g H Hg Hv (E args va Wva)).
Qed.

Lemma extract_lane_step : forall F host m o fr N t f k va V,
  about_to_run m (IOp o [AInt k]) fr -> extract_op o = Some (N, t, f) -> 0 <= k < 128 / N ->
  k_value m = va :: V -> val_wf va ->
  step F host m = (Ok tt, moved_on m (num_val t (f (nth_lane (vlanes N va) k)) :: V)).
Proof.
  intros * H Ho Hp Hv Wva. destruct (extract_ok F o N t f k Ho Hp) as (g & Hg & E).
  exact (step1 F host m o [AInt k] fr va V _ g H Hg Hv (E va Wva)).
Qed.

Lemma replace_lane_step : forall F host m o fr N k va vb V,
  about_to_run m (IOp o [AInt k]) fr -> replace_op o = Some N -> 0 <= k < 128 / N ->
  k_value m = vb :: va :: V -> val_wf va -> val_wf vb ->
  step F host m = (Ok tt, moved_on m (vec N (put_lane k (low N vb) (vlanes N va)) :: V)).
Proof.
  intros * H Ho Hp Hv Wva Wvb. destruct (replace_ok F o N k Ho Hp) as (g & Hg & E).
  exact (step2 F host m o [AInt k] fr va vb V _ g H Hg Hv (E va vb Wva Wvb)).
Qed.

Lemma shuffle_step : forall F host m fr ks va vb V,
  about_to_run m (IOp O_i8x16_shuffle (map AInt ks)) fr -> length ks = 16%nat -> Forall (fun k => 0 <= k < 32) ks ->
  k_value m = vb :: va :: V -> val_wf va -> val_wf vb ->
  step F host m = (Ok tt, moved_on m (vec 8 (map (nth_lane (vlanes 8 va ++ vlanes 8 vb)) ks) :: V)).
Proof.
  intros * H Ho Hp Hv Wva Wvb. destruct (shuffle_ok F ks Ho Hp) as (g & Hg & E).
  exact (step2 F host m O_i8x16_shuffle (map AInt ks) fr va vb V _ g H Hg Hv (E va vb Wva Wvb)).
Qed.

Lemma swizzle_step : forall F host m args fr va vb V,
  about_to_run m (IOp O_i8x16_swizzle args) fr ->
  k_value m = vb :: va :: V -> val_wf va -> val_wf vb ->
  step F host m = (Ok tt, moved_on m (vec 8 (map (fun k => if k <? 16 then nth_lane (vlanes 8 va) k else 0) (vlanes 8 vb)) :: V)).
Proof.
  intros * H  Hv Wva Wvb. destruct (swizzle_ok F ) as (g & Hg & E).
  exact (step2 F host m O_i8x16_swizzle args fr va vb V _ g H Hg Hv (E args va vb Wva Wvb)).
Qed.

Lemma extend_step : forall F host m o args fr M sg high va V,
  about_to_run m (IOp o args) fr -> extend_op o = Some (M, sg, high) ->
  k_value m = va :: V -> val_wf va ->
  step F host m = (Ok tt, moved_on m (vec (2 * M) (map (fun a => unsgn (2 * M) (as_int M sg a)) (half high (vlanes M va))) :: V)).
Proof.
  intros * H Ho Hv Wva. destruct (extend_ok F o M sg high Ho) as (g & Hg & E).
  exact (step1 F host m o args fr va V _ g H Hg Hv (E args va Wva)).
Qed.

Lemma extmul_step : forall F host m o args fr M sg high va vb V,
  about_to_run m (IOp o args) fr -> extmul_op o = Some (M, sg, high) ->
  k_value m = vb :: va :: V -> val_wf va -> val_wf vb ->
  step F host m = (Ok tt, moved_on m (vec (2 * M) (map2 (fun a b => unsgn (2 * M) (as_int M sg a * as_int M sg b)) (half high (vlanes M va)) (half high (vlanes M vb))) :: V)).
Proof.
  intros * H Ho Hv Wva Wvb. destruct (extmul_ok F o M sg high Ho) as (g & Hg & E).
  exact (step2 F host m o args fr va vb V _ g H Hg Hv (E args va vb Wva Wvb)).
Qed.

Lemma extadd_pairwise_step : forall F host m o args fr M sg va V,
  about_to_run m (IOp o args) fr -> pairwise_op o = Some (M, sg) ->
  k_value m = va :: V -> val_wf va ->
  step F host m = (Ok tt, moved_on m (vec (2 * M) (map (unsgn (2 * M)) (pair_sums (map (as_int M sg) (vlanes M va)))) :: V)).
Proof.
  intros * H Ho Hv Wva. destruct (pairwise_ok F o M sg Ho) as (g & Hg & E).
  exact (step1 F host m o args fr va V _ g H Hg Hv (E args va Wva)).
Qed.

Lemma dot_product_step : forall F host m args fr va vb V,
  about_to_run m (IOp O_i32x4_dot_i16x8_s args) fr ->
  k_value m = vb :: va :: V -> val_wf va -> val_wf vb ->
  step F host m = (Ok tt, moved_on m (vec 32 (map (unsgn 32) (pair_sums (map2 (fun a b => sgn 16 a * sgn 16 b) (vlanes 16 va) (vlanes 16 vb)))) :: V)).
Proof.
  intros * H  Hv Wva Wvb. destruct (dot_ok F ) as (g & Hg & E).
  exact (step2 F host m O_i32x4_dot_i16x8_s args fr va vb V _ g H Hg Hv (E args va vb Wva Wvb)).
Qed.

Lemma narrow_step : forall F host m o args fr N sg va vb V,
  about_to_run m (IOp o args) fr -> narrow_op o = Some (N, sg) ->
  k_value m = vb :: va :: V -> val_wf va -> val_wf vb ->
  step F host m = (Ok tt, moved_on m (vec N (map (fun a => sat N sg (sgn (2 * N) a)) (vlanes (2 * N) va ++ vlanes (2 * N) vb)) :: V)).
Proof.
  intros * H Ho Hv Wva Wvb. destruct (narrow_ok F o N sg Ho) as (g & Hg & E).
  exact (step2 F host m o args fr va vb V _ g H Hg Hv (E args va vb Wva Wvb)).
Qed.

Lemma logic_step : forall F host m o args fr f va vb V,
  about_to_run m (IOp o args) fr -> logic_op o = Some f ->
  k_value m = vb :: va :: V -> val_wf va -> val_wf vb ->
  step F host m = (Ok tt, moved_on m (num_val T_v128 (f (low 128 va) (low 128 vb)) :: V)).
Proof.
  intros * H Ho Hv Wva Wvb. destruct (logic_ok F o f Ho) as (g & Hg & E).
  exact (step2 F host m o args fr va vb V _ g H Hg Hv (E args va vb Wva Wvb)).
Qed.

Lemma not_step : forall F host m args fr va V,
  about_to_run m (IOp O_v128_not args) fr ->
  k_value m = va :: V -> val_wf va ->
  step F host m = (Ok tt, moved_on m (num_val T_v128 (2 ^ 128 - 1 - low 128 va) :: V)).
Proof.
  intros * H  Hv Wva. destruct (not_ok F ) as (g & Hg & E).
  exact (step1 F host m O_v128_not args fr va V _ g H Hg Hv (E args va Wva)).
Qed.

Lemma bitselect_step : forall F host m args fr va vb vc V,
  about_to_run m (IOp O_v128_bitselect args) fr ->
  k_value m = vc :: vb :: va :: V -> val_wf va -> val_wf vb -> val_wf vc ->
  step F host m = (Ok tt, moved_on m (num_val T_v128 (Z.lor (Z.land (low 128 va) (low 128 vc)) (Z.ldiff (low 128 vb) (low 128 vc))) :: V)).
Proof.
  intros * H  Hv Wva Wvb Wvc. destruct (bitselect_ok F ) as (g & Hg & E).
  exact (step3 F host m O_v128_bitselect args fr va vb vc V _ g H Hg Hv (E args va vb vc Wva Wvb Wvc)).
Qed.

Lemma any_true_step : forall F host m args fr va V,
  about_to_run m (IOp O_v128_any_true args) fr ->
  k_value m = va :: V -> val_wf va ->
  step F host m = (Ok tt, moved_on m (num_val T_i32 (truth (negb (low 128 va =? 0))) :: V)).
Proof.
  intros * H  Hv Wva. destruct (any_true_ok F ) as (g & Hg & E).
  exact (step1 F host m O_v128_any_true args fr va V _ g H Hg Hv (E args va Wva)).
Qed.

Lemma all_true_step : forall F host m o args fr N va V,
  about_to_run m (IOp o args) fr -> all_true_op o = Some N ->
  k_value m = va :: V -> val_wf va ->
  step F host m = (Ok tt, moved_on m (num_val T_i32 (truth (forallb (fun a => negb (a =? 0)) (vlanes N va))) :: V)).
Proof.
  intros * H Ho Hv Wva. destruct (all_true_ok F o N Ho) as (g & Hg & E).
  exact (step1 F host m o args fr va V _ g H Hg Hv (E args va Wva)).
Qed.

Lemma bitmask_step : forall F host m o args fr N va V,
  about_to_run m (IOp o args) fr -> bitmask_op o = Some N ->
  k_value m = va :: V -> val_wf va ->
  step F host m = (Ok tt, moved_on m (num_val T_i32 (join 1 (map (fun a => a / 2 ^ (N - 1)) (vlanes N va))) :: V)).
Proof.
  intros * H Ho Hv Wva. destruct (bitmask_ok F o N Ho) as (g & Hg & E).
  exact (step1 F host m o args fr va V _ g H Hg Hv (E args va Wva)).
Qed.
