(* Lemmas for the float vector instructions. *)
From Coq Require Import ZArith List Bool Lia Reals ZifyBool ZifyNat.
From Flocq Require Import Core IEEE754.BinarySingleNaN IEEE754.Binary IEEE754.Bits.
From Verif Require Import Py Arith Floatops Val Opcode Numeric Syntax Store Basic Machine SpecInt SpecNum SpecMachine SpecMem SpecSimd.
From Verif Require Import PyFacts ArithFacts ValFacts LaneFacts StepFacts NumFacts SimdFacts SimdStepFacts.
From Verif Require Import Float SpecIeee IeeeFacts FloatFacts FloatOpFacts FloatArithFacts FloatConvFacts FloatSignFacts SpecVecFloat.
Import ListNotations.
Open Scope Z_scope.

(* ---- reading and writing float lanes ---- *)
Lemma into_f32_lanes v : val_wf v -> into_v128_f32 ieee v = Ok (map ieee_of32 (vlanes 32 v)).
Proof.
  intros W. pose proof (into_sg_ok false 4 v ltac:(right; right; left; reflexivity) W) as E.
  rewrite map_as_int_u in E. unfold into_v128_f32. change (into_lanes u_from_bytearray 4 v) with (into_sg false 4 v).
  rewrite E. reflexivity.
Qed.
Lemma into_f64_lanes v : val_wf v -> into_v128_f64 v = Ok (vlanes 64 v).
Proof.
  intros W. pose proof (into_sg_ok false 8 v ltac:(right; right; right; reflexivity) W) as E.
  rewrite map_as_int_u in E. exact E.
Qed.
Lemma vec_made (w : Z) (r : list Z) : width_ok w -> len r = 16 / w -> Forall (urange (8 * w)) r ->
  mk_val T_v128 (concat (map (to_le (Z.to_nat w)) r) ++ zeros (blen - 16)) = Ok (vec (8 * w) r).
Proof.
  intros Hw Hl R. destruct (width_pos w Hw) as (W1 & W2 & W3 & W4).
  rewrite (concat_lanes w r); [|lia|rewrite Hl; exact W2|exact R]. unfold mk_val, vec, num_val.
  change (zeros (blen - 16)) with (@nil Z). rewrite app_nil_r. unfold len. rewrite to_le_length. reflexivity.
Qed.
Lemma to32_all l : Forall (urange 32) (map ieee_to32 l).
Proof. apply Forall_forall. intros x Hx. apply in_map_iff in Hx as (y & <- & _). apply to32_range. Qed.
Lemma from_f32_lanes l : len l = 4 -> from_v128_f32 ieee l = Ok (vec 32 (map ieee_to32 l)).
Proof.
  intros L. unfold from_v128_f32. rewrite L. cbn [Z.eqb Pos.eqb py_assert rbind f_to32 ieee].
  rewrite <- (vec_made 4); [|right; right; left; reflexivity|unfold len in *; rewrite map_length; exact L|apply to32_all].
  rewrite map_map. reflexivity.
Qed.
Lemma from_f64_lanes l : len l = 2 -> Forall (urange 64) l -> from_v128_f64 l = Ok (vec 64 l).
Proof.
  intros L R. unfold from_v128_f64. rewrite L. cbn [Z.eqb Pos.eqb py_assert rbind].
  apply (vec_made 8); [right; right; right; reflexivity|exact L|exact R].
Qed.

(* ---- lists ---- *)
Lemma map2_map {A B C} (f : B -> B -> C) (g : A -> B) la lb : map2 f (map g la) (map g lb) = map2 (fun a b => f (g a) (g b)) la lb.
Proof. revert lb. induction la as [|a la IH]; intros [|b lb]; cbn [map map2]; try reflexivity. f_equal. apply IH. Qed.
Lemma map_map2 {A B C D} (h : C -> D) (f : A -> B -> C) la lb : map h (map2 f la lb) = map2 (fun a b => h (f a b)) la lb.
Proof. revert lb. induction la as [|a la IH]; intros [|b lb]; cbn [map map2]; try reflexivity. f_equal. apply IH. Qed.
Lemma lanes2_map2 f (a b : list Z) n : n = len a -> len a = len b -> lanes2 0 n (fun x y => Ok (f x y)) a b = Ok (map2 f a b).
Proof.
  intros -> L. rewrite lanes2_combine by (unfold len in *; lia). rewrite Z.sub_0_r. cbn [Z.to_nat skipn].
  unfold len in *. rewrite Nat2Z.id. rewrite firstn_all2 by (rewrite combine_length; lia).
  assert (L' : length a = length b) by lia. clear L. revert b L'.
  induction a as [|x a IH]; intros [|y b] L; try discriminate; cbn [combine rmapl map2 fst snd]; [reflexivity|].
  cbn [rbind]. rewrite IH by (cbn in L; lia). reflexivity.
Qed.
Lemma lanes32_len v : length (vlanes 32 v) = 4%nat.
Proof. unfold vlanes. now rewrite lanes_length. Qed.
Lemma lanes64_len v : length (vlanes 64 v) = 2%nat.
Proof. unfold vlanes. now rewrite lanes_length. Qed.
Lemma lane_range N v k : 0 <= N -> (k < length (vlanes N v))%nat -> urange N (nth k (vlanes N v) 0).
Proof. intros HN Hk. pose proof (vlanes_urange N v HN) as R. rewrite Forall_forall in R. apply R, nth_In, Hk. Qed.
Lemma map2_in {A B C} (f : A -> B -> C) la lb x : In x (map2 f la lb) -> exists a b, In a la /\ In b lb /\ x = f a b.
Proof.
  revert lb. induction la as [|a la IH]; intros [|b lb] H; cbn [map2] in H; try contradiction.
  destruct H as [<-|H]; [exists a, b; cbn; auto|]. destruct (IH lb H) as (a' & b' & Ha & Hb & E).
  exists a', b'. cbn. auto.
Qed.

(* ---- one step ---- *)
Lemma vec2_32 host m o args fr va vb V f (P : Z -> Z -> Z -> Prop) :
  about_to_run m (IOp o args) fr -> k_value m = vb :: va :: V -> val_wf va -> val_wf vb ->
  num_op ieee o = Some (op2 (into_v128_f32 ieee) (into_v128_f32 ieee)
    (fun _ a b => lanes2 0 4 (fun a_i b_i => Ok (f a_i b_i)) a b) (from_v128_f32 ieee)) ->
  (forall k, (k < 4)%nat -> P (nth k (vlanes 32 va) 0) (nth k (vlanes 32 vb) 0)
     (ieee_to32 (f (ieee_of32 (nth k (vlanes 32 va) 0)) (ieee_of32 (nth k (vlanes 32 vb) 0))))) ->
  pushes_lanes 32 (step ieee host m) (moved_on m) V (each2 P (vlanes 32 va) (vlanes 32 vb)).
Proof.
  intros H Hv Wa Wb Ho HP. set (la := vlanes 32 va) in *. set (lb := vlanes 32 vb) in *.
  pose proof (lanes32_len va) as La. pose proof (lanes32_len vb) as Lb. fold la in La. fold lb in Lb.
  set (h := fun a b => ieee_to32 (f (ieee_of32 a) (ieee_of32 b))) in *.
  assert (Lm : length (map2 h la lb) = 4%nat) by (rewrite map2_length; lia).
  exists (map2 h la lb). split; [unfold len; rewrite Lm; reflexivity|]. split.
  { apply Forall_forall. intros x Hx. apply map2_in in Hx as (a & b & _ & _ & ->). apply to32_range. }
  split.
  - apply (step2 ieee host m o args fr va vb V _ _ H Ho Hv). rewrite !into_f32_lanes by assumption. fold la lb. cbn [rbind].
    rewrite lanes2_map2 by (unfold len; rewrite !map_length; lia). cbn [rbind].
    rewrite from_f32_lanes by (unfold len; rewrite map2_length; rewrite !map_length; lia).
    rewrite map2_map, map_map2. reflexivity.
  - split; [lia|]. split; [lia|]. intros k Hk. rewrite Lm in Hk. rewrite nth_map2 by lia. apply HP, Hk.
Qed.
Lemma vec2_64 host m o args fr va vb V f (P : Z -> Z -> Z -> Prop) :
  about_to_run m (IOp o args) fr -> k_value m = vb :: va :: V -> val_wf va -> val_wf vb ->
  num_op ieee o = Some (op2 into_v128_f64 into_v128_f64
    (fun _ a b => lanes2 0 2 (fun a_i b_i => Ok (f a_i b_i)) a b) from_v128_f64) ->
  (forall x y, urange 64 x -> urange 64 y -> urange 64 (f x y)) ->
  (forall k, (k < 2)%nat -> P (nth k (vlanes 64 va) 0) (nth k (vlanes 64 vb) 0)
     (f (nth k (vlanes 64 va) 0) (nth k (vlanes 64 vb) 0))) ->
  pushes_lanes 64 (step ieee host m) (moved_on m) V (each2 P (vlanes 64 va) (vlanes 64 vb)).
Proof.
  intros H Hv Wa Wb Ho HR HP.
  pose proof (vlanes_urange 64 va ltac:(lia)) as Ra. pose proof (vlanes_urange 64 vb ltac:(lia)) as Rb.
  set (la := vlanes 64 va) in *. set (lb := vlanes 64 vb) in *.
  pose proof (lanes64_len va) as La. pose proof (lanes64_len vb) as Lb. fold la in La. fold lb in Lb.
  assert (Lm : length (map2 f la lb) = 2%nat) by (rewrite map2_length; lia).
  assert (R : Forall (urange 64) (map2 f la lb)).
  { apply Forall_forall. intros x Hx. apply map2_in in Hx as (a & b & Ia & Ib & ->). rewrite Forall_forall in Ra, Rb. auto. }
  exists (map2 f la lb). split; [unfold len; rewrite Lm; reflexivity|]. split; [exact R|]. split.
  - apply (step2 ieee host m o args fr va vb V _ _ H Ho Hv). rewrite !into_f64_lanes by assumption. fold la lb. cbn [rbind].
    rewrite lanes2_map2 by (unfold len; lia). cbn [rbind].
    rewrite from_f64_lanes; [reflexivity|unfold len; lia|exact R].
  - split; [lia|]. split; [lia|]. intros k Hk. rewrite Lm in Hk. rewrite nth_map2 by lia. apply HP, Hk.
Qed.
Lemma rmapl_pick {A B} (f : A -> res B) (h : A -> B) l : (forall x, In x l -> f x = Ok (h x)) -> rmapl f l = Ok (map h l).
Proof.
  induction l as [|x l IH]; intros H; cbn [rmapl map]; [reflexivity|].
  rewrite (H x) by (left; reflexivity). cbn [rbind]. rewrite IH by (intros y Hy; apply H; right; exact Hy). reflexivity.
Qed.
Lemma rmapl_all {A B} (f : A -> res B) (Q : A -> B -> Prop) l : (forall x, In x l -> exists y, f x = Ok y /\ Q x y) ->
  exists r, rmapl f l = Ok r /\ Forall2 Q l r.
Proof.
  induction l as [|x l IH]; intros H; [exists []; split; [reflexivity|constructor]|].
  destruct (H x (or_introl eq_refl)) as (y & E & Hy). destruct IH as (r & Er & Hr); [intros z Hz; apply H; right; exact Hz|].
  exists (y :: r). cbn [rmapl]. rewrite E, Er. split; [reflexivity|constructor; assumption].
Qed.
Lemma forall2_each {Q : Z -> Z -> Prop} l r : Forall2 Q l r -> each1 Q l r.
Proof.
  induction 1 as [|x y l r Hxy HF IH]; [split; [reflexivity|cbn; lia]|]. destruct IH as [L IH]. split; [cbn; lia|].
  intros [|k] Hk; cbn [nth]; [exact Hxy|]. apply IH. cbn in Hk. lia.
Qed.
Lemma forall2_in_range {Q : Z -> Z -> Prop} N l r : Forall2 (fun x y => urange N y /\ Q x y) l r -> Forall (urange N) r.
Proof. induction 1 as [|x y l r [Hy _] HF IH]; constructor; assumption. Qed.
Lemma each1_weaken (Q P : Z -> Z -> Prop) l r : (forall x y, Q x y -> P x y) -> each1 Q l r -> each1 P l r.
Proof. intros H [L E]. split; [exact L|]. auto. Qed.
Lemma forall2_len {A B} (Q : A -> B -> Prop) l r : Forall2 Q l r -> length l = length r.
Proof. induction 1; cbn; congruence. Qed.
Lemma forall2_map {A B C} (Q : A -> C -> Prop) (h : B -> C) (l : list A) r : Forall2 (fun x y => Q x (h y)) l r -> Forall2 Q l (map h r).
Proof. induction 1; cbn [map]; constructor; assumption. Qed.

Lemma vec1_32 host m o args fr va V g (P : Z -> Z -> Prop) :
  about_to_run m (IOp o args) fr -> k_value m = va :: V -> val_wf va ->
  num_op ieee o = Some (op1 (into_v128_f32 ieee) (fun _ a => rmapl g a) (from_v128_f32 ieee)) ->
  (forall x, urange 32 x -> exists z, g (ieee_of32 x) = Ok z /\ P x (ieee_to32 z)) ->
  pushes_lanes 32 (step ieee host m) (moved_on m) V (each1 P (vlanes 32 va)).
Proof.
  intros H Hv Wa Ho HP. pose proof (vlanes_urange 32 va ltac:(lia)) as Ra. rewrite Forall_forall in Ra.
  destruct (rmapl_all (fun x => g (ieee_of32 x)) (fun x z => P x (ieee_to32 z)) (vlanes 32 va)) as (r & Er & Fr); [auto|].
  pose proof (forall2_len _ _ _ Fr) as L. rewrite lanes32_len in L.
  exists (map ieee_to32 r). split; [unfold len; rewrite map_length, <- L; reflexivity|]. split; [apply to32_all|]. split.
  - apply (step1 ieee host m o args fr va V _ _ H Ho Hv). rewrite into_f32_lanes by exact Wa. cbn [rbind].
    rewrite rmapl_map, Er. cbn [rbind]. apply from_f32_lanes. unfold len. lia.
  - apply forall2_each, forall2_map, Fr.
Qed.
Lemma vec1_64 host m o args fr va V g (P : Z -> Z -> Prop) :
  about_to_run m (IOp o args) fr -> k_value m = va :: V -> val_wf va ->
  num_op ieee o = Some (op1 into_v128_f64 (fun _ a => rmapl g a) from_v128_f64) ->
  (forall x, urange 64 x -> exists z, g x = Ok z /\ urange 64 z /\ P x z) ->
  pushes_lanes 64 (step ieee host m) (moved_on m) V (each1 P (vlanes 64 va)).
Proof.
  intros H Hv Wa Ho HP. pose proof (vlanes_urange 64 va ltac:(lia)) as Ra. rewrite Forall_forall in Ra.
  destruct (rmapl_all g (fun x z => urange 64 z /\ P x z) (vlanes 64 va)) as (r & Er & Fr); [auto|].
  pose proof (forall2_len _ _ _ Fr) as L. rewrite lanes64_len in L. pose proof (forall2_in_range _ _ _ Fr) as R.
  exists r. split; [unfold len; rewrite <- L; reflexivity|]. split; [exact R|]. split.
  - apply (step1 ieee host m o args fr va V _ _ H Ho Hv). rewrite into_f64_lanes by exact Wa. cbn [rbind].
    rewrite Er. cbn [rbind]. apply from_f64_lanes; [unfold len; lia|exact R].
  - apply forall2_each in Fr. revert Fr. apply each1_weaken. tauto.
Qed.
Lemma rmapl_pure {A B} (h : A -> B) l : rmapl (fun x => Ok (h x)) l = Ok (map h l).
Proof. apply rmapl_pick. reflexivity. Qed.

(* ---- arithmetic ---- *)
Lemma op_add_32 a b : urange 32 a -> urange 32 b ->
  same_float (b32_of_bits (ieee_to32 (f_add ieee (ieee_of32 a) (ieee_of32 b)))) (b32_plus mode_NE (b32_of_bits a) (b32_of_bits b)).
Proof.
  intros Ha Hb. cbn [f_add ieee]. unfold on64.
  apply (op32_via_64 (b64_plus mode_NE)); auto using bits64_range, plus_agree, strict_plus64, strict_plus32.
  rewrite b64_bits. apply same_refl.
Qed.
Lemma op_sub_32 a b : urange 32 a -> urange 32 b ->
  same_float (b32_of_bits (ieee_to32 (f_sub ieee (ieee_of32 a) (ieee_of32 b)))) (b32_minus mode_NE (b32_of_bits a) (b32_of_bits b)).
Proof.
  intros Ha Hb. cbn [f_sub ieee]. unfold on64.
  apply (op32_via_64 (b64_minus mode_NE)); auto using bits64_range, minus_agree, strict_minus64, strict_minus32.
  rewrite b64_bits. apply same_refl.
Qed.
Lemma op_mul_32 a b : urange 32 a -> urange 32 b ->
  same_float (b32_of_bits (ieee_to32 (f_mul ieee (ieee_of32 a) (ieee_of32 b)))) (b32_mult mode_NE (b32_of_bits a) (b32_of_bits b)).
Proof.
  intros Ha Hb. cbn [f_mul ieee]. unfold on64.
  apply (op32_via_64 (b64_mult mode_NE)); auto using bits64_range, mult_agree, strict_mult64, strict_mult32.
  rewrite b64_bits. apply same_refl.
Qed.
Lemma op_div_32 a b : urange 32 a -> urange 32 b ->
  same_float (b32_of_bits (ieee_to32 (f32_div ieee (ieee_of32 a) (ieee_of32 b)))) (b32_div mode_NE (b32_of_bits a) (b32_of_bits b)).
Proof.
  intros Ha Hb. unfold f32_div, f32_fit. cbn [f_of32 f_to32 ieee]. rewrite to32_idem.
  destruct (f64_div_ok _ _ (of32_range a) (of32_range b)) as [R S].
  apply (op32_via_64 (b64_div mode_NE)); auto using div_agree, strict_div64, strict_div32.
Qed.
Lemma range32 v k : (k < 4)%nat -> urange 32 (nth k (vlanes 32 v) 0).
Proof. intros H. apply lane_range; [lia|]. now rewrite lanes32_len. Qed.
Lemma range64 v k : (k < 2)%nat -> urange 64 (nth k (vlanes 64 v) 0).
Proof. intros H. apply lane_range; [lia|]. now rewrite lanes64_len. Qed.

Lemma varith32_step host m o args fr f va vb V :
  about_to_run m (IOp o args) fr -> vec_binop32 o = Some f -> k_value m = vb :: va :: V -> val_wf va -> val_wf vb ->
  pushes_lanes 32 (step ieee host m) (moved_on m) V
    (each2 (fun a b r => same_float (b32_of_bits r) (f (b32_of_bits a) (b32_of_bits b))) (vlanes 32 va) (vlanes 32 vb)).
Proof.
  intros H Ho Hv Wa Wb. destruct o; cbn [vec_binop32] in Ho; try discriminate Ho; injection Ho as <-;
    (eapply vec2_32; [exact H|exact Hv|exact Wa|exact Wb|reflexivity|]); intros k Hk; cbn beta;
    [apply op_add_32|apply op_sub_32|apply op_mul_32|apply op_div_32]; apply range32, Hk.
Qed.
Lemma varith64_step host m o args fr f va vb V :
  about_to_run m (IOp o args) fr -> vec_binop64 o = Some f -> k_value m = vb :: va :: V -> val_wf va -> val_wf vb ->
  pushes_lanes 64 (step ieee host m) (moved_on m) V
    (each2 (fun a b r => same_float (b64_of_bits r) (f (b64_of_bits a) (b64_of_bits b))) (vlanes 64 va) (vlanes 64 vb)).
Proof.
  intros H Ho Hv Wa Wb. destruct o; cbn [vec_binop64] in Ho; try discriminate Ho; injection Ho as <-;
    (eapply vec2_64; [exact H|exact Hv|exact Wa|exact Wb|reflexivity| |]).
  1,3,5: intros x y _ _; apply bits64_range.
  4: intros x y Hx Hy; apply f64_div_ok; assumption.
  4: intros k Hk; apply f64_div_ok; apply range64, Hk.
  all: intros k Hk; cbn [f_add f_sub f_mul ieee]; unfold on64; rewrite b64_bits; apply same_refl.
Qed.
Lemma vsqrt32_step host m args fr va V :
  about_to_run m (IOp O_f32x4_sqrt args) fr -> k_value m = va :: V -> val_wf va ->
  pushes_lanes 32 (step ieee host m) (moved_on m) V
    (each1 (fun a r => same_float (b32_of_bits r) (b32_sqrt mode_NE (b32_of_bits a))) (vlanes 32 va)).
Proof.
  intros H Hv Wa. pose proof (vlanes_urange 32 va ltac:(lia)) as Ra. rewrite Forall_forall in Ra.
  set (h := fun x => ieee_to32 (fl_sqrt ieee (ieee_of32 x))). exists (map h (vlanes 32 va)).
  split; [unfold len; rewrite map_length, lanes32_len; reflexivity|]. split.
  { apply Forall_forall. intros x Hx. apply in_map_iff in Hx as (y & <- & _). apply to32_range. }
  split.
  - eapply step1; [exact H|reflexivity|exact Hv|]. cbn beta. rewrite into_f32_lanes by exact Wa. cbn [rbind].
    rewrite from_f32_lanes by (unfold len; rewrite !map_length, lanes32_len; reflexivity). rewrite !map_map. reflexivity.
  - split; [now rewrite map_length|]. intros k Hk. rewrite map_length in Hk.
    rewrite nth_indep with (d' := h 0) by (rewrite map_length; exact Hk). rewrite map_nth. apply sqrt32_ok, Ra, nth_In, Hk.
Qed.
Lemma vsqrt64_step host m args fr va V :
  about_to_run m (IOp O_f64x2_sqrt args) fr -> k_value m = va :: V -> val_wf va ->
  pushes_lanes 64 (step ieee host m) (moved_on m) V
    (each1 (fun a r => same_float (b64_of_bits r) (b64_sqrt mode_NE (b64_of_bits a))) (vlanes 64 va)).
Proof.
  intros H Hv Wa. pose proof (vlanes_urange 64 va ltac:(lia)) as Ra. rewrite Forall_forall in Ra.
  assert (R : Forall (urange 64) (map (fl_sqrt ieee) (vlanes 64 va))).
  { apply Forall_forall. intros x Hx. apply in_map_iff in Hx as (y & <- & Hy). apply fl_sqrt_ok, Ra, Hy. }
  exists (map (fl_sqrt ieee) (vlanes 64 va)). split; [unfold len; rewrite map_length, lanes64_len; reflexivity|].
  split; [exact R|]. split.
  - eapply step1; [exact H|reflexivity|exact Hv|]. cbn beta. rewrite into_f64_lanes by exact Wa. cbn [rbind].
    apply from_f64_lanes; [unfold len; rewrite map_length, lanes64_len; reflexivity|exact R].
  - split; [now rewrite map_length|]. intros k Hk. rewrite map_length in Hk.
    rewrite nth_indep with (d' := fl_sqrt ieee 0) by (rewrite map_length; exact Hk). rewrite map_nth.
    apply fl_sqrt_ok, Ra, nth_In, Hk.
Qed.

(* ---- comparison ---- *)
Lemma vrel_gen host m o args fr va vb V w (into : val -> res (list Z)) (c : Z -> Z -> bool) (g : Z -> Z) (f : Z -> Z -> bool) :
  about_to_run m (IOp o args) fr -> k_value m = vb :: va :: V -> val_wf va -> val_wf vb -> width_ok w ->
  (forall v, val_wf v -> into v = Ok (map g (vlanes (8 * w) v))) ->
  num_op ieee o = Some (op2 into into
    (fun _ a b => lanes2 0 (16 / w) (fun a_i b_i => Ok (if c a_i b_i then -1 else 0)) a b) (from_v128_i w)) ->
  (forall a b, urange (8 * w) a -> urange (8 * w) b -> c (g a) (g b) = f a b) ->
  step ieee host m = (Ok tt, moved_on m (vec (8 * w) (map2 (fun a b => all_ones (8 * w) (f a b))
    (vlanes (8 * w) va) (vlanes (8 * w) vb)) :: V)).
Proof.
  intros H Hv Wa Wb Hw Hi Ho Hc. destruct (width_pos w Hw) as (W1 & _).
  pose proof (vlanes_len w va Hw) as La. pose proof (vlanes_len w vb Hw) as Lb.
  pose proof (vlanes_urange (8 * w) va ltac:(lia)) as Ra. pose proof (vlanes_urange (8 * w) vb ltac:(lia)) as Rb.
  apply (step2 ieee host m o args fr va vb V _ _ H Ho Hv). cbn beta. rewrite !Hi by assumption. cbn [rbind].
  set (la := vlanes (8 * w) va) in *. set (lb := vlanes (8 * w) vb) in *. clearbody la lb.
  rewrite (lanes2_map2 (fun x y => if c x y then -1 else 0)) by (unfold len in *; rewrite !map_length; lia). cbn [rbind].
  rewrite map2_map. assert (L : length la = length lb) by (unfold len in *; lia).
  apply (from_sg_ok true w); [exact Hw|unfold len in *; rewrite map2_length by exact L; lia|].
  clear La Lb Hv Wa Wb H. revert lb L Rb. induction Ra as [|a la Ha Hla IH]; intros [|b lb] L Rb; try discriminate L; cbn [map2]; constructor.
  - inversion Rb; subst. rewrite Hc by assumption. apply enc_ones, W1.
  - inversion Rb; subst. apply IH; [cbn in L; lia|assumption].
Qed.
Lemma vrel_step host m o args fr N f va vb V :
  about_to_run m (IOp o args) fr -> vec_relop o = Some (N, f) -> k_value m = vb :: va :: V -> val_wf va -> val_wf vb ->
  step ieee host m = (Ok tt, moved_on m (vec N (map2 (fun a b => all_ones N (f (lane_compare N a b)))
    (vlanes N va) (vlanes N vb)) :: V)).
Proof.
  intros H Ho Hv Wa Wb.
  assert (I64 : forall v, val_wf v -> into_v128_f64 v = Ok (map (fun x => x) (vlanes 64 v))).
  { intros v W. rewrite map_id. now apply into_f64_lanes. }
  pose proof into_f32_lanes as I32.
  destruct o; cbn [vec_relop] in Ho; try discriminate Ho; injection Ho as <- <-;
    first [ change 32 with (8 * 4);
            eapply (vrel_gen host m _ args fr va vb V 4 (into_v128_f32 ieee));
              [exact H|exact Hv|exact Wa|exact Wb|right; right; left; reflexivity|exact I32|reflexivity|]
          | change 64 with (8 * 8);
            eapply (vrel_gen host m _ args fr va vb V 8 into_v128_f64);
              [exact H|exact Hv|exact Wa|exact Wb|right; right; right; reflexivity|exact I64|reflexivity|] ];
    intros a b Ha Hb; cbv beta; unfold lane_compare; change (8 * 4 =? 32) with true; change (8 * 8 =? 32) with false; cbv iota;
    first [rewrite cmp32 by assumption|rewrite cmp64 by assumption];
    rewrite ?fl_eqb_cmp, ?fl_ltb_cmp, ?fl_leb_cmp; try reflexivity;
    try (rewrite flip_cmp, swap_cmp; reflexivity); try (rewrite flip_cmp_le, swap_cmp; reflexivity);
    match goal with |- context [if ?c then None else Some ?d] => destruct (if c then None else Some d) as [[]|] end;
    reflexivity.
Qed.

(* ---- minimum and maximum ---- *)
Lemma vextremum_step host m o args fr N up va vb V :
  about_to_run m (IOp o args) fr -> vec_extremum o = Some (N, up) -> k_value m = vb :: va :: V -> val_wf va -> val_wf vb ->
  pushes_lanes N (step ieee host m) (moved_on m) V
    (each2 (fun a b r => lane_opposite N a b = false -> lane_extremum N up a b r) (vlanes N va) (vlanes N vb)).
Proof.
  intros H Ho Hv Wa Wb. destruct o; cbn [vec_extremum] in Ho; try discriminate Ho; injection Ho as <- <-;
    first [ eapply vec2_32; [exact H|exact Hv|exact Wa|exact Wb|reflexivity|]
          | eapply vec2_64; [exact H|exact Hv|exact Wa|exact Wb|reflexivity| |] ].
  - intros k Hk Oz. unfold lane_extremum. cbn [Z.eqb Pos.eqb]. unfold f32_min, f32_fit. cbn [f_of32 f_to32 ieee].
    rewrite to32_idem. apply (extremum32 false); try apply range32; assumption.
  - intros k Hk Oz. unfold lane_extremum. cbn [Z.eqb Pos.eqb]. unfold f32_max, f32_fit. cbn [f_of32 f_to32 ieee].
    rewrite to32_idem. apply (extremum32 true); try apply range32; assumption.
  - intros x y Hx Hy. destruct (pick_or false x y) as [E|E]; cbn in E; rewrite E; assumption.
  - intros k Hk Oz. apply (extremum64 false); try apply range64; assumption.
  - intros x y Hx Hy. destruct (pick_or true x y) as [E|E]; cbn in E; rewrite E; assumption.
  - intros k Hk Oz. apply (extremum64 true); try apply range64; assumption.
Qed.
Lemma pick_cmp (up : bool) a b : (if up then fl_max a b else fl_min a b) =
  match (if fl_isnan a || fl_isnan b then None else Some (fl_scaled a ?= fl_scaled b)), (if up then Lt else Gt) with
  | Some Gt, Gt | Some Lt, Lt => b | _, _ => a end.
Proof.
  destruct up; unfold fl_max, fl_min.
  - rewrite fl_ltb_cmp. destruct (if fl_isnan a || fl_isnan b then None else _) as [[]|]; reflexivity.
  - rewrite fl_ltb_cmp, flip_cmp, swap_cmp. destruct (if fl_isnan a || fl_isnan b then None else _) as [[]|]; reflexivity.
Qed.
Lemma pick_bits32 (up : bool) a b : urange 32 a -> urange 32 b ->
  is_nan 24 128 (b32_of_bits (pick_lane 32 (if up then Lt else Gt) a b)) = false ->
  ieee_to32 (if up then fl_max (ieee_of32 a) (ieee_of32 b) else fl_min (ieee_of32 a) (ieee_of32 b)) =
    pick_lane 32 (if up then Lt else Gt) a b.
Proof.
  intros Ha Hb. rewrite pick_cmp. unfold pick_lane, lane_compare. cbn [Z.eqb Pos.eqb]. rewrite cmp32 by assumption.
  destruct (if fl_isnan (ieee_of32 a) || fl_isnan (ieee_of32 b) then None else _) as [[]|], up; intros N;
    rewrite isnan32 in N by assumption; apply to32_of32; assumption.
Qed.
Lemma vpick_step host m o args fr N c va vb V :
  about_to_run m (IOp o args) fr -> vec_pick o = Some (N, c) -> k_value m = vb :: va :: V -> val_wf va -> val_wf vb ->
  pushes_lanes N (step ieee host m) (moved_on m) V
    (each2 (fun a b r => if (N =? 64) || negb (lane_nan N (pick_lane N c a b)) then r = pick_lane N c a b
                         else lane_nan N r = true) (vlanes N va) (vlanes N vb)).
Proof.
  intros H Ho Hv Wa Wb. destruct o; cbn [vec_pick] in Ho; try discriminate Ho; injection Ho as <- <-;
    first [ eapply vec2_32; [exact H|exact Hv|exact Wa|exact Wb|reflexivity|]
          | eapply vec2_64; [exact H|exact Hv|exact Wa|exact Wb|reflexivity| |] ].
  - intros k Hk. cbn [Z.eqb Pos.eqb orb]. pose proof (range32 va k Hk) as Ha. pose proof (range32 vb k Hk) as Hb.
    set (a := nth k (vlanes 32 va) 0) in *. set (b := nth k (vlanes 32 vb) 0) in *. clearbody a b.
    unfold lane_nan at 1. cbn [Z.eqb Pos.eqb]. destruct (is_nan 24 128 _) eqn:N; cbn [negb].
    + unfold lane_nan. cbn [Z.eqb Pos.eqb]. rewrite isnan32 by apply to32_range. rewrite to32_isnan.
      revert N. change (fl_min (ieee_of32 a) (ieee_of32 b)) with (if false then fl_max (ieee_of32 a) (ieee_of32 b) else fl_min (ieee_of32 a) (ieee_of32 b)).
      rewrite (pick_cmp false). unfold pick_lane, lane_compare. cbn [Z.eqb Pos.eqb]. rewrite cmp32 by assumption.
      destruct (if fl_isnan (ieee_of32 a) || fl_isnan (ieee_of32 b) then None else _) as [[]|]; intros N;
        rewrite isnan32 in N by assumption; rewrite of32_isnan by assumption; exact N.
    + apply (pick_bits32 false); assumption.
  - intros k Hk. cbn [Z.eqb Pos.eqb orb]. pose proof (range32 va k Hk) as Ha. pose proof (range32 vb k Hk) as Hb.
    set (a := nth k (vlanes 32 va) 0) in *. set (b := nth k (vlanes 32 vb) 0) in *. clearbody a b.
    unfold lane_nan at 1. cbn [Z.eqb Pos.eqb]. destruct (is_nan 24 128 _) eqn:N; cbn [negb].
    + unfold lane_nan. cbn [Z.eqb Pos.eqb]. rewrite isnan32 by apply to32_range. rewrite to32_isnan.
      revert N. change (fl_max (ieee_of32 a) (ieee_of32 b)) with (if true then fl_max (ieee_of32 a) (ieee_of32 b) else fl_min (ieee_of32 a) (ieee_of32 b)).
      rewrite (pick_cmp true). unfold pick_lane, lane_compare. cbn [Z.eqb Pos.eqb]. rewrite cmp32 by assumption.
      destruct (if fl_isnan (ieee_of32 a) || fl_isnan (ieee_of32 b) then None else _) as [[]|]; intros N;
        rewrite isnan32 in N by assumption; rewrite of32_isnan by assumption; exact N.
    + apply (pick_bits32 true); assumption.
  - intros x y Hx Hy. unfold fl_min. destruct (fl_ltb y x); assumption.
  - intros k Hk. cbn [Z.eqb Pos.eqb orb]. pose proof (range64 va k Hk) as Ha. pose proof (range64 vb k Hk) as Hb.
    rewrite (pick_cmp false). unfold pick_lane, lane_compare. cbn [Z.eqb Pos.eqb]. now rewrite cmp64 by assumption.
  - intros x y Hx Hy. unfold fl_max. destruct (fl_ltb x y); assumption.
  - intros k Hk. cbn [Z.eqb Pos.eqb orb]. pose proof (range64 va k Hk) as Ha. pose proof (range64 vb k Hk) as Hb.
    rewrite (pick_cmp true). unfold pick_lane, lane_compare. cbn [Z.eqb Pos.eqb]. now rewrite cmp64 by assumption.
Qed.

(* ---- rounding ---- *)
Lemma vintegral_step host m o args fr N md va V :
  about_to_run m (IOp o args) fr -> vec_integral o = Some (N, md) -> k_value m = va :: V -> val_wf va ->
  pushes_lanes N (step ieee host m) (moved_on m) V (each1 (lane_integral N md) (vlanes N va)).
Proof.
  intros H Ho Hv Wa. assert (Hm : md <> mode_NA) by (destruct o; try discriminate Ho; injection Ho as <- <-; discriminate).
  destruct o; cbn [vec_integral] in Ho; try discriminate Ho; injection Ho as <- <-;
    first [ eapply vec1_32; [exact H|exact Hv|exact Wa|reflexivity|]
          | eapply vec1_64; [exact H|exact Hv|exact Wa|reflexivity|] ]; intros x Hx; unfold lane_integral; cbn [Z.eqb Pos.eqb].
  all: first [ destruct (integral32_ok mode_UP x ltac:(discriminate) Hx) as (z & E & Q); exists z; split; [exact E|exact Q]
             | destruct (integral32_ok mode_DN x ltac:(discriminate) Hx) as (z & E & Q); exists z; split; [exact E|exact Q]
             | destruct (integral32_ok mode_ZR x ltac:(discriminate) Hx) as (z & E & Q); exists z; split; [exact E|exact Q]
             | destruct (integral32_ok mode_NE x ltac:(discriminate) Hx) as (z & E & Q); exists z; split; [exact E|exact Q]
             | destruct (integral64_ok mode_UP x ltac:(discriminate) Hx) as (z & E & R & Q); exists z; split; [exact E|split; [exact R|exact Q]]
             | destruct (integral64_ok mode_DN x ltac:(discriminate) Hx) as (z & E & R & Q); exists z; split; [exact E|split; [exact R|exact Q]]
             | destruct (integral64_ok mode_ZR x ltac:(discriminate) Hx) as (z & E & R & Q); exists z; split; [exact E|split; [exact R|exact Q]]
             | destruct (integral64_ok mode_NE x ltac:(discriminate) Hx) as (z & E & R & Q); exists z; split; [exact E|split; [exact R|exact Q]] ].
Qed.

(* ---- the sign bit ---- *)
Lemma abs_sign x : fl_abs x = with_sign 64 false x.
Proof. unfold fl_abs, with_sign. change (64 - 1) with 63. lia. Qed.
Lemma neg_sign x : urange 64 x -> fl_neg x = with_sign 64 (negb (Z.testbit x 63)) x.
Proof.
  intros H. unfold fl_neg, with_sign. change (64 - 1) with 63. unfold urange in H.
  assert (P : 0 <= x mod 2 ^ 63 < 2 ^ 63) by (apply Z.mod_pos_bound; reflexivity).
  assert (T : Z.testbit (x mod 2 ^ 63) 63 = false) by (apply Z.mod_pow2_bits_high; lia).
  assert (S : forall (s : bool) y, 0 <= y < 2 ^ 63 -> y + (if s then 2 ^ 63 else 0) = Z.lxor y (if s then 2 ^ 63 else 0)).
  { intros s y Hy. destruct s; [|rewrite Z.lxor_0_r; lia]. apply Z.add_nocarry_lxor. apply Z.bits_inj'. intros n Hn.
    rewrite Z.land_spec, Z.bits_0. destruct (Z.eq_dec n 63) as [->|Hne].
    - rewrite <- (Z.mod_small y (2 ^ 63)) by exact Hy. rewrite Z.mod_pow2_bits_high by lia. reflexivity.
    - rewrite Z.pow2_bits_false by lia. apply andb_false_r. }
  rewrite S by exact P. apply Z.bits_inj'. intros n Hn. rewrite !Z.lxor_spec.
  destruct (Z.eq_dec n 63) as [->|Hne].
  - rewrite T, Z.pow2_bits_true by lia. destruct (Z.testbit x 63); reflexivity.
  - rewrite Z.pow2_bits_false by lia. rewrite xorb_false_r.
    assert (E : Z.testbit (if negb (Z.testbit x 63) then 2 ^ 63 else 0) n = false).
    { destruct (negb _); [apply Z.pow2_bits_false; lia|apply Z.bits_0]. }
    rewrite E, xorb_false_r. destruct (Z.lt_ge_cases n 63).
    + rewrite Z.mod_pow2_bits_low by lia. reflexivity.
    + rewrite Z.mod_pow2_bits_high by lia. rewrite <- (Z.mod_small x (2 ^ 64)) by exact H. apply Z.mod_pow2_bits_high. lia.
Qed.
Lemma resign_of32 s x : urange 32 x -> nan32 x = false -> with_sign 64 s (ieee_of32 x) = ieee_of32 (with_sign 32 s x).
Proof.
  intros H N.
  assert (Hb : urange 32 (if s then 2 ^ 31 else 0)) by (unfold urange; destruct s; lia).
  assert (T : Z.testbit (if s then 2 ^ 31 else 0) 31 = s) by (destruct s; reflexivity).
  rewrite <- T at 2. rewrite <- (copysign32 x (if s then 2 ^ 31 else 0)) by assumption.
  rewrite copysign64 by apply of32_range.
  change (Z.testbit (ieee_of32 (if s then 2 ^ 31 else 0)) 63) with (fl_sign (ieee_of32 (if s then 2 ^ 31 else 0))).
  rewrite sign_of32 by exact Hb. rewrite T. reflexivity.
Qed.
Lemma sign32_bits f g x : urange 32 x -> nan32 x = false ->
  (forall y, urange 64 y -> g y = with_sign 64 (f (Z.testbit y 63)) y) ->
  ieee_to32 (g (ieee_of32 x)) = with_sign 32 (f (Z.testbit x 31)) x.
Proof.
  intros H N Hg. rewrite Hg by apply of32_range.
  change (Z.testbit (ieee_of32 x) 63) with (fl_sign (ieee_of32 x)). rewrite sign_of32 by exact H.
  rewrite resign_of32 by assumption. apply to32_of32; [apply with_sign_range; lia|]. rewrite nan32_sign. exact N.
Qed.
Lemma sign32_nan f g x : urange 32 x -> nan32 x = true ->
  (forall y, urange 64 y -> g y = with_sign 64 (f (Z.testbit y 63)) y) ->
  is_nan 24 128 (b32_of_bits (ieee_to32 (g (ieee_of32 x)))) = true.
Proof.
  intros H N Hg. rewrite isnan32 by apply to32_range. rewrite to32_isnan. rewrite Hg by apply of32_range.
  rewrite fl_isnan_sign. now rewrite of32_isnan by exact H.
Qed.
Lemma vsign_gen32 host m o args fr va V f g :
  about_to_run m (IOp o args) fr -> k_value m = va :: V -> val_wf va ->
  num_op ieee o = Some (op1 (into_v128_f32 ieee) (fun _ a => Ok (map (fun e => g e) a)) (from_v128_f32 ieee)) ->
  (forall y, urange 64 y -> g y = with_sign 64 (f (Z.testbit y 63)) y) ->
  pushes_lanes 32 (step ieee host m) (moved_on m) V
    (each1 (fun a r => if negb (lane_nan 32 a) then r = with_sign 32 (f (Z.testbit a 31)) a else lane_nan 32 r = true)
       (vlanes 32 va)).
Proof.
  intros H Hv Wa Ho Hg. pose proof (vlanes_urange 32 va ltac:(lia)) as Ra. rewrite Forall_forall in Ra.
  set (h := fun x => ieee_to32 (g (ieee_of32 x))). exists (map h (vlanes 32 va)).
  split; [unfold len; rewrite map_length, lanes32_len; reflexivity|]. split.
  { apply Forall_forall. intros x Hx. apply in_map_iff in Hx as (y & <- & _). apply to32_range. }
  split.
  - apply (step1 ieee host m o args fr va V _ _ H Ho Hv). cbn beta. rewrite into_f32_lanes by exact Wa. cbn [rbind].
    rewrite from_f32_lanes by (unfold len; rewrite !map_length, lanes32_len; reflexivity). rewrite !map_map. reflexivity.
  - split; [now rewrite map_length|]. intros k Hk. rewrite map_length in Hk.
    rewrite (nth_indep (map h (vlanes 32 va)) 0 (h 0)) by (rewrite map_length; exact Hk). rewrite map_nth.
    pose proof (Ra _ (nth_In _ 0 Hk)) as R. set (a := nth k (vlanes 32 va) 0) in *. unfold lane_nan. cbn [Z.eqb Pos.eqb].
    rewrite (isnan32 a) by exact R. destruct (nan32 a) eqn:N; cbn [negb]; unfold h;
      [apply (sign32_nan f)|apply sign32_bits]; assumption.
Qed.
Lemma vsign_gen64 host m o args fr va V f g :
  about_to_run m (IOp o args) fr -> k_value m = va :: V -> val_wf va ->
  num_op ieee o = Some (op1 into_v128_f64 (fun _ a => Ok (map (fun e => g e) a)) from_v128_f64) ->
  (forall y, urange 64 y -> g y = with_sign 64 (f (Z.testbit y 63)) y) ->
  step ieee host m = (Ok tt, moved_on m (vec 64 (map (fun a => with_sign 64 (f (Z.testbit a 63)) a) (vlanes 64 va)) :: V)).
Proof.
  intros H Hv Wa Ho Hg. pose proof (vlanes_urange 64 va ltac:(lia)) as Ra.
  apply (step1 ieee host m o args fr va V _ _ H Ho Hv). cbn beta. rewrite into_f64_lanes by exact Wa. cbn [rbind].
  assert (E : map (fun e => g e) (vlanes 64 va) = map (fun a => with_sign 64 (f (Z.testbit a 63)) a) (vlanes 64 va)).
  { apply map_ext_in. intros x Hx. apply Hg. rewrite Forall_forall in Ra. apply Ra, Hx. }
  rewrite E. apply from_f64_lanes; [unfold len; rewrite map_length, lanes64_len; reflexivity|].
  apply Forall_forall. intros x Hx. apply in_map_iff in Hx as (y & <- & _). apply with_sign_range. lia.
Qed.
Lemma vsign_step host m o args fr N f va V :
  about_to_run m (IOp o args) fr -> vec_sign o = Some (N, f) -> k_value m = va :: V -> val_wf va ->
  pushes_lanes N (step ieee host m) (moved_on m) V
    (each1 (fun a r => if (N =? 64) || negb (lane_nan N a) then r = with_sign N (f (Z.testbit a (N - 1))) a
                       else lane_nan N r = true) (vlanes N va)).
Proof.
  intros H Ho Hv Wa.
  assert (A : forall y, urange 64 y -> fl_abs y = with_sign 64 ((fun _ => false) (Z.testbit y 63)) y)
    by (intros y _; apply abs_sign).
  pose proof neg_sign as B.
  assert (G : forall f g, (forall y, urange 64 y -> g y = with_sign 64 (f (Z.testbit y 63)) y) ->
     num_op ieee o = Some (op1 into_v128_f64 (fun _ a => Ok (map (fun e => g e) a)) from_v128_f64) ->
     pushes_lanes 64 (step ieee host m) (moved_on m) V
       (each1 (fun a r => r = with_sign 64 (f (Z.testbit a 63)) a) (vlanes 64 va))).
  { intros f0 g Hg Hn. exists (map (fun a => with_sign 64 (f0 (Z.testbit a 63)) a) (vlanes 64 va)).
    split; [unfold len; rewrite map_length, lanes64_len; reflexivity|]. split.
    { apply Forall_forall. intros x Hx. apply in_map_iff in Hx as (y & <- & _). apply with_sign_range. lia. }
    split; [apply (vsign_gen64 host m o args fr va V f0 g); assumption|].
    split; [now rewrite map_length|]. intros k Hk. rewrite map_length in Hk.
    set (h := fun a => with_sign 64 (f0 (Z.testbit a 63)) a).
    rewrite (nth_indep (map h (vlanes 64 va)) 0 (h 0)) by (rewrite map_length; exact Hk). now rewrite map_nth. }
  destruct o; cbn [vec_sign] in Ho; try discriminate Ho; injection Ho as <- <-.
  - exact (vsign_gen32 host m _ args fr va V (fun _ => false) fl_abs H Hv Wa eq_refl A).
  - exact (vsign_gen32 host m _ args fr va V negb fl_neg H Hv Wa eq_refl B).
  - exact (G (fun _ => false) fl_abs A eq_refl).
  - exact (G negb fl_neg B eq_refl).
Qed.

(* ---- conversions ---- *)
Lemma demoted_ok x : urange 64 x -> demoted (b64_of_bits x) (b32_of_bits (ieee_to32 x)).
Proof.
  intros Hx. unfold demoted. pose proof (isnan64 x Hx) as N. destruct (fl_isnan x) eqn:E.
  - destruct (b64_of_bits x); try discriminate N. rewrite isnan32 by apply to32_range. rewrite to32_isnan. exact E.
  - rewrite to32_num by exact E.
    destruct (b64_of_bits x) as [s|s|s pl Hp|s mm ex Hp]; try discriminate N; [|reflexivity|]; now apply narrow_rounds.
Qed.
Lemma promoted_ok x : urange 32 x -> promoted (b32_of_bits x) (b64_of_bits (ieee_of32 x)).
Proof.
  intros Hx. unfold promoted. pose proof (isnan32 x Hx) as N. destruct (nan32 x) eqn:E.
  - destruct (b32_of_bits x); try discriminate N. rewrite isnan64 by apply of32_range. now rewrite of32_isnan.
  - rewrite of32_num by exact E.
    destruct (b32_of_bits x) as [s|s|s pl Hp|s mm ex Hp]; try discriminate N; [|reflexivity|]; now apply widen_correct.
Qed.
Lemma each1_map (P : Z -> Z -> Prop) h l : (forall x, In x l -> P x (h x)) -> each1 P l (map h l).
Proof.
  intros H. split; [now rewrite map_length|]. intros k Hk. rewrite map_length in Hk.
  rewrite (nth_indep (map h l) 0 (h 0)) by (rewrite map_length; exact Hk). rewrite map_nth. apply H, nth_In, Hk.
Qed.
Lemma to32_zero : ieee_to32 fl_zero = 0.
Proof. vm_compute. reflexivity. Qed.
Lemma vdemote_step host m args fr va V :
  about_to_run m (IOp O_f32x4_demote_f64x2_zero args) fr -> k_value m = va :: V -> val_wf va ->
  pushes_lanes 32 (step ieee host m) (moved_on m) V (fun l => exists l2, l = l2 ++ [0; 0] /\
    each1 (fun a r => demoted (b64_of_bits a) (b32_of_bits r)) (vlanes 64 va) l2).
Proof.
  intros H Hv Wa. pose proof (vlanes_urange 64 va ltac:(lia)) as Ra. rewrite Forall_forall in Ra.
  exists (map ieee_to32 (vlanes 64 va) ++ [0; 0]).
  split; [unfold len; rewrite app_length, map_length, lanes64_len; reflexivity|]. split.
  { apply Forall_app. split; [apply to32_all|]. repeat constructor; unfold urange; lia. }
  split.
  - eapply step1; [exact H|reflexivity|exact Hv|]. cbn beta. rewrite into_f64_lanes by exact Wa. cbn [rbind].
    rewrite from_f32_lanes by (unfold len; rewrite app_length, lanes64_len; reflexivity).
    rewrite map_app. cbn [map]. rewrite to32_zero. reflexivity.
  - exists (map ieee_to32 (vlanes 64 va)). split; [reflexivity|]. apply each1_map. intros x Hx. apply demoted_ok, Ra, Hx.
Qed.
Lemma slice_low {A} (l : list A) : length l = 4%nat -> py_slice l 0 2 = half false l.
Proof. intros H. destruct l as [|a [|b [|c [|d [|]]]]]; try discriminate H. reflexivity. Qed.
Lemma half_in {A} (l : list A) x : In x (half false l) -> In x l.
Proof. unfold half. intros H. rewrite <- (firstn_skipn (Nat.div2 (length l)) l). apply in_or_app. left. exact H. Qed.
Lemma half_len4 {A} (l : list A) : length l = 4%nat -> length (half false l) = 2%nat.
Proof. intros H. unfold half. rewrite H. rewrite firstn_length, H. reflexivity. Qed.
Lemma half_map {A B} (f : A -> B) l : half false (map f l) = map f (half false l).
Proof. unfold half. rewrite map_length. apply firstn_map. Qed.
Lemma vpromote_step host m args fr va V :
  about_to_run m (IOp O_f64x2_promote_low_f32x4 args) fr -> k_value m = va :: V -> val_wf va ->
  pushes_lanes 64 (step ieee host m) (moved_on m) V
    (each1 (fun a r => promoted (b32_of_bits a) (b64_of_bits r)) (half false (vlanes 32 va))).
Proof.
  intros H Hv Wa. pose proof (vlanes_urange 32 va ltac:(lia)) as Ra. rewrite Forall_forall in Ra.
  pose proof (half_len4 _ (lanes32_len va)) as L.
  assert (R : Forall (urange 64) (map ieee_of32 (half false (vlanes 32 va)))).
  { apply Forall_forall. intros x Hx. apply in_map_iff in Hx as (y & <- & _). apply of32_range. }
  exists (map ieee_of32 (half false (vlanes 32 va))). split; [unfold len; rewrite map_length, L; reflexivity|].
  split; [exact R|]. split.
  - eapply step1; [exact H|reflexivity|exact Hv|]. cbn beta. rewrite into_f32_lanes by exact Wa. cbn [rbind].
    rewrite slice_low by (rewrite map_length; apply lanes32_len). rewrite half_map.
    apply from_f64_lanes; [unfold len; rewrite map_length, L; reflexivity|exact R].
  - apply each1_map. intros x Hx. apply promoted_ok, Ra, half_in, Hx.
Qed.
Lemma lane_abs sg x : urange 32 x -> Z.abs (as_int 32 sg x) <= 2 ^ 32.
Proof. unfold urange, as_int, sgn. intros H. destruct sg; [destruct (x <? 2 ^ (32 - 1)) eqn:E|]; lia. Qed.
Lemma vconvert32_step host m o args fr sg va V :
  about_to_run m (IOp o args) fr -> vec_convert32 o = Some sg -> k_value m = va :: V -> val_wf va ->
  pushes_lanes 32 (step ieee host m) (moved_on m) V
    (each1 (fun a r => rounds_to_single (IZR (as_int 32 sg a)) (as_int 32 sg a <? 0) (b32_of_bits r)) (vlanes 32 va)).
Proof.
  intros H Ho Hv Wa. pose proof (vlanes_urange 32 va ltac:(lia)) as Ra. rewrite Forall_forall in Ra.
  assert (Hn : num_op ieee o = Some (op1 (into_sg sg 4) (fun _ a => rmapl (fun e => fl_of_int ieee e) a) (from_v128_f32 ieee)))
    by (destruct o; try discriminate Ho; injection Ho as <-; reflexivity).
  destruct (rmapl_all (fun x => fl_of_int ieee (as_int 32 sg x))
    (fun a z => rounds_to_single (IZR (as_int 32 sg a)) (as_int 32 sg a <? 0) (b32_of_bits (ieee_to32 z))) (vlanes 32 va))
    as (r & Er & Fr).
  { intros x Hx. apply conv32_exact; [|apply i32_form; apply lane_abs, Ra, Hx].
    pose proof (lane_abs sg x (Ra _ Hx)). change (2 ^ 64) with (2 ^ 32 * 2 ^ 32). lia. }
  pose proof (forall2_len _ _ _ Fr) as L. rewrite lanes32_len in L.
  exists (map ieee_to32 r). split; [unfold len; rewrite map_length, <- L; reflexivity|]. split; [apply to32_all|]. split.
  - apply (step1 ieee host m o args fr va V _ _ H Hn Hv). cbn beta.
    rewrite (into_sg_ok sg 4) by (assumption || (right; right; left; reflexivity)). cbn [rbind]. change (8 * 4) with 32.
    rewrite rmapl_map, Er. cbn [rbind]. apply from_f32_lanes. unfold len. lia.
  - apply forall2_each, forall2_map, Fr.
Qed.
Lemma vconvert64_step host m o args fr sg va V :
  about_to_run m (IOp o args) fr -> vec_convert64 o = Some sg -> k_value m = va :: V -> val_wf va ->
  pushes_lanes 64 (step ieee host m) (moved_on m) V
    (each1 (fun a r => rounds_to_double (IZR (as_int 32 sg a)) (as_int 32 sg a <? 0) (b64_of_bits r)) (half false (vlanes 32 va))).
Proof.
  intros H Ho Hv Wa. pose proof (vlanes_urange 32 va ltac:(lia)) as Ra. rewrite Forall_forall in Ra.
  assert (Hn : num_op ieee o = Some (op1 (into_sg sg 4) (fun _ a => rmapl (fun e => fl_of_int ieee e) (py_slice a 0 2)) from_v128_f64))
    by (destruct o; try discriminate Ho; injection Ho as <-; reflexivity).
  destruct (rmapl_all (fun x => fl_of_int ieee (as_int 32 sg x))
    (fun a z => urange 64 z /\ rounds_to_double (IZR (as_int 32 sg a)) (as_int 32 sg a <? 0) (b64_of_bits z)) (half false (vlanes 32 va)))
    as (r & Er & Fr).
  { intros x Hx. apply of_int_rounds, int_bounded. pose proof (lane_abs sg x (Ra _ (half_in _ _ Hx))).
    change (2 ^ 64) with (2 ^ 32 * 2 ^ 32). lia. }
  pose proof (forall2_len _ _ _ Fr) as L. rewrite (half_len4 _ (lanes32_len va)) in L.
  pose proof (forall2_in_range _ _ _ Fr) as R.
  exists r. split; [unfold len; rewrite <- L; reflexivity|]. split; [exact R|]. split.
  - apply (step1 ieee host m o args fr va V _ _ H Hn Hv). cbn beta.
    rewrite (into_sg_ok sg 4) by (assumption || (right; right; left; reflexivity)). cbn [rbind]. change (8 * 4) with 32.
    rewrite slice_low by (rewrite map_length; apply lanes32_len). rewrite half_map, rmapl_map, Er. cbn [rbind].
    apply from_f64_lanes; [unfold len; lia|exact R].
  - apply forall2_each in Fr. revert Fr. apply each1_weaken. tauto.
Qed.

Definition sat_value (sg : bool) (m : magnitude) : Z :=
  match m with
  | NotANumber => 0
  | Infinite neg => if neg then least 32 sg else greatest 32 sg
  | Number r => if Ztrunc r <? least 32 sg then least 32 sg else if greatest 32 sg <? Ztrunc r then greatest 32 sg else Ztrunc r
  end.
Lemma sat_value_eq sg m : saturated sg m = sat_value sg m mod 2 ^ 32.
Proof.
  unfold saturated, truncated, sat_value. destruct m as [|neg|r]; [reflexivity|reflexivity|].
  destruct (Ztrunc r <? least 32 sg); [reflexivity|]. destruct (greatest 32 sg <? Ztrunc r); reflexivity.
Qed.
Lemma sat_value_enc sg m : enc sg 32 (sat_value sg m) (saturated sg m).
Proof.
  rewrite sat_value_eq.
  assert (B : least 32 sg <= sat_value sg m <= greatest 32 sg).
  { unfold sat_value. assert (least 32 sg <= 0 <= greatest 32 sg) by (destruct sg; cbn; lia).
    destruct m as [|neg|r]; [lia|destruct neg; lia|].
    destruct (Ztrunc r <? least 32 sg) eqn:E1; [lia|]. destruct (greatest 32 sg <? Ztrunc r) eqn:E2; lia. }
  unfold least, greatest in B. destruct sg; cbn [enc].
  - split; [unfold srange; lia|reflexivity].
  - unfold enc_u, urange. rewrite Z.mod_small by lia. lia.
Qed.
Lemma sat_bounds sg : least 32 sg <= 0 < greatest 32 sg /\ Z.abs (least 32 sg) <= 2 ^ 64 /\ Z.abs (greatest 32 sg) <= 2 ^ 64.
Proof. destruct sg; cbn; lia. Qed.
Definition sat_lo (sg : bool) : Z := if sg then i_min 4 else u_min 4.
Definition sat_hi (sg : bool) : Z := if sg then i_max 4 else u_max 4.
Lemma sat_consts sg : sat_lo sg = least 32 sg /\ sat_hi sg = greatest 32 sg.
Proof. destruct sg; split; reflexivity. Qed.
Lemma sat64_ok sg x : urange 64 x ->
  fl_sat_int (sat_lo sg) (sat_hi sg) (if fl_isnan x then fl_zero else x) = Ok (sat_value sg (magnitude_of (b64_of_bits x))).
Proof.
  intros Hx. destruct (sat_consts sg) as [-> ->]. destruct (sat_bounds sg) as (B1 & B2 & B3). rewrite sat_ok by assumption.
  reflexivity.
Qed.
Lemma vtrunc32_step host m o args fr sg va V :
  about_to_run m (IOp o args) fr -> vec_trunc32 o = Some sg -> k_value m = va :: V -> val_wf va ->
  step ieee host m = (Ok tt, moved_on m (vec 32 (map (fun a => saturated sg (magnitude_of (b32_of_bits a))) (vlanes 32 va)) :: V)).
Proof.
  intros H Ho Hv Wa. pose proof (vlanes_urange 32 va ltac:(lia)) as Ra.
  assert (Hn : num_op ieee o = Some (op1 (into_v128_f32 ieee) (fun _ a => rmapl (fun e => fl_sat_int (sat_lo sg) (sat_hi sg) e)
     (map (fun e => if fl_isnan e then fl_zero else e) a)) (from_sg sg 4)))
    by (destruct o; try discriminate Ho; injection Ho as <-; reflexivity).
  apply (step1 ieee host m o args fr va V _ _ H Hn Hv). cbn beta. rewrite into_f32_lanes by exact Wa. cbn [rbind].
  rewrite !rmapl_map. rewrite (rmapl_pick _ (fun x => sat_value sg (magnitude_of (b32_of_bits x)))).
  2:{ intros x Hx. rewrite Forall_forall in Ra. rewrite sat64_ok by apply of32_range. rewrite magnitude32 by apply Ra, Hx. reflexivity. }
  cbn [rbind]. apply (from_sg_ok sg 4); [right; right; left; reflexivity|unfold len; rewrite map_length, lanes32_len; reflexivity|].
  clear. induction (vlanes 32 va); cbn [map]; constructor; [apply sat_value_enc|assumption].
Qed.
Lemma vtrunc64_step host m o args fr sg va V :
  about_to_run m (IOp o args) fr -> vec_trunc64 o = Some sg -> k_value m = va :: V -> val_wf va ->
  step ieee host m = (Ok tt, moved_on m
    (vec 32 (map (fun a => saturated sg (magnitude_of (b64_of_bits a))) (vlanes 64 va) ++ [0; 0]) :: V)).
Proof.
  intros H Ho Hv Wa. pose proof (vlanes_urange 64 va ltac:(lia)) as Ra.
  assert (Hn : num_op ieee o = Some (op1 into_v128_f64 (fun _ a => let? c := rmapl (fun e => fl_sat_int (sat_lo sg) (sat_hi sg) e)
     (map (fun e => if fl_isnan e then fl_zero else e) a) in Ok (c ++ [0; 0])) (from_sg sg 4)))
    by (destruct o; try discriminate Ho; injection Ho as <-; reflexivity).
  apply (step1 ieee host m o args fr va V _ _ H Hn Hv). cbn beta. rewrite into_f64_lanes by exact Wa. cbn [rbind].
  rewrite rmapl_map. rewrite (rmapl_pick _ (fun x => sat_value sg (magnitude_of (b64_of_bits x)))).
  2:{ intros x Hx. rewrite Forall_forall in Ra. rewrite sat64_ok by apply Ra, Hx. reflexivity. }
  cbn [rbind]. apply (from_sg_ok sg 4); [right; right; left; reflexivity|unfold len; rewrite app_length, map_length, lanes64_len; reflexivity|].
  apply Forall2_app.
  - clear. induction (vlanes 64 va); cbn [map]; constructor; [apply sat_value_enc|assumption].
  - repeat constructor; destruct sg; cbn [enc]; unfold enc_s, enc_u, srange, urange; lia.
Qed.
