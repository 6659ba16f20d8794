(* Concrete operands on which float vector instructions differ from the specification. *)
From Coq Require Import ZArith List Bool Lia Reals.
From Flocq Require Import Core IEEE754.BinarySingleNaN IEEE754.Binary IEEE754.Bits.
From Verif Require Import Py Arith Floatops Val Opcode Numeric Syntax Store Basic Machine SpecInt SpecNum SpecMachine SpecMem SpecSimd.
From Verif Require Import PyFacts ArithFacts ValFacts LaneFacts StepFacts NumFacts SimdFacts SimdStepFacts.
From Verif Require Import Float SpecIeee FloatWitness SpecVecFloat VecFloatFacts.
Import ListNotations.
Open Scope Z_scope.

Lemma vec_wf N l : val_wf (vec N l).
Proof. apply num_val_wf. Qed.
Lemma pushed_known N r m V P l0 : N = 32 \/ N = 64 -> len l0 = 128 / N -> Forall (urange N) l0 ->
  r = (Ok tt, moved_on m (vec N l0 :: V)) -> pushes_lanes N r (moved_on m) V P -> P l0.
Proof.
  intros HN L R E (l & Ll & Rl & E' & Pl). rewrite E in E'. 
  assert (Q : vec N l0 = vec N l).
  { assert (M : moved_on m (vec N l0 :: V) = moved_on m (vec N l :: V)) by congruence.
    apply moved_on_value in M. congruence. }
  apply (f_equal (vlanes N)) in Q. rewrite !vlanes_vec in Q by (assumption || (destruct HN as [->| ->]; auto)).
  subst l. exact Pl.
Qed.

(* f64x2.min (+0, +0) (-0, -0) has lanes +0 *)
Lemma vmin_zeros : exists va vb, val_wf va /\ val_wf vb /\
  forall host m args fr V, about_to_run m (IOp O_f64x2_min args) fr -> k_value m = vb :: va :: V ->
    ~ pushes_lanes 64 (step ieee host m) (moved_on m) V (each2 (lane_extremum 64 false) (vlanes 64 va) (vlanes 64 vb)).
Proof.
  exists (vec 64 [0; 0]), (vec 64 [2 ^ 63; 2 ^ 63]). split; [apply vec_wf|]. split; [apply vec_wf|].
  intros host m args fr V Hr Hv P.
  apply (pushed_known 64 _ _ _ _ [0; 0]) in P; [|auto|reflexivity|repeat constructor; unfold urange; lia|].
  - rewrite !vlanes_vec in P by (auto || (repeat constructor; unfold urange; lia)).
    destruct P as (_ & _ & P). specialize (P 0%nat ltac:(cbn; lia)). cbn [nth] in P.
    assert (X : B754_zero 53 1024 false = B754_zero 53 1024 true) by exact P. discriminate X.
  - eapply step2; [exact Hr|reflexivity|exact Hv|]. vm_compute. reflexivity.
Qed.
(* f32x4.pmin of a signalling NaN with a number changes the NaN *)
Lemma vpmin_signalling : exists va vb, val_wf va /\ val_wf vb /\
  forall host m args fr V, about_to_run m (IOp O_f32x4_pmin args) fr -> k_value m = vb :: va :: V ->
    ~ pushes_lanes 32 (step ieee host m) (moved_on m) V
        (each2 (fun a b r => r = pick_lane 32 Gt a b) (vlanes 32 va) (vlanes 32 vb)).
Proof.
  exists (vec 32 [0x7f800001; 0; 0; 0]), (vec 32 [0; 0; 0; 0]). split; [apply vec_wf|]. split; [apply vec_wf|].
  intros host m args fr V Hr Hv P.
  apply (pushed_known 32 _ _ _ _ [0x7fc00001; 0; 0; 0]) in P; [|auto|reflexivity|repeat constructor; unfold urange; lia|].
  - rewrite !vlanes_vec in P by (auto || (repeat constructor; unfold urange; lia)).
    destruct P as (_ & _ & P). specialize (P 0%nat ltac:(cbn; lia)). cbn [nth] in P.
    vm_compute in P. discriminate P.
  - eapply step2; [exact Hr|reflexivity|exact Hv|]. vm_compute. reflexivity.
Qed.
(* f64x2.ceil (-0.5, -0.5) has lanes +0 *)
Lemma vceil_minus_half : exists va, val_wf va /\
  forall host m args fr V, about_to_run m (IOp O_f64x2_ceil args) fr -> k_value m = va :: V ->
    ~ pushes_lanes 64 (step ieee host m) (moved_on m) V
        (each1 (fun a r => same_float (b64_of_bits r) (integral64 mode_UP (b64_of_bits a))) (vlanes 64 va)).
Proof.
  exists (vec 64 [0xbfe0000000000000; 0xbfe0000000000000]). split; [apply vec_wf|].
  intros host m args fr V Hr Hv P.
  apply (pushed_known 64 _ _ _ _ [0; 0]) in P; [|auto|reflexivity|repeat constructor; unfold urange; lia|].
  - rewrite !vlanes_vec in P by (auto || (repeat constructor; unfold urange; lia)).
    destruct P as (_ & P). specialize (P 0%nat ltac:(cbn; lia)). cbn [nth] in P.
    assert (X : same_float (B754_zero 53 1024 false) (B754_zero 53 1024 true)) by exact P.
    destruct X as [X|[X _]]; discriminate X.
  - eapply step1; [exact Hr|reflexivity|exact Hv|]. vm_compute. reflexivity.
Qed.
(* f32x4.neg of a signalling NaN sets its quiet bit *)
Lemma vneg_signalling : exists va, val_wf va /\
  forall host m args fr V, about_to_run m (IOp O_f32x4_neg args) fr -> k_value m = va :: V ->
    ~ pushes_lanes 32 (step ieee host m) (moved_on m) V
        (each1 (fun a r => r = with_sign 32 (negb (Z.testbit a 31)) a) (vlanes 32 va)).
Proof.
  exists (vec 32 [0x7f800001; 0; 0; 0]). split; [apply vec_wf|].
  intros host m args fr V Hr Hv P.
  apply (pushed_known 32 _ _ _ _ [0xffc00001; 0x80000000; 0x80000000; 0x80000000]) in P;
    [|auto|reflexivity|repeat constructor; unfold urange; lia|].
  - rewrite !vlanes_vec in P by (auto || (repeat constructor; unfold urange; lia)).
    destruct P as (_ & P). specialize (P 0%nat ltac:(cbn; lia)). cbn [nth] in P. vm_compute in P. discriminate P.
  - eapply step1; [exact Hr|reflexivity|exact Hv|]. vm_compute. reflexivity.
Qed.
