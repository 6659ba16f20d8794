(* Concrete operands on which float instructions differ from the specification, and the API boundary for IEEE floats. *)
From Coq Require Import ZArith List Bool Lia Reals Lra.
From Flocq Require Import Core IEEE754.BinarySingleNaN IEEE754.Binary IEEE754.Bits.
From Verif Require Import Py Arith Floatops Val Opcode Numeric Syntax Store Basic Machine SpecInt SpecNum SpecMachine.
From Verif Require Import PyFacts ArithFacts ValFacts StepFacts NumFacts Float SpecIeee IeeeFacts FloatFacts FloatOpFacts.
From Verif Require Import FloatArithFacts FloatConvFacts FloatSignFacts.
Import ListNotations.
Open Scope Z_scope.

Lemma moved_on_value m a b : moved_on m a = moved_on m b -> a = b.
Proof. intros H. apply (f_equal k_value) in H. exact H. Qed.

Lemma low_num_val t N z : 0 <= N <= 128 -> low N (num_val t z) = z mod 2 ^ N.
Proof.
  intros H. unfold low, num_val. cbn [v_data]. rewrite le_of_to_le. change (8 * Z.of_nat 16) with 128.
  replace (2 ^ 128) with (2 ^ N * 2 ^ (128 - N)) by (rewrite <- Z.pow_add_r by lia; f_equal; lia).
  rewrite Z.rem_mul_r by (apply Z.pow_nonzero || apply Z.pow_pos_nonneg; lia).
  rewrite Z.mul_comm, Z_mod_plus_full. apply Z.mod_mod. apply Z.pow_nonzero; lia.
Qed.

Lemma convert_double_rounding : exists va z z', val_wf va /\ v_type va = T_i64 /\
  (forall host m args fr V, about_to_run m (IOp O_f32_convert_i64_s args) fr -> k_value m = va :: V ->
     step ieee host m = (Ok tt, moved_on m (num_val T_f32 z :: V))) /\
  (Rabs (B2R 24 128 (b32_of_bits z') - IZR (source_int 64 true va)) <
   Rabs (B2R 24 128 (b32_of_bits z) - IZR (source_int 64 true va)))%R.
Proof.
  exists (num_val T_i64 0x0020000020000001), 0x5a000000, 0x5a000001. split; [apply num_val_wf|]. split; [reflexivity|]. split.
  - intros host m args fr V Hr Hv.
    rewrite (step_num1 ieee host m O_f32_convert_i64_s args fr _ _ V Hr eq_refl Hv).
    match goal with |- (match ?c with Ok _ => _ | Err _ => _ end) = _ =>
      replace c with (@Ok val (num_val T_f32 0x5a000000)) by (vm_compute; reflexivity) end. reflexivity.
  - assert (S : source_int 64 true (num_val T_i64 0x0020000020000001) = 0x0020000020000001) by (vm_compute; reflexivity).
    rewrite S. rewrite <- !FF2R_B2FF, !b32_view by lia.
    assert (A : ff32 (Z.testbit 0x5a000001 31) (0x5a000001 mod 2 ^ 23) ((0x5a000001 / 2 ^ 23) mod 2 ^ 8) =
      F754_finite false 8388609 30) by (vm_compute; reflexivity).
    assert (B : ff32 (Z.testbit 0x5a000000 31) (0x5a000000 mod 2 ^ 23) ((0x5a000000 / 2 ^ 23) mod 2 ^ 8) =
      F754_finite false 8388608 30) by (vm_compute; reflexivity).
    rewrite A, B. cbn [FF2R]. unfold F2R, cond_Zopp. cbn [Fnum Fexp]. rewrite <- IZR_Zpower by lia.
    rewrite <- !mult_IZR, <- !minus_IZR, <- !abs_IZR. apply IZR_lt. vm_compute. reflexivity.
Qed.
Lemma min_of_zeros : exists va vb, val_wf va /\ val_wf vb /\
  forall host m args fr V, about_to_run m (IOp O_f64_min args) fr -> k_value m = vb :: va :: V ->
    ~ pushes_double (step ieee host m) (moved_on m) V (is_extremum false (double va) (double vb)).
Proof.
  exists (num_val T_f64 0), (num_val T_f64 (2 ^ 63)). split; [apply num_val_wf|]. split; [apply num_val_wf|].
  intros host m args fr V Hr Hv (z & Hz & E & P).
  rewrite (step_num2 ieee host m O_f64_min args fr _ _ _ V Hr eq_refl Hv) in E.
  match type of E with (match ?c with Ok _ => _ | Err _ => _ end) = _ =>
    replace c with (@Ok val (num_val T_f64 0)) in E by (vm_compute; reflexivity) end.
  assert (E' : moved_on m (num_val T_f64 0 :: V) = moved_on m (num_val T_f64 z :: V)) by congruence.
  apply moved_on_value in E'. apply (f_equal (fun l => low 64 (hd (num_val T_f64 0) l))) in E'. cbn [hd] in E'.
  rename E' into Q.
  rewrite !low_num_val in Q by lia. change (0 mod 2 ^ 64) with 0 in Q. rewrite Z.mod_small in Q by exact Hz. subst z.
  unfold is_extremum in P. revert P. unfold double. rewrite !low_num_val by lia.
  intros P. assert (X : B754_zero 53 1024 false = B754_zero 53 1024 true) by exact P. discriminate X.
Qed.
Lemma ceil_of_minus_half : exists va, val_wf va /\
  forall host m args fr V, about_to_run m (IOp O_f64_ceil args) fr -> k_value m = va :: V ->
    ~ pushes_double (step ieee host m) (moved_on m) V (fun r => same_float r (integral64 mode_UP (double va))).
Proof.
  exists (num_val T_f64 0xbfe0000000000000). split; [apply num_val_wf|].
  intros host m args fr V Hr Hv (z & Hz & E & P).
  rewrite (step_num1 ieee host m O_f64_ceil args fr _ _ V Hr eq_refl Hv) in E.
  match type of E with (match ?c with Ok _ => _ | Err _ => _ end) = _ =>
    replace c with (@Ok val (num_val T_f64 0)) in E by (vm_compute; reflexivity) end.
  assert (E' : moved_on m (num_val T_f64 0 :: V) = moved_on m (num_val T_f64 z :: V)) by congruence.
  apply moved_on_value in E'. apply (f_equal (fun l => low 64 (hd (num_val T_f64 0) l))) in E'. cbn [hd] in E'.
  rename E' into Q.
  rewrite !low_num_val in Q by lia. change (0 mod 2 ^ 64) with 0 in Q. rewrite Z.mod_small in Q by exact Hz. subst z.
  assert (S : Bsign 53 1024 (integral64 mode_UP (double (num_val T_f64 0xbfe0000000000000))) = true) by (vm_compute; reflexivity).
  destruct P as [P|[P _]]; [|discriminate P]. rewrite <- P in S. discriminate S.
Qed.
Lemma copysign_of_signalling : exists va vb, val_wf va /\ val_wf vb /\
  forall host m args fr V, about_to_run m (IOp O_f32_copysign args) fr -> k_value m = vb :: va :: V ->
    step ieee host m <>
      (Ok tt, moved_on m (num_val T_f32 (with_sign 32 (Z.testbit (low 32 vb) 31) (low 32 va)) :: V)).
Proof.
  exists (num_val T_f32 0x7f800001), (num_val T_f32 0). split; [apply num_val_wf|]. split; [apply num_val_wf|].
  intros host m args fr V Hr Hv E.
  rewrite (step_num2 ieee host m O_f32_copysign args fr _ _ _ V Hr eq_refl Hv) in E.
  match type of E with (match ?c with Ok _ => _ | Err _ => _ end) = _ =>
    replace c with (@Ok val (num_val T_f32 0x7fc00001)) in E by (vm_compute; reflexivity) end.
  apply (f_equal snd) in E. cbn [snd] in E. apply moved_on_value in E.
  apply (f_equal (fun l => low 32 (hd (num_val T_f32 0) l))) in E. cbn [hd] in E. vm_compute in E. discriminate E.
Qed.
Lemma floats_survive : forall x n,
  (urange 64 x -> exists v, from_all ieee T_f64 (PFloat x) = Ok v /\ into_all ieee v = Ok (PFloat x)) /\
  (exists v, from_all ieee T_f32 (PFloat x) = Ok v /\ into_all ieee v = Ok (PFloat (ieee_of32 (ieee_to32 x)))) /\
  (forall y, ieee_of_int n = Some y -> exists v, from_all ieee T_f32 (PInt n) = Ok v /\
     into_all ieee v = Ok (PFloat (ieee_of32 (ieee_to32 y)))).
Proof.
  intros x n. split; [|split].
  - intros H. destruct (from_all ieee T_f64 (PFloat x)) as [v|e] eqn:E.
    + exists v. split; [reflexivity|]. destruct (from_all_accepted ieee _ _ _ E) as (_ & _ & A). apply A, H.
    + exfalso. cbn [from_all] in E. rewrite from_f64_num in E by exact H. discriminate E.
  - destruct (from_all ieee T_f32 (PFloat x)) as [v|e] eqn:E.
    + exists v. split; [reflexivity|]. destruct (from_all_accepted ieee _ _ _ E) as (_ & _ & A).
      apply A; [exact to32_idem|apply to32_range].
    + exfalso. cbn [from_all] in E. rewrite from_f32_ieee in E. discriminate E.
  - intros y Hy. destruct (from_all ieee T_f32 (PInt n)) as [v|e] eqn:E.
    + exists v. split; [reflexivity|]. destruct (from_all_accepted ieee _ _ _ E) as (_ & _ & A).
      apply (A y Hy); [exact to32_idem|apply to32_range].
    + exfalso. cbn [from_all] in E. unfold fl_of_int in E. cbn [f_of_int ieee] in E. rewrite Hy in E. cbn [rbind] in E.
      rewrite from_f32_ieee in E. discriminate E.
Qed.
