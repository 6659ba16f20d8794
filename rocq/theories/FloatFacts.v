(* The bit patterns of Floatops.v and Flocq's binary floats: classification, value, sign, comparison; the casts of
   Float.v on bit patterns. *)
From Coq Require Import ZArith Bool Reals Psatz.
From Flocq Require Import Core IEEE754.BinarySingleNaN IEEE754.Binary IEEE754.Bits.
From Verif Require Import Py SpecInt Floatops Val Float SpecMachine PyFacts ValFacts IeeeFacts.
Open Scope Z_scope.

(* ---- the fields of a 64-bit pattern ---- *)
Lemma Zeq_eqb a b : Zeq_bool a b = (a =? b).
Proof. unfold Zeq_bool. rewrite Z.eqb_compare. reflexivity. Qed.

Definition ff64 (s : bool) (m e : Z) : full_float :=
  if e =? 0 then match m with Zpos p => F754_finite s p (-1074) | _ => F754_zero s end
  else if e =? 2047 then match m with Zpos p => F754_nan s p | _ => F754_infinity s end
  else match m + 2 ^ 52 with Zpos p => F754_finite s p (e - 1075) | _ => F754_zero s end.
Definition ff32 (s : bool) (m e : Z) : full_float :=
  if e =? 0 then match m with Zpos p => F754_finite s p (-149) | _ => F754_zero s end
  else if e =? 255 then match m with Zpos p => F754_nan s p | _ => F754_infinity s end
  else match m + 2 ^ 23 with Zpos p => F754_finite s p (e - 150) | _ => F754_zero s end.

Lemma b64_view x : 0 <= x < 2 ^ 64 -> B2FF 53 1024 (b64_of_bits x) = ff64 (fl_sign x) (fl_man x) (fl_exp x).
Proof.
  intros Hx. unfold b64_of_bits, binary_float_of_bits. rewrite B2FF_FF2B.
  unfold binary_float_of_bits_aux, split_bits, ff64, fl_sign, fl_man, fl_exp.
  rewrite !Zeq_eqb. rewrite (testbit_top x 63) by lia.
  change (2 ^ 52 * 2 ^ 11) with (2 ^ 63). change (2 ^ 11 - 1) with 2047.
  pose proof (Z.mod_pos_bound x (2 ^ 52) ltac:(reflexivity)) as Hm. set (m := x mod 2 ^ 52) in *. clearbody m.
  destruct (_ =? 0).
  - destruct m; [reflexivity|reflexivity|exfalso; lia].
  - destruct (_ =? 2047).
    + destruct m; [reflexivity|reflexivity|exfalso; lia].
    + destruct (m + 2 ^ 52) eqn:E; [exfalso; lia| |exfalso; lia]. f_equal.
      set (k := (x / 2 ^ 52) mod 2 ^ 11). change (SpecFloat.emin (52 + 1) (2 ^ (11 - 1))) with (-1074). lia.
Qed.
Lemma b32_view x : 0 <= x < 2 ^ 32 ->
  B2FF 24 128 (b32_of_bits x) = ff32 (Z.testbit x 31) (x mod 2 ^ 23) ((x / 2 ^ 23) mod 2 ^ 8).
Proof.
  intros Hx. unfold b32_of_bits, binary_float_of_bits. rewrite B2FF_FF2B.
  unfold binary_float_of_bits_aux, split_bits, ff32.
  rewrite !Zeq_eqb. rewrite (testbit_top x 31) by lia.
  change (2 ^ 23 * 2 ^ 8) with (2 ^ 31). change (2 ^ 8 - 1) with 255.
  pose proof (Z.mod_pos_bound x (2 ^ 23) ltac:(reflexivity)) as Hm. set (m := x mod 2 ^ 23) in *. clearbody m.
  destruct (_ =? 0).
  - destruct m; [reflexivity|reflexivity|exfalso; lia].
  - destruct (_ =? 255).
    + destruct m; [reflexivity|reflexivity|exfalso; lia].
    + destruct (m + 2 ^ 23) eqn:E; [exfalso; lia| |exfalso; lia]. f_equal.
      set (k := (x / 2 ^ 23) mod 2 ^ 8). change (SpecFloat.emin (23 + 1) (2 ^ (8 - 1))) with (-149). lia.
Qed.

Lemma man_bound x : 0 <= fl_man x < 2 ^ 52.
Proof. apply Z.mod_pos_bound. reflexivity. Qed.
Lemma exp_bound x : 0 <= fl_exp x < 2 ^ 11.
Proof. apply Z.mod_pos_bound. reflexivity. Qed.

Lemma isnan64 x : 0 <= x < 2 ^ 64 -> is_nan 53 1024 (b64_of_bits x) = fl_isnan x.
Proof.
  intros Hx. rewrite <- is_nan_B2FF, b64_view by exact Hx. unfold ff64, fl_isnan. pose proof (man_bound x).
  destruct (fl_exp x =? 0) eqn:E0, (fl_exp x =? 2047) eqn:E1; try lia.
  - destruct (fl_man x); reflexivity.
  - destruct (fl_man x) eqn:M; try reflexivity; lia.
  - destruct (fl_man x + 2 ^ 52); reflexivity.
Qed.
Lemma isinf64 x : 0 <= x < 2 ^ 64 -> fl_isinf x = true -> b64_of_bits x = B754_infinity 53 1024 (fl_sign x).
Proof.
  intros Hx H. apply B2FF_inj. rewrite b64_view by exact Hx. unfold fl_isinf in H. apply andb_true_iff in H as [E M].
  apply Z.eqb_eq in E, M. unfold ff64. rewrite E, M. reflexivity.
Qed.
Lemma finite64 x : 0 <= x < 2 ^ 64 -> is_finite 53 1024 (b64_of_bits x) = negb (fl_isnan x || fl_isinf x).
Proof.
  intros Hx. rewrite <- is_finite_B2FF, b64_view by exact Hx. unfold ff64, fl_isnan, fl_isinf. pose proof (man_bound x).
  destruct (fl_exp x =? 0) eqn:E0, (fl_exp x =? 2047) eqn:E1; try lia.
  - destruct (fl_man x); reflexivity.
  - destruct (fl_man x) eqn:M; try reflexivity.
  - destruct (fl_man x + 2 ^ 52) eqn:M; try reflexivity.
Qed.
Lemma sign64 x : 0 <= x < 2 ^ 64 -> Bsign 53 1024 (b64_of_bits x) = fl_sign x.
Proof.
  intros Hx. replace (Bsign 53 1024 (b64_of_bits x)) with (sign_FF (B2FF 53 1024 (b64_of_bits x)))
    by (destruct (b64_of_bits x); reflexivity).
  rewrite b64_view by exact Hx. unfold ff64.
  destruct (fl_exp x =? 0), (fl_exp x =? 2047); destruct (fl_man x); try reflexivity;
    destruct (_ + 2 ^ 52); reflexivity.
Qed.
Lemma value64 x : 0 <= x < 2 ^ 64 -> is_finite 53 1024 (b64_of_bits x) = true ->
  B2R 53 1024 (b64_of_bits x) = (IZR (fl_scaled x) * bpow radix2 (-1074))%R.
Proof.
  intros Hx Hf. rewrite <- FF2R_B2FF, b64_view by exact Hx. rewrite <- is_finite_B2FF, b64_view in Hf by exact Hx.
  revert Hf. unfold ff64, fl_scaled. pose proof (man_bound x). pose proof (exp_bound x) as He.
  destruct (fl_exp x =? 0) eqn:E0; [|destruct (fl_exp x =? 2047) eqn:E1].
  - intros _. apply Z.eqb_eq in E0. rewrite E0. change (2 ^ (Z.max 0 1 - 1)) with 1. rewrite Z.mul_1_r.
    destruct (fl_man x) as [|p|p]; [|cbn [FF2R]; unfold F2R; cbn [Fnum Fexp]; destruct (fl_sign x); reflexivity|lia].
    destruct (fl_sign x); cbn; lra.
  - destruct (fl_man x); discriminate.
  - intros _. replace (Z.max (fl_exp x) 1) with (fl_exp x) by lia.
    destruct (fl_man x + 2 ^ 52) as [|p|p] eqn:M; [lia| |lia].
    cbn [FF2R]. unfold F2R. cbn [Fnum Fexp].
    replace (if fl_sign x then - (Zpos p * 2 ^ (fl_exp x - 1)) else Zpos p * 2 ^ (fl_exp x - 1))
      with (cond_Zopp (fl_sign x) (Zpos p) * 2 ^ (fl_exp x - 1)) by (destruct (fl_sign x); cbn [cond_Zopp]; lia).
    rewrite mult_IZR. replace (2 ^ (fl_exp x - 1)) with (Zpower radix2 (fl_exp x - 1)) by reflexivity.
    rewrite IZR_Zpower by lia. rewrite Rmult_assoc, <- bpow_plus. f_equal. f_equal. lia.
Qed.

Lemma isnan32 x : 0 <= x < 2 ^ 32 -> is_nan 24 128 (b32_of_bits x) = nan32 x.
Proof.
  intros Hx. rewrite <- is_nan_B2FF, b32_view by exact Hx. unfold ff32, nan32.
  pose proof (Z.mod_pos_bound x (2 ^ 23) ltac:(reflexivity)).
  set (e := (x / 2 ^ 23) mod 2 ^ 8). set (m := x mod 2 ^ 23) in *.
  destruct (e =? 0) eqn:E0, (e =? 255) eqn:E1; try lia.
  - destruct m; reflexivity.
  - destruct m eqn:M; try reflexivity; lia.
  - destruct (m + 2 ^ 23); reflexivity.
Qed.

(* ---- round trips between patterns and floats ---- *)
Lemma bits64_range b : 0 <= bits_of_b64 b < 2 ^ 64.
Proof. exact (bits_of_binary_float_range 52 11 eq_refl eq_refl b). Qed.
Lemma bits32_range b : 0 <= bits_of_b32 b < 2 ^ 32.
Proof. exact (bits_of_binary_float_range 23 8 eq_refl eq_refl b). Qed.
Lemma b64_bits b : b64_of_bits (bits_of_b64 b) = b.
Proof. exact (binary_float_of_bits_of_binary_float 52 11 eq_refl eq_refl eq_refl b). Qed.
Lemma b32_bits b : b32_of_bits (bits_of_b32 b) = b.
Proof. exact (binary_float_of_bits_of_binary_float 23 8 eq_refl eq_refl eq_refl b). Qed.
Lemma bits_b64 x : 0 <= x < 2 ^ 64 -> bits_of_b64 (b64_of_bits x) = x.
Proof. exact (bits_of_binary_float_of_bits 52 11 eq_refl eq_refl eq_refl x). Qed.
Lemma bits_b32 x : 0 <= x < 2 ^ 32 -> bits_of_b32 (b32_of_bits x) = x.
Proof. exact (bits_of_binary_float_of_bits 23 8 eq_refl eq_refl eq_refl x). Qed.

Lemma widen_not_nan x : is_nan 53 1024 (widen x) = false.
Proof.
  destruct x as [s|s|s pl H|s m e H]; try reflexivity.
  apply finite_not_nan. now apply (widen_correct (B754_finite 24 128 s m e H)).
Qed.
Lemma narrow_not_nan x : is_nan 24 128 (narrow x) = false.
Proof.
  destruct x as [s|s|s pl H|s m e H]; try reflexivity.
  pose proof (narrow_correct (B754_finite 53 1024 s m e H) eq_refl) as C. destruct (Rlt_bool _ _).
  - apply finite_not_nan, C.
  - rewrite <- is_nan_B2FF, C. reflexivity.
Qed.
Lemma narrow_widen x : is_nan 24 128 x = false -> narrow (widen x) = x.
Proof.
  destruct x as [s|s|s pl H|s m e H]; try reflexivity; [discriminate|intros _].
  set (y := B754_finite 24 128 s m e H). destruct (widen_correct y eq_refl) as (R & Fi & S).
  pose proof (narrow_correct (widen y) Fi) as C. rewrite R in C.
  rewrite (round_generic radix2 (FLT_exp (-149) 24) ZnearestE) in C by apply (generic_format_B2R 24 128 y).
  rewrite Rlt_bool_true in C by apply bound32. destruct C as (C1 & C2 & C3).
  apply B2R_Bsign_inj; [exact C2|reflexivity|exact C1|congruence].
Qed.

(* ---- quiet NaNs through the casts ---- *)
Lemma lor_quiet k h : 0 <= k -> 0 <= h < 2 ^ (k + 1) -> 2 ^ k <= Z.lor (2 ^ k) h < 2 ^ (k + 1).
Proof.
  intros Hk Hh. assert (P : 0 < 2 ^ k) by (apply Z.pow_pos_nonneg; lia).
  assert (Hn : 0 <= Z.lor (2 ^ k) h) by (apply Z.lor_nonneg; lia).
  assert (T : Z.testbit (Z.lor (2 ^ k) h) k = true) by (rewrite Z.lor_spec, Z.pow2_bits_true by lia; reflexivity).
  split.
  - destruct (Z.le_gt_cases (2 ^ k) (Z.lor (2 ^ k) h)) as [L|L]; [exact L|exfalso].
    rewrite Z.testbit_eqb in T by lia. rewrite Z.div_small in T by lia. discriminate.
  - destruct (Z.eq_dec (Z.lor (2 ^ k) h) 0) as [E|E]; [rewrite E; apply Z.pow_pos_nonneg; lia|].
    apply Z.log2_lt_pow2; [lia|]. rewrite Z.log2_lor by lia. rewrite Z.log2_pow2 by lia.
    assert (Z.log2 h < k + 1); [|lia].
    destruct (Z.eq_dec h 0) as [->|Z0]; [cbn; lia|]. apply Z.log2_lt_pow2; lia.
Qed.

Definition nan_fields64 (s : bool) (m : Z) : Z := (if s then 2 ^ 63 else 0) + 2047 * 2 ^ 52 + m.
Definition nan_fields32 (s : bool) (m : Z) : Z := (if s then 2 ^ 31 else 0) + 255 * 2 ^ 23 + m.
Lemma nan_fields64_ok s m : 0 < m < 2 ^ 52 ->
  let x := nan_fields64 s m in
  0 <= x < 2 ^ 64 /\ fl_isnan x = true /\ fl_sign x = s /\ fl_man x = m.
Proof.
  intros Hm x. subst x. unfold nan_fields64.
  assert (R : 0 <= (if s then 2 ^ 63 else 0) + 2047 * 2 ^ 52 + m < 2 ^ 64) by (destruct s; lia).
  assert (M : fl_man ((if s then 2 ^ 63 else 0) + 2047 * 2 ^ 52 + m) = m).
  { unfold fl_man. destruct s; symmetry; [apply Z.mod_unique with 4095|apply Z.mod_unique with 2047]; lia. }
  assert (E : fl_exp ((if s then 2 ^ 63 else 0) + 2047 * 2 ^ 52 + m) = 2047).
  { unfold fl_exp. destruct s.
    - replace ((2 ^ 63 + 2047 * 2 ^ 52 + m) / 2 ^ 52) with 4095; [reflexivity|apply Z.div_unique with m; lia].
    - replace ((0 + 2047 * 2 ^ 52 + m) / 2 ^ 52) with 2047; [reflexivity|apply Z.div_unique with m; lia]. }
  split; [exact R|]. unfold fl_isnan. rewrite E, M. split; [|split; [|reflexivity]].
  - destruct (m =? 0) eqn:Q; [lia|reflexivity].
  - unfold fl_sign. rewrite testbit_top by lia. destruct s; lia.
Qed.
Lemma nan_fields32_ok s m : 0 < m < 2 ^ 23 ->
  let x := nan_fields32 s m in
  0 <= x < 2 ^ 32 /\ nan32 x = true /\ Z.testbit x 31 = s /\ x mod 2 ^ 23 = m.
Proof.
  intros Hm x. subst x. unfold nan_fields32.
  assert (R : 0 <= (if s then 2 ^ 31 else 0) + 255 * 2 ^ 23 + m < 2 ^ 32) by (destruct s; lia).
  assert (M : ((if s then 2 ^ 31 else 0) + 255 * 2 ^ 23 + m) mod 2 ^ 23 = m).
  { destruct s; symmetry; [apply Z.mod_unique with 511|apply Z.mod_unique with 255]; lia. }
  assert (E : (((if s then 2 ^ 31 else 0) + 255 * 2 ^ 23 + m) / 2 ^ 23) mod 2 ^ 8 = 255).
  { destruct s.
    - replace ((2 ^ 31 + 255 * 2 ^ 23 + m) / 2 ^ 23) with 511; [reflexivity|apply Z.div_unique with m; lia].
    - replace ((0 + 255 * 2 ^ 23 + m) / 2 ^ 23) with 255; [reflexivity|apply Z.div_unique with m; lia]. }
  split; [exact R|]. unfold nan32. rewrite E, M. split; [|split; [|reflexivity]].
  - destruct (m =? 0) eqn:Q; [lia|reflexivity].
  - rewrite testbit_top by lia. destruct s; lia.
Qed.

Lemma of32_nan x : nan32 x = true -> 0 <= ieee_of32 x < 2 ^ 64 /\ fl_isnan (ieee_of32 x) = true.
Proof.
  intros H. unfold ieee_of32. rewrite H.
  pose proof (Z.mod_pos_bound x (2 ^ 23) ltac:(reflexivity)) as Hm.
  pose proof (lor_quiet 51 ((x mod 2 ^ 23) * 2 ^ 29) ltac:(lia) ltac:(lia)) as Q.
  destruct (nan_fields64_ok (Z.testbit x 31) (Z.lor (2 ^ 51) ((x mod 2 ^ 23) * 2 ^ 29)) ltac:(lia)) as (R & N & _).
  split; [exact R|exact N].
Qed.
Lemma to32_nan x : fl_isnan x = true -> 0 <= ieee_to32 x < 2 ^ 32 /\ nan32 (ieee_to32 x) = true.
Proof.
  intros H. unfold ieee_to32. rewrite H. pose proof (man_bound x) as Hm.
  pose proof (lor_quiet 22 (fl_man x / 2 ^ 29) ltac:(lia) ltac:(lia)) as Q.
  destruct (nan_fields32_ok (fl_sign x) (Z.lor (2 ^ 22) (fl_man x / 2 ^ 29)) ltac:(lia)) as (R & N & _).
  split; [exact R|exact N].
Qed.
Lemma of32_num x : nan32 x = false -> b64_of_bits (ieee_of32 x) = widen (b32_of_bits x).
Proof. intros H. unfold ieee_of32. rewrite H. apply b64_bits. Qed.
Lemma to32_num x : fl_isnan x = false -> b32_of_bits (ieee_to32 x) = narrow (b64_of_bits x).
Proof. intros H. unfold ieee_to32. rewrite H. apply b32_bits. Qed.
Lemma of32_range x : 0 <= ieee_of32 x < 2 ^ 64.
Proof.
  destruct (nan32 x) eqn:E; [now apply of32_nan|]. unfold ieee_of32. rewrite E. apply bits64_range.
Qed.
Lemma to32_range x : 0 <= ieee_to32 x < 2 ^ 32.
Proof.
  destruct (fl_isnan x) eqn:E; [now apply to32_nan|]. unfold ieee_to32. rewrite E. apply bits32_range.
Qed.
Lemma of32_isnan x : 0 <= x < 2 ^ 32 -> fl_isnan (ieee_of32 x) = nan32 x.
Proof.
  intros Hx. destruct (nan32 x) eqn:E; [now apply of32_nan|].
  rewrite <- isnan64 by apply of32_range. rewrite of32_num by exact E. apply widen_not_nan.
Qed.
Lemma to32_isnan x : nan32 (ieee_to32 x) = fl_isnan x.
Proof.
  destruct (fl_isnan x) eqn:E; [now apply to32_nan|].
  rewrite <- isnan32 by apply to32_range. rewrite to32_num by exact E. apply narrow_not_nan.
Qed.

(* casting to single and back and again changes nothing more *)
Lemma to32_of32 x : 0 <= x < 2 ^ 32 -> nan32 x = false -> ieee_to32 (ieee_of32 x) = x.
Proof.
  intros Hx E. rewrite <- (bits_b32 _ (to32_range _)). rewrite to32_num by (rewrite of32_isnan; assumption).
  rewrite of32_num by exact E. rewrite narrow_widen by (rewrite isnan32 by exact Hx; exact E). now apply bits_b32.
Qed.
Lemma of32_nan_eq x : nan32 x = true ->
  ieee_of32 x = nan_fields64 (Z.testbit x 31) (Z.lor (2 ^ 51) ((x mod 2 ^ 23) * 2 ^ 29)).
Proof. intros H. unfold ieee_of32. rewrite H. reflexivity. Qed.
Lemma to32_nan_eq x : fl_isnan x = true ->
  ieee_to32 x = nan_fields32 (fl_sign x) (Z.lor (2 ^ 22) (fl_man x / 2 ^ 29)).
Proof. intros H. unfold ieee_to32. rewrite H. reflexivity. Qed.
(* a NaN cast to double and back: made quiet, otherwise unchanged *)
Lemma to32_of32_nan x : nan32 x = true ->
  ieee_to32 (ieee_of32 x) = nan_fields32 (Z.testbit x 31) (Z.lor (2 ^ 22) (x mod 2 ^ 23)).
Proof.
  intros H. rewrite of32_nan_eq by exact H.
  pose proof (Z.mod_pos_bound x (2 ^ 23) ltac:(reflexivity)) as Hm.
  pose proof (lor_quiet 51 ((x mod 2 ^ 23) * 2 ^ 29) ltac:(lia) ltac:(lia)) as Q.
  destruct (nan_fields64_ok (Z.testbit x 31) (Z.lor (2 ^ 51) ((x mod 2 ^ 23) * 2 ^ 29)) ltac:(lia)) as (R & N & S & M).
  rewrite to32_nan_eq by exact N. rewrite S, M. f_equal.
  rewrite <- Z.shiftr_div_pow2 by lia. rewrite <- Z.shiftl_mul_pow2 by lia. rewrite Z.shiftr_lor.
  rewrite Z.shiftr_shiftl_l by lia. change (29 - 29) with 0. rewrite Z.shiftl_0_r.
  change (Z.shiftr (2 ^ 51) 29) with (2 ^ 22). rewrite Z.lor_assoc, Z.lor_diag. reflexivity.
Qed.
Lemma to32_idem y : ieee_to32 (ieee_of32 (ieee_to32 y)) = ieee_to32 y.
Proof.
  destruct (fl_isnan y) eqn:E.
  - pose proof (to32_nan y E) as [_ N]. rewrite (to32_of32_nan _ N).
    rewrite (to32_nan_eq y E) at 1 2. pose proof (man_bound y) as Hm.
    pose proof (lor_quiet 22 (fl_man y / 2 ^ 29) ltac:(lia) ltac:(lia)) as Q.
    destruct (nan_fields32_ok (fl_sign y) (Z.lor (2 ^ 22) (fl_man y / 2 ^ 29)) ltac:(lia)) as (_ & _ & S & M).
    rewrite S, M. rewrite (to32_nan_eq y E). f_equal. rewrite Z.lor_assoc, Z.lor_diag. reflexivity.
  - apply to32_of32; [apply to32_range|rewrite to32_isnan; exact E].
Qed.

(* what from_f32 stores *)
Lemma from_f32_ieee n : from_f32 ieee n = Ok (num_val T_f32 (ieee_to32 n)).
Proof.
  rewrite from_f32_ok. unfold f32_fit. cbn [f_to32 f_of32 ieee]. rewrite to32_idem.
  rewrite Z.mod_small by apply to32_range. reflexivity.
Qed.
