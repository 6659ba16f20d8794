(* Rounding to integral values, conversions and truncations over the IEEE instance: proofs for PropFloat.v. *)
From Coq Require Import ZArith List Bool Reals Psatz.
From Flocq Require Import Core IEEE754.BinarySingleNaN IEEE754.Binary IEEE754.Bits.
From Verif Require Import Py SpecInt SpecNum Arith Floatops Val Opcode Numeric Syntax Store Basic Machine Float SpecMachine SpecIeee
  PyFacts ArithFacts ValFacts StepFacts NumFacts IeeeFacts FloatFacts FloatOpFacts FloatArithFacts.
Import ListNotations.
Open Scope Z_scope.

(* ---- the integer functions of Floatops.v on a real S/u ---- *)
Lemma near_div (S u : Z) : 0 < u ->
  ZnearestE (IZR S / IZR u) =
    if 2 * (S mod u) <? u then S / u else if u <? 2 * (S mod u) then S / u + 1 else if Z.even (S / u) then S / u else S / u + 1.
Proof.
  intros Hu. assert (U : (0 < IZR u)%R) by (apply IZR_lt; exact Hu).
  pose proof (Z.div_mod S u ltac:(lia)) as D. pose proof (Z.mod_pos_bound S u Hu) as M.
  unfold Znearest. rewrite Zfloor_div by lia. set (q := S / u) in *. set (r := S mod u) in *.
  assert (E : (IZR S / IZR u - IZR q = IZR r / IZR u)%R).
  { rewrite D, plus_IZR, mult_IZR. field. lra. }
  assert (C : Rcompare (IZR r / IZR u) (/ 2) = (2 * r ?= u)).
  { rewrite <- (Rcompare_mult_r (2 * IZR u)) by lra.
    replace (IZR r / IZR u * (2 * IZR u))%R with (IZR (2 * r)) by (rewrite mult_IZR; field; lra).
    replace (/ 2 * (2 * IZR u))%R with (IZR u) by field. apply Rcompare_IZR. }
  rewrite E, C.
  assert (N : r <> 0 -> Zceil (IZR S / IZR u) = q + 1).
  { intros Hr. rewrite Zceil_floor_neq; rewrite Zfloor_div by lia; [reflexivity|]. fold q. intros X.
    apply Hr. apply eq_IZR. assert (Y : (IZR r / IZR u = 0)%R) by (rewrite <- E, X; ring).
    apply (Rmult_eq_reg_r (/ IZR u)); [|apply Rinv_neq_0_compat; lra]. rewrite Rmult_0_l. exact Y. }
  destruct (Z.compare_spec (2 * r) u) as [X|X|X].
  - rewrite N by lia. replace (2 * r <? u) with false by (symmetry; apply Z.ltb_ge; lia).
    replace (u <? 2 * r) with false by (symmetry; apply Z.ltb_ge; lia). destruct (Z.even q); reflexivity.
  - replace (2 * r <? u) with true by (symmetry; apply Z.ltb_lt; lia). reflexivity.
  - rewrite N by lia. replace (2 * r <? u) with false by (symmetry; apply Z.ltb_ge; lia).
    replace (u <? 2 * r) with true by (symmetry; apply Z.ltb_lt; lia). reflexivity.
Qed.
Lemma unit_pos : 0 < fl_unit.
Proof. apply Z.pow_pos_nonneg; lia. Qed.
Lemma unit_real : (bpow radix2 (-1074) = / IZR fl_unit)%R.
Proof.
  change (-1074) with (- (1074)). rewrite bpow_opp. unfold fl_unit.
  change (2 ^ 1074) with (Zpower radix2 1074). rewrite IZR_Zpower by lia. reflexivity.
Qed.
Lemma value64_div x : 0 <= x < 2 ^ 64 -> is_finite 53 1024 (b64_of_bits x) = true ->
  B2R 53 1024 (b64_of_bits x) = (IZR (fl_scaled x) / IZR fl_unit)%R.
Proof. intros Hx F. rewrite (value64 x Hx F), unit_real. reflexivity. Qed.

(* which function each direction is *)
Definition rounder (md : mode) : Z -> Z :=
  match md with mode_UP => fl_ceil | mode_DN => fl_floor | mode_ZR => fl_trunc | _ => fl_round end.
Lemma rounder_ok md x : md <> mode_NA -> 0 <= x < 2 ^ 64 -> is_finite 53 1024 (b64_of_bits x) = true ->
  rounder md x = BinarySingleNaN.round_mode md (B2R 53 1024 (b64_of_bits x)).
Proof.
  intros Hm Hx F. rewrite value64_div by assumption. pose proof unit_pos as U.
  destruct md; [| | | |now contradict Hm]; cbn [rounder BinarySingleNaN.round_mode].
  - rewrite near_div by exact U. reflexivity.
  - rewrite Ztrunc_div by lia. reflexivity.
  - rewrite Zfloor_div by lia. reflexivity.
  - unfold Zceil. replace (- (IZR (fl_scaled x) / IZR fl_unit))%R with (IZR (- fl_scaled x) / IZR fl_unit)%R
      by (rewrite opp_IZR; field; apply not_0_IZR; lia).
    rewrite Zfloor_div by lia. reflexivity.
Qed.

(* ---- float(int) ---- *)
Lemma F2R_int n : F2R (Float radix2 n 0) = IZR n.
Proof. unfold F2R. cbn. ring. Qed.
Lemma of_int_rounds n : (Rabs (r64 (IZR n)) < bpow radix2 1024)%R ->
  exists x, fl_of_int ieee n = Ok x /\ 0 <= x < 2 ^ 64 /\ rounds_to_double (IZR n) (n <? 0) (b64_of_bits x).
Proof.
  intros H. pose proof (binary_normalize_correct 53 1024 eq_refl eq_refl mode_NE n 0 false) as C.
  change (BinarySingleNaN.round_mode mode_NE) with ZnearestE in C.
  change (SpecFloat.fexp 53 1024) with (FLT_exp (-1074) 53) in C.
  rewrite F2R_int in C. rewrite Rlt_bool_true in C by exact H. destruct C as (C1 & C2 & C3).
  exists (bits_of_b64 (binary_normalize 53 1024 eq_refl eq_refl mode_NE n 0 false)).
  split; [|split; [apply bits64_range|]].
  - unfold fl_of_int. cbn [f_of_int ieee]. unfold ieee_of_int.
    destruct (binary_normalize 53 1024 eq_refl eq_refl mode_NE n 0 false); try reflexivity. discriminate C2.
  - rewrite b64_bits. unfold rounds_to_double. rewrite Rlt_bool_true by exact H. split; [exact C1|]. split; [exact C2|].
    change 0%R with (IZR 0) in C3. rewrite Rcompare_IZR in C3. rewrite C3.
    rewrite Z.ltb_compare. destruct (n ?= 0); reflexivity.
Qed.
Lemma of_int_exact n : generic_format radix2 (FLT_exp (-1074) 53) (IZR n) -> (Rabs (IZR n) < bpow radix2 1024)%R ->
  exists x, fl_of_int ieee n = Ok x /\ 0 <= x < 2 ^ 64 /\ is_finite 53 1024 (b64_of_bits x) = true /\
    B2R 53 1024 (b64_of_bits x) = IZR n /\ Bsign 53 1024 (b64_of_bits x) = (n <? 0).
Proof.
  intros G L. assert (E : r64 (IZR n) = IZR n) by (apply round_generic; [typeclasses eauto|exact G]).
  destruct (of_int_rounds n) as (x & Hx & R & Q); [rewrite E; exact L|].
  exists x. split; [exact Hx|]. split; [exact R|]. unfold rounds_to_double in Q.
  rewrite E, Rlt_bool_true in Q by exact L. destruct Q as (Q1 & Q2 & Q3). auto.
Qed.

(* ---- rounding to an integral value ---- *)
Lemma zero_value {p e} (a : binary_float p e) : is_finite p e a = true -> B2R p e a = 0%R -> is_zero a = true.
Proof.
  destruct a as [s|s|s pl H|s m ex H]; cbn; try discriminate; intros _ Z; [reflexivity|]. exfalso. destruct s.
  - apply (Rlt_irrefl 0). rewrite <- Z at 1. now apply F2R_lt_0.
  - apply (Rlt_irrefl 0). rewrite <- Z at 2. now apply F2R_gt_0.
Qed.
Lemma nonzero_strict {p e} (a : binary_float p e) : is_finite p e a = true -> is_zero a = false ->
  is_finite_strict p e a = true.
Proof. destruct a; cbn; congruence. Qed.
Lemma same_value {p e} (a b : binary_float p e) n : is_finite p e a = true -> is_finite p e b = true ->
  B2R p e a = IZR n -> B2R p e b = IZR n -> Bsign p e a = (n <? 0) -> same_but_zero_sign a b.
Proof.
  intros Fa Fb E Eb S. destruct (is_zero a) eqn:Za.
  - assert (Zb : is_zero b = true).
    { apply zero_value; [exact Fb|]. rewrite Eb, <- E. destruct a; try discriminate Za. reflexivity. }
    destruct a as [s| | |]; try discriminate Za. destruct b as [s'| | |]; try discriminate Zb. cbn [B2R] in E. cbn [Bsign] in S.
    apply (eq_IZR 0) in E. subst n. cbn in S. subst s. destruct s'; [right; split; reflexivity|left; left; reflexivity].
  - destruct (is_zero b) eqn:Zb.
    + exfalso. assert (is_zero a = true); [|congruence]. apply zero_value; [exact Fa|]. rewrite E, <- Eb.
      destruct b; try discriminate Zb. reflexivity.
    + left. left. apply B2R_inj; auto using nonzero_strict. congruence.
Qed.
Lemma finite_or_not x : 0 <= x < 2 ^ 64 ->
  (fl_isnan x || fl_isinf x = true) \/ (fl_isnan x || fl_isinf x = false /\ is_finite 53 1024 (b64_of_bits x) = true).
Proof. intros Hx. rewrite finite64 by exact Hx. destruct (_ || _); auto. Qed.

Lemma integral64_ok md x : md <> mode_NA -> 0 <= x < 2 ^ 64 ->
  exists z, fl_integral ieee (rounder md) x = Ok z /\ 0 <= z < 2 ^ 64 /\
    same_but_zero_sign (b64_of_bits z) (integral64 md (b64_of_bits x)).
Proof.
  intros Hm Hx. unfold fl_integral. destruct (finite_or_not x Hx) as [E|[E F]]; rewrite E.
  - exists x. split; [reflexivity|]. split; [exact Hx|]. left. destruct (fl_isnan x) eqn:N.
    + right. rewrite isnan64 by exact Hx. split; [exact N|]. rewrite <- isnan64 in N by exact Hx.
      destruct (b64_of_bits x); try discriminate N. reflexivity.
    + left. cbn [orb] in E. rewrite (isinf64 x Hx E). reflexivity.
  - rewrite (rounder_ok md x Hm Hx F). set (n := BinarySingleNaN.round_mode md (B2R 53 1024 (b64_of_bits x))).
    destruct (Bnearbyint_correct 53 1024 eq_refl unop_nan_pl64 md (b64_of_bits x)) as (B1 & B2 & _).
    rewrite round_FIX_IZR in B1. fold n in B1. rewrite F in B2.
    destruct (of_int_exact n) as (z & Hz & R & Fz & Vz & Sz).
    + rewrite <- B1. apply (generic_format_B2R 53 1024).
    + rewrite <- B1. apply abs_B2R_lt_emax.
    + exists z. split; [exact Hz|]. split; [exact R|]. apply (same_value _ _ n); assumption.
Qed.
Lemma inf_of32 x : 0 <= x < 2 ^ 32 -> fl_isinf (ieee_of32 x) = true -> exists s, b32_of_bits x = B754_infinity 24 128 s.
Proof.
  intros Hx I. assert (N : nan32 x = false).
  { rewrite <- of32_isnan by exact Hx. unfold fl_isnan, fl_isinf in *. apply andb_true_iff in I as [_ ->].
    apply andb_false_r. }
  pose proof (isinf64 _ (of32_range x) I) as E. rewrite of32_num in E by exact N.
  destruct (b32_of_bits x) as [s|s|s pl H|s m e H] eqn:B; try discriminate E; eauto.
  exfalso. pose proof (proj1 (proj2 (widen_correct (B754_finite 24 128 s m e H) eq_refl))) as W. rewrite E in W. discriminate W.
Qed.
Lemma finite_of32 x : 0 <= x < 2 ^ 32 -> fl_isnan (ieee_of32 x) || fl_isinf (ieee_of32 x) = false ->
  nan32 x = false /\ is_finite 24 128 (b32_of_bits x) = true.
Proof.
  intros Hx E. apply orb_false_iff in E as [N I]. rewrite of32_isnan in N by exact Hx. split; [exact N|].
  pose proof (isnan32 x Hx) as M. rewrite N in M. destruct (split32 _ M) as [(s & Es)|F]; [|exact F].
  exfalso. pose proof (of32_num x N) as W. rewrite Es in W. cbn [widen] in W.
  pose proof (finite64 _ (of32_range x)) as Q. rewrite W, I, of32_isnan, N in Q by exact Hx. discriminate Q.
Qed.
Lemma integral32_ok md x : md <> mode_NA -> 0 <= x < 2 ^ 32 ->
  exists z, fl_integral ieee (rounder md) (ieee_of32 x) = Ok z /\
    same_but_zero_sign (b32_of_bits (ieee_to32 z)) (integral32 md (b32_of_bits x)).
Proof.
  intros Hm Hx. unfold fl_integral. destruct (finite_or_not _ (of32_range x)) as [E|[E F]]; rewrite E.
  - exists (ieee_of32 x). split; [reflexivity|]. left. destruct (fl_isnan (ieee_of32 x)) eqn:N.
    + right. rewrite isnan32 by apply to32_range. rewrite to32_isnan. split; [exact N|].
      rewrite of32_isnan, <- isnan32 in N by exact Hx. destruct (b32_of_bits x); try discriminate N. reflexivity.
    + left. rewrite of32_isnan in N by exact Hx. rewrite to32_of32 by assumption.
      destruct (inf_of32 x Hx E) as (s & ->). reflexivity.
  - destruct (finite_of32 x Hx E) as [N F32]. rewrite (rounder_ok md _ Hm (of32_range x) F).
    rewrite of32_num by exact N. destruct (widen_correct _ F32) as (V & _ & _). rewrite V.
    set (n := BinarySingleNaN.round_mode md (B2R 24 128 (b32_of_bits x))).
    destruct (Bnearbyint_correct 24 128 eq_refl unop_nan_pl32 md (b32_of_bits x)) as (B1 & B2 & _).
    rewrite round_FIX_IZR in B1. fold n in B1. rewrite F32 in B2.
    assert (G : generic_format radix2 (FLT_exp (-149) 24) (IZR n)) by (rewrite <- B1; apply (generic_format_B2R 24 128)).
    assert (L : (Rabs (IZR n) < bpow radix2 128)%R) by (rewrite <- B1; apply abs_B2R_lt_emax).
    destruct (of_int_exact n) as (z & Hz & R & Fz & Vz & Sz).
    + apply F32_in_64. exact G.
    + eapply Rlt_trans; [exact L|]. apply bpow_lt. lia.
    + exists z. split; [exact Hz|]. pose proof (narrow_correct _ Fz) as C. rewrite Vz in C.
      rewrite (round_generic radix2 (FLT_exp (-149) 24) ZnearestE) in C by exact G.
      rewrite Rlt_bool_true in C by exact L. destruct C as (C1 & C2 & C3). rewrite Sz in C3.
      rewrite to32_num by (rewrite <- isnan64 by exact R; now apply finite_not_nan).
      apply (same_value _ _ n); assumption.
Qed.

Lemma integral_step host m o args fr N md va V :
  about_to_run m (IOp o args) fr -> integral_op o = Some (N, md) -> k_value m = va :: V -> val_wf va ->
  if N =? 32
  then pushes_single (step ieee host m) (moved_on m) V (fun r => same_but_zero_sign r (integral32 md (single va)))
  else pushes_double (step ieee host m) (moved_on m) V (fun r => same_but_zero_sign r (integral64 md (double va))).
Proof.
  intros H Ho Hv Wa. assert (Hm : md <> mode_NA) by (destruct o; try discriminate Ho; injection Ho as <- <-; discriminate).
  destruct (integral32_ok md _ Hm (low32_range va)) as (z & Hz & Sz).
  destruct (integral64_ok md _ Hm (low64_range va)) as (y & Hy & Ry & Sy).
  destruct o; cbn [integral_op] in Ho; try discriminate Ho; injection Ho as <- <-; cbn [Z.eqb Pos.eqb rounder] in *;
    (exists (ieee_to32 z); split; [apply to32_range|]; split; [|exact Sz];
     rewrite (step_num1 ieee host m _ args fr _ va V H eq_refl Hv), low_f32 by exact Wa; cbn [rbind];
     rewrite Hz; cbn [rbind]; rewrite from_f32_ieee; reflexivity) ||
    (exists y; split; [exact Ry|]; split; [|exact Sy];
     rewrite (step_num1 ieee host m _ args fr _ va V H eq_refl Hv), low_f64 by exact Wa; cbn [rbind];
     rewrite Hy; cbn [rbind]; rewrite from_f64_num by exact Ry; reflexivity).
Qed.

(* ---- conversions between the formats ---- *)
Lemma narrow_rounds x : is_finite 53 1024 x = true -> rounds_to_single (B2R 53 1024 x) (Bsign 53 1024 x) (narrow x).
Proof.
  intros F. pose proof (narrow_correct x F) as C. unfold rounds_to_single. destruct (Rlt_bool _ _); [exact C|].
  apply B2FF_inj. rewrite C. reflexivity.
Qed.
Lemma demote_step host m args fr va V :
  about_to_run m (IOp O_f32_demote_f64 args) fr -> k_value m = va :: V -> val_wf va ->
  pushes_single (step ieee host m) (moved_on m) V (fun r =>
    match double va with
    | B754_nan _ _ _ _ _ => is_nan 24 128 r = true
    | B754_infinity _ _ s => r = B754_infinity 24 128 s
    | x => rounds_to_single (B2R 53 1024 x) (Bsign 53 1024 x) r
    end).
Proof.
  intros H Hv Wa. exists (ieee_to32 (low 64 va)). split; [apply to32_range|]. split.
  - rewrite (step_num1 ieee host m _ args fr _ va V H eq_refl Hv), low_f64 by exact Wa. cbn [rbind].
    rewrite from_f32_ieee. reflexivity.
  - pose proof (isnan64 _ (low64_range va)) as N. fold (double va) in N. destruct (fl_isnan (low 64 va)) eqn:E.
    + destruct (double va); try discriminate N. rewrite isnan32 by apply to32_range. rewrite to32_isnan. exact E.
    + rewrite to32_num by exact E. fold (double va).
      destruct (double va) as [s|s|s pl Hp|s mm ex Hp]; try discriminate N; [|reflexivity|]; now apply narrow_rounds.
Qed.
Lemma promote_step host m args fr va V :
  about_to_run m (IOp O_f64_promote_f32 args) fr -> k_value m = va :: V -> val_wf va ->
  pushes_double (step ieee host m) (moved_on m) V (fun r =>
    match single va with
    | B754_nan _ _ _ _ _ => is_nan 53 1024 r = true
    | B754_infinity _ _ s => r = B754_infinity 53 1024 s
    | x => B2R 53 1024 r = B2R 24 128 x /\ is_finite 53 1024 r = true /\ Bsign 53 1024 r = Bsign 24 128 x
    end).
Proof.
  intros H Hv Wa. exists (ieee_of32 (low 32 va)). split; [apply of32_range|]. split.
  - rewrite (step_num1 ieee host m _ args fr _ va V H eq_refl Hv), low_f32 by exact Wa. cbn [rbind].
    rewrite from_f64_num by apply of32_range. reflexivity.
  - pose proof (isnan32 _ (low32_range va)) as N. fold (single va) in N. destruct (nan32 (low 32 va)) eqn:E.
    + destruct (single va); try discriminate N. rewrite isnan64 by apply of32_range. now rewrite of32_isnan by apply low32_range.
    + rewrite of32_num by exact E. fold (single va).
      destruct (single va) as [s|s|s pl Hp|s mm ex Hp]; try discriminate N; [|reflexivity|]; now apply widen_correct.
Qed.

(* ---- conversions from integers ---- *)
Lemma abs_int_le n k : 0 <= k -> Z.abs n <= 2 ^ k -> (Rabs (IZR n) <= bpow radix2 k)%R.
Proof.
  intros Hk H. rewrite <- abs_IZR. rewrite <- IZR_Zpower by exact Hk. apply IZR_le. exact H.
Qed.
Lemma int_bounded n : Z.abs n <= 2 ^ 64 -> (Rabs (r64 (IZR n)) < bpow radix2 1024)%R.
Proof.
  intros H. apply round64_bounded. apply Rle_trans with (bpow radix2 64); [|apply bpow_le; lia].
  apply abs_int_le; [lia|exact H].
Qed.
Lemma int_format n k j : n = k * 2 ^ j -> 0 <= j -> Z.abs k < 2 ^ 53 -> generic_format radix2 (FLT_exp (-1074) 53) (IZR n).
Proof.
  intros -> Hj Hk. apply generic_format_FLT. exists (Float radix2 k j); [|exact Hk|cbn; lia].
  unfold F2R. cbn [Fnum Fexp]. rewrite mult_IZR. rewrite <- IZR_Zpower by exact Hj. reflexivity.
Qed.
Lemma conv32_exact n : Z.abs n <= 2 ^ 64 -> (exists k j, n = k * 2 ^ j /\ 0 <= j /\ Z.abs k < 2 ^ 53) ->
  exists x, fl_of_int ieee n = Ok x /\ rounds_to_single (IZR n) (n <? 0) (b32_of_bits (ieee_to32 x)).
Proof.
  intros Hn (k & j & E & Hj & Hk). pose proof (int_format n k j E Hj Hk) as G.
  destruct (of_int_exact n G) as (x & Hx & R & F & V & S).
  - apply Rle_lt_trans with (bpow radix2 64); [apply abs_int_le; [lia|exact Hn]|apply bpow_lt; lia].
  - exists x. split; [exact Hx|]. rewrite to32_num by (rewrite <- isnan64 by exact R; now apply finite_not_nan).
    rewrite <- V, <- S. now apply narrow_rounds.
Qed.
Lemma source_abs N sg v : (N = 32 \/ N = 64) -> Z.abs (source_int N sg v) <= 2 ^ N.
Proof.
  intros HN. assert (R : 0 <= low N v < 2 ^ N) by (unfold low; apply Z.mod_pos_bound; destruct HN; subst N; reflexivity).
  unfold source_int, sgn. destruct HN; subst N; destruct sg; try lia; destruct (low _ v <? _) eqn:E; lia.
Qed.
Lemma i32_form n : Z.abs n <= 2 ^ 32 -> exists k j, n = k * 2 ^ j /\ 0 <= j /\ Z.abs k < 2 ^ 53.
Proof. intros H. exists n, 0. change (2 ^ 0) with 1. lia. Qed.

Lemma read_source host m o args fr N sg T va V g :
  about_to_run m (IOp o args) fr -> convert_op o = Some (N, sg, T) -> k_value m = va :: V -> val_wf va ->
  (N = 32 \/ N = 64) /\
  forall x, fl_of_int ieee (source_int N sg va) = Ok x -> g = (if T =? 32 then from_f32 ieee x else from_f64 x) ->
    step ieee host m = match g with Ok v => (Ok tt, moved_on m (v :: V)) | Err e => (Err e, moved_on m V) end.
Proof.
  intros H Ho Hv Wa.
  destruct o; cbn [convert_op] in Ho; try discriminate Ho; injection Ho as <- <- <-; (split; [auto|]);
    cbn [source_int Z.eqb Pos.eqb]; intros x Hx ->;
    rewrite (step_num1 ieee host m _ args fr _ va V H eq_refl Hv);
    rewrite ?into_i32_ok, ?into_u32_ok, ?into_i64_ok, ?into_u64_ok by exact Wa; cbn [rbind];
    rewrite <- ?low_uval, <- ?sgn_signed; rewrite Hx; reflexivity.
Qed.
Lemma convert32_step host m o args fr N sg va V :
  about_to_run m (IOp o args) fr -> convert_op o = Some (N, sg, 32) -> k_value m = va :: V -> val_wf va ->
  (exists k j, source_int N sg va = k * 2 ^ j /\ 0 <= j /\ Z.abs k < 2 ^ 53) ->
  pushes_single (step ieee host m) (moved_on m) V
    (rounds_to_single (IZR (source_int N sg va)) (source_int N sg va <? 0)).
Proof.
  intros H Ho Hv Wa Hx.
  destruct (read_source host m o args fr N sg 32 va V (Err EAssert) H Ho Hv Wa) as [HN _].
  pose proof (source_abs N sg va HN) as A.
  destruct (conv32_exact (source_int N sg va)) as (x & Ex & Rx); [destruct HN; subst N; lia|exact Hx|].
  exists (ieee_to32 x). split; [apply to32_range|]. split; [|exact Rx].
  destruct (read_source host m o args fr N sg 32 va V (from_f32 ieee x) H Ho Hv Wa) as [_ St].
  rewrite (St x Ex eq_refl), from_f32_ieee. reflexivity.
Qed.
Lemma convert32_32_step host m o args fr sg va V :
  about_to_run m (IOp o args) fr -> convert_op o = Some (32, sg, 32) -> k_value m = va :: V -> val_wf va ->
  pushes_single (step ieee host m) (moved_on m) V
    (rounds_to_single (IZR (source_int 32 sg va)) (source_int 32 sg va <? 0)).
Proof.
  intros H Ho Hv Wa. apply (convert32_step host m o args fr); auto. apply i32_form. apply source_abs. auto.
Qed.
Lemma convert64_step host m o args fr N sg va V :
  about_to_run m (IOp o args) fr -> convert_op o = Some (N, sg, 64) -> k_value m = va :: V -> val_wf va ->
  pushes_double (step ieee host m) (moved_on m) V
    (rounds_to_double (IZR (source_int N sg va)) (source_int N sg va <? 0)).
Proof.
  intros H Ho Hv Wa.
  destruct (read_source host m o args fr N sg 64 va V (Err EAssert) H Ho Hv Wa) as [HN _].
  pose proof (source_abs N sg va HN) as A.
  destruct (of_int_rounds (source_int N sg va)) as (x & Ex & Rg & Rx); [apply int_bounded; destruct HN; subst N; lia|].
  exists x. split; [exact Rg|]. split; [|exact Rx].
  destruct (read_source host m o args fr N sg 64 va V (from_f64 x) H Ho Hv Wa) as [_ St].
  rewrite (St x Ex eq_refl), from_f64_num by exact Rg. reflexivity.
Qed.

(* ---- truncation to integers ---- *)
Lemma magnitude64 x : 0 <= x < 2 ^ 64 ->
  magnitude_of (b64_of_bits x) =
    if fl_isnan x then NotANumber else if fl_isinf x then Infinite (fl_sign x)
    else Number (IZR (fl_scaled x) / IZR fl_unit).
Proof.
  intros Hx. pose proof (isnan64 x Hx) as N. pose proof (finite64 x Hx) as F. pose proof (value64_div x Hx) as V.
  destruct (fl_isnan x); [destruct (b64_of_bits x); try discriminate N; reflexivity|].
  destruct (fl_isinf x) eqn:I; [rewrite (isinf64 x Hx I); reflexivity|].
  cbn in F. specialize (V F). destruct (b64_of_bits x); try discriminate F; cbn [magnitude_of]; rewrite V; reflexivity.
Qed.
Lemma magnitude32 x : 0 <= x < 2 ^ 32 -> magnitude_of (b32_of_bits x) = magnitude_of (b64_of_bits (ieee_of32 x)).
Proof.
  intros Hx. pose proof (isnan32 x Hx) as N. destruct (nan32 x) eqn:E.
  - pose proof (isnan64 _ (of32_range x)) as M. rewrite of32_isnan, E in M by exact Hx.
    destruct (b32_of_bits x); try discriminate N. destruct (b64_of_bits (ieee_of32 x)); try discriminate M. reflexivity.
  - rewrite of32_num by exact E. destruct (split32 _ N) as [(s & ->)|F]; [reflexivity|].
    destruct (widen_correct _ F) as (V & W & _).
    destruct (finite_view _ F) as [(s & Es)|(s & mm & e & H & Es)]; destruct (finite_view _ W) as [(s' & Ew)|(s' & m' & e' & H' & Ew)];
      rewrite Es, Ew in *; cbn [magnitude_of]; rewrite V; reflexivity.
Qed.
Lemma fl_int_ok x : 0 <= x < 2 ^ 64 ->
  match magnitude_of (b64_of_bits x) with
  | Number r => fl_int x = Ok (Ztrunc r)
  | _ => exists e, fl_int x = Err e
  end.
Proof.
  intros Hx. rewrite magnitude64 by exact Hx. unfold fl_int. destruct (fl_isnan x); [eauto|]. destruct (fl_isinf x); [eauto|].
  pose proof unit_pos. rewrite Ztrunc_div by lia. reflexivity.
Qed.
Lemma gtb_real x n : 0 <= x < 2 ^ 64 -> forall r, magnitude_of (b64_of_bits x) = Number r ->
  fl_gtb_int x n = true <-> (IZR n < r)%R.
Proof.
  intros Hx r. rewrite magnitude64 by exact Hx. unfold fl_gtb_int.
  destruct (fl_isnan x); [discriminate|]. destruct (fl_isinf x); [discriminate|]. intros E.
  assert (Er : r = (IZR (fl_scaled x) / IZR fl_unit)%R) by congruence. clear E. subst r. cbn [negb andb].
  pose proof unit_pos as U. assert (U' : (0 < IZR fl_unit)%R) by (apply IZR_lt; exact U).
  rewrite Z.ltb_lt. split; intros L.
  - apply IZR_lt in L. rewrite mult_IZR in L. apply Rmult_lt_reg_r with (IZR fl_unit); [exact U'|].
    unfold Rdiv. rewrite Rmult_assoc, Rinv_l, Rmult_1_r by lra. exact L.
  - apply lt_IZR. rewrite mult_IZR. apply (Rmult_lt_compat_r (IZR fl_unit)) in L; [|exact U'].
    unfold Rdiv in L. rewrite Rmult_assoc, Rinv_l, Rmult_1_r in L by lra. exact L.
Qed.
Lemma gtb_inf x n s : 0 <= x < 2 ^ 64 -> magnitude_of (b64_of_bits x) = Infinite s -> Z.abs n <= 2 ^ 64 ->
  fl_gtb_int x n = negb s.
Proof.
  intros Hx. rewrite magnitude64 by exact Hx. unfold fl_gtb_int.
  destruct (fl_isnan x); [discriminate|]. destruct (fl_isinf x) eqn:I; [|discriminate]. intros E Hn.
  assert (Es : fl_sign x = s) by congruence. clear E. rewrite (scaled_inf x I), Es. cbn [negb andb].
  assert (B : Z.abs (n * fl_unit) < 2 ^ 2098).
  { rewrite Z.abs_mul. unfold fl_unit. rewrite (Z.abs_eq (2 ^ 1074)) by (apply Z.pow_nonneg; lia).
    apply Z.le_lt_trans with (2 ^ 64 * 2 ^ 1074); [apply Z.mul_le_mono_nonneg_r; [apply Z.pow_nonneg; lia|exact Hn]|].
    rewrite <- Z.pow_add_r by lia. apply Z.pow_lt_mono_r; lia. }
  destruct s; cbn [negb]; [apply Z.ltb_ge; lia|apply Z.ltb_lt; lia].
Qed.

Lemma sat_ok lo hi x : 0 <= x < 2 ^ 64 -> lo <= 0 < hi -> Z.abs lo <= 2 ^ 64 -> Z.abs hi <= 2 ^ 64 ->
  fl_sat_int lo hi (if fl_isnan x then fl_zero else x) =
    Ok (match magnitude_of (b64_of_bits x) with
        | NotANumber => 0
        | Infinite neg => if neg then lo else hi
        | Number r => if Ztrunc r <? lo then lo else if hi <? Ztrunc r then hi else Ztrunc r
        end).
Proof.
  intros Hx Hb Hl Hh. destruct (magnitude_of (b64_of_bits x)) as [|s|r] eqn:M.
  - assert (N : fl_isnan x = true).
    { rewrite magnitude64 in M by exact Hx. destruct (fl_isnan x); [reflexivity|]. destruct (fl_isinf x); discriminate M. }
    rewrite N. unfold fl_sat_int. assert (Z0 : magnitude_of (b64_of_bits fl_zero) = Number 0) by reflexivity.
    destruct (fl_gtb_int fl_zero hi) eqn:G.
    { apply (gtb_real fl_zero hi ltac:(vm_compute; split; congruence) 0%R Z0) in G. change 0%R with (IZR 0) in G.
      apply lt_IZR in G. lia. }
    destruct (fl_gtb_int fl_zero lo) eqn:G'; [reflexivity|]. f_equal. destruct (Z.eq_dec lo 0) as [E|E]; [exact E|].
    assert (L : (IZR lo < 0)%R) by (change 0%R with (IZR 0); apply IZR_lt; lia).
    apply (gtb_real fl_zero lo ltac:(vm_compute; split; congruence) 0%R Z0) in L. congruence.
  - assert (N : fl_isnan x = false).
    { rewrite magnitude64 in M by exact Hx. destruct (fl_isnan x); [discriminate M|reflexivity]. }
    rewrite N. unfold fl_sat_int. rewrite !(gtb_inf x _ s Hx M) by assumption. destruct s; [reflexivity|]. cbn [negb].
    replace (lo <? hi) with true by (symmetry; apply Z.ltb_lt; lia). reflexivity.
  - assert (N : fl_isnan x = false).
    { rewrite magnitude64 in M by exact Hx. destruct (fl_isnan x); [discriminate M|reflexivity]. }
    rewrite N. unfold fl_sat_int. pose proof (gtb_real x hi Hx r M) as Gh. pose proof (gtb_real x lo Hx r M) as Gl.
    pose proof (fl_int_ok x Hx) as Fi. rewrite M in Fi.
    destruct (fl_gtb_int x hi).
    + assert (L : (IZR hi < r)%R) by (apply Gh; reflexivity). replace (lo <? hi) with true by (symmetry; apply Z.ltb_lt; lia).
      apply Rlt_le, Ztrunc_le in L. rewrite Ztrunc_IZR in L.
      destruct (Ztrunc r <? lo) eqn:A; [lia|]. destruct (hi <? Ztrunc r) eqn:B; [reflexivity|]. f_equal. lia.
    + assert (L : (r <= IZR hi)%R) by (apply Rnot_lt_le; intros X; apply Gh in X; discriminate).
      apply Ztrunc_le in L. rewrite Ztrunc_IZR in L.
      destruct (fl_gtb_int x lo).
      * assert (L' : (IZR lo < r)%R) by (apply Gl; reflexivity). apply Rlt_le, Ztrunc_le in L'. rewrite Ztrunc_IZR in L'.
        rewrite Fi. destruct (Ztrunc r <? lo) eqn:A; [lia|]. destruct (hi <? Ztrunc r) eqn:B; [lia|]. reflexivity.
      * assert (L' : (r <= IZR lo)%R) by (apply Rnot_lt_le; intros X; apply Gl in X; discriminate).
        apply Ztrunc_le in L'. rewrite Ztrunc_IZR in L'. f_equal.
        destruct (Ztrunc r <? lo) eqn:A; [reflexivity|]. destruct (hi <? Ztrunc r) eqn:B; [lia|]. lia.
Qed.

(* writing the integer *)
Definition int_writer (N : Z) (sg : bool) : Z -> res val :=
  if N =? 32 then (if sg then from_i32 else from_u32) else (if sg then from_i64 else from_u64).
Definition int_reader (N : Z) (sg : bool) : val -> res Z :=
  if N =? 32 then (if sg then into_i32 else into_u32) else (if sg then into_i64 else into_u64).
Lemma writer_ok N sg z : (N = 32 \/ N = 64) -> least N sg <= z <= greatest N sg ->
  int_writer N sg z = Ok (num_val (int_type N) (z mod 2 ^ N)).
Proof.
  intros [->| ->] H; unfold int_writer, least, greatest in *; cbn [Z.eqb Pos.eqb]; destruct sg.
  - apply from_i32_ok. unfold srange. change (32 - 1) with 31 in *. lia.
  - rewrite from_u32_ok by (unfold urange; lia). rewrite Z.mod_small by lia. reflexivity.
  - apply from_i64_ok. unfold srange. change (64 - 1) with 63 in *. lia.
  - rewrite from_u64_ok by (unfold urange; lia). rewrite Z.mod_small by lia. reflexivity.
Qed.
Lemma writer_err N sg z : (N = 32 \/ N = 64) -> ~ least N sg <= z <= greatest N sg -> int_writer N sg z = Err EOverflow.
Proof.
  intros [->| ->] H; unfold int_writer, least, greatest in *; cbn [Z.eqb Pos.eqb]; destruct sg.
  - apply from_i32_err. unfold srange. change (32 - 1) with 31 in *. lia.
  - apply from_u32_err. unfold urange. lia.
  - apply from_i64_err. unfold srange. change (64 - 1) with 63 in *. lia.
  - apply from_u64_err. unfold urange. lia.
Qed.
Lemma reader_ok N sg z : (N = 32 \/ N = 64) -> least N sg <= z <= greatest N sg ->
  int_reader N sg (num_val (int_type N) (z mod 2 ^ N)) = Ok z.
Proof.
  intros HN H. assert (W : val_wf (num_val (int_type N) (z mod 2 ^ N))) by apply num_val_wf.
  destruct HN as [->| ->]; unfold int_reader, least, greatest in *; cbn [Z.eqb Pos.eqb]; destruct sg.
  - rewrite into_i32_ok by exact W. unfold num_val. rewrite uval_mkval, mod_mod_128, Z.mod_mod by lia.
    f_equal. apply signed_mod_small; [lia|]. unfold srange. change (32 - 1) with 31 in *. lia.
  - rewrite into_u32_ok by exact W. unfold num_val. rewrite uval_mkval, mod_mod_128, Z.mod_mod by lia.
    rewrite Z.mod_small by lia. reflexivity.
  - rewrite into_i64_ok by exact W. unfold num_val. rewrite uval_mkval, mod_mod_128, Z.mod_mod by lia.
    f_equal. apply signed_mod_small; [lia|]. unfold srange. change (64 - 1) with 63 in *. lia.
  - rewrite into_u64_ok by exact W. unfold num_val. rewrite uval_mkval, mod_mod_128, Z.mod_mod by lia.
    rewrite Z.mod_small by lia. reflexivity.
Qed.

(* the double whose magnitude the instruction truncates *)
Definition source_bits (S : Z) (v : val) : Z := if S =? 32 then ieee_of32 (low 32 v) else low 64 v.
Lemma source_bits_ok S v : S = 32 \/ S = 64 ->
  0 <= source_bits S v < 2 ^ 64 /\ float_magnitude S v = magnitude_of (b64_of_bits (source_bits S v)).
Proof.
  unfold source_bits, float_magnitude, single, double. intros [->| ->]; cbn [Z.eqb Pos.eqb].
  - split; [apply of32_range|]. apply magnitude32, low32_range.
  - split; [apply low64_range|reflexivity].
Qed.
Lemma trunc_shape o S N sg sat : trunc_op o = Some (S, N, sg, sat) ->
  (S = 32 \/ S = 64) /\ (N = 32 \/ N = 64) /\
  exists g, num_op ieee o = Some (N1 g) /\ forall args v, val_wf v ->
    g args v =
      if sat then (let? z := fl_sat_int (least N sg) (greatest N sg)
                     (if fl_isnan (source_bits S v) then fl_zero else source_bits S v) in int_writer N sg z)
      else (let? z := fl_int (source_bits S v) in checked (int_writer N sg) (int_reader N sg) z).
Proof.
  destruct o; cbn [trunc_op]; intros H; try discriminate H; injection H as <- <- <- <-;
    (split; [auto|]); (split; [auto|]); eexists; (split; [reflexivity|]); intros args v W;
    cbv beta; first [rewrite (low_f32 v W)|rewrite (low_f64 v W)]; reflexivity.
Qed.
Lemma least_greatest N sg : (N = 32 \/ N = 64) -> 
  least N sg <= 0 < greatest N sg /\ Z.abs (least N sg) <= 2 ^ 64 /\ Z.abs (greatest N sg) <= 2 ^ 64.
Proof. intros [->| ->]; destruct sg; vm_compute; repeat split; congruence. Qed.

Lemma trunc_step host m o args fr S N sg sat va V :
  about_to_run m (IOp o args) fr -> trunc_op o = Some (S, N, sg, sat) -> k_value m = va :: V -> val_wf va ->
  match truncated N sg sat (float_magnitude S va) with
  | Some z => step ieee host m = (Ok tt, moved_on m (num_val (int_type N) (z mod 2 ^ N) :: V))
  | None => exists e, step ieee host m = (Err e, moved_on m V)
  end.
Proof.
  intros H Ho Hv Wa. destruct (trunc_shape o S N sg sat Ho) as (HS & HN & g & Hg & E).
  destruct (source_bits_ok S va HS) as [R M]. destruct (least_greatest N sg HN) as (B & Bl & Bh).
  rewrite (step_num1 ieee host m o args fr g va V H Hg Hv), E by exact Wa. rewrite M. clear E.
  pose proof (fl_int_ok _ R) as Fi. unfold truncated. destruct sat.
  - rewrite (sat_ok _ _ _ R B Bl Bh). cbn [rbind].
    destruct (magnitude_of _) as [|s|r].
    + rewrite writer_ok by (assumption || lia). reflexivity.
    + destruct s; rewrite writer_ok by (assumption || lia); reflexivity.
    + destruct (Ztrunc r <? least N sg) eqn:L; [rewrite writer_ok by (assumption || lia); reflexivity|].
      destruct (greatest N sg <? Ztrunc r) eqn:G; rewrite writer_ok by (assumption || lia); reflexivity.
  - destruct (magnitude_of _) as [|s|r].
    + destruct Fi as (e & ->). exists e. reflexivity.
    + destruct Fi as (e & ->). exists e. reflexivity.
    + rewrite Fi. cbn [rbind]. unfold checked.
      destruct (Ztrunc r <? least N sg) eqn:L; [rewrite writer_err by (assumption || lia); eexists; reflexivity|].
      destruct (greatest N sg <? Ztrunc r) eqn:G; [rewrite writer_err by (assumption || lia); eexists; reflexivity|].
      rewrite writer_ok by (assumption || lia). cbn [rbind]. rewrite reader_ok by (assumption || lia). cbn [rbind].
      rewrite Z.eqb_refl. reflexivity.
Qed.
