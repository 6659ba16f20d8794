(* Facts about the two IEEE formats: widening is exact, narrowing rounds once, and an operation done in double and then
   narrowed rounds as the single-precision operation does. *)
From Coq Require Import ZArith Bool Reals Psatz.
From Flocq Require Import Core Double_rounding IEEE754.BinarySingleNaN IEEE754.Binary IEEE754.Bits.
From Verif Require Import Py Floatops Float.
Open Scope R_scope.

Notation r32 := (round radix2 (FLT_exp (-149) 24) ZnearestE).
Notation r64 := (round radix2 (FLT_exp (-1074) 53) ZnearestE).
Notation B2R32 := (B2R 24 128).
Notation B2R64 := (B2R 53 1024).
#[global] Instance prec24 : Prec_gt_0 24 := eq_refl.
#[global] Instance prec53 : Prec_gt_0 53 := eq_refl.

Lemma Rcompare_F2R_cond s m e : Rcompare (F2R (Float radix2 (cond_Zopp s (Zpos m)) e)) 0 = if s then Lt else Gt.
Proof.
  destruct s; cbn [cond_Zopp].
  - apply Rcompare_Lt. now apply F2R_lt_0.
  - apply Rcompare_Gt. now apply F2R_gt_0.
Qed.
Lemma Rlt_bool_F2R_cond s m e : Rlt_bool (F2R (Float radix2 (cond_Zopp s (Zpos m)) e)) 0 = s.
Proof.
  unfold Rlt_bool. rewrite Rcompare_F2R_cond. destruct s; reflexivity.
Qed.

Lemma narrow_correct (x : binary64) : is_finite 53 1024 x = true ->
  if Rlt_bool (Rabs (r32 (B2R64 x))) (bpow radix2 128)
  then B2R32 (narrow x) = r32 (B2R64 x) /\ is_finite 24 128 (narrow x) = true /\
       Bsign 24 128 (narrow x) = Bsign 53 1024 x
  else B2FF 24 128 (narrow x) = binary_overflow 24 128 mode_NE (Bsign 53 1024 x).
Proof.
  destruct x as [s|s|s pl H|s m e H]; try discriminate; intros _.
  - cbn [B2R]. rewrite round_0 by typeclasses eauto. rewrite Rabs_R0, Rlt_bool_true by apply bpow_gt_0.
    repeat split.
  - pose proof (binary_normalize_correct 24 128 eq_refl eq_refl mode_NE (cond_Zopp s (Zpos m)) e s) as C.
    cbn [B2R narrow Bsign]. change (BinarySingleNaN.round_mode mode_NE) with ZnearestE in C.
    change (SpecFloat.fexp 24 128) with (FLT_exp (-149) 24) in C.
    destruct (Rlt_bool _ _).
    + destruct C as (C1 & C2 & C3). rewrite Rcompare_F2R_cond in C3. split; [exact C1|split; [exact C2|]].
      rewrite C3. now destruct s.
    + rewrite Rlt_bool_F2R_cond in C. exact C.
Qed.

Lemma F32_in_64 x : generic_format radix2 (FLT_exp (-149) 24) x -> generic_format radix2 (FLT_exp (-1074) 53) x.
Proof.
  intros H. apply generic_inclusion_mag with (2 := H). intros _. unfold FLT_exp. lia.
Qed.

Lemma widen_correct (x : binary32) : is_finite 24 128 x = true ->
  B2R64 (widen x) = B2R32 x /\ is_finite 53 1024 (widen x) = true /\
  Bsign 53 1024 (widen x) = Bsign 24 128 x.
Proof.
  intros Fx. pose proof (generic_format_B2R 24 128 x) as G. pose proof (abs_B2R_lt_emax 24 128 x) as L.
  destruct x as [s|s|s pl H|s m e H]; try discriminate; [repeat split|].
  pose proof (binary_normalize_correct 53 1024 eq_refl eq_refl mode_NE (cond_Zopp s (Zpos m)) e s) as C.
  cbn [B2R widen Bsign] in *. change (BinarySingleNaN.round_mode mode_NE) with ZnearestE in C.
  change (SpecFloat.fexp 53 1024) with (FLT_exp (-1074) 53) in C.
  rewrite (round_generic radix2 (FLT_exp (-1074) 53) ZnearestE) in C by (apply F32_in_64; exact G).
  rewrite Rlt_bool_true in C.
  - destruct C as (C1 & C2 & C3). rewrite Rcompare_F2R_cond in C3. split; [exact C1|split; [exact C2|]].
    rewrite C3. now destruct s.
  - eapply Rlt_trans; [exact L|]. apply bpow_lt. lia.
Qed.

Lemma FF_overflow_eq {p e : Z} (a b : binary_float p e) : B2FF p e a = B2FF p e b -> a = b.
Proof. apply B2FF_inj. Qed.

Lemma round64_bounded (r : R) : Rabs r <= bpow radix2 512 -> Rabs (r64 r) < bpow radix2 1024.
Proof.
  intros H. apply Rle_lt_trans with (bpow radix2 512); [|apply bpow_lt; lia].
  apply abs_round_le_generic; [typeclasses eauto|typeclasses eauto| |exact H].
  apply generic_format_bpow. unfold FLT_exp. lia.
Qed.

Lemma format32 (x : binary32) : FLT_format radix2 (-149) 24 (B2R32 x).
Proof. exact (FLT_format_B2R 24 128 eq_refl x). Qed.
Lemma bound32 (x : binary32) : Rabs (B2R32 x) < bpow radix2 128.
Proof. apply abs_B2R_lt_emax. Qed.
Lemma bpow_le' a b : (a <= b)%Z -> bpow radix2 a <= bpow radix2 b.
Proof. apply bpow_le. Qed.

(* when the double-precision result [z] is [r64 r] with the sign the single-precision operation gives, narrowing it gives
   the single-precision result [w] *)
Lemma narrow_once (r : R) (z : binary64) (w : binary32) (s : bool) :
  r32 (r64 r) = r32 r ->
  B2R64 z = r64 r -> is_finite 53 1024 z = true ->
  (if Rlt_bool (Rabs (r32 r)) (bpow radix2 128)
   then B2R32 w = r32 r /\ is_finite 24 128 w = true /\ Bsign 24 128 w = Bsign 53 1024 z
   else B2FF 24 128 w = binary_overflow 24 128 mode_NE s /\ s = Bsign 53 1024 z) ->
  narrow z = w.
Proof.
  intros Hd Hz Fz Hw. pose proof (narrow_correct z Fz) as C. rewrite Hz, Hd in C.
  destruct (Rlt_bool _ _).
  - destruct C as (C1 & C2 & C3), Hw as (W1 & W2 & W3). apply B2R_Bsign_inj; congruence.
  - destruct Hw as [W1 W2]. apply B2FF_inj. congruence.
Qed.

Lemma overflow_nonzero r : Rlt_bool (Rabs (r32 r)) (bpow radix2 128) = false -> r <> 0.
Proof.
  intros H ->. rewrite round_0 in H by typeclasses eauto. rewrite Rabs_R0, Rlt_bool_true in H by apply bpow_gt_0.
  discriminate.
Qed.
Lemma Bsign_nonneg p e (x : binary_float p e) : is_finite p e x = true -> Bsign p e x = false -> 0 <= B2R p e x.
Proof.
  destruct x as [s|s|s pl H|s m ex H]; cbn; try discriminate; intros _ ->; try lra. apply F2R_ge_0. cbn. lia.
Qed.
Lemma Bsign_nonpos p e (x : binary_float p e) : is_finite p e x = true -> Bsign p e x = true -> B2R p e x <= 0.
Proof.
  destruct x as [s|s|s pl H|s m ex H]; cbn; try discriminate; intros _ ->; try lra. apply F2R_le_0. cbn. lia.
Qed.

Lemma plus_finite (x y : binary32) : is_finite 24 128 x = true -> is_finite 24 128 y = true ->
  is_finite 53 1024 (b64_plus mode_NE (widen x) (widen y)) = true /\
  narrow (b64_plus mode_NE (widen x) (widen y)) = b32_plus mode_NE x y.
Proof.
  intros Fx Fy. destruct (widen_correct x Fx) as (Rx & Wx & Sx), (widen_correct y Fy) as (Ry & Wy & Sy).
  pose proof (Bplus_correct 53 1024 eq_refl eq_refl binop_nan_pl64 mode_NE _ _ Wx Wy) as C.
  pose proof (Bplus_correct 24 128 eq_refl eq_refl binop_nan_pl32 mode_NE _ _ Fx Fy) as D.
  change (BinarySingleNaN.round_mode mode_NE) with ZnearestE in *.
  change (SpecFloat.fexp 53 1024) with (FLT_exp (-1074) 53) in C.
  change (SpecFloat.fexp 24 128) with (FLT_exp (-149) 24) in D.
  rewrite Rx, Ry, Sx, Sy in C. rewrite Rlt_bool_true in C.
  2:{ apply round64_bounded. eapply Rle_trans; [apply Rabs_triang|].
      pose proof (bound32 x). pose proof (bound32 y).
      apply Rle_trans with (bpow radix2 129); [|apply bpow_le; lia].
      replace (bpow radix2 129) with (bpow radix2 128 + bpow radix2 128);
        [lra|change 129%Z with (1 + 128)%Z; rewrite bpow_plus; change (bpow radix2 1) with 2; lra]. }
  destruct C as (C1 & C2 & C3). split; [exact C2|].
  apply narrow_once with (r := B2R32 x + B2R32 y) (s := Bsign 24 128 x); try assumption.
  - apply round_round_plus_FLT; try apply format32; try reflexivity; lia.
  - destruct (Rlt_bool (Rabs (r32 (B2R32 x + B2R32 y))) (bpow radix2 128)) eqn:B.
    + destruct D as (D1 & D2 & D3). split; [exact D1|split; [exact D2|]].
      etransitivity; [exact D3|symmetry; exact C3].
    + destruct D as [D1 D2]. split; [exact D1|]. etransitivity; [|symmetry; exact C3].
      apply overflow_nonzero in B. rewrite <- D2, andb_diag.
      destruct (Bsign 24 128 x) eqn:Ex.
      * pose proof (Bsign_nonpos 24 128 x Fx Ex). symmetry in D2. pose proof (Bsign_nonpos 24 128 y Fy D2).
        rewrite Rcompare_Lt; [reflexivity|lra].
      * pose proof (Bsign_nonneg 24 128 x Fx Ex). symmetry in D2. pose proof (Bsign_nonneg 24 128 y Fy D2).
        rewrite Rcompare_Gt; [reflexivity|lra].
Qed.

Lemma minus_finite (x y : binary32) : is_finite 24 128 x = true -> is_finite 24 128 y = true ->
  is_finite 53 1024 (b64_minus mode_NE (widen x) (widen y)) = true /\
  narrow (b64_minus mode_NE (widen x) (widen y)) = b32_minus mode_NE x y.
Proof.
  intros Fx Fy. destruct (widen_correct x Fx) as (Rx & Wx & Sx), (widen_correct y Fy) as (Ry & Wy & Sy).
  pose proof (Bminus_correct 53 1024 eq_refl eq_refl binop_nan_pl64 mode_NE _ _ Wx Wy) as C.
  pose proof (Bminus_correct 24 128 eq_refl eq_refl binop_nan_pl32 mode_NE _ _ Fx Fy) as D.
  change (BinarySingleNaN.round_mode mode_NE) with ZnearestE in *.
  change (SpecFloat.fexp 53 1024) with (FLT_exp (-1074) 53) in C.
  change (SpecFloat.fexp 24 128) with (FLT_exp (-149) 24) in D.
  rewrite Rx, Ry, Sx, Sy in C. rewrite Rlt_bool_true in C.
  2:{ apply round64_bounded. eapply Rle_trans; [apply Rabs_triang|]. rewrite Rabs_Ropp.
      pose proof (bound32 x). pose proof (bound32 y).
      apply Rle_trans with (bpow radix2 129); [|apply bpow_le; lia].
      replace (bpow radix2 129) with (bpow radix2 128 + bpow radix2 128);
        [lra|change 129%Z with (1 + 128)%Z; rewrite bpow_plus; change (bpow radix2 1) with 2; lra]. }
  destruct C as (C1 & C2 & C3). split; [exact C2|].
  apply narrow_once with (r := B2R32 x - B2R32 y) (s := Bsign 24 128 x); try assumption.
  - apply round_round_minus_FLT; try apply format32; try reflexivity; lia.
  - destruct (Rlt_bool (Rabs (r32 (B2R32 x - B2R32 y))) (bpow radix2 128)) eqn:B.
    + destruct D as (D1 & D2 & D3). split; [exact D1|split; [exact D2|]].
      etransitivity; [exact D3|symmetry; exact C3].
    + destruct D as [D1 D2]. split; [exact D1|]. etransitivity; [|symmetry; exact C3].
      apply overflow_nonzero in B. rewrite <- D2, andb_diag.
      destruct (Bsign 24 128 x) eqn:Ex; symmetry in D2.
      * apply negb_true_iff in D2. pose proof (Bsign_nonpos 24 128 x Fx Ex). pose proof (Bsign_nonneg 24 128 y Fy D2).
        rewrite Rcompare_Lt; [reflexivity|lra].
      * apply negb_false_iff in D2. pose proof (Bsign_nonneg 24 128 x Fx Ex). pose proof (Bsign_nonpos 24 128 y Fy D2).
        rewrite Rcompare_Gt; [reflexivity|lra].
Qed.

Lemma finite_not_nan p e (x : binary_float p e) : is_finite p e x = true -> is_nan p e x = false.
Proof. destruct x; cbn; congruence. Qed.

Lemma mult_finite (x y : binary32) : is_finite 24 128 x = true -> is_finite 24 128 y = true ->
  is_finite 53 1024 (b64_mult mode_NE (widen x) (widen y)) = true /\
  narrow (b64_mult mode_NE (widen x) (widen y)) = b32_mult mode_NE x y.
Proof.
  intros Fx Fy. destruct (widen_correct x Fx) as (Rx & Wx & Sx), (widen_correct y Fy) as (Ry & Wy & Sy).
  pose proof (Bmult_correct 53 1024 eq_refl eq_refl binop_nan_pl64 mode_NE (widen x) (widen y)) as C.
  pose proof (Bmult_correct 24 128 eq_refl eq_refl binop_nan_pl32 mode_NE x y) as D.
  change (BinarySingleNaN.round_mode mode_NE) with ZnearestE in *.
  change (SpecFloat.fexp 53 1024) with (FLT_exp (-1074) 53) in C.
  change (SpecFloat.fexp 24 128) with (FLT_exp (-149) 24) in D.
  rewrite Rx, Ry, Sx, Sy in C. rewrite Rlt_bool_true in C.
  2:{ apply round64_bounded. rewrite Rabs_mult.
      pose proof (bound32 x). pose proof (bound32 y).
      apply Rle_trans with (bpow radix2 256); [|apply bpow_le; lia].
      change 256%Z with (128 + 128)%Z. rewrite bpow_plus.
      apply Rmult_le_compat; try apply Rabs_pos; lra. }
  destruct C as (C1 & C2 & C3). rewrite Wx, Wy in C2. split; [exact C2|].
  specialize (C3 (finite_not_nan _ _ _ C2)).
  apply narrow_once with (r := B2R32 x * B2R32 y) (s := xorb (Bsign 24 128 x) (Bsign 24 128 y)); try assumption.
  - apply round_round_mult_FLT; try apply format32; try reflexivity; try lia. typeclasses eauto.
  - destruct (Rlt_bool (Rabs (r32 (B2R32 x * B2R32 y))) (bpow radix2 128)) eqn:B.
    + destruct D as (D1 & D2 & D3). rewrite Fx, Fy in D2. split; [exact D1|split; [exact D2|]].
      etransitivity; [exact (D3 (finite_not_nan _ _ _ D2))|symmetry; exact C3].
    + split; [exact D|]. symmetry. exact C3.
Qed.

Lemma nonzero_low (y : binary32) : B2R32 y <> 0 -> bpow radix2 (-149) <= Rabs (B2R32 y).
Proof.
  intros H. destruct y as [s|s|s pl Hb|s m e Hb]; cbn in H; try (now contradict H).
  exact (abs_B2R_ge_emin 24 128 (B754_finite 24 128 s m e Hb) eq_refl).
Qed.

Lemma div_finite (x y : binary32) : is_finite 24 128 x = true -> is_finite 24 128 y = true -> B2R32 y <> 0 ->
  is_finite 53 1024 (b64_div mode_NE (widen x) (widen y)) = true /\
  narrow (b64_div mode_NE (widen x) (widen y)) = b32_div mode_NE x y.
Proof.
  intros Fx Fy Ny. destruct (widen_correct x Fx) as (Rx & Wx & Sx), (widen_correct y Fy) as (Ry & Wy & Sy).
  pose proof (Bdiv_correct 53 1024 eq_refl eq_refl binop_nan_pl64 mode_NE (widen x) (widen y)) as C.
  pose proof (Bdiv_correct 24 128 eq_refl eq_refl binop_nan_pl32 mode_NE x y Ny) as D.
  change (BinarySingleNaN.round_mode mode_NE) with ZnearestE in *.
  change (SpecFloat.fexp 53 1024) with (FLT_exp (-1074) 53) in C.
  change (SpecFloat.fexp 24 128) with (FLT_exp (-149) 24) in D.
  rewrite Rx, Ry, Sx, Sy in C. specialize (C Ny). rewrite Rlt_bool_true in C.
  2:{ apply round64_bounded. unfold Rdiv. rewrite Rabs_mult, Rabs_inv.
      pose proof (bound32 x). pose proof (nonzero_low y Ny).
      apply Rle_trans with (bpow radix2 277); [|apply bpow_le; lia].
      change 277%Z with (128 + - (-149))%Z. rewrite bpow_plus, bpow_opp.
      apply Rmult_le_compat; try apply Rabs_pos; [|lra|].
      - left. apply Rinv_0_lt_compat. now apply Rabs_pos_lt.
      - apply Rinv_le; [apply bpow_gt_0|exact H0]. }
  destruct C as (C1 & C2 & C3). rewrite Wx in C2. split; [exact C2|].
  specialize (C3 (finite_not_nan _ _ _ C2)).
  apply narrow_once with (r := B2R32 x / B2R32 y) (s := xorb (Bsign 24 128 x) (Bsign 24 128 y)); try assumption.
  - apply round_round_div_FLT; try apply format32; try reflexivity; try lia; [now exists 1%Z|exact Ny].
  - destruct (Rlt_bool (Rabs (r32 (B2R32 x / B2R32 y))) (bpow radix2 128)) eqn:B.
    + destruct D as (D1 & D2 & D3). rewrite Fx in D2. split; [exact D1|split; [exact D2|]].
      etransitivity; [exact (D3 (finite_not_nan _ _ _ D2))|symmetry; exact C3].
    + split; [exact D|]. symmetry. exact C3.
Qed.

Lemma sqrt_finite (x : binary32) : is_finite 24 128 x = true -> (Bsign 24 128 x = false \/ B2R32 x = 0) ->
  is_finite 53 1024 (b64_sqrt mode_NE (widen x)) = true /\
  narrow (b64_sqrt mode_NE (widen x)) = b32_sqrt mode_NE x.
Proof.
  intros Fx Px. destruct (widen_correct x Fx) as (Rx & Wx & Sx).
  pose proof (Bsqrt_correct 53 1024 eq_refl eq_refl unop_nan_pl64 mode_NE (widen x)) as C.
  pose proof (Bsqrt_correct 24 128 eq_refl eq_refl unop_nan_pl32 mode_NE x) as D.
  change (BinarySingleNaN.round_mode mode_NE) with ZnearestE in *.
  change (SpecFloat.fexp 53 1024) with (FLT_exp (-1074) 53) in C.
  change (SpecFloat.fexp 24 128) with (FLT_exp (-149) 24) in D.
  rewrite Rx, Sx in C. destruct C as (C1 & C2 & C3), D as (D1 & D2 & D3).
  assert (E : is_finite 24 128 (Bsqrt 24 128 eq_refl eq_refl unop_nan_pl32 mode_NE x) = true).
  { rewrite D2. destruct x as [s|s|s pl H|[] m e H]; try discriminate; try reflexivity.
    exfalso. destruct Px as [Px|Px]; [discriminate|]. cbn in Px.
    apply (Rlt_irrefl 0). rewrite <- Px at 1. now apply F2R_lt_0. }
  assert (E' : is_finite 53 1024 (Bsqrt 53 1024 eq_refl eq_refl unop_nan_pl64 mode_NE (widen x)) = true).
  { rewrite C2. destruct (widen x) as [s|s|s pl H|[] m e H]; try discriminate; try reflexivity.
    exfalso. cbn in Sx, Rx. destruct Px as [Px|Px]; [congruence|]. rewrite Px in Rx.
    apply (Rlt_irrefl 0). rewrite <- Rx at 1. now apply F2R_lt_0. }
  split; [exact E'|].
  apply narrow_once with (r := sqrt (B2R32 x)) (s := Bsign 24 128 x); try assumption.
  - apply round_round_sqrt_FLT; try apply format32; try reflexivity; lia.
  - specialize (C3 (finite_not_nan _ _ _ E')). specialize (D3 (finite_not_nan _ _ _ E)).
    rewrite Rlt_bool_true.
    + split; [exact D1|split; [exact E|]]. etransitivity; [exact D3|symmetry; exact C3].
    + rewrite <- D1. apply abs_B2R_lt_emax.
Qed.
