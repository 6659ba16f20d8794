(* Float arithmetic, minimum and maximum, square root, over the IEEE instance: proofs for PropFloat.v. *)
From Coq Require Import ZArith List Bool Reals Psatz.
From Flocq Require Import Core IEEE754.BinarySingleNaN IEEE754.Binary IEEE754.Bits.
From Verif Require Import Py SpecInt Arith Floatops Val Opcode Numeric Syntax Store Basic Machine Float SpecMachine SpecIeee
  PyFacts ArithFacts ValFacts StepFacts NumFacts IeeeFacts FloatFacts FloatOpFacts.
Import ListNotations.
Open Scope Z_scope.

Lemma same_refl {p e} (a : binary_float p e) : same_float a a.
Proof. left. reflexivity. Qed.
Lemma same_nan {p e} (a b : binary_float p e) : same_float a b -> is_nan p e a = is_nan p e b.
Proof. intros [->|[A B]]; congruence. Qed.
Lemma same_eq {p e} (a b : binary_float p e) : same_float a b -> is_nan p e b = false -> a = b.
Proof. intros [->|[A B]] N; congruence. Qed.

(* computing in double and narrowing agrees with computing in single *)
Definition agree2 (f64 : binary64 -> binary64 -> binary64) (f32 : binary32 -> binary32 -> binary32) : Prop :=
  forall x y, is_nan 24 128 x = false -> is_nan 24 128 y = false ->
    is_nan 53 1024 (f64 (widen x) (widen y)) = is_nan 24 128 (f32 x y) /\
    (is_nan 24 128 (f32 x y) = false -> narrow (f64 (widen x) (widen y)) = f32 x y).
Definition strict2 {p e} (f : binary_float p e -> binary_float p e -> binary_float p e) : Prop :=
  forall x y, is_nan p e x || is_nan p e y = true -> is_nan p e (f x y) = true.

Lemma op32_via_64 f64 f32 a b z : 0 <= a < 2 ^ 32 -> 0 <= b < 2 ^ 32 -> 0 <= z < 2 ^ 64 ->
  agree2 f64 f32 -> strict2 f64 -> strict2 f32 ->
  same_float (b64_of_bits z) (f64 (b64_of_bits (ieee_of32 a)) (b64_of_bits (ieee_of32 b))) ->
  same_float (b32_of_bits (ieee_to32 z)) (f32 (b32_of_bits a) (b32_of_bits b)).
Proof.
  intros Ha Hb Hz Ag S64 S32 Sz.
  assert (Nz : nan32 (ieee_to32 z) = is_nan 53 1024 (b64_of_bits z)) by (rewrite to32_isnan, isnan64; auto).
  destruct (nan32 a || nan32 b) eqn:E.
  - right. rewrite isnan32 by apply to32_range. rewrite Nz, (same_nan _ _ Sz). split.
    + apply S64. rewrite !isnan64 by apply of32_range. rewrite !of32_isnan by assumption. exact E.
    + apply S32. rewrite !isnan32 by assumption. exact E.
  - apply orb_false_iff in E as [Ea Eb]. rewrite !of32_num in Sz by assumption.
    destruct (Ag (b32_of_bits a) (b32_of_bits b)) as [An Av]; [rewrite isnan32; assumption|rewrite isnan32; assumption|].
    destruct (is_nan 24 128 (f32 (b32_of_bits a) (b32_of_bits b))) eqn:N.
    + right. split; [|exact N]. rewrite isnan32 by apply to32_range. rewrite Nz, (same_nan _ _ Sz). exact An.
    + left. rewrite <- Av by reflexivity. apply same_eq in Sz; [|exact An].
      rewrite to32_num; [now rewrite Sz|]. rewrite <- isnan64 by exact Hz. rewrite Sz. exact An.
Qed.

Lemma split32 b : is_nan 24 128 b = false -> (exists s, b = B754_infinity 24 128 s) \/ is_finite 24 128 b = true.
Proof. destruct b; try discriminate; intros _; [right; reflexivity|left; eauto|right; reflexivity]. Qed.

Lemma narrow_nan_finite z w : is_finite 53 1024 z = true -> narrow z = w ->
  is_nan 53 1024 z = is_nan 24 128 w /\ (is_nan 24 128 w = false -> narrow z = w).
Proof. intros F <-. split; [|auto]. rewrite narrow_not_nan. now apply finite_not_nan. Qed.

Ltac inf_case Fy := 
  let W := fresh in
  pose proof (proj1 (proj2 (widen_correct _ Fy))) as W; cbn [widen];
  destruct (finite_view _ W) as [(? & ->)|(? & ? & ? & ? & ->)];
  destruct (finite_view _ Fy) as [(? & ->)|(? & ? & ? & ? & ->)].

Lemma plus_agree : agree2 (b64_plus mode_NE) (b32_plus mode_NE).
Proof.
  intros x y Nx Ny. destruct (split32 x Nx) as [(sx & ->)|Fx], (split32 y Ny) as [(sy & ->)|Fy].
  - destruct sx, sy; split; intros; try reflexivity; discriminate.
  - inf_case Fy; split; intros; reflexivity.
  - inf_case Fx; split; intros; reflexivity.
  - destruct (plus_finite x y Fx Fy) as [F E]. now apply narrow_nan_finite.
Qed.
Lemma minus_agree : agree2 (b64_minus mode_NE) (b32_minus mode_NE).
Proof.
  intros x y Nx Ny. destruct (split32 x Nx) as [(sx & ->)|Fx], (split32 y Ny) as [(sy & ->)|Fy].
  - destruct sx, sy; split; intros; try reflexivity; discriminate.
  - inf_case Fy; split; intros; reflexivity.
  - inf_case Fx; split; intros; reflexivity.
  - destruct (minus_finite x y Fx Fy) as [F E]. now apply narrow_nan_finite.
Qed.
(* the widened float has the same shape *)
Lemma widen_shape x : is_finite 24 128 x = true ->
  (exists s, x = B754_zero 24 128 s /\ widen x = B754_zero 53 1024 s) \/
  (exists s m e H m' e' H', x = B754_finite 24 128 s m e H /\ widen x = B754_finite 53 1024 s m' e' H').
Proof.
  intros F. destruct (widen_correct x F) as (R & W & S).
  destruct (finite_view _ F) as [(s & ->)|(s & m & e & H & E)]; [left; exists s; split; reflexivity|].
  destruct (finite_view _ W) as [(s' & Ew)|(s' & m' & e' & H' & Ew)].
  - exfalso. rewrite Ew, E in R. cbn in R. symmetry in R. destruct s.
    + apply (Rlt_irrefl 0). rewrite <- R at 1. now apply F2R_lt_0.
    + apply (Rlt_irrefl 0). rewrite <- R at 2. now apply F2R_gt_0.
  - right. rewrite Ew, E in S. cbn in S. subst s'. do 7 eexists. split; [exact E|exact Ew].
Qed.
Ltac shape_case Fy :=
  let E1 := fresh in let E2 := fresh in
  destruct (widen_shape _ Fy) as [(? & E1 & E2)|(? & ? & ? & ? & ? & ? & ? & E1 & E2)]; rewrite ?E2, ?E1; cbn [widen].

Lemma mult_agree : agree2 (b64_mult mode_NE) (b32_mult mode_NE).
Proof.
  intros x y Nx Ny. destruct (split32 x Nx) as [(sx & ->)|Fx], (split32 y Ny) as [(sy & ->)|Fy].
  - destruct sx, sy; split; intros; reflexivity.
  - shape_case Fy; split; intros; try reflexivity; discriminate.
  - shape_case Fx; split; intros; try reflexivity; discriminate.
  - destruct (mult_finite x y Fx Fy) as [F E]. now apply narrow_nan_finite.
Qed.
Lemma div_agree : agree2 (b64_div mode_NE) (b32_div mode_NE).
Proof.
  intros x y Nx Ny. destruct (split32 x Nx) as [(sx & ->)|Fx], (split32 y Ny) as [(sy & ->)|Fy].
  - destruct sx, sy; split; intros; try reflexivity; discriminate.
  - shape_case Fy; split; intros; reflexivity.
  - shape_case Fx; split; intros; reflexivity.
  - destruct (Req_dec (B2R 24 128 y) 0) as [Z|Z].
    + destruct (widen_shape y Fy) as [(s & E1 & E2)|(s & m & e & H & _ & _ & _ & E1 & _)].
      * rewrite E1, E2 in *. clear E1 E2. shape_case Fx; split; intros; try reflexivity; discriminate.
      * exfalso. rewrite E1 in Z. cbn in Z. destruct s.
        -- apply (Rlt_irrefl 0). rewrite <- Z at 1. now apply F2R_lt_0.
        -- apply (Rlt_irrefl 0). rewrite <- Z at 2. now apply F2R_gt_0.
    + destruct (div_finite x y Fx Fy Z) as [F E]. now apply narrow_nan_finite.
Qed.

Lemma strict_plus64 : strict2 (b64_plus mode_NE).
Proof. intros x y H. destruct x, y; try discriminate H; reflexivity. Qed.
Lemma strict_plus32 : strict2 (b32_plus mode_NE).
Proof. intros x y H. destruct x, y; try discriminate H; reflexivity. Qed.
Lemma strict_minus64 : strict2 (b64_minus mode_NE).
Proof. intros x y H. destruct x, y; try discriminate H; reflexivity. Qed.
Lemma strict_minus32 : strict2 (b32_minus mode_NE).
Proof. intros x y H. destruct x, y; try discriminate H; reflexivity. Qed.
Lemma strict_mult64 : strict2 (b64_mult mode_NE).
Proof. intros x y H. destruct x, y; try discriminate H; reflexivity. Qed.
Lemma strict_mult32 : strict2 (b32_mult mode_NE).
Proof. intros x y H. destruct x, y; try discriminate H; reflexivity. Qed.
Lemma strict_div64 : strict2 (b64_div mode_NE).
Proof. intros x y H. destruct x, y; try discriminate H; reflexivity. Qed.
Lemma strict_div32 : strict2 (b32_div mode_NE).
Proof. intros x y H. destruct x, y; try discriminate H; reflexivity. Qed.

(* ---- division, with the zero divisor handled apart ---- *)
Lemma scaled_zero x : 0 <= x < 2 ^ 64 -> fl_scaled x = 0 -> b64_of_bits x = B754_zero 53 1024 (fl_sign x).
Proof.
  intros Hx H. apply B2FF_inj. rewrite b64_view by exact Hx. unfold ff64. unfold fl_scaled in H.
  pose proof (man_bound x). pose proof (exp_bound x).
  destruct (fl_exp x =? 0) eqn:E.
  - apply Z.eqb_eq in E. rewrite E in H. change (2 ^ (Z.max 0 1 - 1)) with 1 in H.
    replace (fl_man x) with 0 by (destruct (fl_sign x); lia). reflexivity.
  - exfalso. assert (0 < 2 ^ (Z.max (fl_exp x) 1 - 1)) by (apply Z.pow_pos_nonneg; lia).
    assert (0 < (fl_man x + 2 ^ 52) * 2 ^ (Z.max (fl_exp x) 1 - 1)) by (apply Z.mul_pos_pos; lia).
    destruct (fl_sign x); lia.
Qed.
Lemma eqb_zero x : 0 <= x < 2 ^ 64 -> fl_eqb x fl_zero = is_zero (b64_of_bits x).
Proof.
  intros Hx. unfold fl_eqb. change (fl_isnan fl_zero) with false. change (fl_scaled fl_zero) with 0. cbn [negb].
  rewrite andb_true_r. destruct (fl_scaled x =? 0) eqn:E.
  - apply Z.eqb_eq in E. pose proof (isnan64 x Hx) as N. rewrite (scaled_zero x Hx E) in *. cbn in N. rewrite <- N. reflexivity.
  - rewrite andb_false_r. apply Z.eqb_neq in E. destruct (b64_of_bits x) eqn:B; try reflexivity. exfalso. apply E.
    pose proof (value64 x Hx) as V. rewrite B in V. specialize (V eq_refl). cbn in V.
    symmetry in V. apply Rmult_integral in V as [V|V]; [now apply eq_IZR in V|].
    exfalso. pose proof (bpow_gt_0 radix2 (-1074)) as P. cbn in V, P. lra.
Qed.
Lemma inf_bits (s : bool) : b64_of_bits (if s then fl_neg fl_inf else fl_inf) = B754_infinity 53 1024 s.
Proof. apply B2FF_inj. rewrite b64_view by (destruct s; vm_compute; split; congruence). destruct s; reflexivity. Qed.
Lemma nan_bits (s : bool) : is_nan 53 1024 (b64_of_bits (if s then fl_neg fl_nan else fl_nan)) = true.
Proof. rewrite isnan64 by (destruct s; vm_compute; split; congruence). destruct s; reflexivity. Qed.

Lemma f64_div_ok a b : 0 <= a < 2 ^ 64 -> 0 <= b < 2 ^ 64 ->
  0 <= f64_div ieee a b < 2 ^ 64 /\
  same_float (b64_of_bits (f64_div ieee a b)) (b64_div mode_NE (b64_of_bits a) (b64_of_bits b)).
Proof.
  intros Ha Hb. unfold f64_div. rewrite (eqb_zero b Hb). pose proof (sign64 b Hb) as Sb.
  destruct (is_zero (b64_of_bits b)) eqn:Zb.
  - destruct (b64_of_bits b) as [sb| | |] eqn:Eb; try discriminate Zb. cbn in Sb. subst sb. clear Zb.
    rewrite (eqb_zero a Ha). pose proof (isnan64 a Ha) as Na. pose proof (sign64 a Ha) as Sa.
    assert (X : forall u w : Z, (if Bool.eqb (fl_sign a) (fl_sign b) then u else w) =
      (if xorb (fl_sign a) (fl_sign b) then w else u)) by (intros; destruct (fl_sign a), (fl_sign b); reflexivity).
    rewrite !X. clear X. split.
    { destruct (_ || _), (xorb _ _); vm_compute; split; congruence. }
    destruct (b64_of_bits a) as [sa|sa|sa pl H|sa m e H] eqn:Ea; cbn [is_zero is_nan] in *; rewrite <- Na; cbn [orb].
    + right. split; [apply nan_bits|reflexivity].
    + left. rewrite inf_bits. cbn in Sa. subst sa. reflexivity.
    + right. split; [apply nan_bits|reflexivity].
    + left. rewrite inf_bits. cbn in Sa. subst sa. reflexivity.
  - cbn [f_div ieee]. unfold on64. split; [apply bits64_range|]. rewrite b64_bits. apply same_refl.
Qed.

Lemma farith32_step host m o args fr f va vb V :
  about_to_run m (IOp o args) fr -> ieee_binop32 o = Some f ->
  k_value m = vb :: va :: V -> val_wf va -> val_wf vb ->
  pushes_single (step ieee host m) (moved_on m) V (fun r => same_float r (f (single va) (single vb))).
Proof.
  intros H Ho Hv Wa Wb.
  pose proof (low32_range va) as Ra. pose proof (low32_range vb) as Rb.
  assert (E : exists g z, num_op ieee o = Some (N2 g) /\ g args va vb = Ok (num_val T_f32 (ieee_to32 z)) /\
    same_float (b32_of_bits (ieee_to32 z)) (f (single va) (single vb))).
  { destruct o; cbn [ieee_binop32] in Ho; try discriminate Ho; injection Ho as <-.
    - eexists _, _. split; [reflexivity|]. split.
      + rewrite !low_f32 by assumption. cbn [rbind]. apply from_f32_ieee.
      + cbn [f_add ieee]. unfold on64.
        apply (op32_via_64 (b64_plus mode_NE)); auto using bits64_range, plus_agree, strict_plus64, strict_plus32.
        rewrite b64_bits. apply same_refl.
    - eexists _, _. split; [reflexivity|]. split.
      + rewrite !low_f32 by assumption. cbn [rbind]. apply from_f32_ieee.
      + cbn [f_sub ieee]. unfold on64.
        apply (op32_via_64 (b64_minus mode_NE)); auto using bits64_range, minus_agree, strict_minus64, strict_minus32.
        rewrite b64_bits. apply same_refl.
    - eexists _, _. split; [reflexivity|]. split.
      + rewrite !low_f32 by assumption. cbn [rbind]. apply from_f32_ieee.
      + cbn [f_mul ieee]. unfold on64.
        apply (op32_via_64 (b64_mult mode_NE)); auto using bits64_range, mult_agree, strict_mult64, strict_mult32.
        rewrite b64_bits. apply same_refl.
    - destruct (f64_div_ok _ _ (of32_range (low 32 va)) (of32_range (low 32 vb))) as [R S].
      eexists _, (f64_div ieee (ieee_of32 (low 32 va)) (ieee_of32 (low 32 vb))). split; [reflexivity|]. split.
      + rewrite !low_f32 by assumption. cbn [rbind]. rewrite from_f32_ieee. unfold f32_div, f32_fit. cbn [f_of32 f_to32 ieee].
        rewrite to32_idem. reflexivity.
      + apply (op32_via_64 (b64_div mode_NE)); auto using div_agree, strict_div64, strict_div32. }
  destruct E as (g & z & Hg & E & S). exists (ieee_to32 z). split; [apply to32_range|]. split; [|exact S].
  rewrite (step_num2 ieee host m o args fr g va vb V H Hg Hv), E. reflexivity.
Qed.

Lemma farith64_step host m o args fr f va vb V :
  about_to_run m (IOp o args) fr -> ieee_binop64 o = Some f ->
  k_value m = vb :: va :: V -> val_wf va -> val_wf vb ->
  pushes_double (step ieee host m) (moved_on m) V (fun r => same_float r (f (double va) (double vb))).
Proof.
  intros H Ho Hv Wa Wb.
  pose proof (low64_range va) as Ra. pose proof (low64_range vb) as Rb.
  assert (E : exists g z, num_op ieee o = Some (N2 g) /\ 0 <= z < 2 ^ 64 /\ g args va vb = Ok (num_val T_f64 z) /\
    same_float (b64_of_bits z) (f (double va) (double vb))).
  { destruct o; cbn [ieee_binop64] in Ho; try discriminate Ho; injection Ho as <-.
    4:{ destruct (f64_div_ok _ _ Ra Rb) as [R S]. eexists _, _. split; [reflexivity|]. split; [exact R|]. split; [|exact S].
        rewrite !low_f64 by assumption. cbn [rbind]. now apply from_f64_num. }
    all: eexists _, _; (split; [reflexivity|]); (split; [apply bits64_range|]);
      (split; [rewrite !low_f64 by assumption; cbn [rbind]; apply from_f64_num, bits64_range|]);
      rewrite b64_bits; apply same_refl. }
  destruct E as (g & z & Hg & R & E & S). exists z. split; [exact R|]. split; [|exact S].
  rewrite (step_num2 ieee host m o args fr g va vb V H Hg Hv), E. reflexivity.
Qed.

(* ---- square root ---- *)
Lemma geb_zero x : 0 <= x < 2 ^ 64 -> fl_geb_int x 0 = negb (fl_isnan x) && (is_zero (b64_of_bits x) || negb (fl_sign x)).
Proof.
  intros Hx. unfold fl_geb_int. destruct (fl_isnan x) eqn:N; [reflexivity|]. cbn [negb andb].
  change (0 * fl_unit) with 0. rewrite <- eqb_zero by exact Hx. unfold fl_eqb. rewrite N.
  change (fl_isnan fl_zero) with false. change (fl_scaled fl_zero) with 0. cbn [negb andb].
  destruct (fl_scaled x =? 0) eqn:E; [apply Z.eqb_eq in E; rewrite E; reflexivity|]. cbn [orb]. unfold fl_scaled in *.
  pose proof (man_bound x). set (m := if fl_exp x =? 0 then fl_man x else fl_man x + 2 ^ 52) in *.
  assert (0 <= m) by (clear E; subst m; destruct (fl_exp x =? 0); lia). clearbody m.
  assert (0 < 2 ^ (Z.max (fl_exp x) 1 - 1)) by (apply Z.pow_pos_nonneg; lia).
  assert (0 <= m * 2 ^ (Z.max (fl_exp x) 1 - 1)) by (apply Z.mul_nonneg_nonneg; lia).
  destruct (fl_sign x); cbn [negb]; lia.
Qed.
Lemma fl_sqrt_ok a : 0 <= a < 2 ^ 64 ->
  0 <= fl_sqrt ieee a < 2 ^ 64 /\ same_float (b64_of_bits (fl_sqrt ieee a)) (b64_sqrt mode_NE (b64_of_bits a)).
Proof.
  intros Ha. unfold fl_sqrt. rewrite (geb_zero a Ha). pose proof (isnan64 a Ha) as N. pose proof (sign64 a Ha) as S.
  destruct (_ && _) eqn:E.
  - cbn [f_sqrt ieee]. split; [apply bits64_range|]. rewrite b64_bits. apply same_refl.
  - split; [vm_compute; split; congruence|]. right. split; [apply (nan_bits false)|].
    destruct (b64_of_bits a) as [s|s|s pl H|s m e H]; cbn [is_nan Bsign] in N, S; rewrite <- N in E; try discriminate E; try reflexivity;
      cbn [is_zero negb andb orb] in E; apply negb_false_iff in E; rewrite S, E; reflexivity.
Qed.
Lemma sqrt32_ok a : 0 <= a < 2 ^ 32 ->
  same_float (b32_of_bits (ieee_to32 (fl_sqrt ieee (ieee_of32 a)))) (b32_sqrt mode_NE (b32_of_bits a)).
Proof.
  intros Ha. destruct (fl_sqrt_ok (ieee_of32 a) (of32_range a)) as [Rz Sz].
  set (z := fl_sqrt ieee (ieee_of32 a)) in *. clearbody z.
  assert (Nz : is_nan 24 128 (b32_of_bits (ieee_to32 z)) = is_nan 53 1024 (b64_sqrt mode_NE (b64_of_bits (ieee_of32 a)))).
  { rewrite isnan32 by apply to32_range. rewrite to32_isnan. rewrite <- isnan64 by exact Rz. now apply same_nan. }
  pose proof (isnan32 a Ha) as Na.
  destruct (nan32 a) eqn:E.
  - right. split.
    + rewrite Nz. pose proof (isnan64 _ (of32_range a)) as M. rewrite of32_isnan, E in M by exact Ha.
      destruct (b64_of_bits (ieee_of32 a)); try discriminate M. reflexivity.
    + destruct (b32_of_bits a); try discriminate Na. reflexivity.
  - rewrite of32_num in Sz, Nz by exact E.
    destruct (split32 _ Na) as [(s & Es)|F].
    + rewrite Es in *. cbn [widen] in *. destruct s.
      * right. split; [rewrite Nz; reflexivity|reflexivity].
      * left. apply same_eq in Sz; [|reflexivity]. rewrite to32_num; [rewrite Sz; reflexivity|].
        rewrite <- isnan64 by exact Rz. rewrite Sz. reflexivity.
    + destruct (is_zero (b32_of_bits a) || negb (Bsign 24 128 (b32_of_bits a))) eqn:P.
      * assert (Q : Bsign 24 128 (b32_of_bits a) = false \/ B2R 24 128 (b32_of_bits a) = 0%R).
        { apply orb_true_iff in P as [P|P]; [right|left; now apply negb_true_iff].
          destruct (b32_of_bits a); try discriminate P. reflexivity. }
        destruct (sqrt_finite _ F Q) as [F' E']. left. apply same_eq in Sz; [|now apply finite_not_nan].
        rewrite to32_num; [rewrite Sz; exact E'|]. rewrite <- isnan64 by exact Rz. rewrite Sz. now apply finite_not_nan.
      * right. rewrite Nz. destruct (widen_shape _ F) as [(s & E1 & E2)|(s & ? & ? & ? & ? & ? & ? & E1 & E2)];
          rewrite E1, E2 in *; [discriminate P|]. cbn in P. apply negb_false_iff in P. subst s. split; reflexivity.
Qed.
Lemma fsqrt32_step host m args fr va V :
  about_to_run m (IOp O_f32_sqrt args) fr -> k_value m = va :: V -> val_wf va ->
  pushes_single (step ieee host m) (moved_on m) V (fun r => same_float r (b32_sqrt mode_NE (single va))).
Proof.
  intros H Hv Wa. eexists. split; [apply to32_range|]. split; [|exact (sqrt32_ok _ (low32_range va))].
  rewrite (step_num1 ieee host m O_f32_sqrt args fr _ va V H eq_refl Hv), low_f32 by exact Wa. cbn [rbind].
  rewrite from_f32_ieee. reflexivity.
Qed.
Lemma fsqrt64_step host m args fr va V :
  about_to_run m (IOp O_f64_sqrt args) fr -> k_value m = va :: V -> val_wf va ->
  pushes_double (step ieee host m) (moved_on m) V (fun r => same_float r (b64_sqrt mode_NE (double va))).
Proof.
  intros H Hv Wa. destruct (fl_sqrt_ok _ (low64_range va)) as [R S]. eexists. split; [exact R|]. split; [|exact S].
  rewrite (step_num1 ieee host m O_f64_sqrt args fr _ va V H eq_refl Hv), low_f64 by exact Wa. cbn [rbind].
  rewrite from_f64_num by exact R. reflexivity.
Qed.

(* ---- minimum and maximum ---- *)
Lemma cmp_eq {p e} (a b : binary_float p e) : Bcompare p e a b = Some Eq -> is_zero a && is_zero b = false -> a = b.
Proof.
  intros C Z. destruct a as [s|s|s pl H|s m ex H] eqn:Ea, b as [s'|s'|s' pl' H'|s' m' ex' H'] eqn:Eb;
    try discriminate Z; try discriminate C; try (destruct s; discriminate C); try (destruct s'; discriminate C).
  - destruct s, s'; try discriminate C; reflexivity.
  - rewrite Bcompare_correct in C by reflexivity. injection C as C. apply Rcompare_Eq_inv in C.
    apply B2R_inj; [reflexivity|reflexivity|exact C].
Qed.
Lemma extremum_pick {p e} (up : bool) (a b r : binary_float p e) :
  is_nan p e a = false -> is_nan p e b = false -> opposite_zeros a b = false ->
  r = match Bcompare p e a b with
      | Some Lt => if up then b else a
      | Some Gt => if up then a else b
      | _ => a end ->
  is_extremum up a b r.
Proof.
  intros Na Nb Oz E. unfold is_extremum. rewrite Na, Nb. cbn [orb].
  destruct (is_zero a && is_zero b) eqn:Z.
  - unfold opposite_zeros in Oz. rewrite Z in Oz. cbn [andb] in Oz. apply negb_false_iff, eqb_prop in Oz.
    destruct a as [s| | |], b as [s'| | |]; try discriminate Z. cbn in Oz, E. subst. cbn [Bsign].
    destruct s', up; reflexivity.
  - destruct (Bcompare p e a b) as [[]|] eqn:C; try exact E.
    + split; [exact E|]. apply cmp_eq; assumption.
    + exfalso. destruct a as [s|s|s pl H|s m ex H], b as [s'|s'|s' pl' H'|s' m' ex' H'];
        try discriminate Na; try discriminate Nb; try discriminate C;
        try (destruct s; discriminate C); try (destruct s'; discriminate C); try (destruct s, s'; discriminate C).
Qed.

Lemma pick64 (up : bool) a b : 0 <= a < 2 ^ 64 -> 0 <= b < 2 ^ 64 -> fl_isnan a = false -> fl_isnan b = false ->
  (if up then f64_max a b else f64_min a b) =
    match b64_compare (b64_of_bits a) (b64_of_bits b) with
    | Some Lt => if up then b else a
    | Some Gt => if up then a else b
    | _ => a end.
Proof.
  intros Ha Hb Na Nb. rewrite cmp64 by assumption. unfold f64_max, f64_min, fl_max, fl_min. rewrite !fl_ltb_cmp, Na, Nb.
  cbn [orb]. rewrite (Z.compare_antisym (fl_scaled a) (fl_scaled b)).
  destruct (fl_scaled a ?= fl_scaled b), up; reflexivity.
Qed.
Lemma pick_nan (up : bool) a b : fl_isnan a || fl_isnan b = true ->
  fl_isnan (if up then f64_max a b else f64_min a b) = true.
Proof.
  intros H. unfold f64_max, f64_min. destruct (fl_isnan b) eqn:B; [destruct up; exact B|].
  rewrite orb_false_r in H. rewrite H. destruct up; exact H.
Qed.
Lemma pick_or (up : bool) a b : (if up then f64_max a b else f64_min a b) = a \/ (if up then f64_max a b else f64_min a b) = b.
Proof.
  unfold f64_max, f64_min, fl_max, fl_min. destruct up, (fl_isnan b), (fl_isnan a), (fl_ltb a b), (fl_ltb b a); auto.
Qed.

Lemma extremum64 (up : bool) a b : 0 <= a < 2 ^ 64 -> 0 <= b < 2 ^ 64 ->
  opposite_zeros (b64_of_bits a) (b64_of_bits b) = false ->
  is_extremum up (b64_of_bits a) (b64_of_bits b) (b64_of_bits (if up then f64_max a b else f64_min a b)).
Proof.
  intros Ha Hb Oz. destruct (fl_isnan a || fl_isnan b) eqn:N.
  - unfold is_extremum. rewrite !isnan64, N by assumption.
    rewrite isnan64; [now apply pick_nan|]. destruct (pick_or up a b) as [->| ->]; assumption.
  - apply orb_false_iff in N as [Na Nb]. apply extremum_pick; [rewrite isnan64; assumption|rewrite isnan64; assumption|exact Oz|].
    rewrite pick64 by assumption. unfold b64_compare. destruct (Bcompare _ _ _ _) as [[]|], up; reflexivity.
Qed.
Lemma extremum32 (up : bool) a b : 0 <= a < 2 ^ 32 -> 0 <= b < 2 ^ 32 ->
  opposite_zeros (b32_of_bits a) (b32_of_bits b) = false ->
  is_extremum up (b32_of_bits a) (b32_of_bits b)
    (b32_of_bits (ieee_to32 (if up then f64_max (ieee_of32 a) (ieee_of32 b) else f64_min (ieee_of32 a) (ieee_of32 b)))).
Proof.
  intros Ha Hb Oz. destruct (nan32 a || nan32 b) eqn:N.
  - unfold is_extremum. rewrite !isnan32, N by (assumption || apply to32_range).
    rewrite to32_isnan. apply pick_nan. rewrite !of32_isnan by assumption. exact N.
  - apply orb_false_iff in N as [Na Nb]. apply extremum_pick; [rewrite isnan32; assumption|rewrite isnan32; assumption|exact Oz|].
    rewrite pick64 by (apply of32_range || (rewrite of32_isnan; assumption)).
    rewrite !of32_num by assumption. rewrite cmp_widen by (rewrite isnan32; assumption).
    unfold b32_compare. destruct (Bcompare _ _ _ _) as [[]|], up; rewrite to32_of32; auto.
Qed.

Lemma extremum_step host m o args fr N up va vb V :
  about_to_run m (IOp o args) fr -> extremum_op o = Some (N, up) ->
  k_value m = vb :: va :: V -> val_wf va -> val_wf vb ->
  if N =? 32
  then opposite_zeros (single va) (single vb) = false ->
       pushes_single (step ieee host m) (moved_on m) V (is_extremum up (single va) (single vb))
  else opposite_zeros (double va) (double vb) = false ->
       pushes_double (step ieee host m) (moved_on m) V (is_extremum up (double va) (double vb)).
Proof.
  intros H Ho Hv Wa Wb. pose proof (low32_range va) as Ra. pose proof (low32_range vb) as Rb.
  pose proof (low64_range va) as Qa. pose proof (low64_range vb) as Qb.
  destruct o; cbn [extremum_op] in Ho; try discriminate Ho; injection Ho as <- <-; cbn [Z.eqb Pos.eqb]; intros Oz.
  - eexists. split; [apply to32_range|]. split; [|exact (extremum32 false _ _ Ra Rb Oz)].
    rewrite (step_num2 ieee host m _ args fr _ va vb V H eq_refl Hv), !low_f32 by assumption. cbn [rbind].
    rewrite from_f32_ieee. unfold f32_min, f32_fit. cbn [f_of32 f_to32 ieee]. rewrite to32_idem. reflexivity.
  - eexists. split; [apply to32_range|]. split; [|exact (extremum32 true _ _ Ra Rb Oz)].
    rewrite (step_num2 ieee host m _ args fr _ va vb V H eq_refl Hv), !low_f32 by assumption. cbn [rbind].
    rewrite from_f32_ieee. unfold f32_max, f32_fit. cbn [f_of32 f_to32 ieee]. rewrite to32_idem. reflexivity.
  - assert (R : 0 <= f64_min (low 64 va) (low 64 vb) < 2 ^ 64)
      by (destruct (pick_or false (low 64 va) (low 64 vb)) as [->| ->]; assumption).
    eexists. split; [exact R|]. split; [|exact (extremum64 false _ _ Qa Qb Oz)].
    rewrite (step_num2 ieee host m _ args fr _ va vb V H eq_refl Hv), !low_f64 by assumption. cbn [rbind].
    rewrite from_f64_num by exact R. reflexivity.
  - assert (R : 0 <= f64_max (low 64 va) (low 64 vb) < 2 ^ 64)
      by (destruct (pick_or true (low 64 va) (low 64 vb)) as [->| ->]; assumption).
    eexists. split; [exact R|]. split; [|exact (extremum64 true _ _ Qa Qb Oz)].
    rewrite (step_num2 ieee host m _ args fr _ va vb V H eq_refl Hv), !low_f64 by assumption. cbn [rbind].
    rewrite from_f64_num by exact R. reflexivity.
Qed.
