(* The float instructions of Numeric.v over the IEEE instance: proofs for PropFloat.v. *)
From Coq Require Import ZArith List Bool Reals Psatz.
From Flocq Require Import Core IEEE754.BinarySingleNaN IEEE754.Binary IEEE754.Bits.
From Verif Require Import Py SpecInt Arith Floatops Val Opcode Numeric Syntax Store Basic Machine Float SpecMachine SpecIeee
  PyFacts ArithFacts ValFacts StepFacts NumFacts IeeeFacts FloatFacts.
Import ListNotations.
Open Scope Z_scope.

(* ---- comparison ---- *)
Lemma scaled_inf x : fl_isinf x = true -> fl_scaled x = if fl_sign x then - 2 ^ 2098 else 2 ^ 2098.
Proof.
  unfold fl_isinf. intros H. apply andb_true_iff in H as [E M]. apply Z.eqb_eq in E, M.
  unfold fl_scaled. rewrite E, M. destruct (fl_sign x); reflexivity.
Qed.
Lemma scaled_bound x : fl_isnan x = false -> fl_isinf x = false -> Z.abs (fl_scaled x) < 2 ^ 2098.
Proof.
  intros N I. pose proof (man_bound x) as Hm. pose proof (exp_bound x) as He.
  assert (E : fl_exp x <> 2047).
  { intros E. unfold fl_isnan, fl_isinf in *. rewrite E in *. destruct (fl_man x =? 0); discriminate. }
  unfold fl_scaled. change (2 ^ 11) with 2048 in He.
  set (m := if fl_exp x =? 0 then fl_man x else fl_man x + 2 ^ 52).
  assert (Hm' : 0 <= m < 2 ^ 53) by (subst m; destruct (_ =? _); lia).
  assert (A : 0 <= m * 2 ^ (Z.max (fl_exp x) 1 - 1) < 2 ^ 2098).
  { split; [apply Z.mul_nonneg_nonneg; [lia|apply Z.pow_nonneg; lia]|].
    apply Z.lt_le_trans with (2 ^ 53 * 2 ^ (Z.max (fl_exp x) 1 - 1)).
    - apply Z.mul_lt_mono_pos_r; [apply Z.pow_pos_nonneg; lia|lia].
    - rewrite <- Z.pow_add_r by lia. apply Z.pow_le_mono_r; lia. }
  destruct (fl_sign x); lia.
Qed.
Lemma finite_view {p e} (b : binary_float p e) : is_finite p e b = true ->
  (exists s, b = B754_zero p e s) \/ (exists s m ex H, b = B754_finite p e s m ex H).
Proof. destruct b; try discriminate; intros _; [left|right]; eauto. Qed.

Lemma cmp64 a b : 0 <= a < 2 ^ 64 -> 0 <= b < 2 ^ 64 ->
  b64_compare (b64_of_bits a) (b64_of_bits b) =
    if fl_isnan a || fl_isnan b then None else Some (fl_scaled a ?= fl_scaled b).
Proof.
  intros Ha Hb. pose proof (isnan64 a Ha) as Na. pose proof (isnan64 b Hb) as Nb.
  pose proof (finite64 a Ha) as Fa. pose proof (finite64 b Hb) as Fb.
  destruct (fl_isnan a) eqn:NA.
  { destruct (b64_of_bits a) as [s|s|s pl H|s m e H]; try discriminate Na. reflexivity. }
  destruct (fl_isnan b) eqn:NB.
  { destruct (b64_of_bits b) as [s|s|s pl H|s m e H]; try discriminate Nb. destruct (b64_of_bits a); reflexivity. }
  cbn [orb negb] in *.
  destruct (fl_isinf a) eqn:IA, (fl_isinf b) eqn:IB; cbn [negb] in *.
  - rewrite (isinf64 a Ha IA), (isinf64 b Hb IB), (scaled_inf a IA), (scaled_inf b IB).
    destruct (fl_sign a), (fl_sign b); reflexivity.
  - rewrite (isinf64 a Ha IA), (scaled_inf a IA). pose proof (scaled_bound b NB IB) as L.
    assert (C : (if fl_sign a then - 2 ^ 2098 else 2 ^ 2098) ?= fl_scaled b = if fl_sign a then Lt else Gt).
    { destruct (fl_sign a); [apply Z.compare_lt_iff; lia|apply Z.compare_gt_iff; lia]. }
    rewrite C. destruct (finite_view _ Fb) as [(s & ->)|(s & m & ex & H & ->)]; destruct (fl_sign a); reflexivity.
  - rewrite (isinf64 b Hb IB), (scaled_inf b IB). pose proof (scaled_bound a NA IA) as L.
    assert (C : fl_scaled a ?= (if fl_sign b then - 2 ^ 2098 else 2 ^ 2098) = if fl_sign b then Gt else Lt).
    { destruct (fl_sign b); [apply Z.compare_gt_iff; lia|apply Z.compare_lt_iff; lia]. }
    rewrite C. destruct (finite_view _ Fa) as [(s & ->)|(s & m & ex & H & ->)]; destruct (fl_sign b); reflexivity.
  - unfold b64_compare. rewrite Bcompare_correct by assumption.
    rewrite (value64 a Ha Fa), (value64 b Hb Fb). rewrite Rcompare_mult_r by apply bpow_gt_0.
    rewrite Rcompare_IZR. reflexivity.
Qed.

Lemma cmp_widen x y : is_nan 24 128 x = false -> is_nan 24 128 y = false ->
  b64_compare (widen x) (widen y) = b32_compare x y.
Proof.
  intros Nx Ny.
  assert (Hf : forall b, is_nan 24 128 b = false ->
    (exists s, b = B754_infinity 24 128 s) \/ is_finite 24 128 b = true).
  { intros b. destruct b; try discriminate; intros _; [right; reflexivity|left; eauto|right; reflexivity]. }
  destruct (Hf x Nx) as [(sx & ->)|Fx], (Hf y Ny) as [(sy & ->)|Fy].
  - reflexivity.
  - destruct (widen_correct y Fy) as (_ & Wy & _).
    cbn [widen]. destruct (finite_view _ Wy) as [(s & ->)|(s & m & ex & H & ->)];
      destruct (finite_view _ Fy) as [(s' & ->)|(s' & m' & ex' & H' & ->)]; destruct sx; reflexivity.
  - destruct (widen_correct x Fx) as (_ & Wx & _).
    cbn [widen]. destruct (finite_view _ Wx) as [(s & ->)|(s & m & ex & H & ->)];
      destruct (finite_view _ Fx) as [(s' & ->)|(s' & m' & ex' & H' & ->)]; destruct sy; reflexivity.
  - destruct (widen_correct x Fx) as (Rx & Wx & _), (widen_correct y Fy) as (Ry & Wy & _).
    unfold b64_compare, b32_compare. rewrite !Bcompare_correct by assumption. rewrite Rx, Ry. reflexivity.
Qed.
Lemma cmp_none {p e} (a b : binary_float p e) : is_nan p e a || is_nan p e b = true -> Bcompare p e a b = None.
Proof. destruct a, b; intros H; try discriminate H; reflexivity. Qed.

Lemma cmp32 a b : 0 <= a < 2 ^ 32 -> 0 <= b < 2 ^ 32 ->
  b32_compare (b32_of_bits a) (b32_of_bits b) =
    if fl_isnan (ieee_of32 a) || fl_isnan (ieee_of32 b) then None
    else Some (fl_scaled (ieee_of32 a) ?= fl_scaled (ieee_of32 b)).
Proof.
  intros Ha Hb. destruct (nan32 a || nan32 b) eqn:E.
  - rewrite !of32_isnan, E by assumption. apply cmp_none. rewrite !isnan32, E by assumption. reflexivity.
  - apply orb_false_iff in E as [Ea Eb].
    rewrite <- cmp64 by apply of32_range. rewrite !of32_num by assumption. symmetry.
    apply cmp_widen; rewrite isnan32; assumption.
Qed.

(* the comparisons as the code writes them *)
Lemma fl_eqb_cmp a b : fl_eqb a b =
  match (if fl_isnan a || fl_isnan b then None else Some (fl_scaled a ?= fl_scaled b)) with
  | Some Eq => true | _ => false end.
Proof. unfold fl_eqb. rewrite Z.eqb_compare. destruct (fl_isnan a), (fl_isnan b); reflexivity. Qed.
Lemma fl_ltb_cmp a b : fl_ltb a b =
  match (if fl_isnan a || fl_isnan b then None else Some (fl_scaled a ?= fl_scaled b)) with
  | Some Lt => true | _ => false end.
Proof. unfold fl_ltb. rewrite Z.ltb_compare. destruct (fl_isnan a), (fl_isnan b); reflexivity. Qed.
Lemma fl_leb_cmp a b : fl_leb a b =
  match (if fl_isnan a || fl_isnan b then None else Some (fl_scaled a ?= fl_scaled b)) with
  | Some Lt | Some Eq => true | _ => false end.
Proof.
  unfold fl_leb. rewrite Z.leb_compare. destruct (fl_isnan a), (fl_isnan b); reflexivity.
Qed.

Lemma low_f64 v : val_wf v -> into_f64 v = Ok (low 64 v).
Proof. intros H. rewrite into_f64_ok by exact H. reflexivity. Qed.
Lemma low_f32 v : val_wf v -> into_f32 ieee v = Ok (ieee_of32 (low 32 v)).
Proof. intros H. rewrite into_f32_ok by exact H. reflexivity. Qed.
Lemma low32_range v : 0 <= low 32 v < 2 ^ 32.
Proof. apply Z.mod_pos_bound. reflexivity. Qed.
Lemma low64_range v : 0 <= low 64 v < 2 ^ 64.
Proof. apply Z.mod_pos_bound. reflexivity. Qed.
Lemma from_f64_num x : 0 <= x < 2 ^ 64 -> from_f64 x = Ok (num_val T_f64 x).
Proof. intros H. rewrite from_f64_ok, Z.mod_small by exact H. reflexivity. Qed.

Lemma flip_cmp o : match o with Some Lt => true | _ => false end =
  match option_map CompOpp o with Some Gt => true | _ => false end.
Proof. destruct o as [[]|]; reflexivity. Qed.
Lemma flip_cmp_le o : match o with Some Lt | Some Eq => true | _ => false end =
  match option_map CompOpp o with Some Gt | Some Eq => true | _ => false end.
Proof. destruct o as [[]|]; reflexivity. Qed.
Lemma swap_cmp a b :
  option_map CompOpp (if fl_isnan b || fl_isnan a then None else Some (fl_scaled b ?= fl_scaled a)) =
  (if fl_isnan a || fl_isnan b then None else Some (fl_scaled a ?= fl_scaled b)).
Proof. rewrite orb_comm. destruct (_ || _); [reflexivity|]. cbn [option_map]. now rewrite <- Z.compare_antisym. Qed.

Lemma frelop_step host m o args fr N f va vb V :
  about_to_run m (IOp o args) fr -> float_relop o = Some (N, f) ->
  k_value m = vb :: va :: V -> val_wf va -> val_wf vb ->
  step ieee host m = (Ok tt, moved_on m (num_val T_i32 (SpecNum.truth (f (float_compare N va vb))) :: V)).
Proof.
  intros H Ho Hv Wa Wb.
  assert (E : exists g, num_op ieee o = Some (N2 g) /\
    g args va vb = Ok (num_val T_i32 (SpecNum.truth (f (float_compare N va vb))))).
  { destruct o; cbn [float_relop] in Ho; try discriminate Ho; injection Ho as <- <-;
      eexists; (split; [reflexivity|]); unfold float_compare, single, double; cbn [Z.eqb Pos.eqb];
      rewrite ?low_f32, ?low_f64 by assumption; cbn [rbind];
      rewrite ?cmp32 by apply low32_range; rewrite ?cmp64 by apply low64_range;
      rewrite truth_val; repeat f_equal; rewrite ?fl_eqb_cmp, ?fl_ltb_cmp, ?fl_leb_cmp; try reflexivity;
      try (rewrite flip_cmp, swap_cmp; reflexivity); try (rewrite flip_cmp_le, swap_cmp; reflexivity);
      match goal with |- context [if ?c then None else Some ?d] => destruct (if c then None else Some d) as [[]|] end;
      reflexivity. }
  destruct E as (g & Hg & E). rewrite (step_num2 ieee host m o args fr g va vb V H Hg Hv), E. reflexivity.
Qed.
