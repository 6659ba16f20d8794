(* Lemmas for the instructions that only touch the sign bit: abs, neg, copysign. *)
From Coq Require Import ZArith List Bool Lia Reals Lra.
From Flocq Require Import Core IEEE754.BinarySingleNaN IEEE754.Binary IEEE754.Bits.
From Verif Require Import Py Arith Floatops Val Opcode Numeric Syntax Store Basic Machine SpecInt SpecNum SpecMachine.
From Verif Require Import PyFacts ArithFacts ValFacts StepFacts NumFacts Float SpecIeee IeeeFacts FloatFacts FloatOpFacts FloatArithFacts.
Import ListNotations.
Open Scope Z_scope.

(* ---- one byte of a value replaced ---- *)
Lemma byte_split (d : list Z) k : (k < length d)%nat ->
  d = firstn k d ++ nth k d 0 :: skipn (S k) d.
Proof.
  revert k. induction d as [|x d IH]; intros k H; cbn [length] in H; [lia|].
  destruct k; [reflexivity|]. cbn [firstn nth skipn app]. f_equal. apply IH. lia.
Qed.
Lemma upd_split {A} (d : list A) k (x : A) : (k < length d)%nat -> upd d k x = firstn k d ++ x :: skipn (S k) d.
Proof.
  revert k. induction d as [|y d IH]; intros k H; cbn [length] in H; [lia|].
  destruct k; [reflexivity|]. cbn [upd firstn skipn app]. f_equal. apply IH. lia.
Qed.
Lemma le_of_byte (d : list Z) k y : bytes d -> (k < length d)%nat ->
  le_of (firstn k d ++ y :: skipn (S k) d) =
    le_of (firstn k d) + 2 ^ (8 * Z.of_nat k) * (y + 256 * le_of (skipn (S k) d)).
Proof.
  intros B H. rewrite le_of_app. unfold len. rewrite firstn_length_le by lia. reflexivity.
Qed.
Lemma byte_op_ok t f k d : bytes d -> length d = 16%nat -> (k < 16)%nat -> (forall x, 0 <= x < 256 -> 0 <= f x < 256) ->
  exists v, (let? b := byte_op f (Z.of_nat k) d in mk_val t b) = Ok v /\ v_type v = t /\ val_wf v /\
    exists L x H, 0 <= L < 2 ^ (8 * Z.of_nat k) /\ 0 <= x < 256 /\ 0 <= H /\
      le_of d = L + 2 ^ (8 * Z.of_nat k) * (x + 256 * H) /\
      le_of (v_data v) = L + 2 ^ (8 * Z.of_nat k) * (f x + 256 * H).
Proof.
  intros B L K F. unfold byte_op.
  assert (I : py_index d (Z.of_nat k) = Ok (nth k d 0)).
  { rewrite (py_index_in _ _ 0) by (unfold len; lia). rewrite Nat2Z.id. reflexivity. }
  rewrite I. cbn [rbind]. rewrite py_setitem_in by (unfold len; lia). rewrite Nat2Z.id. cbn [rbind]. unfold mk_val.
  assert (E : upd d k (f (nth k d 0)) = firstn k d ++ f (nth k d 0) :: skipn (S k) d) by (apply upd_split; lia).
  assert (X : 0 <= nth k d 0 < 256).
  { assert (In (nth k d 0) d) by (apply nth_In; lia). unfold bytes in B. rewrite Forall_forall in B. apply B, H. }
  assert (L' : length (upd d k (f (nth k d 0))) = 16%nat).
  { rewrite E, app_length. cbn [length]. rewrite firstn_length_le, skipn_length by lia. lia. }
  unfold py_assert, len. rewrite L'. cbn [Z.of_nat Z.eqb]. change (Z.of_nat 16 =? blen) with true. cbn [rbind].
  assert (B1 : bytes (firstn k d)) by (apply bytes_firstn, B).
  assert (B2 : bytes (skipn (S k) d)) by (apply bytes_skipn, B).
  eexists. split; [reflexivity|]. cbn [v_type v_data]. split; [reflexivity|]. split.
  { split; cbn [v_data]; [unfold len; exact L'|]. rewrite E. apply Forall_app. split; [exact B1|].
    constructor; [apply F, X|exact B2]. }
  exists (le_of (firstn k d)), (nth k d 0), (le_of (skipn (S k) d)).
  pose proof (le_of_bound _ B1) as P1. unfold len in P1. rewrite firstn_length_le in P1 by lia.
  pose proof (le_of_bound _ B2) as P2.
  split; [exact P1|]. split; [exact X|]. split; [apply P2|]. split.
  - rewrite (byte_split d k) at 1 by lia. apply le_of_byte; [exact B|lia].
  - rewrite E. apply le_of_byte; [exact B|lia].
Qed.

Lemma abs_byte : forall x, 0 <= x < 256 -> Z.land x 0x7f = x mod 128.
Proof. intros x H. change 0x7f with (Z.ones 7). rewrite Z.land_ones by lia. reflexivity. Qed.
Lemma neg_byte : forall x, 0 <= x < 256 -> Z.lxor x 0x80 = x mod 128 + (if 128 <=? x then 0 else 128).
Proof.
  intros x H. assert (C : forallb (fun n => Z.lxor (Z.of_nat n) 0x80 =?
     Z.of_nat n mod 128 + (if 128 <=? Z.of_nat n then 0 else 128)) (seq 0 256) = true) by (vm_compute; reflexivity).
  rewrite forallb_forall in C. specialize (C (Z.to_nat x)). rewrite in_seq in C. specialize (C ltac:(lia)).
  rewrite Z2Nat.id in C by lia. lia.
Qed.
Lemma flip_byte f x : (f = (fun x => Z.land x 0x7f) \/ f = (fun x => Z.lxor x 0x80)) -> 0 <= x < 256 -> 0 <= f x < 256.
Proof.
  intros [->| ->] H; [rewrite abs_byte by exact H|rewrite neg_byte by exact H]; [lia|]. destruct (128 <=? x); lia.
Qed.
(* replacing the top bit of byte [k] of a number *)
Lemma top_byte k L x H : 0 <= k -> 0 <= L < 2 ^ (8 * k) -> 0 <= x < 256 -> 0 <= H ->
  let u := L + 2 ^ (8 * k) * (x + 256 * H) in
  u mod 2 ^ (8 * k + 8) = L + 2 ^ (8 * k) * x /\ u / 2 ^ (8 * k + 8) = H /\
  u mod 2 ^ (8 * k + 8) mod 2 ^ (8 * k + 7) = L + 2 ^ (8 * k) * (x mod 128) /\
  Z.testbit (u mod 2 ^ (8 * k + 8)) (8 * k + 7) = (128 <=? x).
Proof.
  intros K HL HX HH. cbv zeta. rewrite !Z.pow_add_r by lia. change (2 ^ 8) with 256. change (2 ^ 7) with 128.
  assert (P : 0 < 2 ^ (8 * k)) by (apply Z.pow_pos_nonneg; lia). remember (2 ^ (8 * k)) as p eqn:Ep.
  assert (M : (L + p * (x + 256 * H)) mod (p * 256) = L + p * x).
  { symmetry. apply Z.mod_unique_pos with H; nia. }
  rewrite M. split; [reflexivity|]. split; [symmetry; apply Z.div_unique_pos with (L + p * x); nia|]. split.
  - symmetry. apply Z.mod_unique_pos with (x / 128); [split; nia|]. pose proof (Z.div_mod x 128). nia.
  - rewrite testbit_top; [|lia|].
    + rewrite Z.pow_add_r, <- Ep by lia. change (2 ^ 7) with 128.
      destruct (128 <=? x) eqn:C; [apply Z.leb_le|apply Z.leb_gt]; nia.
    + replace (8 * k + 7 + 1) with (8 * k + 8) by lia. rewrite Z.pow_add_r, <- Ep by lia. change (2 ^ 8) with 256. nia.
Qed.

Lemma sign_shape o N f : sign_op o = Some (N, f) -> (N = 32 \/ N = 64) /\
  exists k g, N = 8 * Z.of_nat k + 8 /\ (k < 16)%nat /\ (forall x, 0 <= x < 256 -> 0 <= g x < 256) /\
    (forall x, 0 <= x < 256 -> g x mod 128 = x mod 128 /\ (128 <=? g x) = f (128 <=? x)) /\
    num_op ieee o = Some (op1 Ok (fun _ a => byte_op g (Z.of_nat k) (v_data a)) (mk_val (float_type N))).
Proof.
  assert (A : forall x, 0 <= x < 256 -> Z.land x 0x7f mod 128 = x mod 128 /\ (128 <=? Z.land x 0x7f) = false).
  { intros x H. rewrite abs_byte by exact H. split; [apply Z.mod_mod; lia|]. apply Z.leb_gt. lia. }
  assert (B : forall x, 0 <= x < 256 -> Z.lxor x 0x80 mod 128 = x mod 128 /\ (128 <=? Z.lxor x 0x80) = negb (128 <=? x)).
  { intros x H. rewrite neg_byte by exact H. destruct (128 <=? x) eqn:C; cbn [negb]; split; lia. }
  destruct o; cbn [sign_op]; intros H; try discriminate H; injection H as <- <-.
  - split; [auto|]. exists 3%nat, (fun x => Z.land x 0x7f). split; [reflexivity|]. split; [lia|].
    split; [intros x Hx; apply (flip_byte _ x (or_introl eq_refl) Hx)|]. split; [exact A|reflexivity].
  - split; [auto|]. exists 3%nat, (fun x => Z.lxor x 0x80). split; [reflexivity|]. split; [lia|].
    split; [intros x Hx; apply (flip_byte _ x (or_intror eq_refl) Hx)|]. split; [exact B|reflexivity].
  - split; [auto|]. exists 7%nat, (fun x => Z.land x 0x7f). split; [reflexivity|]. split; [lia|].
    split; [intros x Hx; apply (flip_byte _ x (or_introl eq_refl) Hx)|]. split; [exact A|reflexivity].
  - split; [auto|]. exists 7%nat, (fun x => Z.lxor x 0x80). split; [reflexivity|]. split; [lia|].
    split; [intros x Hx; apply (flip_byte _ x (or_intror eq_refl) Hx)|]. split; [exact B|reflexivity].
Qed.
Lemma sign_step host m o args fr N f va V :
  about_to_run m (IOp o args) fr -> sign_op o = Some (N, f) -> k_value m = va :: V -> val_wf va ->
  exists v, step ieee host m = (Ok tt, moved_on m (v :: V)) /\ v_type v = float_type N /\ val_wf v /\
    low N v = with_sign N (f (Z.testbit (low N va) (N - 1))) (low N va) /\
    le_of (v_data v) / 2 ^ N = le_of (v_data va) / 2 ^ N.
Proof.
  intros Hr Ho Hv W. destruct (sign_shape o N f Ho) as (HN & k & g & EN & K & G & GS & Eo).
  unfold op1 in Eo. rewrite (step_num1 ieee host m o args fr _ va V Hr Eo Hv). cbn [rbind].
  destruct W as [Wl Wb]. unfold len in Wl.
  assert (Wl' : length (v_data va) = 16%nat) by (unfold blen in Wl; lia).
  destruct (byte_op_ok (float_type N) g k (v_data va) Wb Wl' K G) as (v & E & T & Wv & L & x & H & HL & HX & HH & Ed & Er).
  rewrite E. exists v. split; [reflexivity|]. split; [exact T|]. split; [exact Wv|].
  unfold low. rewrite Er, Ed. subst N.
  destruct (top_byte (Z.of_nat k) L x H ltac:(lia) HL HX HH) as (A1 & A2 & A3 & A4).
  destruct (top_byte (Z.of_nat k) L (g x) H ltac:(lia) HL (G x HX) HH) as (B1 & B2 & B3 & B4).
  destruct (GS x HX) as [S1 S2].
  rewrite A2, B2. split; [|reflexivity]. unfold with_sign. replace (8 * Z.of_nat k + 8 - 1) with (8 * Z.of_nat k + 7) by lia.
  rewrite A3, A4, B1, <- S2, <- S1. pose proof (G x HX) as GX. clear - GX.
  rewrite Z.pow_add_r by lia. change (2 ^ 7) with 128. generalize (2 ^ (8 * Z.of_nat k)) as p. intros p. clear k.
  destruct (128 <=? g x) eqn:C.
  - replace (g x) with (g x mod 128 + 128) at 1 by lia. lia.
  - replace (g x mod 128) with (g x) by lia. lia.
Qed.

(* ---- copysign ---- *)
Lemma copysign64 a b : 0 <= a < 2 ^ 64 -> fl_copysign a b = with_sign 64 (Z.testbit b 63) a.
Proof. reflexivity. Qed.
Lemma with_sign_range N s x : 1 <= N -> 0 <= with_sign N s x < 2 ^ N.
Proof.
  intros H. unfold with_sign. pose proof (Z.mod_pos_bound x (2 ^ (N - 1)) ltac:(apply Z.pow_pos_nonneg; lia)).
  assert (2 ^ N = 2 * 2 ^ (N - 1)) by (rewrite <- Z.pow_succ_r by lia; f_equal; lia). destruct s; lia.
Qed.
Lemma copysign64_step host m args fr va vb V :
  about_to_run m (IOp O_f64_copysign args) fr -> k_value m = vb :: va :: V -> val_wf va -> val_wf vb ->
  step ieee host m = (Ok tt, moved_on m (num_val T_f64 (with_sign 64 (Z.testbit (low 64 vb) 63) (low 64 va)) :: V)).
Proof.
  intros Hr Hv Wa Wb.
  rewrite (step_num2 ieee host m O_f64_copysign args fr _ va vb V Hr eq_refl Hv).
  rewrite (low_f64 vb Wb), (low_f64 va Wa). cbn [rbind].
  change (fl_copysign (low 64 va) (low 64 vb)) with (with_sign 64 (Z.testbit (low 64 vb) 63) (low 64 va)).
  rewrite from_f64_num by (apply with_sign_range; lia). reflexivity.
Qed.

(* a float with its sign replaced *)
Definition resign {p e} (s : bool) (b : binary_float p e) : binary_float p e :=
  match b with
  | B754_zero _ _ _ => B754_zero p e s
  | B754_infinity _ _ _ => B754_infinity p e s
  | B754_nan _ _ _ pl H => B754_nan p e s pl H
  | B754_finite _ _ _ m ex H => B754_finite p e s m ex H
  end.
Definition resign_ff (s : bool) (b : full_float) : full_float :=
  match b with
  | F754_zero _ => F754_zero s
  | F754_infinity _ => F754_infinity s
  | F754_nan _ pl => F754_nan s pl
  | F754_finite _ m ex => F754_finite s m ex
  end.
Lemma resign_B2FF {p e} s (b : binary_float p e) : B2FF p e (resign s b) = resign_ff s (B2FF p e b).
Proof. destruct b; reflexivity. Qed.
Lemma with_sign_fields N k s x : 0 <= k < N - 1 -> 
  with_sign N s x mod 2 ^ k = x mod 2 ^ k /\ with_sign N s x / 2 ^ k mod 2 ^ (N - 1 - k) = x / 2 ^ k mod 2 ^ (N - 1 - k).
Proof.
  intros H. unfold with_sign.
  assert (E : 2 ^ (N - 1) = 2 ^ k * 2 ^ (N - 1 - k)) by (rewrite <- Z.pow_add_r by lia; f_equal; lia).
  assert (Pk : 0 < 2 ^ k) by (apply Z.pow_pos_nonneg; lia).
  assert (Pr : 0 < 2 ^ (N - 1 - k)) by (apply Z.pow_pos_nonneg; lia).
  rewrite E. remember (2 ^ k) as p. remember (2 ^ (N - 1 - k)) as q. clear Heqp Heqq E H.
  assert (D : forall c, (x mod (p * q) + c * (p * q)) mod p = x mod p /\
    ((x mod (p * q) + c * (p * q)) / p) mod q = (x / p) mod q).
  { intros c. rewrite Z.rem_mul_r by lia.
    replace (x mod p + p * ((x / p) mod q) + c * (p * q)) with (x mod p + ((x / p) mod q + c * q) * p) by ring.
    rewrite Z_mod_plus_full, Z.mod_mod, Z_div_plus_full by lia.
    rewrite (Z.div_small (x mod p) p) by (apply Z.mod_pos_bound; exact Pk).
    rewrite Z.add_0_l, Z_mod_plus_full, Z.mod_mod by lia. auto. }
  destruct s.
  - specialize (D 1). rewrite Z.mul_1_l in D. exact D.
  - specialize (D 0). rewrite Z.mul_0_l in D. exact D.
Qed.
Lemma with_sign_top N s x : 1 < N -> Z.testbit (with_sign N s x) (N - 1) = s.
Proof.
  intros H. pose proof (with_sign_range N s x ltac:(lia)) as R.
  rewrite testbit_top by (replace (N - 1 + 1) with N by lia; lia).
  unfold with_sign. pose proof (Z.mod_pos_bound x (2 ^ (N - 1)) ltac:(apply Z.pow_pos_nonneg; lia)).
  destruct s; [apply Z.leb_le; lia|apply Z.leb_gt; lia].
Qed.
Lemma ff64_sign s s' m e : resign_ff s (ff64 s' m e) = ff64 s m e.
Proof. unfold ff64. destruct (e =? 0); [destruct m; reflexivity|]. destruct (e =? 2047); [destruct m; reflexivity|].
  destruct (m + 2 ^ 52); reflexivity. Qed.
Lemma ff32_sign s s' m e : resign_ff s (ff32 s' m e) = ff32 s m e.
Proof. unfold ff32. destruct (e =? 0); [destruct m; reflexivity|]. destruct (e =? 255); [destruct m; reflexivity|].
  destruct (m + 2 ^ 23); reflexivity. Qed.
Lemma resign64 s x : 0 <= x < 2 ^ 64 -> b64_of_bits (with_sign 64 s x) = resign s (b64_of_bits x).
Proof.
  intros H. apply B2FF_inj. rewrite resign_B2FF, !b64_view by (exact H || (apply with_sign_range; lia)).
  rewrite ff64_sign. destruct (with_sign_fields 64 52 s x ltac:(lia)) as [A B].
  unfold fl_sign, fl_man, fl_exp. change (64 - 1 - 52) with 11 in B. rewrite A, B.
  pose proof (with_sign_top 64 s x ltac:(lia)) as T. change (64 - 1) with 63 in T. rewrite T. reflexivity.
Qed.
Lemma resign32 s x : 0 <= x < 2 ^ 32 -> b32_of_bits (with_sign 32 s x) = resign s (b32_of_bits x).
Proof.
  intros H. apply B2FF_inj. rewrite resign_B2FF, !b32_view by (exact H || (apply with_sign_range; lia)).
  rewrite ff32_sign. destruct (with_sign_fields 32 23 s x ltac:(lia)) as [A B].
  change (32 - 1 - 23) with 8 in B. rewrite A, B.
  pose proof (with_sign_top 32 s x ltac:(lia)) as T. change (32 - 1) with 31 in T. rewrite T. reflexivity.
Qed.
Lemma nan32_sign s x : nan32 (with_sign 32 s x) = nan32 x.
Proof.
  destruct (with_sign_fields 32 23 s x ltac:(lia)) as [A B]. change (32 - 1 - 23) with 8 in B.
  unfold nan32. rewrite A, B. reflexivity.
Qed.
Lemma fl_isnan_sign s x : fl_isnan (with_sign 64 s x) = fl_isnan x.
Proof.
  destruct (with_sign_fields 64 52 s x ltac:(lia)) as [A B]. change (64 - 1 - 52) with 11 in B.
  unfold fl_isnan, fl_exp, fl_man. rewrite A, B. reflexivity.
Qed.
Lemma resign_opp {p e} s (b : binary_float p e) : is_finite p e b = true ->
  B2R p e (resign s b) = (if Bool.eqb s (Bsign p e b) then B2R p e b else - B2R p e b)%R /\
  is_finite p e (resign s b) = true /\ Bsign p e (resign s b) = s.
Proof.
  intros F. destruct b; try discriminate F; cbn [resign B2R Bsign is_finite]; (split; [|split; reflexivity]).
  - destruct (Bool.eqb s s0); lra.
  - destruct s, s0; cbn [Bool.eqb]; try reflexivity; rewrite <- F2R_Zopp; reflexivity.
Qed.
Lemma widen_resign s b : is_nan 24 128 b = false -> widen (resign s b) = resign s (widen b).
Proof.
  intros N. destruct (split32 b N) as [(s' & ->)|F]; [reflexivity|].
  destruct (widen_correct b F) as (V & W & S).
  destruct (resign_opp s b F) as (V1 & F1 & S1). destruct (resign_opp s (widen b) W) as (V2 & F2 & S2).
  destruct (widen_correct _ F1) as (V3 & W3 & S3).
  apply B2R_Bsign_inj; [exact W3|exact F2| |rewrite S3, S1, S2; reflexivity].
  rewrite V3, V1, V2, V, S. reflexivity.
Qed.
Lemma sign_of32 x : 0 <= x < 2 ^ 32 -> fl_sign (ieee_of32 x) = Z.testbit x 31.
Proof.
  intros H. destruct (nan32 x) eqn:E.
  - rewrite of32_nan_eq by exact E. pose proof (Z.mod_pos_bound x (2 ^ 23) ltac:(reflexivity)) as Hm.
    pose proof (lor_quiet 51 ((x mod 2 ^ 23) * 2 ^ 29) ltac:(lia) ltac:(lia)) as Q.
    destruct (nan_fields64_ok (Z.testbit x 31) (Z.lor (2 ^ 51) ((x mod 2 ^ 23) * 2 ^ 29)) ltac:(lia)) as (_ & _ & S & _).
    exact S.
  - rewrite <- sign64 by apply of32_range. rewrite of32_num by exact E.
    assert (S : Bsign 24 128 (b32_of_bits x) = Z.testbit x 31).
    { pose proof (b32_view x H) as V. unfold ff32 in V.
      destruct (b32_of_bits x); cbn [B2FF] in V; cbn [Bsign];
      repeat match type of V with
             | context [if ?c then _ else _] => destruct c
             | context [match ?c with Z0 => _ | _ => _ end] => destruct c
             end; congruence. }
    rewrite <- S. destruct (split32 (b32_of_bits x)) as [(s & ->)|F].
    + rewrite isnan32 by exact H. exact E.
    + reflexivity.
    + apply (widen_correct _ F).
Qed.
Lemma copysign32 a b : 0 <= a < 2 ^ 32 -> 0 <= b < 2 ^ 32 -> nan32 a = false ->
  fl_copysign (ieee_of32 a) (ieee_of32 b) = ieee_of32 (with_sign 32 (Z.testbit b 31) a).
Proof.
  intros Ha Hb N. rewrite copysign64 by apply of32_range.
  change (Z.testbit (ieee_of32 b) 63) with (fl_sign (ieee_of32 b)). rewrite sign_of32 by exact Hb.
  set (s := Z.testbit b 31).
  rewrite <- (bits_b64 (with_sign 64 s (ieee_of32 a))) by (apply with_sign_range; lia).
  rewrite <- (bits_b64 (ieee_of32 (with_sign 32 s a))) by apply of32_range. f_equal.
  rewrite resign64 by apply of32_range. rewrite !of32_num by (rewrite ?nan32_sign; exact N).
  rewrite resign32 by exact Ha. symmetry. apply widen_resign. rewrite isnan32 by exact Ha. exact N.
Qed.
Lemma copysign32_step host m args fr va vb V :
  about_to_run m (IOp O_f32_copysign args) fr -> k_value m = vb :: va :: V -> val_wf va -> val_wf vb ->
  is_nan 24 128 (single va) = false ->
  step ieee host m = (Ok tt, moved_on m (num_val T_f32 (with_sign 32 (Z.testbit (low 32 vb) 31) (low 32 va)) :: V)).
Proof.
  intros Hr Hv Wa Wb N. unfold single in N. rewrite isnan32 in N by apply low32_range.
  rewrite (step_num2 ieee host m O_f32_copysign args fr _ va vb V Hr eq_refl Hv).
  rewrite (low_f32 vb Wb), (low_f32 va Wa). cbn [rbind].
  rewrite copysign32 by (apply low32_range || exact N). rewrite from_f32_ieee.
  rewrite to32_of32; [reflexivity|apply with_sign_range; lia|rewrite nan32_sign; exact N].
Qed.
