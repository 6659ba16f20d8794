(* Lemmas for the integer vector instructions: reading, mapping and writing lanes. *)
From Coq Require Import ZArith List Bool Lia Znumtheory ZifyBool ZifyNat.
From Verif Require Import Py Arith Floatops Val Opcode Numeric Syntax Store Basic Machine SpecInt SpecNum SpecMachine SpecMem SpecSimd.
From Verif Require Import PyFacts ArithFacts ValFacts LaneFacts StepFacts NumFacts.
Import ListNotations.
Open Scope Z_scope.

Definition width_ok (w : Z) : Prop := w = 1 \/ w = 2 \/ w = 4 \/ w = 8.
Lemma width_pos w : width_ok w -> 1 <= w /\ w * (16 / w) = 16 /\ 128 / (8 * w) = 16 / w /\ 1 <= 16 / w.
Proof. intros [->|[->|[->| ->]]]; vm_compute; repeat split; congruence. Qed.

Lemma low128 v : val_wf v -> low 128 v = le_of (v_data v).
Proof. intros H. unfold low. apply Z.mod_small. apply (uval_range v H). Qed.

(* ---- reading lanes ---- *)
Definition into_sg (sg : bool) : Z -> val -> res (list Z) := if sg then into_v128_i else into_v128_u.
Definition from_sg (sg : bool) : Z -> list Z -> res val := if sg then from_v128_i else from_v128_u.
Definition enc (sg : bool) : Z -> Z -> Z -> Prop := if sg then enc_s else enc_u.

Lemma bytes_are_lanes (v : val) : val_wf v -> v_data v = lanes 8 16 (le_of (v_data v)).
Proof.
  intros [L B]. apply nth_ext with 0 0; [rewrite lanes_length; lia|]. intros k Hk.
  rewrite <- (Nat2Z.id k) at 1. rewrite lane_index by (try exact B; unfold len; lia).
  unfold lanes. symmetry.
  transitivity (nth k (map (fun k => lane 8 (le_of (v_data v)) (Z.of_nat k)) (seq 0 16)) (lane 8 (le_of (v_data v)) (Z.of_nat 0))).
  - apply nth_indep. rewrite map_length, seq_length. lia.
  - rewrite (map_nth (fun k => lane 8 (le_of (v_data v)) (Z.of_nat k))). rewrite seq_nth by lia. reflexivity.
Qed.
Lemma as_int_u M a : as_int M false a = a.
Proof. reflexivity. Qed.
Lemma map_as_int_u M l : map (as_int M false) l = l.
Proof. apply map_id. Qed.
Lemma into_sg_ok sg w v : width_ok w -> val_wf v ->
  into_sg sg w v = Ok (map (as_int (8 * w) sg) (vlanes (8 * w) v)).
Proof.
  intros Hw Wv. destruct (width_pos w Hw) as (W1 & W2 & W3 & W4). unfold vlanes. rewrite low128 by exact Wv. rewrite W3.
  destruct (Z.eq_dec w 1) as [->|Hne].
  - assert (E : v_data v = lanes 8 16 (le_of (v_data v))) by (apply bytes_are_lanes; exact Wv).
    change (Z.to_nat (16 / 1)) with 16%nat. change (8 * 1) with 8.
    pose proof (lanes_range 8 16 (le_of (v_data v)) ltac:(lia)) as R.
    destruct sg; cbn [into_sg]; [unfold into_v128_i|unfold into_v128_u]; cbn [Z.eqb Pos.eqb].
    + unfold into_v128_i8. rewrite E at 1. f_equal. apply map_ext_in. intros x Hx. rewrite Forall_forall in R.
      specialize (R x Hx). rewrite i_fit_eq by lia. change (bits 1) with 8. rewrite Z.mod_small by exact R. reflexivity.
    + unfold into_v128_u8. rewrite E at 1. f_equal. apply map_ext_in. intros x Hx. rewrite Forall_forall in R.
      specialize (R x Hx). rewrite u_fit_eq by lia. change (bits 1) with 8. rewrite Z.mod_small by exact R. reflexivity.
  - assert (B : forall from, (forall d, bytes d -> len d = w -> from w d = Ok (as_int (8 * w) sg (le_of d))) ->
      into_lanes from w v = Ok (map (as_int (8 * w) sg) (lanes (8 * w) (Z.to_nat (16 / w)) (le_of (v_data v))))).
    { intros from Hf. destruct Wv as [L Wb]. unfold into_lanes, lane_slices.
      rewrite <- (map_range_lanes (as_int (8 * w) sg)). rewrite Z2Nat.id by lia.
      unfold py_range. rewrite !map_map.
      set (ks := seq 0 (Z.to_nat (16 / w))).
      assert (K : forall k, In k ks -> (Z.of_nat k + 1) * w <= 16).
      { intros k Hk. apply in_seq in Hk. nia. }
      clearbody ks. induction ks as [|k ks IH]; cbn [map rmapl]; [reflexivity|].
      rewrite IH by (intros j Hj; apply K; right; exact Hj). specialize (K k (or_introl eq_refl)).
      rewrite Hf.
      - cbn [rbind]. do 3 f_equal. apply lane_slice; try lia; [exact Wb|unfold len; rewrite L; nia].
      - apply bytes_slice, Wb.
      - rewrite len_py_slice_in; unfold len; rewrite ?L; nia. }
    destruct sg; cbn [into_sg]; [unfold into_v128_i|unfold into_v128_u]; (destruct (Z.eqb_spec w 1); [lia|]); apply B;
      intros d Bd Ld.
    + unfold i_from_bytearray. rewrite Ld, Z.eqb_refl. cbn [py_assert rbind]. unfold le_of_s. destruct d as [|x d].
      * exfalso. unfold len in Ld. cbn in Ld. lia.
      * rewrite <- Ld. reflexivity.
    + unfold u_from_bytearray. rewrite Ld, Z.eqb_refl. reflexivity.
Qed.

(* ---- writing lanes ---- *)
Lemma enc_bytes sg w x r : 1 <= w -> enc sg (8 * w) x r ->
  (if sg then i_into_bytearray w x else u_into_bytearray w x) = Ok (to_le (Z.to_nat w) r) /\ urange (8 * w) r.
Proof.
  intros Hw. destruct sg; cbn [enc]; intros [H E].
  - split; [|rewrite <- E; apply Z.mod_pos_bound; apply Z.pow_pos_nonneg; lia].
    unfold i_into_bytearray, to_bytes_s. rewrite srange_true by exact H. f_equal. apply to_le_inj_mod.
    rewrite Z2Nat.id by lia. rewrite <- E. symmetry. apply Z.mod_mod. apply Z.pow_nonzero; lia.
  - subst r. split; [|exact H]. unfold u_into_bytearray, to_bytes_u. rewrite urange_true by exact H. reflexivity.
Qed.
Lemma from_sg_ok sg w l r : width_ok w -> len l = 16 / w -> Forall2 (enc sg (8 * w)) l r ->
  from_sg sg w l = Ok (vec (8 * w) r).
Proof.
  intros Hw Hl HF. destruct (width_pos w Hw) as (W1 & W2 & W3 & W4).
  assert (L : length l = length r) by (clear - HF; induction HF; cbn [length]; congruence).
  assert (A : forall into, (forall x y, enc sg (8 * w) x y -> into w x = Ok (to_le (Z.to_nat w) y)) ->
    from_lanes into w l = Ok (vec (8 * w) r)).
  { intros into Hi. unfold from_lanes. rewrite Hl, Z.eqb_refl. cbn [py_assert rbind].
    assert (E : rmapl (into w) l = Ok (map (to_le (Z.to_nat w)) r)).
    { clear - HF Hi. induction HF as [|x y l r Hxy HF IH]; cbn [rmapl map]; [reflexivity|].
      rewrite (Hi x y Hxy), IH. reflexivity. }
    rewrite E. cbn [rbind]. 
    assert (R : Forall (urange (8 * w)) r).
    { clear - HF W1. induction HF as [|x y l r Hxy HF IH]; constructor; [apply (enc_bytes sg w x y W1 Hxy)|exact IH]. }
    assert (Lr : len r = 16 / w) by (unfold len in *; lia).
    rewrite (concat_lanes w r); [|lia|rewrite Lr; exact W2|exact R]. unfold mk_val, vec, num_val.
    change (zeros (blen - 16)) with (@nil Z). rewrite app_nil_r. unfold len. rewrite to_le_length. reflexivity. }
  destruct sg; cbn [from_sg]; [unfold from_v128_i|unfold from_v128_u]; apply A; intros x y Hxy;
    [apply (enc_bytes true w x y W1 Hxy)|apply (enc_bytes false w x y W1 Hxy)].
Qed.

(* ---- mapping ---- *)
Lemma vlanes_len w v : width_ok w -> len (vlanes (8 * w) v) = 16 / w.
Proof.
  intros Hw. destruct (width_pos w Hw) as (W1 & W2 & W3 & W4). unfold vlanes, len. rewrite lanes_length, W3. lia.
Qed.
Lemma vlanes_urange N v : 0 <= N -> Forall (urange N) (vlanes N v).
Proof. intros H. apply lanes_range, H. Qed.
Lemma map2_length {A B C} (f : A -> B -> C) la lb : length la = length lb -> length (map2 f la lb) = length la.
Proof.
  revert lb. induction la as [|a la IH]; intros [|b lb] H; cbn [length map2] in *; try congruence. f_equal. apply IH. lia.
Qed.

Lemma py_range_from_0 n : py_range_from 0 n = py_range n.
Proof. unfold py_range_from. rewrite Z.sub_0_r. rewrite <- (map_id (py_range n)) at 2. apply map_ext. intros; lia. Qed.
(* mapping over the indices of one or two lists is mapping over the lists *)
Lemma rmapl_index1 {A B} (f : A -> res B) (a : list A) :
  rmapl (fun i => let? x := py_index a i in f x) (py_range (len a)) = rmapl f a.
Proof.
  unfold py_range, len. rewrite Nat2Z.id.
  assert (G : forall pre, rmapl (fun i => let? x := py_index (pre ++ a) i in f x)
      (map Z.of_nat (seq (length pre) (length a))) = rmapl f a).
  { induction a as [|x a IH]; intros pre; cbn [length seq map rmapl]; [reflexivity|].
    rewrite (py_index_in (pre ++ x :: a) (Z.of_nat (length pre)) x).
    2:{ unfold len. rewrite app_length. cbn [length]. lia. }
    rewrite Nat2Z.id, app_nth2, Nat.sub_diag by lia. cbn [nth rbind].
    destruct (f x) as [y|e]; cbn [rbind]; [|reflexivity].
    specialize (IH (pre ++ [x])). rewrite <- app_assoc in IH. cbn [app] in IH. rewrite app_length in IH. cbn [length] in IH.
    rewrite Nat.add_1_r in IH. rewrite IH. reflexivity. }
  apply (G []).
Qed.
Lemma rmapl_ext {A B} (f g : A -> res B) l : (forall x, In x l -> f x = g x) -> rmapl f l = rmapl g l.
Proof.
  induction l as [|x l IH]; intros H; cbn [rmapl]; [reflexivity|].
  rewrite (H x) by (left; reflexivity). rewrite IH by (intros y Hy; apply H; right; exact Hy). reflexivity.
Qed.
Lemma rmapl_map {A B C} (f : B -> res C) (g : A -> B) l : rmapl f (map g l) = rmapl (fun x => f (g x)) l.
Proof. induction l as [|x l IH]; cbn [rmapl map]; [reflexivity|]. rewrite IH. reflexivity. Qed.
Lemma nth_combine {A B} (a : list A) (b : list B) k x y : length a = length b ->
  nth k (combine a b) (x, y) = (nth k a x, nth k b y).
Proof. apply combine_nth. Qed.
Lemma lanes2_combine lo hi f (a b : list Z) : 0 <= lo <= hi -> hi <= len a -> len a = len b ->
  lanes2 lo hi f a b =
    rmapl (fun p => f (fst p) (snd p)) (firstn (Z.to_nat (hi - lo)) (skipn (Z.to_nat lo) (combine a b))).
Proof.
  intros H1 H2 H3. set (c := firstn _ _).
  assert (Lc : len c = hi - lo).
  { unfold c, len in *. rewrite firstn_length, skipn_length, combine_length. lia. }
  rewrite <- (rmapl_index1 (fun p => f (fst p) (snd p)) c). rewrite Lc. unfold lanes2, py_range_from.
  rewrite rmapl_map. apply rmapl_ext. intros i Hi. unfold py_range in Hi. apply in_map_iff in Hi.
  destruct Hi as (k & <- & Hk). apply in_seq in Hk.
  rewrite (py_index_in c (Z.of_nat k) (0, 0)) by lia. cbn [rbind].
  assert (E : nth (Z.to_nat (Z.of_nat k)) c (0, 0) = (nth (Z.to_nat (lo + Z.of_nat k)) a 0, nth (Z.to_nat (lo + Z.of_nat k)) b 0)).
  { rewrite <- nth_combine by (unfold len in H3; lia). unfold c. rewrite Nat2Z.id.
    replace (Z.to_nat (lo + Z.of_nat k)) with (Z.to_nat lo + k)%nat by lia.
    rewrite <- (firstn_skipn (Z.to_nat lo) (combine a b)) at 2.
    assert (Lf : length (firstn (Z.to_nat lo) (combine a b)) = Z.to_nat lo).
    { rewrite firstn_length, combine_length. unfold len in *. lia. }
    rewrite app_nth2 by lia. rewrite Lf. replace (Z.to_nat lo + k - Z.to_nat lo)%nat with k by lia.
    rewrite <- (firstn_skipn (Z.to_nat (hi - lo)) (skipn (Z.to_nat lo) (combine a b))) at 2.
    rewrite app_nth1; [reflexivity|]. fold c. unfold len in Lc. lia. }
  rewrite E. cbn [fst snd].
  rewrite (py_index_in a (lo + Z.of_nat k) 0) by lia. cbn [rbind].
  rewrite (py_index_in b (lo + Z.of_nat k) 0) by lia. reflexivity.
Qed.
(* all lanes of two lists of equal length *)
Lemma lanes2_all f (a b : list Z) r (P : Z -> Z -> Prop) n : n = len a -> length a = length b -> length b = length r ->
  (forall k, (k < length a)%nat -> exists y, f (nth k a 0) (nth k b 0) = Ok y /\ P y (nth k r 0)) ->
  exists l, lanes2 0 n f a b = Ok l /\ Forall2 P l r.
Proof.
  intros -> Hab Hbr H.
  rewrite lanes2_combine by (unfold len; try lia; rewrite Hab; reflexivity).
  rewrite Z.sub_0_r. cbn [Z.to_nat skipn]. unfold len. rewrite Nat2Z.id.
  rewrite firstn_all2 by (rewrite combine_length; lia).
  revert b r Hab Hbr H. induction a as [|x a IH]; intros [|y b] [|z r] Hab Hbr H; cbn [length] in *; try discriminate.
  - exists []. split; [reflexivity|constructor].
  - cbn [combine rmapl fst snd]. destruct (H 0%nat ltac:(lia)) as (u & Eu & Pu). cbn [nth] in Eu, Pu. rewrite Eu. cbn [rbind].
    destruct (IH b r ltac:(lia) ltac:(lia)) as (l & El & Fl).
    { intros k Hk. apply (H (S k)). lia. }
    rewrite El. exists (u :: l). split; [reflexivity|constructor; assumption].
Qed.

(* ---- lane-wise instructions ---- *)
Lemma nth_map_as N sg l k : (k < length l)%nat -> nth k (map (as_int N sg) l) 0 = as_int N sg (nth k l 0).
Proof. intros H. rewrite nth_indep with (d' := as_int N sg 0) by (rewrite map_length; exact H). apply map_nth. Qed.
Lemma nth_map2 (f : Z -> Z -> Z) la lb k : length la = length lb -> (k < length la)%nat ->
  nth k (map2 f la lb) 0 = f (nth k la 0) (nth k lb 0).
Proof.
  revert lb k. induction la as [|a la IH]; intros [|b lb] k H Hk; cbn [length map2] in *; try lia.
  destruct k; cbn [nth]; [reflexivity|]. apply IH; lia.
Qed.
Lemma lane2_gen sga sgb sgw w f g va vb n : width_ok w -> val_wf va -> val_wf vb -> n = 16 / w ->
  (forall x y, urange (8 * w) x -> urange (8 * w) y ->
     exists r, f (as_int (8 * w) sga x) (as_int (8 * w) sgb y) = Ok r /\ enc sgw (8 * w) r (g x y)) ->
  (let? b := into_sg sgb w vb in let? a := into_sg sga w va in let? r := lanes2 0 n f a b in from_sg sgw w r) =
    Ok (vec (8 * w) (map2 g (vlanes (8 * w) va) (vlanes (8 * w) vb))).
Proof.
  intros Hw Wa Wb -> H. pose proof (width_pos w Hw) as (W1 & _).
  rewrite !into_sg_ok by assumption. cbn [rbind].
  pose proof (vlanes_len w va Hw) as La. pose proof (vlanes_len w vb Hw) as Lb.
  pose proof (vlanes_urange (8 * w) va ltac:(lia)) as Ra. pose proof (vlanes_urange (8 * w) vb ltac:(lia)) as Rb.
  set (la := vlanes (8 * w) va) in *. set (lb := vlanes (8 * w) vb) in *. clearbody la lb.
  assert (Lab : length la = length lb) by (unfold len in *; lia).
  destruct (lanes2_all f (map (as_int (8 * w) sga) la) (map (as_int (8 * w) sgb) lb) (map2 g la lb) (enc sgw (8 * w)) (16 / w))
    as (l & El & Fl).
  - unfold len in *. rewrite map_length. lia.
  - rewrite !map_length. exact Lab.
  - rewrite map_length, map2_length; lia.
  - intros k Hk. rewrite map_length in Hk. rewrite !nth_map_as, nth_map2 by lia.
    apply H; [|]; [rewrite Forall_forall in Ra; apply Ra, nth_In; lia|rewrite Forall_forall in Rb; apply Rb, nth_In; lia].
  - rewrite El. cbn [rbind]. apply from_sg_ok; [exact Hw| |exact Fl].
    assert (L : length l = length (map2 g la lb)) by (clear - Fl; induction Fl; cbn [length]; congruence).
    unfold len in *. rewrite L, map2_length by exact Lab. lia.
Qed.
Lemma lane1_gen sga sgw w f g va : width_ok w -> val_wf va ->
  (forall x, urange (8 * w) x -> enc sgw (8 * w) (f (as_int (8 * w) sga x)) (g x)) ->
  (let? a := into_sg sga w va in let? r := Ok (map f a) in from_sg sgw w r) =
    Ok (vec (8 * w) (map g (vlanes (8 * w) va))).
Proof.
  intros Hw Wa H. pose proof (width_pos w Hw) as (W1 & _).
  rewrite into_sg_ok by assumption. cbn [rbind]. pose proof (vlanes_len w va Hw) as La.
  pose proof (vlanes_urange (8 * w) va ltac:(lia)) as Ra. set (la := vlanes (8 * w) va) in *. clearbody la.
  apply from_sg_ok; [exact Hw|unfold len in *; rewrite !map_length; exact La|].
  rewrite map_map. clear La. induction Ra as [|x l Hx Hl IH]; cbn [map]; constructor; [apply H, Hx|exact IH].
Qed.

(* ---- operators on lanes ---- *)
Lemma fam_abs n a : 1 <= n -> enc_s (8 * n) (i_fit n (Z.abs (sgn (8 * n) a))) (iabs (8 * n) a).
Proof. intros Hn. apply (fit_enc n _ Hn). Qed.
Lemma fam_neg n a : 1 <= n -> urange (8 * n) a -> enc_s (8 * n) (i_fit n (- sgn (8 * n) a)) (ineg (8 * n) a).
Proof.
  intros Hn Ha. pose proof (fit_enc n (- sgn (8 * n) a) Hn) as H.
  assert (E : (- sgn (8 * n) a) mod 2 ^ (8 * n) = ineg (8 * n) a); [|rewrite <- E; exact H].
  unfold ineg. assert (P : 0 < 2 ^ (8 * n)) by (apply Z.pow_pos_nonneg; lia).
  rewrite <- (sgn_mod (8 * n) a) at 2 by (try assumption; lia). rewrite Zminus_mod_idemp_r.
  replace (2 ^ (8 * n) - sgn (8 * n) a) with (- sgn (8 * n) a + 1 * 2 ^ (8 * n)) by lia. symmetry. apply Z.mod_add. lia.
Qed.
Lemma fam_popcnt8 a : enc_u 8 (u_popcnt 1 a) (ipopcnt 8 a).
Proof.
  rewrite u_popcnt_spec by lia. change (bits 1) with 8. rewrite <- ipopcnt_spec.
  pose proof (bitcount_bound 8 a ltac:(lia)). split; [|reflexivity]. unfold urange. change (2 ^ 8) with 256. lia.
Qed.
Lemma fam_sat_s n z : 1 <= n -> enc_s (8 * n) (i_sat n z) (sat_s (8 * n) z).
Proof.
  intros Hn. unfold i_sat, sat_s. rewrite i_max_eq, i_min_eq by exact Hn. replace (bits n) with (8 * n) by (unfold bits; lia).
  assert (P : 0 < 2 ^ (8 * n - 1)) by (apply Z.pow_pos_nonneg; lia).
  set (p := 2 ^ (8 * n - 1)) in *. split; [unfold srange; fold p; lia|]. unfold unsgn. f_equal. lia.
Qed.
Lemma fam_sat_u n z : 1 <= n -> enc_u (8 * n) (u_sat n z) (sat_u (8 * n) z).
Proof.
  intros Hn. unfold u_sat, sat_u, u_max, u_min. rewrite mask_eq by exact Hn. replace (bits n) with (8 * n) by (unfold bits; lia).
  assert (P : 0 < 2 ^ (8 * n)) by (apply Z.pow_pos_nonneg; lia).
  set (p := 2 ^ (8 * n)) in *. split; [unfold urange; fold p; lia|lia].
Qed.
Lemma fam_avgr n a b : 1 <= n -> urange (8 * n) a -> urange (8 * n) b -> enc_u (8 * n) ((a + b + 1) / 2) (iavgr_u (8 * n) a b).
Proof.
  intros Hn Ha Hb. split; [|reflexivity]. unfold urange in *. set (p := 2 ^ (8 * n)) in *. clearbody p. lia.
Qed.
Lemma sgn_enc N a : 0 < N -> urange N a -> enc_s N (sgn N a) a.
Proof. intros HN Ha. split; [apply sgn_range|apply sgn_mod]; assumption. Qed.
Lemma fam_min_s n a b : 1 <= n -> urange (8 * n) a -> urange (8 * n) b ->
  enc_s (8 * n) (Z.min (sgn (8 * n) a) (sgn (8 * n) b)) (imin_s (8 * n) a b).
Proof.
  intros Hn Ha Hb. unfold imin_s. destruct (Z.leb_spec (sgn (8 * n) a) (sgn (8 * n) b)) as [L|L];
    [rewrite Z.min_l by lia|rewrite Z.min_r by lia]; apply sgn_enc; assumption || lia.
Qed.
Lemma fam_max_s n a b : 1 <= n -> urange (8 * n) a -> urange (8 * n) b ->
  enc_s (8 * n) (Z.max (sgn (8 * n) a) (sgn (8 * n) b)) (imax_s (8 * n) a b).
Proof.
  intros Hn Ha Hb. unfold imax_s. destruct (Z.leb_spec (sgn (8 * n) a) (sgn (8 * n) b)) as [L|L];
    [rewrite Z.max_r by lia|rewrite Z.max_l by lia]; apply sgn_enc; assumption || lia.
Qed.
Lemma fam_min_u n a b : 1 <= n -> urange (8 * n) a -> urange (8 * n) b -> enc_u (8 * n) (Z.min a b) (imin_u (8 * n) a b).
Proof. intros Hn Ha Hb. unfold imin_u. destruct (Z.leb_spec a b); unfold enc_u, urange in *; lia. Qed.
Lemma fam_max_u n a b : 1 <= n -> urange (8 * n) a -> urange (8 * n) b -> enc_u (8 * n) (Z.max a b) (imax_u (8 * n) a b).
Proof. intros Hn Ha Hb. unfold imax_u. destruct (Z.leb_spec a b); unfold enc_u, urange in *; lia. Qed.
Lemma fam_q15 a b : enc_s 16 (i_sat 2 (Z.shiftr (a * b + 0x4000) 15)) (sat_s 16 ((a * b + 2 ^ 14) / 2 ^ 15)).
Proof. rewrite Z.shiftr_div_pow2 by lia. apply (fam_sat_s 2). lia. Qed.
Lemma enc_ones n c : 1 <= n -> enc_s (8 * n) (if c : bool then -1 else 0) (all_ones (8 * n) c).
Proof.
  intros Hn. assert (P : 0 < 2 ^ (8 * n - 1)) by (apply Z.pow_pos_nonneg; lia).
  assert (D : 2 ^ (8 * n) = 2 * 2 ^ (8 * n - 1)) by (apply pow_half; lia).
  unfold all_ones, enc_s, srange. rewrite D. set (p := 2 ^ (8 * n - 1)) in *. clearbody p. destruct c.
  - split; [lia|]. rewrite <- (Z.mod_add (-1) 1) by lia. rewrite Z.mod_small; lia.
  - split; [lia|]. apply Z.mod_0_l. lia.
Qed.
Lemma sgn_inj N a b : 0 < N -> urange N a -> urange N b -> sgn N a = sgn N b -> a = b.
Proof. intros HN Ha Hb H. rewrite <- (sgn_mod N a HN Ha), <- (sgn_mod N b HN Hb), H. reflexivity. Qed.
Lemma sgn_eqb N a b : 0 < N -> urange N a -> urange N b -> (sgn N a =? sgn N b) = (a =? b).
Proof.
  intros HN Ha Hb. destruct (Z.eqb_spec a b) as [->|H]; [apply Z.eqb_refl|]. apply Z.eqb_neq. intros E.
  apply H, (sgn_inj N); assumption.
Qed.

Lemma divides_pow N M k : N = 2 ^ k -> 0 <= k <= M -> (N | 2 ^ M).
Proof. intros -> Hk. exists (2 ^ (M - k)). rewrite <- Z.pow_add_r by lia. f_equal. lia. Qed.
Lemma count32 n k b : 1 <= n -> 8 * n = 2 ^ k -> 0 <= k <= 32 -> urange 32 b ->
  Z.land (sgn 32 b) (bits n - 1) = b mod (8 * n).
Proof.
  intros Hn Hk K Hb. rewrite (land_count n _ k) by (unfold bits; lia). replace (bits n) with (8 * n) by (unfold bits; lia).
  rewrite <- (sgn_mod 32 b) at 2 by (try assumption; lia). apply Zmod_div_mod; try lia. apply (divides_pow _ _ k Hk K).
Qed.
Lemma fam_vshl n k a b : 1 <= n -> 8 * n = 2 ^ k -> 0 <= k <= 32 -> urange (8 * n) a -> urange 32 b ->
  enc_s (8 * n) (i_shl n (sgn (8 * n) a) (sgn 32 b)) (ishl (8 * n) a b).
Proof.
  intros Hn Hk K Ha Hb. pose proof (Z.mod_pos_bound b (8 * n) ltac:(lia)) as C.
  unfold i_shl, ishl. rewrite (count32 n k b Hn Hk K Hb), Z.shiftl_mul_pow2 by lia.
  pose proof (fit_enc n (sgn (8 * n) a * 2 ^ (b mod (8 * n))) Hn) as H.
  rewrite <- Z.mul_mod_idemp_l, sgn_mod in H by (try assumption; try (apply Z.pow_nonzero); lia). exact H.
Qed.
Lemma fam_vshr_s n k a b : 1 <= n -> 8 * n = 2 ^ k -> 0 <= k <= 32 -> urange (8 * n) a -> urange 32 b ->
  enc_s (8 * n) (i_shr n (sgn (8 * n) a) (sgn 32 b)) (ishr_s (8 * n) a b).
Proof.
  intros Hn Hk K Ha Hb. pose proof (Z.mod_pos_bound b (8 * n) ltac:(lia)) as C.
  unfold i_shr, ishr_s. rewrite (count32 n k b Hn Hk K Hb), Z.shiftr_div_pow2 by lia.
  exact (fit_enc n (sgn (8 * n) a / 2 ^ (b mod (8 * n))) Hn).
Qed.
Lemma fam_vshr_u n k a b : 1 <= n -> 8 * n = 2 ^ k -> 0 <= k <= 32 -> urange (8 * n) a -> urange 32 b ->
  enc_u (8 * n) (u_shr n a (sgn 32 b)) (ishr_u (8 * n) a b).
Proof.
  intros Hn Hk K Ha Hb. pose proof (Z.mod_pos_bound b (8 * n) ltac:(lia)) as C.
  unfold u_shr, ishr_u. rewrite (count32 n k b Hn Hk K Hb), Z.shiftr_div_pow2 by lia.
  assert (R : urange (8 * n) (a / 2 ^ (b mod (8 * n)))).
  { assert (0 < 2 ^ (b mod (8 * n))) by (apply Z.pow_pos_nonneg; lia). unfold urange in *.
    split; [apply Z.div_pos; lia|]. apply Z.le_lt_trans with a; [|lia]. apply Z.div_le_upper_bound; [lia|]. nia. }
  rewrite u_fit_small by (assumption || exact Hn). split; [exact R|reflexivity].
Qed.
Lemma shift_gen sg w f g va vb : width_ok w -> val_wf va -> val_wf vb ->
  (forall x y, urange (8 * w) x -> urange 32 y -> enc sg (8 * w) (f (as_int (8 * w) sg x) (sgn 32 y)) (g x y)) ->
  (let? b := into_i32 vb in let? a := into_sg sg w va in let? r := Ok (map (fun e => f e b) a) in from_sg sg w r) =
    Ok (vec (8 * w) (map (fun x => g x (low 32 vb)) (vlanes (8 * w) va))).
Proof.
  intros Hw Wa Wb H. rewrite into_i32_ok by exact Wb. cbn [rbind]. rewrite <- low_uval, <- sgn_signed.
  apply (lane1_gen sg sg w (fun e => f e (sgn 32 (low 32 vb))) (fun x => g x (low 32 vb))); try assumption.
  intros x Hx. apply H; [exact Hx|apply low_range; lia].
Qed.

Lemma w1 : width_ok 1. Proof. left. reflexivity. Qed.
Lemma w2 : width_ok 2. Proof. right; left. reflexivity. Qed.
Lemma w4 : width_ok 4. Proof. do 2 right; left. reflexivity. Qed.
Lemma w8 : width_ok 8. Proof. do 3 right. reflexivity. Qed.

Lemma lane_unop_ok F o N f : lane_unop o = Some (N, f) ->
  exists g, num_op F o = Some (N1 g) /\ forall args va, val_wf va -> g args va = Ok (vec N (map f (vlanes N va))).
Proof.
  destruct o; cbn [lane_unop]; intros H; try discriminate H; injection H as <- <-; eexists; (split; [reflexivity|]);
    intros args va Wa.
  all: first
    [ refine (lane1_gen true true 1 _ _ va w1 Wa _) | refine (lane1_gen true true 2 _ _ va w2 Wa _)
    | refine (lane1_gen true true 4 _ _ va w4 Wa _) | refine (lane1_gen true true 8 _ _ va w8 Wa _)
    | refine (lane1_gen false false 1 _ _ va w1 Wa _) ].
  all: intros x Hx; cbn [enc as_int].
  - apply (fam_abs 1); lia.
  - apply (fam_neg 1); [lia|exact Hx].
  - apply fam_popcnt8.
  - apply (fam_abs 2); lia.
  - apply (fam_neg 2); [lia|exact Hx].
  - apply (fam_abs 4); lia.
  - apply (fam_neg 4); [lia|exact Hx].
  - apply (fam_abs 8); lia.
  - apply (fam_neg 8); [lia|exact Hx].
Qed.

Ltac lane2 va vb Wa Wb :=
  first
    [ refine (lane2_gen true true true 1 _ _ va vb 16 w1 Wa Wb eq_refl _)
    | refine (lane2_gen true true true 2 _ _ va vb 8 w2 Wa Wb eq_refl _)
    | refine (lane2_gen true true true 4 _ _ va vb 4 w4 Wa Wb eq_refl _)
    | refine (lane2_gen true true true 8 _ _ va vb 2 w8 Wa Wb eq_refl _)
    | refine (lane2_gen false false false 1 _ _ va vb 16 w1 Wa Wb eq_refl _)
    | refine (lane2_gen false false false 2 _ _ va vb 8 w2 Wa Wb eq_refl _)
    | refine (lane2_gen false false false 4 _ _ va vb 4 w4 Wa Wb eq_refl _)
    | refine (lane2_gen false false true 1 _ _ va vb 16 w1 Wa Wb eq_refl _)
    | refine (lane2_gen false false true 2 _ _ va vb 8 w2 Wa Wb eq_refl _)
    | refine (lane2_gen false false true 4 _ _ va vb 4 w4 Wa Wb eq_refl _) ].
Ltac lane_case w Hx Hy :=
  first [apply (fam_add w)|apply (fam_sub w)|apply (fam_mul w)|apply (fam_sat_s w)|apply (fam_sat_u w)|apply (fam_avgr w)
        |apply (fam_min_s w)|apply (fam_max_s w)|apply (fam_min_u w)|apply (fam_max_u w)|apply fam_q15]; 
  first [exact Hx|exact Hy|lia].

Lemma lane_binop_ok F o N f : lane_binop o = Some (N, f) ->
  exists g, num_op F o = Some (N2 g) /\ forall args va vb, val_wf va -> val_wf vb ->
    g args va vb = Ok (vec N (map2 f (vlanes N va) (vlanes N vb))).
Proof.
  destruct o; cbn [lane_binop]; intros H; try discriminate H; injection H as <- <-; eexists; (split; [reflexivity|]);
    intros args va vb Wa Wb; lane2 va vb Wa Wb; intros x y Hx Hy; (eexists; split; [reflexivity|]); cbn [enc as_int].
  all: first [lane_case 1 Hx Hy|lane_case 2 Hx Hy|lane_case 4 Hx Hy|lane_case 8 Hx Hy].
Qed.

Lemma lane_relop_ok F o N f : lane_relop o = Some (N, f) ->
  exists g, num_op F o = Some (N2 g) /\ forall args va vb, val_wf va -> val_wf vb ->
    g args va vb = Ok (vec N (map2 (fun a b => all_ones N (f a b)) (vlanes N va) (vlanes N vb))).
Proof.
  destruct o; cbn [lane_relop]; intros H; try discriminate H; injection H as <- <-; eexists; (split; [reflexivity|]);
    intros args va vb Wa Wb; lane2 va vb Wa Wb; intros x y Hx Hy; (eexists; split; [reflexivity|]); cbn [enc as_int];
    rewrite ?Z.gtb_ltb, ?Z.geb_leb, ?sgn_eqb by (assumption || lia).
  all: first [apply (enc_ones 1)|apply (enc_ones 2)|apply (enc_ones 4)|apply (enc_ones 8)]; lia.
Qed.

Lemma lane_shift_ok F o N f : lane_shift o = Some (N, f) ->
  exists g, num_op F o = Some (N2 g) /\ forall args va vb, val_wf va -> val_wf vb ->
    g args va vb = Ok (vec N (map (fun a => f a (low 32 vb)) (vlanes N va))).
Proof.
  destruct o; cbn [lane_shift]; intros H; try discriminate H; injection H as <- <-; eexists; (split; [reflexivity|]);
    intros args va vb Wa Wb.
  1: refine (shift_gen true 1 (i_shl 1) (ishl 8) va vb w1 Wa Wb _).
  2: refine (shift_gen true 1 (i_shr 1) (ishr_s 8) va vb w1 Wa Wb _).
  3: refine (shift_gen false 1 (u_shr 1) (ishr_u 8) va vb w1 Wa Wb _).
  4: refine (shift_gen true 2 (i_shl 2) (ishl 16) va vb w2 Wa Wb _).
  5: refine (shift_gen true 2 (i_shr 2) (ishr_s 16) va vb w2 Wa Wb _).
  6: refine (shift_gen false 2 (u_shr 2) (ishr_u 16) va vb w2 Wa Wb _).
  7: refine (shift_gen true 4 (i_shl 4) (ishl 32) va vb w4 Wa Wb _).
  8: refine (shift_gen true 4 (i_shr 4) (ishr_s 32) va vb w4 Wa Wb _).
  9: refine (shift_gen false 4 (u_shr 4) (ishr_u 32) va vb w4 Wa Wb _).
  10: refine (shift_gen true 8 (i_shl 8) (ishl 64) va vb w8 Wa Wb _).
  11: refine (shift_gen true 8 (i_shr 8) (ishr_s 64) va vb w8 Wa Wb _).
  12: refine (shift_gen false 8 (u_shr 8) (ishr_u 64) va vb w8 Wa Wb _).
  all: intros x y Hx Hy; cbn [enc as_int].
  - apply (fam_vshl 1 3); assumption || lia.
  - apply (fam_vshr_s 1 3); assumption || lia.
  - apply (fam_vshr_u 1 3); assumption || lia.
  - apply (fam_vshl 2 4); assumption || lia.
  - apply (fam_vshr_s 2 4); assumption || lia.
  - apply (fam_vshr_u 2 4); assumption || lia.
  - apply (fam_vshl 4 5); assumption || lia.
  - apply (fam_vshr_s 4 5); assumption || lia.
  - apply (fam_vshr_u 4 5); assumption || lia.
  - apply (fam_vshl 8 6); assumption || lia.
  - apply (fam_vshr_s 8 6); assumption || lia.
  - apply (fam_vshr_u 8 6); assumption || lia.
Qed.
