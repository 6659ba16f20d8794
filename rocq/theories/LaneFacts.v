(* Lanes of a 128-bit number: byte slices against the arithmetic of SpecMem.v. *)
From Coq Require Import ZArith List Bool Lia ZifyBool ZifyNat.
From Verif Require Import Py Arith Floatops Val Opcode Numeric Syntax Store Basic
  SpecInt SpecNum SpecMachine SpecMem PyFacts ArithFacts ValFacts.
Import ListNotations.
Open Scope Z_scope.

Lemma lane_range w x k : 0 <= w -> urange w (lane w x k).
Proof. intros H. apply Z.mod_pos_bound. apply Z.pow_pos_nonneg; lia. Qed.

(* the bytes [k*w, k*w+w) are lane number k *)
Lemma lane_slice w d k : 0 <= w -> 0 <= k -> bytes d -> k * w + w <= len d ->
  le_of (py_slice d (k * w) (k * w + w)) = lane (8 * w) (le_of d) k.
Proof.
  intros Hw Hk Hd Hl. rewrite py_slice_in by nia. rewrite le_of_firstn by (apply bytes_skipn, Hd).
  rewrite le_of_skipn by exact Hd. unfold lane. rewrite !Z2Nat.id by nia.
  replace (k * w + w - k * w) with w by lia. do 3 f_equal. lia.
Qed.
Lemma lane_index d k : 0 <= k < len d -> bytes d -> nth (Z.to_nat k) d 0 = lane 8 (le_of d) k.
Proof.
  intros Hk Hd. pose proof (lane_slice 1 d k ltac:(lia) ltac:(lia) Hd ltac:(lia)) as E0. change (8 * 1) with 8 in E0.
  rewrite <- E0. rewrite Z.mul_1_r.
  rewrite py_slice_in by lia. replace (k + 1 - k) with 1 by lia. change (Z.to_nat 1) with 1%nat.
  assert (E : nth 0 (skipn (Z.to_nat k) d) 0 = nth (Z.to_nat k) d 0).
  { rewrite <- (firstn_skipn (Z.to_nat k) d) at 2. rewrite app_nth2; rewrite firstn_length_le; unfold len in Hk; try lia.
    rewrite Nat.sub_diag. reflexivity. }
  destruct (skipn (Z.to_nat k) d) as [|x l] eqn:Es; cbn [firstn le_of nth] in *; lia.
Qed.

(* a byte string cut into lanes *)
Lemma le_of_concat w l : 0 <= w -> Forall (urange (8 * w)) l ->
  le_of (concat (map (to_le (Z.to_nat w)) l)) = join (8 * w) l.
Proof.
  intros Hw. induction 1 as [|x l Hx Hl IH]; cbn [map concat join le_of]; [reflexivity|].
  rewrite le_of_app, IH, le_of_to_le, len_to_le, Z2Nat.id by lia. rewrite Z.mod_small by exact Hx. lia.
Qed.
Lemma length_concat w l : length (concat (map (to_le w) l)) = (w * length l)%nat.
Proof. induction l as [|x l IH]; cbn [map concat length]; [lia|]. rewrite app_length, to_le_length, IH. lia. Qed.
Lemma bytes_concat ls : Forall bytes ls -> bytes (concat ls).
Proof. induction 1; cbn [concat]; [constructor|]. apply bytes_app. split; assumption. Qed.
Lemma bytes_concat_le w l : bytes (concat (map (to_le w) l)).
Proof. apply bytes_concat, Forall_forall. intros d Hd. apply in_map_iff in Hd. destruct Hd as (x & <- & _). apply to_le_bytes. Qed.
Lemma concat_lanes w l : 0 <= w -> w * len l = 16 -> Forall (urange (8 * w)) l ->
  concat (map (to_le (Z.to_nat w)) l) = to_le 16 (join (8 * w) l).
Proof.
  intros Hw Hl Hr. rewrite <- le_of_concat by assumption.
  pose proof (length_concat (Z.to_nat w) l) as E.
  replace 16%nat with (length (concat (map (to_le (Z.to_nat w)) l))) by (rewrite E; unfold len in Hl; nia).
  symmetry. apply to_le_le_of, bytes_concat_le.
Qed.
Lemma join_range w l : 0 <= w -> Forall (urange w) l -> urange (w * len l) (join w l).
Proof.
  intros Hw. induction 1 as [|x l Hx Hl IH]; cbn [join].
  - change (len (@nil Z)) with 0. rewrite Z.mul_0_r. unfold urange. lia.
  - rewrite len_cons. unfold urange in *. replace (w * (len l + 1)) with (w + w * len l) by lia.
    pose proof (len_nonneg l). rewrite Z.pow_add_r by nia. nia.
Qed.
Lemma lane_join w l k : 0 <= w -> Forall (urange w) l -> (k < length l)%nat -> lane w (join w l) (Z.of_nat k) = nth k l 0.
Proof.
  intros Hw Hl. revert k. assert (Hp : 0 < 2 ^ w) by (apply Z.pow_pos_nonneg; lia).
  induction Hl as [|x l Hx Hl IH]; intros k Hk; cbn [length] in Hk; [lia|].
  unfold lane. cbn [join]. destruct k as [|k]; cbn [nth].
  - rewrite Z.mul_0_r, Z.div_1_r. rewrite Z.mul_comm, Z.mod_add by lia. apply Z.mod_small, Hx.
  - replace (w * Z.of_nat (S k)) with (w + w * Z.of_nat k) by lia. rewrite Z.pow_add_r by nia.
    rewrite <- Z.div_div by (try apply Z.pow_nonzero; try apply Z.pow_pos_nonneg; nia).
    replace ((x + 2 ^ w * join w l) / 2 ^ w) with (join w l).
    + apply (IH k). lia.
    + unfold urange in Hx. rewrite Z.add_comm, Z.mul_comm, Z.div_add_l by lia. rewrite Z.div_small by exact Hx. lia.
Qed.
Lemma lanes_length w n x : length (lanes w n x) = n.
Proof. unfold lanes. rewrite map_length, seq_length. reflexivity. Qed.
Lemma lanes_range w n x : 0 <= w -> Forall (urange w) (lanes w n x).
Proof. intros H. apply Forall_forall. intros y Hy. apply in_map_iff in Hy. destruct Hy as (k & <- & _). apply lane_range, H. Qed.
Lemma lanes_S w n x : 0 <= w -> lanes w (S n) x = x mod 2 ^ w :: lanes w n (x / 2 ^ w).
Proof.
  intros Hw. unfold lanes. cbn [seq map]. f_equal.
  - unfold lane. rewrite Z.mul_0_r. change (2 ^ 0) with 1. rewrite Z.div_1_r. reflexivity.
  - rewrite <- seq_shift, map_map. apply map_ext. intros k. unfold lane. f_equal.
    rewrite Z.div_div by (try apply Z.pow_nonzero; try apply Z.pow_pos_nonneg; nia).
    rewrite <- Z.pow_add_r by nia. do 2 f_equal. lia.
Qed.
Lemma join_lanes w n x : 0 <= w -> join w (lanes w n x) = x mod 2 ^ (w * Z.of_nat n).
Proof.
  intros Hw. assert (Hp : 0 < 2 ^ w) by (apply Z.pow_pos_nonneg; lia). revert x. induction n as [|n IH]; intros x.
  - cbn. rewrite Z.mul_0_r. change (2 ^ 0) with 1. rewrite Z.mod_1_r. reflexivity.
  - rewrite lanes_S by exact Hw. cbn [join]. rewrite IH.
    replace (w * Z.of_nat (S n)) with (w + w * Z.of_nat n) by lia. rewrite Z.pow_add_r by nia.
    rewrite Z.rem_mul_r by (try apply Z.pow_nonzero; try apply Z.pow_pos_nonneg; nia). reflexivity.
Qed.
Lemma lanes_join w l : 0 <= w -> Forall (urange w) l -> lanes w (length l) (join w l) = l.
Proof.
  intros Hw Hl. apply nth_ext with 0 0; [apply lanes_length|]. intros k Hk. rewrite lanes_length in Hk.
  unfold lanes. rewrite nth_indep with (d' := lane w (join w l) (Z.of_nat 0)) by (rewrite map_length, seq_length; exact Hk).
  rewrite map_nth with (f := fun k => lane w (join w l) (Z.of_nat k)). rewrite seq_nth by exact Hk. cbn [Nat.add].
  apply lane_join; assumption.
Qed.
Lemma map_range_lanes {A} (g : Z -> A) w n x :
  map (fun i => g (lane w x i)) (py_range (Z.of_nat n)) = map g (lanes w n x).
Proof. unfold py_range, lanes. rewrite !map_map, Nat2Z.id. reflexivity. Qed.
