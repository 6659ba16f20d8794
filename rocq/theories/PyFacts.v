(* Facts about the Python primitives of Py.v. *)
From Coq Require Import ZArith List Bool Lia ZifyBool ZifyNat.
From Verif Require Import Py.
Import ListNotations.
Open Scope Z_scope.

Ltac Zify.zify_post_hook ::= Z.div_mod_to_equations.

Lemma Ok_inj {A} (a b : A) : Ok a = Ok b -> a = b.
Proof. congruence. Qed.

Lemma land_ones_pow (a k : Z) : 0 <= k -> Z.land a (2 ^ k - 1) = a mod 2 ^ k.
Proof.
  intros Hk. rewrite <- Z.land_ones by exact Hk. rewrite Z.ones_equiv. f_equal.
Qed.

Lemma land_pow2 (a k : Z) : 0 <= k -> Z.land a (2 ^ k) = if Z.testbit a k then 2 ^ k else 0.
Proof.
  intros Hk. apply Z.bits_inj'. intros j Hj.
  rewrite Z.land_spec, Z.pow2_bits_eqb by exact Hk.
  destruct (Z.eqb_spec k j) as [->|Hne].
  - destruct (Z.testbit a j) eqn:E; [rewrite Z.pow2_bits_true by exact Hk; reflexivity|].
    rewrite Z.testbit_0_l; reflexivity.
  - rewrite andb_false_r. destruct (Z.testbit a k); [|symmetry; apply Z.testbit_0_l].
    symmetry. apply Z.pow2_bits_false. lia.
Qed.

Lemma testbit_top (a k : Z) : 0 <= k -> 0 <= a < 2 ^ (k + 1) -> Z.testbit a k = (2 ^ k <=? a).
Proof.
  intros Hk Ha. rewrite Z.pow_add_r in Ha by lia. change (2 ^ 1) with 2 in Ha.
  destruct (Z.leb_spec (2 ^ k) a) as [H|H].
  - apply Z.testbit_true; [exact Hk|].
    replace (a / 2 ^ k) with 1; [reflexivity|].
    apply Z.div_unique with (a - 2 ^ k); lia.
  - apply Z.testbit_false; [exact Hk|]. rewrite Z.div_small by lia. reflexivity.
Qed.

Lemma testbit_mod_top (a k : Z) : 0 <= k -> Z.testbit a k = (2 ^ k <=? a mod 2 ^ (k + 1)).
Proof.
  intros Hk. rewrite <- testbit_top; [|exact Hk|apply Z.mod_pos_bound; apply Z.pow_pos_nonneg; lia].
  symmetry. apply Z.mod_pow2_bits_low. lia.
Qed.

Lemma len_app {A} (l m : list A) : len (l ++ m) = len l + len m.
Proof. unfold len. rewrite app_length. lia. Qed.
Lemma len_cons {A} (x : A) l : len (x :: l) = len l + 1.
Proof. unfold len. cbn [length]. lia. Qed.
Lemma len_nonneg {A} (l : list A) : 0 <= len l.
Proof. unfold len. lia. Qed.
Lemma len_nil {A} : len (@nil A) = 0.
Proof. reflexivity. Qed.

Lemma le_of_app (a b : list Z) : le_of (a ++ b) = le_of a + 2 ^ (8 * len a) * le_of b.
Proof.
  induction a as [|x a IH]; cbn [app le_of].
  - change (2 ^ (8 * len (@nil Z))) with 1. lia.
  - rewrite IH, len_cons. replace (8 * (len a + 1)) with (8 + 8 * len a) by lia.
    rewrite Z.pow_add_r by (pose proof (len_nonneg a); lia). change (2 ^ 8) with 256. ring.
Qed.

Lemma le_of_bound (b : list Z) : bytes b -> 0 <= le_of b < 2 ^ (8 * len b).
Proof.
  induction 1 as [|x b Hx Hb IH]; cbn [le_of].
  - change (2 ^ (8 * len (@nil Z))) with 1. lia.
  - rewrite len_cons. replace (8 * (len b + 1)) with (8 + 8 * len b) by lia.
    rewrite Z.pow_add_r by (pose proof (len_nonneg b); lia). change (2 ^ 8) with 256.
    unfold byte in Hx. nia.
Qed.

Lemma to_le_length n z : length (to_le n z) = n.
Proof. revert z; induction n as [|n IH]; intros z; cbn [to_le length]; [reflexivity|]. rewrite IH. reflexivity. Qed.
Lemma len_to_le n z : len (to_le n z) = Z.of_nat n.
Proof. unfold len. rewrite to_le_length. reflexivity. Qed.
Lemma to_le_bytes n z : bytes (to_le n z).
Proof.
  revert z; induction n as [|n IH]; intros z; cbn [to_le]; constructor; [|apply IH].
  unfold byte. apply Z.mod_pos_bound. lia.
Qed.
Lemma le_of_to_le n z : le_of (to_le n z) = z mod 2 ^ (8 * Z.of_nat n).
Proof.
  revert z; induction n as [|n IH]; intros z; cbn [to_le le_of].
  - change (2 ^ (8 * Z.of_nat 0)) with 1. rewrite Z.mod_1_r. reflexivity.
  - rewrite IH. replace (8 * Z.of_nat (S n)) with (8 + 8 * Z.of_nat n) by lia.
    rewrite Z.pow_add_r by lia. change (2 ^ 8) with 256.
    rewrite Z.rem_mul_r by (try apply Z.pow_nonzero; lia). reflexivity.
Qed.
Lemma to_le_le_of (b : list Z) : bytes b -> to_le (length b) (le_of b) = b.
Proof.
  induction 1 as [|x b Hx Hb IH]; cbn [length to_le le_of]; [reflexivity|].
  unfold byte in Hx.
  replace ((x + 256 * le_of b) mod 256) with x by lia.
  replace ((x + 256 * le_of b) / 256) with (le_of b) by lia.
  rewrite IH. reflexivity.
Qed.
Lemma to_le_mod n z : to_le n (z mod 2 ^ (8 * Z.of_nat n)) = to_le n z.
Proof.
  rewrite <- le_of_to_le. rewrite <- (to_le_length n z) at 1. apply to_le_le_of, to_le_bytes.
Qed.
Lemma to_le_inj_mod n a b : a mod 2 ^ (8 * Z.of_nat n) = b mod 2 ^ (8 * Z.of_nat n) -> to_le n a = to_le n b.
Proof. intros H. rewrite <- (to_le_mod n a), <- (to_le_mod n b), H. reflexivity. Qed.

Lemma le_of_inj (a b : list Z) : bytes a -> bytes b -> length a = length b -> le_of a = le_of b -> a = b.
Proof.
  intros Ha Hb Hl He. rewrite <- (to_le_le_of a Ha), <- (to_le_le_of b Hb), Hl, He. reflexivity.
Qed.

Lemma to_le_app n m z : to_le (n + m) z = to_le n z ++ to_le m (z / 2 ^ (8 * Z.of_nat n)).
Proof.
  revert z; induction n as [|n IH]; intros z; cbn [Nat.add to_le app].
  - change (2 ^ (8 * Z.of_nat 0)) with 1. rewrite Z.div_1_r. reflexivity.
  - rewrite IH. f_equal. f_equal. f_equal.
    replace (8 * Z.of_nat (S n)) with (8 + 8 * Z.of_nat n) by lia.
    rewrite Z.pow_add_r by lia. change (2 ^ 8) with 256.
    rewrite Z.div_div; [reflexivity|lia|]. apply Z.pow_pos_nonneg; lia.
Qed.

Lemma bytes_app a b : bytes (a ++ b) <-> bytes a /\ bytes b.
Proof. unfold bytes. apply Forall_app. Qed.
Lemma bytes_firstn n l : bytes l -> bytes (firstn n l).
Proof. intros H. rewrite <- (firstn_skipn n l) in H. apply bytes_app in H. tauto. Qed.
Lemma bytes_skipn n l : bytes l -> bytes (skipn n l).
Proof. intros H. rewrite <- (firstn_skipn n l) in H. apply bytes_app in H. tauto. Qed.
Lemma bytes_zeros n : bytes (zeros n).
Proof. unfold bytes, zeros. apply Forall_forall. intros x Hx. apply repeat_spec in Hx. subst. unfold byte. lia. Qed.
Lemma bytes_slice l a b : bytes l -> bytes (py_slice l a b).
Proof. intros H. unfold py_slice. apply bytes_firstn, bytes_skipn, H. Qed.
Lemma bytes_slice_set l a b v : bytes l -> bytes v -> bytes (py_slice_set l a b v).
Proof.
  intros H Hv. unfold py_slice_set. apply bytes_app. split; [apply bytes_firstn, H|].
  apply bytes_app. split; [exact Hv|apply bytes_skipn, H].
Qed.

Lemma le_of_zeros n : le_of (zeros n) = 0.
Proof. unfold zeros. induction (Z.to_nat n) as [|k IH]; cbn [repeat le_of]; lia. Qed.
Lemma len_zeros n : 0 <= n -> len (zeros n) = n.
Proof. intros H. unfold zeros, len. rewrite repeat_length. lia. Qed.

Lemma signed_of_range bits z : 0 < bits -> 0 <= z < 2 ^ bits -> - 2 ^ (bits - 1) <= signed_of bits z < 2 ^ (bits - 1).
Proof.
  intros Hb Hz. unfold signed_of.
  assert (E : 2 ^ bits = 2 * 2 ^ (bits - 1)) by (rewrite <- Z.pow_succ_r by lia; f_equal; lia).
  destruct (Z.ltb_spec z (2 ^ (bits - 1))); lia.
Qed.
Lemma signed_of_mod bits z : 0 <= bits -> signed_of bits z mod 2 ^ bits = z mod 2 ^ bits.
Proof.
  intros Hb. unfold signed_of. destruct (Z.ltb_spec z (2 ^ (bits - 1))); [reflexivity|].
  rewrite <- (Z.mod_add (z - 2 ^ bits) 1) by (apply Z.pow_nonzero; lia). f_equal. lia.
Qed.
(* the signed representative is unique *)
Lemma signed_of_unique bits z s :
  0 < bits -> - 2 ^ (bits - 1) <= s < 2 ^ (bits - 1) -> s mod 2 ^ bits = z mod 2 ^ bits ->
  signed_of bits (z mod 2 ^ bits) = s.
Proof.
  intros Hb Hs He.
  assert (E : 2 ^ bits = 2 * 2 ^ (bits - 1)) by (rewrite <- Z.pow_succ_r by lia; f_equal; lia).
  assert (0 < 2 ^ (bits - 1)) by (apply Z.pow_pos_nonneg; lia).
  rewrite <- He. unfold signed_of.
  destruct (Z.ltb_spec s 0) as [Hn|Hn].
  - assert (Hm : s mod 2 ^ bits = s + 2 ^ bits).
    { symmetry. apply Z.mod_unique with (-1); lia. }
    rewrite Hm. destruct (Z.ltb_spec (s + 2 ^ bits) (2 ^ (bits - 1))); lia.
  - rewrite Z.mod_small by lia. destruct (Z.ltb_spec s (2 ^ (bits - 1))); lia.
Qed.

(* ---- slices with bounds inside the list ---- *)
Lemma py_slice_in {A} (l : list A) a b : 0 <= a <= b -> b <= len l ->
  py_slice l a b = firstn (Z.to_nat (b - a)) (skipn (Z.to_nat a) l).
Proof.
  intros H1 H2. unfold py_slice, py_bound.
  destruct (Z.ltb_spec a 0); [lia|]. destruct (Z.ltb_spec b 0); [lia|].
  rewrite !Z.min_l by lia. reflexivity.
Qed.
Lemma py_slice_set_in {A} (l : list A) a b v : 0 <= a <= b -> b <= len l ->
  py_slice_set l a b v = firstn (Z.to_nat a) l ++ v ++ skipn (Z.to_nat b) l.
Proof.
  intros H1 H2. unfold py_slice_set, py_bound.
  destruct (Z.ltb_spec a 0); [lia|]. destruct (Z.ltb_spec b 0); [lia|].
  rewrite !Z.min_l by lia. rewrite Z.max_r by lia. reflexivity.
Qed.
Lemma len_py_slice_in {A} (l : list A) a b : 0 <= a <= b -> b <= len l -> len (py_slice l a b) = b - a.
Proof.
  intros H1 H2. rewrite py_slice_in by assumption. unfold len in *. rewrite firstn_length, skipn_length. lia.
Qed.
Lemma len_py_slice_set_in {A} (l : list A) a b v : 0 <= a <= b -> b <= len l -> len v = b - a ->
  len (py_slice_set l a b v) = len l.
Proof.
  intros H1 H2 H3. rewrite py_slice_set_in by assumption. unfold len in *. rewrite !app_length.
  rewrite firstn_length, skipn_length. lia.
Qed.

Lemma le_of_firstn n d : bytes d -> le_of (firstn n d) = le_of d mod 2 ^ (8 * Z.of_nat n).
Proof.
  revert n; induction d as [|x d IH]; intros n Hd.
  - rewrite firstn_nil. cbn [le_of]. symmetry. apply Z.mod_0_l. apply Z.pow_nonzero; lia.
  - inversion Hd as [|? ? Hx Hd']; subst. destruct n as [|n].
    + change (2 ^ (8 * Z.of_nat 0)) with 1. rewrite Z.mod_1_r. reflexivity.
    + cbn [firstn le_of]. rewrite IH by exact Hd'.
      replace (8 * Z.of_nat (S n)) with (8 + 8 * Z.of_nat n) by lia.
      rewrite Z.pow_add_r by lia. change (2 ^ 8) with 256.
      rewrite Z.rem_mul_r by (try apply Z.pow_nonzero; lia). unfold byte in Hx.
      f_equal; [lia|]. f_equal. f_equal. lia.
Qed.
Lemma le_of_skipn n d : bytes d -> le_of (skipn n d) = le_of d / 2 ^ (8 * Z.of_nat n).
Proof.
  revert n; induction d as [|x d IH]; intros n Hd.
  - rewrite skipn_nil. cbn [le_of]. symmetry. apply Z.div_0_l. apply Z.pow_nonzero; lia.
  - inversion Hd as [|? ? Hx Hd']; subst. destruct n as [|n].
    + change (2 ^ (8 * Z.of_nat 0)) with 1. rewrite Z.div_1_r. reflexivity.
    + cbn [skipn le_of]. rewrite IH by exact Hd'.
      replace (8 * Z.of_nat (S n)) with (8 + 8 * Z.of_nat n) by lia.
      rewrite Z.pow_add_r by lia. change (2 ^ 8) with 256. unfold byte in Hx.
      rewrite <- Z.div_div by (try apply Z.pow_pos_nonneg; lia). f_equal. lia.
Qed.

Lemma rmapl_ok {A B} (f : A -> res B) (g : A -> B) l :
  (forall x, In x l -> f x = Ok (g x)) -> rmapl f l = Ok (map g l).
Proof.
  induction l as [|x l IH]; intros H; cbn [rmapl map]; [reflexivity|].
  rewrite (H x (or_introl eq_refl)). cbn [rbind]. rewrite IH by (intros y Hy; apply H; right; exact Hy). reflexivity.
Qed.
Lemma rmapl_length {A B} (f : A -> res B) l r : rmapl f l = Ok r -> length r = length l.
Proof.
  revert r; induction l as [|x l IH]; intros r H; cbn [rmapl] in H.
  - injection H as <-. reflexivity.
  - destruct (f x); [|discriminate]. cbn [rbind] in H. destruct (rmapl f l); [|discriminate].
    injection H as <-. cbn [length]. f_equal. apply IH. reflexivity.
Qed.

Lemma py_range_in n i : In i (py_range n) <-> 0 <= i < n.
Proof.
  unfold py_range. rewrite in_map_iff. split.
  - intros (k & <- & Hk). apply in_seq in Hk. lia.
  - intros H. exists (Z.to_nat i). split; [lia|]. apply in_seq. lia.
Qed.
Lemma py_range_length n : length (py_range n) = Z.to_nat n.
Proof. unfold py_range. rewrite map_length, seq_length. reflexivity. Qed.
Lemma py_range_nth n i d : (i < Z.to_nat n)%nat -> nth i (py_range n) d = Z.of_nat i.
Proof.
  intros H. unfold py_range. rewrite nth_indep with (d' := Z.of_nat 0) by (rewrite map_length, seq_length; exact H).
  rewrite map_nth. rewrite seq_nth by exact H. reflexivity.
Qed.

Lemma nth_error_nth_some {A} (l : list A) n d : (n < length l)%nat -> nth_error l n = Some (nth n l d).
Proof.
  revert n; induction l as [|x l IH]; intros n H; cbn [length] in H; [lia|].
  destruct n as [|n]; [reflexivity|]. cbn. apply IH. lia.
Qed.
Lemma py_index_in {A} (l : list A) i d : 0 <= i < len l -> py_index l i = Ok (nth (Z.to_nat i) l d).
Proof.
  intros H. unfold py_index. destruct (Z.ltb_spec i 0); [lia|].
  destruct (Z.ltb_spec i 0); [lia|]. unfold len in H. rewrite (nth_error_nth_some l (Z.to_nat i) d) by lia. reflexivity.
Qed.
Lemma py_index_out {A} (l : list A) i : len l <= i -> py_index l i = Err EIndex.
Proof.
  intros H. pose proof (len_nonneg l). unfold py_index. destruct (Z.ltb_spec i 0); [lia|].
  destruct (Z.ltb_spec i 0); [lia|]. unfold len in H.
  destruct (nth_error l (Z.to_nat i)) eqn:E; [|reflexivity].
  assert (nth_error l (Z.to_nat i) <> None) as Hn by congruence. apply nth_error_Some in Hn. lia.
Qed.
Lemma upd_length {A} (l : list A) n x : length (upd l n x) = length l.
Proof. revert n; induction l as [|y l IH]; intros [|n]; cbn [upd length]; try reflexivity. rewrite IH. reflexivity. Qed.
Lemma len_upd {A} (l : list A) n x : len (upd l n x) = len l.
Proof. unfold len. rewrite upd_length. reflexivity. Qed.
Lemma nth_error_upd {A} (l : list A) n x k :
  nth_error (upd l n x) k = if (k =? n)%nat then (if (n <? length l)%nat then Some x else None) else nth_error l k.
Proof.
  revert n k; induction l as [|y l IH]; intros n k.
  - cbn [upd length]. rewrite Nat.ltb_irrefl || replace (n <? 0)%nat with false by (symmetry; apply Nat.ltb_ge; lia).
    destruct (k =? n)%nat; destruct k; reflexivity.
  - destruct n as [|n]; destruct k as [|k]; cbn [upd nth_error]; try reflexivity.
    rewrite IH. reflexivity.
Qed.
Lemma nth_upd {A} (l : list A) n x k d : (n < length l)%nat -> nth k (upd l n x) d = if (k =? n)%nat then x else nth k l d.
Proof.
  revert n k; induction l as [|y l IH]; intros n k H; cbn [length] in H; [lia|].
  destruct n as [|n]; destruct k as [|k]; cbn [upd nth Nat.eqb]; try reflexivity. apply IH. lia.
Qed.
Lemma py_setitem_in {A} (l : list A) i x : 0 <= i < len l -> py_setitem l i x = Ok (upd l (Z.to_nat i) x).
Proof.
  intros H. unfold py_setitem. destruct (Z.ltb_spec i 0); [lia|].
  destruct (Z.leb_spec (len l) i); [lia|]. destruct (Z.ltb_spec i 0); [lia|]. reflexivity.
Qed.
Lemma upd_Forall {A} (P : A -> Prop) l n x : Forall P l -> P x -> Forall P (upd l n x).
Proof.
  intros Hl Hx. revert n; induction Hl as [|y l Hy Hl IH]; intros [|n]; cbn [upd]; constructor; auto.
Qed.

Lemma to_le_S n z : to_le (S n) z = z mod 256 :: to_le n (z / 256).
Proof. reflexivity. Qed.
#[global] Arguments to_le : simpl never.
