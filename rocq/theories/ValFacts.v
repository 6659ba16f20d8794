(* Proofs about Val.v: values as 128-bit numbers. *)
From Coq Require Import ZArith List Bool Lia ZifyBool ZifyNat.
From Verif Require Import Py PyFacts Arith ArithFacts SpecInt Floatops Val.
Import ListNotations.
Open Scope Z_scope.

(* the 128-bit number a value holds *)
Definition uval (v : val) : Z := le_of (v_data v).

Lemma wf_len v : val_wf v -> len (v_data v) = 16.
Proof. intros [H _]. unfold len. rewrite H. reflexivity. Qed.
Lemma uval_range v : val_wf v -> 0 <= uval v < 2 ^ 128.
Proof. intros H. pose proof (le_of_bound _ (proj2 H)) as Hb. rewrite wf_len in Hb by exact H. exact Hb. Qed.
Lemma val_eta v : val_wf v -> v = mkval (v_type v) (to_le 16 (uval v)).
Proof.
  intros [Hl Hb]. destruct v as [t d]. cbn [v_type v_data] in *. unfold uval. cbn [v_data].
  rewrite <- Hl. rewrite to_le_le_of by exact Hb. reflexivity.
Qed.
Lemma mkval_wf t z : val_wf (mkval t (to_le 16 z)).
Proof. split; [apply to_le_length|apply to_le_bytes]. Qed.
Lemma uval_mkval t z : uval (mkval t (to_le 16 z)) = z mod 2 ^ 128.
Proof. unfold uval. cbn [v_data]. rewrite le_of_to_le. reflexivity. Qed.
Lemma uval_mkval_small t z : 0 <= z < 2 ^ 128 -> uval (mkval t (to_le 16 z)) = z.
Proof. intros H. rewrite uval_mkval. apply Z.mod_small, H. Qed.

(* appending zero bytes to k low bytes *)
Lemma to_le_pad k z : (k <= 16)%nat -> to_le k z ++ zeros (16 - Z.of_nat k) = to_le 16 (z mod 2 ^ (8 * Z.of_nat k)).
Proof.
  intros Hk. apply le_of_inj.
  - apply bytes_app. split; [apply to_le_bytes|apply bytes_zeros].
  - apply to_le_bytes.
  - rewrite app_length, !to_le_length. unfold zeros. rewrite repeat_length. lia.
  - rewrite le_of_app, le_of_zeros, !le_of_to_le. rewrite Z.mul_0_r, Z.add_0_r.
    symmetry. apply Z.mod_small.
    assert (Hp : 0 < 2 ^ (8 * Z.of_nat k)) by (apply Z.pow_pos_nonneg; lia).
    pose proof (Z.mod_pos_bound z _ Hp).
    assert (2 ^ (8 * Z.of_nat k) <= 2 ^ (8 * Z.of_nat 16)) by (apply Z.pow_le_mono_r; lia). lia.
Qed.
Lemma bytes_pad d : bytes d -> (length d <= 16)%nat -> d ++ zeros (16 - len d) = to_le 16 (le_of d).
Proof.
  intros Hd Hl. rewrite <- (to_le_le_of d Hd) at 1. unfold len. rewrite to_le_pad by exact Hl. f_equal.
  apply Z.mod_small. apply le_of_bound, Hd.
Qed.
Lemma mk_val_ok t d : length d = 16%nat -> mk_val t d = Ok (mkval t d).
Proof. intros H. unfold mk_val, blen, len. rewrite H. reflexivity. Qed.
Lemma mk_val_inv t d v : mk_val t d = Ok v -> v = mkval t d /\ length d = 16%nat.
Proof.
  unfold mk_val, blen. destruct (Z.eqb_spec (len d) 16) as [E|E]; cbn [py_assert rbind]; [|discriminate].
  intros H. injection H as <-. unfold len in E. split; [reflexivity|lia].
Qed.

(* ---- scalar constructors ---- *)
Lemma srange_true N z : srange N z -> (- 2 ^ (N - 1) <=? z) && (z <? 2 ^ (N - 1)) = true.
Proof. unfold srange. lia. Qed.
Lemma urange_true N z : urange N z -> (0 <=? z) && (z <? 2 ^ N) = true.
Proof. unfold urange. lia. Qed.

Lemma from_i32_ok n : srange 32 n -> from_i32 n = Ok (mkval T_i32 (to_le 16 (n mod 2 ^ 32))).
Proof.
  intros H. unfold from_i32, i_into_bytearray, to_bytes_s. change (8 * 4) with 32. rewrite srange_true by exact H.
  cbn [rbind]. change (Z.to_nat 4) with 4%nat. change (blen - 4) with (16 - Z.of_nat 4).
  rewrite to_le_pad by lia. apply mk_val_ok, to_le_length.
Qed.
Lemma from_i64_ok n : srange 64 n -> from_i64 n = Ok (mkval T_i64 (to_le 16 (n mod 2 ^ 64))).
Proof.
  intros H. unfold from_i64, i_into_bytearray, to_bytes_s. change (8 * 8) with 64. rewrite srange_true by exact H.
  cbn [rbind]. change (Z.to_nat 8) with 8%nat. change (blen - 8) with (16 - Z.of_nat 8).
  rewrite to_le_pad by lia. apply mk_val_ok, to_le_length.
Qed.
Lemma from_u32_ok n : urange 32 n -> from_u32 n = Ok (mkval T_i32 (to_le 16 n)).
Proof.
  intros H. unfold from_u32, u_into_bytearray, to_bytes_u. change (8 * 4) with 32. rewrite urange_true by exact H.
  cbn [rbind]. change (Z.to_nat 4) with 4%nat. change (blen - 4) with (16 - Z.of_nat 4).
  rewrite to_le_pad by lia. change (8 * Z.of_nat 4) with 32. rewrite Z.mod_small by exact H. apply mk_val_ok, to_le_length.
Qed.
Lemma from_u64_ok n : urange 64 n -> from_u64 n = Ok (mkval T_i64 (to_le 16 n)).
Proof.
  intros H. unfold from_u64, u_into_bytearray, to_bytes_u. change (8 * 8) with 64. rewrite urange_true by exact H.
  cbn [rbind]. change (Z.to_nat 8) with 8%nat. change (blen - 8) with (16 - Z.of_nat 8).
  rewrite to_le_pad by lia. change (8 * Z.of_nat 8) with 64. rewrite Z.mod_small by exact H. apply mk_val_ok, to_le_length.
Qed.
Lemma from_i32_err n : ~ srange 32 n -> from_i32 n = Err EOverflow.
Proof.
  intros H. unfold from_i32, i_into_bytearray, to_bytes_s. change (8 * 4) with 32. unfold srange in H.
  change (32 - 1) with 31 in *.
  destruct ((- 2 ^ 31 <=? n) && (n <? 2 ^ 31)) eqn:E; [lia|reflexivity].
Qed.
Lemma from_i64_err n : ~ srange 64 n -> from_i64 n = Err EOverflow.
Proof.
  intros H. unfold from_i64, i_into_bytearray, to_bytes_s. change (8 * 8) with 64. unfold srange in H.
  change (64 - 1) with 63 in *.
  destruct ((- 2 ^ 63 <=? n) && (n <? 2 ^ 63)) eqn:E; [lia|reflexivity].
Qed.
Lemma from_u32_err n : ~ urange 32 n -> from_u32 n = Err EOverflow.
Proof.
  intros H. unfold from_u32, u_into_bytearray, to_bytes_u. change (8 * 4) with 32. unfold urange in H.
  destruct ((0 <=? n) && (n <? 2 ^ 32)) eqn:E; [lia|reflexivity].
Qed.
Lemma from_u64_err n : ~ urange 64 n -> from_u64 n = Err EOverflow.
Proof.
  intros H. unfold from_u64, u_into_bytearray, to_bytes_u. change (8 * 8) with 64. unfold urange in H.
  destruct ((0 <=? n) && (n <? 2 ^ 64)) eqn:E; [lia|reflexivity].
Qed.
Lemma from_f64_ok n : from_f64 n = Ok (mkval T_f64 (to_le 16 (n mod 2 ^ 64))).
Proof.
  unfold from_f64. change (blen - 8) with (16 - Z.of_nat 8). rewrite to_le_pad by lia. apply mk_val_ok, to_le_length.
Qed.
Lemma from_f32_ok F n : from_f32 F n = Ok (mkval T_f32 (to_le 16 (f_to32 F (f32_fit F n) mod 2 ^ 32))).
Proof.
  unfold from_f32. cbv zeta. change (blen - 4) with (16 - Z.of_nat 4). rewrite to_le_pad by lia. apply mk_val_ok, to_le_length.
Qed.
Lemma from_v128_ok d : length d = 16%nat -> from_v128 d = Ok (mkval T_v128 d).
Proof.
  intros H. unfold from_v128. unfold len. rewrite H. cbn [py_assert rbind Z.of_nat Z.eqb].
  change (Z.of_nat 16 =? 16) with true. cbn [py_assert rbind]. change (zeros (blen - 16)) with (@nil Z).
  rewrite app_nil_r. apply mk_val_ok, H.
Qed.
Lemma from_v128_err d : length d <> 16%nat -> from_v128 d = Err EAssert.
Proof. intros H. unfold from_v128. destruct (Z.eqb_spec (len d) 16) as [E|E]; [unfold len in E; lia|reflexivity]. Qed.

(* ---- scalar readers ---- *)
Lemma low_slice v k : val_wf v -> 0 <= k <= 16 -> py_slice (v_data v) 0 k = firstn (Z.to_nat k) (v_data v).
Proof.
  intros Hv Hk. rewrite py_slice_in by (rewrite ?wf_len by exact Hv; lia). rewrite Z.sub_0_r. reflexivity.
Qed.
Lemma into_u_gen v k : val_wf v -> 0 <= k <= 16 -> unpack_u k (py_slice (v_data v) 0 k) = Ok (uval v mod 2 ^ (8 * k)).
Proof.
  intros Hv Hk. unfold unpack_u. rewrite len_py_slice_in by (rewrite ?wf_len by exact Hv; lia).
  rewrite Z.sub_0_r, Z.eqb_refl. rewrite low_slice by assumption. rewrite le_of_firstn by apply Hv.
  rewrite Z2Nat.id by lia. reflexivity.
Qed.
Lemma into_s_gen v k : val_wf v -> 1 <= k <= 16 ->
  unpack_s k (py_slice (v_data v) 0 k) = Ok (signed_of (8 * k) (uval v mod 2 ^ (8 * k))).
Proof.
  intros Hv Hk. unfold unpack_s. rewrite len_py_slice_in by (rewrite ?wf_len by exact Hv; lia).
  rewrite Z.sub_0_r, Z.eqb_refl. f_equal. unfold le_of_s.
  destruct (py_slice (v_data v) 0 k) as [|x l] eqn:E.
  { apply (f_equal len) in E. rewrite len_py_slice_in in E by (rewrite ?wf_len by exact Hv; lia).
    change (len (@nil Z)) with 0 in E. lia. }
  rewrite <- E. rewrite len_py_slice_in by (rewrite ?wf_len by exact Hv; lia). rewrite Z.sub_0_r.
  rewrite low_slice by (try exact Hv; lia). rewrite le_of_firstn by apply Hv. rewrite Z2Nat.id by lia. reflexivity.
Qed.
Lemma into_u32_ok v : val_wf v -> into_u32 v = Ok (uval v mod 2 ^ 32).
Proof. intros H. apply (into_u_gen v 4 H). lia. Qed.
Lemma into_u64_ok v : val_wf v -> into_u64 v = Ok (uval v mod 2 ^ 64).
Proof. intros H. apply (into_u_gen v 8 H). lia. Qed.
Lemma into_i32_ok v : val_wf v -> into_i32 v = Ok (signed_of 32 (uval v mod 2 ^ 32)).
Proof. intros H. apply (into_s_gen v 4 H). lia. Qed.
Lemma into_i64_ok v : val_wf v -> into_i64 v = Ok (signed_of 64 (uval v mod 2 ^ 64)).
Proof. intros H. apply (into_s_gen v 8 H). lia. Qed.
Lemma into_f64_ok v : val_wf v -> into_f64 v = Ok (uval v mod 2 ^ 64).
Proof. intros H. apply (into_u_gen v 8 H). lia. Qed.
Lemma into_f32_ok F v : val_wf v -> into_f32 F v = Ok (f_of32 F (uval v mod 2 ^ 32)).
Proof. intros H. unfold into_f32. rewrite (into_u_gen v 4 H) by lia. reflexivity. Qed.
Lemma into_v128_ok v : val_wf v -> into_v128 v = Ok (v_data v).
Proof.
  intros H. unfold into_v128. rewrite low_slice by (try exact H; lia). f_equal. apply firstn_all2.
  change (Z.to_nat 16) with 16%nat. destruct H as [-> _]. lia.
Qed.
Lemma srange_of_signed N z : 0 < N -> srange N (signed_of N (z mod 2 ^ N)).
Proof. intros H. apply signed_of_range; [exact H|]. apply Z.mod_pos_bound. apply Z.pow_pos_nonneg; lia. Qed.
Lemma urange_mod N z : 0 <= N -> urange N (z mod 2 ^ N).
Proof. intros H. apply Z.mod_pos_bound. apply Z.pow_pos_nonneg; lia. Qed.

(* ---- API round trip (C12) ---- *)
Lemma signed_mod_small N z : 0 < N -> srange N z -> signed_of N (z mod 2 ^ N) = z.
Proof. intros HN Hz. apply signed_of_unique; [exact HN|exact Hz|reflexivity]. Qed.
Lemma mod_mod_128 z N : 0 <= N <= 128 -> (z mod 2 ^ N) mod 2 ^ 128 = z mod 2 ^ N.
Proof.
  intros H. apply Z.mod_small. assert (Hp : 0 < 2 ^ N) by (apply Z.pow_pos_nonneg; lia).
  pose proof (Z.mod_pos_bound z _ Hp). assert (2 ^ N <= 2 ^ 128) by (apply Z.pow_le_mono_r; lia). lia.
Qed.

Lemma from_ref_ok t n : srange 32 n -> from_ref t n = Ok (mkval t (to_le 16 (n mod 2 ^ 32 + 2 ^ 32))).
Proof.
  intros H. unfold from_ref, pack_s, to_bytes_s. change (8 * 4) with 32. rewrite srange_true by exact H.
  cbn [rbind]. change (Z.to_nat 4) with 4%nat.
  replace (to_le 4 n ++ [1] ++ zeros (blen - 5)) with (to_le 16 (n mod 2 ^ 32 + 2 ^ 32)); [apply mk_val_ok, to_le_length|].
  apply le_of_inj.
  - apply to_le_bytes.
  - apply bytes_app. split; [apply to_le_bytes|]. apply bytes_app. split; [|apply bytes_zeros].
    repeat constructor; unfold byte; lia.
  - rewrite !app_length, !to_le_length. reflexivity.
  - rewrite !le_of_app, !le_of_to_le, le_of_zeros. rewrite len_to_le. cbn [le_of].
    change (8 * Z.of_nat 4) with 32. change (8 * Z.of_nat 16) with 128.
    rewrite Z.mod_small; [lia|]. 
    pose proof (Z.mod_pos_bound n (2 ^ 32) ltac:(reflexivity)).
    assert (2 ^ 32 + 2 ^ 32 <= 2 ^ 128) by (vm_compute; discriminate). lia.
Qed.
Lemma from_ref_err t n : ~ srange 32 n -> from_ref t n = Err EStruct.
Proof.
  intros H. unfold from_ref, pack_s, to_bytes_s. change (8 * 4) with 32. unfold srange in H.
  change (32 - 1) with 31 in *.
  destruct ((- 2 ^ 31 <=? n) && (n <? 2 ^ 31)) eqn:E; [lia|reflexivity].
Qed.
Lemma nth_to_le n z k d : (k < n)%nat -> nth k (to_le n z) d = (z / 2 ^ (8 * Z.of_nat k)) mod 256.
Proof.
  revert n z; induction k as [|k IH]; intros n z H; destruct n as [|n]; try lia; rewrite to_le_S; cbn [nth].
  - change (2 ^ (8 * Z.of_nat 0)) with 1. rewrite Z.div_1_r. reflexivity.
  - rewrite IH by lia. rewrite Z.div_div by (try apply Z.pow_pos_nonneg; lia).
    replace (8 * Z.of_nat (S k)) with (8 + 8 * Z.of_nat k) by lia. rewrite Z.pow_add_r by lia. reflexivity.
Qed.
Lemma into_ref_from_ref t n v : from_ref t n = Ok v -> into_ref v = Ok n.
Proof.
  intros H. destruct (Z.leb_spec (- 2 ^ 31) n) as [H1|H1]; [destruct (Z.ltb_spec n (2 ^ 31)) as [H2|H2]|].
  2,3: rewrite from_ref_err in H by (unfold srange; change (32 - 1) with 31; lia); discriminate.
  assert (Hr : srange 32 n) by (unfold srange; change (32 - 1) with 31; lia).
  rewrite from_ref_ok in H by exact Hr. apply Ok_inj in H. subst v.
  unfold into_ref. cbn [v_data]. rewrite (py_index_in _ 4 0); [|rewrite len_to_le; lia].
  change (Z.to_nat 4) with 4%nat. rewrite nth_to_le by lia. cbn [rbind].
  change (8 * Z.of_nat 4) with 32.
  replace ((n mod 2 ^ 32 + 2 ^ 32) / 2 ^ 32) with 1.
  2:{ apply Z.div_unique with (n mod 2 ^ 32); [left; apply Z.mod_pos_bound; lia|lia]. }
  change (1 mod 256 =? 1) with true. cbn [py_assert rbind].
  rewrite into_i32_ok by apply mkval_wf. f_equal.
  rewrite uval_mkval.
  rewrite (Z.mod_small (n mod 2 ^ 32 + 2 ^ 32)).
  2:{ pose proof (Z.mod_pos_bound n (2 ^ 32) ltac:(reflexivity)).
      assert (2 ^ 32 + 2 ^ 32 <= 2 ^ 128) by (vm_compute; discriminate). lia. }
  apply signed_of_unique; [lia|exact Hr|].
  rewrite <- Z.add_mod_idemp_r by lia. rewrite Z.mod_same by lia. rewrite Z.add_0_r. symmetry. apply Z.mod_mod. lia.
Qed.

Lemma from_i32_inv n v : from_i32 n = Ok v -> srange 32 n /\ v = mkval T_i32 (to_le 16 (n mod 2 ^ 32)).
Proof.
  intros H. assert (Hr : srange 32 n).
  { destruct (Z.leb_spec (- 2 ^ (32 - 1)) n) as [H1|H1]; [destruct (Z.ltb_spec n (2 ^ (32 - 1))) as [H2|H2]|].
    - unfold srange. lia.
    - rewrite from_i32_err in H by (unfold srange; lia). discriminate.
    - rewrite from_i32_err in H by (unfold srange; lia). discriminate. }
  split; [exact Hr|]. rewrite from_i32_ok in H by exact Hr. apply Ok_inj in H. congruence.
Qed.
Lemma from_i64_inv n v : from_i64 n = Ok v -> srange 64 n /\ v = mkval T_i64 (to_le 16 (n mod 2 ^ 64)).
Proof.
  intros H. assert (Hr : srange 64 n).
  { destruct (Z.leb_spec (- 2 ^ (64 - 1)) n) as [H1|H1]; [destruct (Z.ltb_spec n (2 ^ (64 - 1))) as [H2|H2]|].
    - unfold srange. lia.
    - rewrite from_i64_err in H by (unfold srange; lia). discriminate.
    - rewrite from_i64_err in H by (unfold srange; lia). discriminate. }
  split; [exact Hr|]. rewrite from_i64_ok in H by exact Hr. apply Ok_inj in H. congruence.
Qed.
Lemma from_u32_inv n v : from_u32 n = Ok v -> urange 32 n /\ v = mkval T_i32 (to_le 16 n).
Proof.
  intros H. assert (Hr : urange 32 n).
  { destruct (Z.leb_spec 0 n) as [H1|H1]; [destruct (Z.ltb_spec n (2 ^ 32)) as [H2|H2]|].
    - unfold urange. lia.
    - rewrite from_u32_err in H by (unfold urange; lia). discriminate.
    - rewrite from_u32_err in H by (unfold urange; lia). discriminate. }
  split; [exact Hr|]. rewrite from_u32_ok in H by exact Hr. apply Ok_inj in H. congruence.
Qed.
Lemma from_u64_inv n v : from_u64 n = Ok v -> urange 64 n /\ v = mkval T_i64 (to_le 16 n).
Proof.
  intros H. assert (Hr : urange 64 n).
  { destruct (Z.leb_spec 0 n) as [H1|H1]; [destruct (Z.ltb_spec n (2 ^ 64)) as [H2|H2]|].
    - unfold urange. lia.
    - rewrite from_u64_err in H by (unfold urange; lia). discriminate.
    - rewrite from_u64_err in H by (unfold urange; lia). discriminate. }
  split; [exact Hr|]. rewrite from_u64_ok in H by exact Hr. apply Ok_inj in H. congruence.
Qed.
Lemma from_ref_inv t n v : from_ref t n = Ok v -> srange 32 n /\ v = mkval t (to_le 16 (n mod 2 ^ 32 + 2 ^ 32)).
Proof.
  intros H. assert (Hr : srange 32 n).
  { destruct (Z.leb_spec (- 2 ^ (32 - 1)) n) as [H1|H1]; [destruct (Z.ltb_spec n (2 ^ (32 - 1))) as [H2|H2]|].
    - unfold srange. lia.
    - rewrite from_ref_err in H by (unfold srange; lia). discriminate.
    - rewrite from_ref_err in H by (unfold srange; lia). discriminate. }
  split; [exact Hr|]. rewrite from_ref_ok in H by exact Hr. apply Ok_inj in H. congruence.
Qed.
Lemma from_v128_inv d v : from_v128 d = Ok v -> length d = 16%nat /\ v = mkval T_v128 d.
Proof.
  intros H. destruct (Nat.eq_dec (length d) 16) as [E|E].
  - rewrite from_v128_ok in H by exact E. apply Ok_inj in H. split; [exact E|congruence].
  - rewrite from_v128_err in H by exact E. discriminate.
Qed.

Lemma read_f64 F x : urange 64 x -> into_all F (mkval T_f64 (to_le 16 (x mod 2 ^ 64))) = Ok (PFloat x).
Proof.
  intros H. unfold into_all. cbn [v_type]. rewrite into_f64_ok by apply mkval_wf. rewrite uval_mkval.
  rewrite mod_mod_128 by lia. rewrite Z.mod_mod by lia. rewrite Z.mod_small by exact H. reflexivity.
Qed.
Lemma read_f32 F x : (forall y, f_to32 F (f_of32 F (f_to32 F y)) = f_to32 F y) -> urange 32 (f_to32 F x) ->
  into_all F (mkval T_f32 (to_le 16 (f_to32 F (f32_fit F x) mod 2 ^ 32))) = Ok (PFloat (f_of32 F (f_to32 F x))).
Proof.
  intros Hi H. unfold into_all. cbn [v_type]. rewrite into_f32_ok by apply mkval_wf. rewrite uval_mkval.
  rewrite mod_mod_128 by lia. rewrite Z.mod_mod by lia. unfold f32_fit. rewrite Hi.
  rewrite Z.mod_small by exact H. reflexivity.
Qed.

Lemma from_all_accepted F t p v : from_all F t p = Ok v ->
  length (v_data v) = 16%nat /\ v_type v = t /\
  match t, p with
  | T_i32, PInt z => srange 32 z /\ into_all F v = Ok (PInt z)
  | T_i64, PInt z => srange 64 z /\ into_all F v = Ok (PInt z)
  | (T_func | T_extern), PInt z => srange 32 z /\ into_all F v = Ok (PInt z)
  | T_v128, PBytes b => length b = 16%nat /\ into_all F v = Ok (PBytes b)
  | T_f64, PFloat x => urange 64 x -> into_all F v = Ok (PFloat x)
  | T_f64, PInt n => forall x, f_of_int F n = Some x -> urange 64 x -> into_all F v = Ok (PFloat x)
  | T_f32, PFloat x => (forall y, f_to32 F (f_of32 F (f_to32 F y)) = f_to32 F y) -> urange 32 (f_to32 F x) ->
                       into_all F v = Ok (PFloat (f_of32 F (f_to32 F x)))
  | T_f32, PInt n => forall x, f_of_int F n = Some x ->
                       (forall y, f_to32 F (f_of32 F (f_to32 F y)) = f_to32 F y) -> urange 32 (f_to32 F x) ->
                       into_all F v = Ok (PFloat (f_of32 F (f_to32 F x)))
  | _, _ => False
  end.
Proof.
  assert (Hint : forall z, srange 32 z -> into_i32 (mkval T_i32 (to_le 16 (z mod 2 ^ 32))) = Ok z).
  { intros z Hz. rewrite into_i32_ok by apply mkval_wf. rewrite uval_mkval, mod_mod_128 by lia.
    rewrite Z.mod_mod by lia. rewrite signed_mod_small by (try exact Hz; lia). reflexivity. }
  assert (Hint64 : forall z, srange 64 z -> into_i64 (mkval T_i64 (to_le 16 (z mod 2 ^ 64))) = Ok z).
  { intros z Hz. rewrite into_i64_ok by apply mkval_wf. rewrite uval_mkval, mod_mod_128 by lia.
    rewrite Z.mod_mod by lia. rewrite signed_mod_small by (try exact Hz; lia). reflexivity. }
  destruct t; destruct p; cbn [from_all]; intros H; try discriminate.
  - apply from_i32_inv in H. destruct H as [Hr ->]. cbn [v_data v_type].
    split; [apply to_le_length|]. split; [reflexivity|]. split; [exact Hr|].
    unfold into_all. cbn [v_type]. rewrite Hint by exact Hr. reflexivity.
  - apply from_i64_inv in H. destruct H as [Hr ->]. cbn [v_data v_type].
    split; [apply to_le_length|]. split; [reflexivity|]. split; [exact Hr|].
    unfold into_all. cbn [v_type]. rewrite Hint64 by exact Hr. reflexivity.
  - unfold fl_of_int in H. destruct (f_of_int F z) as [x0|] eqn:E; [|discriminate]. cbn [rbind] in H.
    rewrite from_f32_ok in H. apply Ok_inj in H. subst v. cbn [v_data v_type].
    split; [apply to_le_length|]. split; [reflexivity|]. intros x Hx. assert (x = x0) by congruence. subst x0.
    apply read_f32.
  - rewrite from_f32_ok in H. apply Ok_inj in H. subst v. cbn [v_data v_type].
    split; [apply to_le_length|]. split; [reflexivity|]. apply read_f32.
  - unfold fl_of_int in H. destruct (f_of_int F z) as [x0|] eqn:E; [|discriminate]. cbn [rbind] in H.
    rewrite from_f64_ok in H. apply Ok_inj in H. subst v. cbn [v_data v_type].
    split; [apply to_le_length|]. split; [reflexivity|]. intros x Hx. assert (x = x0) by congruence. subst x0.
    apply read_f64.
  - rewrite from_f64_ok in H. apply Ok_inj in H. subst v. cbn [v_data v_type].
    split; [apply to_le_length|]. split; [reflexivity|]. apply read_f64.
  - apply from_v128_inv in H. destruct H as [Hr ->]. cbn [v_data v_type].
    split; [exact Hr|]. split; [reflexivity|]. split; [exact Hr|].
    unfold into_all, into_v128. cbn [v_type v_data rmap]. do 2 f_equal.
    rewrite py_slice_in by (unfold len; lia). rewrite Z.sub_0_r.
    change (Z.to_nat 0) with 0%nat. cbn [skipn]. apply firstn_all2. rewrite Hr. reflexivity.
  - pose proof (into_ref_from_ref _ _ _ H) as Hi. apply from_ref_inv in H. destruct H as [Hr ->]. cbn [v_data v_type].
    split; [apply to_le_length|]. split; [reflexivity|]. split; [exact Hr|].
    unfold into_all. cbn [v_type]. rewrite Hi. reflexivity.
  - pose proof (into_ref_from_ref _ _ _ H) as Hi. apply from_ref_inv in H. destruct H as [Hr ->]. cbn [v_data v_type].
    split; [apply to_le_length|]. split; [reflexivity|]. split; [exact Hr|].
    unfold into_all. cbn [v_type]. rewrite Hi. reflexivity.
Qed.

Lemma from_all_rejects F z :
  ((exists v, from_all F T_i32 (PInt z) = Ok v) <-> srange 32 z) /\
  ((exists v, from_all F T_i64 (PInt z) = Ok v) <-> srange 64 z) /\
  ((exists v, from_all F T_func (PInt z) = Ok v) <-> srange 32 z) /\
  ((exists v, from_all F T_extern (PInt z) = Ok v) <-> srange 32 z).
Proof.
  cbn [from_all]. split; [|split; [|split]]; split.
  - intros [v H]. apply from_i32_inv in H. tauto.
  - intros H. rewrite from_i32_ok by exact H. eauto.
  - intros [v H]. apply from_i64_inv in H. tauto.
  - intros H. rewrite from_i64_ok by exact H. eauto.
  - intros [v H]. apply from_ref_inv in H. tauto.
  - intros H. rewrite from_ref_ok by exact H. eauto.
  - intros [v H]. apply from_ref_inv in H. tauto.
  - intros H. rewrite from_ref_ok by exact H. eauto.
Qed.

Lemma congr_signed N z : 0 < N -> congr N (signed_of N (z mod 2 ^ N)) (z mod 2 ^ N).
Proof.
  intros HN. apply congr_mod; [lia|]. rewrite signed_of_mod by lia. reflexivity.
Qed.
Lemma views_agree v : val_wf v ->
  exists s32 u32 s64 u64,
    into_i32 v = Ok s32 /\ into_u32 v = Ok u32 /\ into_i64 v = Ok s64 /\ into_u64 v = Ok u64 /\
    srange 32 s32 /\ urange 32 u32 /\ congr 32 s32 u32 /\
    srange 64 s64 /\ urange 64 u64 /\ congr 64 s64 u64 /\ congr 32 u64 u32.
Proof.
  intros H. rewrite into_i32_ok, into_u32_ok, into_i64_ok, into_u64_ok by exact H.
  do 4 eexists. repeat (split; [reflexivity|]).
  split; [apply srange_of_signed; lia|]. split; [apply urange_mod; lia|]. split; [apply congr_signed; lia|].
  split; [apply srange_of_signed; lia|]. split; [apply urange_mod; lia|]. split; [apply congr_signed; lia|].
  apply congr_mod; [lia|]. change (2 ^ 64) with (2 ^ 32 * 2 ^ 32).
  rewrite Z.rem_mul_r by lia. rewrite Z.mod_mod by lia. rewrite Z.mul_comm, Z.mod_add by lia. apply Z.mod_mod. lia.
Qed.
Lemma views_build z v :
  (from_i32 z = Ok v -> into_i32 v = Ok z /\ into_u32 v = Ok (z mod 2 ^ 32)) /\
  (from_u32 z = Ok v -> into_u32 v = Ok z /\ exists s, into_i32 v = Ok s /\ wraps_s 32 z s) /\
  (from_i64 z = Ok v -> into_i64 v = Ok z /\ into_u64 v = Ok (z mod 2 ^ 64)) /\
  (from_u64 z = Ok v -> into_u64 v = Ok z /\ exists s, into_i64 v = Ok s /\ wraps_s 64 z s).
Proof.
  assert (Hs : forall N, 0 <= N <= 128 -> urange N z -> z mod 2 ^ 128 = z).
  { intros N HN [H1 H2]. apply Z.mod_small. assert (2 ^ N <= 2 ^ 128) by (apply Z.pow_le_mono_r; lia). lia. }
  repeat apply conj; intros H.
  - apply from_i32_inv in H. destruct H as [Hr ->]. rewrite into_i32_ok, into_u32_ok by apply mkval_wf.
    rewrite uval_mkval, mod_mod_128 by lia. rewrite Z.mod_mod by lia.
    rewrite signed_mod_small by (try exact Hr; lia). split; reflexivity.
  - apply from_u32_inv in H. destruct H as [Hr ->]. rewrite into_i32_ok, into_u32_ok by apply mkval_wf.
    rewrite uval_mkval, (Hs 32) by (try exact Hr; lia). split; [rewrite Z.mod_small by exact Hr; reflexivity|].
    eexists. split; [reflexivity|]. apply signed_wraps. lia.
  - apply from_i64_inv in H. destruct H as [Hr ->]. rewrite into_i64_ok, into_u64_ok by apply mkval_wf.
    rewrite uval_mkval, mod_mod_128 by lia. rewrite Z.mod_mod by lia.
    rewrite signed_mod_small by (try exact Hr; lia). split; reflexivity.
  - apply from_u64_inv in H. destruct H as [Hr ->]. rewrite into_i64_ok, into_u64_ok by apply mkval_wf.
    rewrite uval_mkval, (Hs 64) by (try exact Hr; lia). split; [rewrite Z.mod_small by exact Hr; reflexivity|].
    eexists. split; [reflexivity|]. apply signed_wraps. lia.
Qed.
