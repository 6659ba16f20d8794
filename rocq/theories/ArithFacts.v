(* Proofs about Arith.v. *)
From Coq Require Import ZArith List Bool Lia ZifyBool ZifyNat Zquot.
From Verif Require Import Py PyFacts Arith SpecInt.
Import ListNotations.
Open Scope Z_scope.

Lemma bits_pos n : 1 <= n -> 8 <= bits n.
Proof. unfold bits. lia. Qed.
Lemma mask_eq n : 1 <= n -> mask n = 2 ^ bits n - 1.
Proof. intros H. unfold mask. rewrite Z.shiftl_1_l. reflexivity. Qed.
Lemma mask_sign_eq n : 1 <= n -> mask_sign n = 2 ^ (bits n - 1).
Proof. intros H. unfold mask_sign. rewrite Z.shiftl_1_l. reflexivity. Qed.
Lemma i_max_eq n : 1 <= n -> i_max n = 2 ^ (bits n - 1) - 1.
Proof. intros H. unfold i_max. rewrite Z.shiftl_1_l. reflexivity. Qed.
Lemma i_min_eq n : 1 <= n -> i_min n = - 2 ^ (bits n - 1).
Proof. intros H. unfold i_min. rewrite Z.shiftl_mul_pow2 by (pose proof (bits_pos n H); lia). lia. Qed.
Lemma pow_half N : 0 < N -> 2 ^ N = 2 * 2 ^ (N - 1).
Proof. intros H. rewrite <- Z.pow_succ_r by lia. f_equal. lia. Qed.

Lemma u_fit_eq n z : 1 <= n -> u_fit n z = z mod 2 ^ bits n.
Proof. intros H. unfold u_fit. rewrite mask_eq by exact H. apply land_ones_pow. pose proof (bits_pos n H). lia. Qed.
Lemma i_fit_eq n z : 1 <= n -> i_fit n z = signed_of (bits n) (z mod 2 ^ bits n).
Proof.
  intros H. pose proof (bits_pos n H) as Hb. unfold i_fit. cbv zeta. rewrite mask_eq, mask_sign_eq by exact H.
  rewrite land_ones_pow by lia. rewrite land_pow2 by lia.
  assert (Hm : 0 <= z mod 2 ^ bits n < 2 ^ bits n) by (apply Z.mod_pos_bound; apply Z.pow_pos_nonneg; lia).
  rewrite testbit_top; [|lia|replace (bits n - 1 + 1) with (bits n) by lia; exact Hm].
  unfold signed_of. rewrite (pow_half (bits n)) in * by lia.
  destruct (Z.leb_spec (2 ^ (bits n - 1)) (z mod (2 * 2 ^ (bits n - 1)))) as [Hc|Hc];
  destruct (Z.ltb_spec (z mod (2 * 2 ^ (bits n - 1))) (2 ^ (bits n - 1))) as [Hd|Hd]; try lia.
  - rewrite Z.shiftl_mul_pow2 by lia. lia.
  - rewrite Z.shiftl_0_l. lia.
Qed.

Lemma congr_mod N a b : 0 <= N -> congr N a b <-> a mod 2 ^ N = b mod 2 ^ N.
Proof.
  intros HN. assert (Hp : 2 ^ N <> 0) by (apply Z.pow_nonzero; lia). split.
  - intros [k ->]. apply Z.mod_add, Hp.
  - intros H. exists (a / 2 ^ N - b / 2 ^ N).
    pose proof (Z.div_mod a (2 ^ N) Hp). pose proof (Z.div_mod b (2 ^ N) Hp). rewrite H in *. lia.
Qed.

Lemma signed_wraps N z : 0 < N -> wraps_s N z (signed_of N (z mod 2 ^ N)).
Proof.
  intros HN. assert (Hp : 0 < 2 ^ N) by (apply Z.pow_pos_nonneg; lia).
  pose proof (Z.mod_pos_bound z (2 ^ N) Hp) as Hm. split; [|split].
  - apply signed_of_range; assumption.
  - apply congr_mod; [lia|]. rewrite signed_of_mod by lia. apply Z.mod_mod. lia.
  - intros r' Hr Hc. apply congr_mod in Hc; [|lia]. symmetry. apply signed_of_unique; [exact HN|exact Hr|].
    exact Hc.
Qed.
Lemma mod_wraps N z : 0 <= N -> wraps_u N z (z mod 2 ^ N).
Proof.
  intros HN. assert (Hp : 0 < 2 ^ N) by (apply Z.pow_pos_nonneg; lia). split; [|split].
  - apply Z.mod_pos_bound, Hp.
  - apply congr_mod; [lia|]. apply Z.mod_mod. lia.
  - intros r' Hr Hc. apply congr_mod in Hc; [|lia]. rewrite <- Hc. symmetry. apply Z.mod_small. exact Hr.
Qed.

Lemma i_fit_wraps n z : 1 <= n -> wraps_s (8 * n) z (i_fit n z).
Proof. intros H. rewrite i_fit_eq by exact H. unfold bits. rewrite Z.mul_comm. apply signed_wraps. lia. Qed.
Lemma u_fit_wraps n z : 1 <= n -> wraps_u (8 * n) z (u_fit n z).
Proof. intros H. rewrite u_fit_eq by exact H. unfold bits. rewrite Z.mul_comm. apply mod_wraps. lia. Qed.

Lemma i_fit_small n z : 1 <= n -> srange (8 * n) z -> i_fit n z = z.
Proof.
  intros H Hz. destruct (i_fit_wraps n z H) as (_ & _ & Hu). symmetry. apply Hu; [exact Hz|]. exists 0. lia.
Qed.
Lemma u_fit_small n z : 1 <= n -> urange (8 * n) z -> u_fit n z = z.
Proof.
  intros H Hz. destruct (u_fit_wraps n z H) as (_ & _ & Hu). symmetry. apply Hu; [exact Hz|]. exists 0. lia.
Qed.
Lemma i_fit_range n z : 1 <= n -> srange (8 * n) (i_fit n z).
Proof. intros H. apply (i_fit_wraps n z H). Qed.
Lemma u_fit_range n z : 1 <= n -> urange (8 * n) (u_fit n z).
Proof. intros H. apply (u_fit_wraps n z H). Qed.
Lemma i_fit_mod n z : 1 <= n -> i_fit n z mod 2 ^ (8 * n) = z mod 2 ^ (8 * n).
Proof. intros H. apply congr_mod; [lia|]. apply (i_fit_wraps n z H). Qed.

(* ---- division ---- *)
Lemma py_div_quot a b : b <> 0 ->
  (if a * b >? 0 then py_floordiv a b else let? m := py_mod (- a) b in py_floordiv (a + m) b)%res = Ok (Z.quot a b).
Proof.
  intros Hb. unfold py_floordiv, py_mod. destruct (Z.eqb_spec b 0) as [|_]; [lia|].
  cbn [rbind]. 
  destruct (a * b >? 0) eqn:E; f_equal.
  - destruct (Z.ltb_spec 0 b) as [Hp|Hn].
    + rewrite Z.quot_div_nonneg by nia. reflexivity.
    + rewrite <- (Z.quot_opp_opp a b Hb), Z.quot_div_nonneg by nia. symmetry. apply Z.div_opp_opp. exact Hb.
  - assert (Hab : a * b <= 0) by lia.
    apply (Zquot_unique_full a b _ (- ((- a) mod b))).
    + unfold Remainder.
      destruct (Z.ltb_spec 0 b) as [Hp|Hn].
      * pose proof (Z.mod_pos_bound (- a) b Hp). assert (a <= 0) by nia.
        right. lia.
      * pose proof (Z.mod_neg_bound (- a) b ltac:(lia)). assert (0 <= a) by nia. left. lia.
    + assert (Hdm : (a + (- a) mod b) mod b = 0).
      { rewrite Z.add_mod_idemp_r by exact Hb. replace (a + - a) with 0 by lia. apply Z.mod_0_l, Hb. }
      pose proof (Z.div_mod (a + (- a) mod b) b Hb). lia.
Qed.
Lemma py_rem_rem a b : b <> 0 ->
  (if a * b >? 0 then py_mod a b else let? m := py_mod (- a) b in Ok (- m))%res = Ok (Z.rem a b).
Proof.
  intros Hb. pose proof (py_div_quot a b Hb) as Hq. pose proof (Z.quot_rem' a b) as Hqr.
  unfold py_floordiv, py_mod in *. destruct (Z.eqb_spec b 0) as [|_]; [lia|]. cbn [rbind] in *.
  destruct (a * b >? 0); injection Hq as Hq; f_equal; rewrite <- Hq in Hqr.
  - pose proof (Z.div_mod a b Hb). lia.
  - assert (Hdm : (a + (- a) mod b) mod b = 0).
    { rewrite Z.add_mod_idemp_r by exact Hb. replace (a + - a) with 0 by lia. apply Z.mod_0_l, Hb. }
    pose proof (Z.div_mod (a + (- a) mod b) b Hb). lia.
Qed.
Lemma i_div_eq n a b : 1 <= n -> b <> 0 -> ~ (a = - 2 ^ (8 * n - 1) /\ b = -1) -> i_div n a b = Ok (Z.quot a b).
Proof.
  intros Hn Hb Hm. unfold i_div. rewrite i_min_eq by exact Hn.
  replace (bits n - 1) with (8 * n - 1) by (unfold bits; lia).
  replace (negb (a =? - 2 ^ (8 * n - 1)) || negb (b =? -1)) with true by lia.
  cbn [py_assert rbind]. apply py_div_quot, Hb.
Qed.
Lemma i_div_overflow n : 1 <= n -> i_div n (- 2 ^ (8 * n - 1)) (-1) = Err EAssert.
Proof.
  intros Hn. unfold i_div. rewrite i_min_eq by exact Hn.
  replace (bits n - 1) with (8 * n - 1) by (unfold bits; lia). rewrite !Z.eqb_refl. reflexivity.
Qed.
Lemma i_div_zero n a : 1 <= n -> i_div n a 0 = Err EZeroDiv.
Proof.
  intros Hn. unfold i_div. cbn [Z.eqb negb]. rewrite orb_true_r. cbn [py_assert rbind].
  rewrite Z.mul_0_r. reflexivity.
Qed.
Lemma i_rem_eq n a b : b <> 0 -> i_rem n a b = Ok (Z.rem a b).
Proof. apply py_rem_rem. Qed.
Lemma i_rem_zero n a : i_rem n a 0 = Err EZeroDiv.
Proof. unfold i_rem. rewrite Z.mul_0_r. reflexivity. Qed.

(* ---- shifts ---- *)
Lemma land_count n b k : 0 <= k -> bits n = 2 ^ k -> Z.land b (bits n - 1) = b mod bits n.
Proof. intros Hk E. rewrite E. apply land_ones_pow, Hk. Qed.
Lemma signed_of_bits N z i : 0 < N -> 0 <= i < N -> Z.testbit (signed_of N (z mod 2 ^ N)) i = Z.testbit z i.
Proof.
  intros HN Hi. rewrite <- (Z.mod_pow2_bits_low (signed_of N (z mod 2 ^ N)) N i) by lia.
  rewrite signed_of_mod by lia. rewrite Z.mod_mod by (apply Z.pow_nonzero; lia).
  apply Z.mod_pow2_bits_low. lia.
Qed.
Lemma testbit_above N z i : 0 <= N -> 0 <= z < 2 ^ N -> N <= i -> Z.testbit z i = false.
Proof.
  intros HN Hz Hi. rewrite <- (Z.mod_small z (2 ^ N)) by exact Hz. apply Z.mod_pow2_bits_high. lia.
Qed.
Lemma testbit_sign N z i : 0 < N -> srange N z -> N - 1 <= i -> Z.testbit z i = (z <? 0).
Proof.
  unfold srange. intros HN Hz Hi. destruct (Z.ltb_spec z 0) as [Hn|Hn].
  - rewrite <- (Z.lnot_involutive z). rewrite Z.lnot_spec by lia. 
    rewrite (testbit_above (N - 1)); [reflexivity|lia| |lia]. unfold Z.lnot. lia.
  - apply (testbit_above (N - 1)); lia.
Qed.

Lemma u_rotl_bits n a b i : 1 <= n -> urange (bits n) a -> 0 <= i < bits n ->
  Z.testbit (u_rotl n a b) i = Z.testbit a ((i - b mod bits n) mod bits n).
Proof.
  intros Hn Ha Hi. pose proof (bits_pos n Hn) as Hb. unfold u_rotl. cbv zeta.
  set (c := b mod bits n). assert (Hc : 0 <= c < bits n) by (apply Z.mod_pos_bound; lia).
  rewrite mask_eq by exact Hn. rewrite land_ones_pow by lia.
  rewrite Z.lor_spec, Z.mod_pow2_bits_low by lia. rewrite Z.shiftl_spec, Z.shiftr_spec by lia.
  destruct (Z.ltb_spec i c) as [Hic|Hic].
  - rewrite Z.testbit_neg_r by lia. cbn [orb]. f_equal. apply Z.mod_unique with (-1); lia.
  - rewrite (testbit_above (bits n) a (i + (bits n - c))) by (try exact Ha; lia).
    rewrite orb_false_r. f_equal. symmetry. apply Z.mod_small. lia.
Qed.
Lemma u_rotr_bits n a b i : 1 <= n -> urange (bits n) a -> 0 <= i < bits n ->
  Z.testbit (u_rotr n a b) i = Z.testbit a ((i + b mod bits n) mod bits n).
Proof.
  intros Hn Ha Hi. pose proof (bits_pos n Hn) as Hb. unfold u_rotr. cbv zeta.
  set (c := b mod bits n). assert (Hc : 0 <= c < bits n) by (apply Z.mod_pos_bound; lia).
  rewrite mask_eq by exact Hn. rewrite land_ones_pow by lia.
  rewrite Z.lor_spec, Z.mod_pow2_bits_low by lia. rewrite Z.shiftl_spec, Z.shiftr_spec by lia.
  destruct (Z.ltb_spec (i + c) (bits n)) as [Hic|Hic].
  - rewrite (Z.testbit_neg_r a (i - (bits n - c))) by lia. rewrite orb_false_r.
    f_equal. symmetry. apply Z.mod_small. lia.
  - rewrite (testbit_above (bits n) a (i + c)) by (try exact Ha; lia). cbn [orb].
    f_equal. apply Z.mod_unique with 1; lia.
Qed.
Lemma lt_pow2_bits N z : 0 <= N -> 0 <= z -> (forall i, N <= i -> Z.testbit z i = false) -> z < 2 ^ N.
Proof.
  intros HN Hz H. destruct (Z.eq_dec z 0) as [->|Hne]; [apply Z.pow_pos_nonneg; lia|].
  apply Z.log2_lt_pow2; [lia|]. destruct (Z.ltb_spec (Z.log2 z) N) as [|Hge]; [assumption|].
  pose proof (Z.bit_log2 z ltac:(lia)) as Hb. rewrite H in Hb by lia. discriminate.
Qed.
Lemma u_rotl_range n a b : 1 <= n -> urange (bits n) a -> urange (bits n) (u_rotl n a b).
Proof.
  intros Hn Ha. pose proof (bits_pos n Hn) as Hb. unfold urange, u_rotl in *. cbv zeta.
  set (c := b mod bits n). assert (Hc : 0 <= c < bits n) by (apply Z.mod_pos_bound; lia).
  rewrite mask_eq by exact Hn. rewrite land_ones_pow by lia.
  assert (Hp : 0 < 2 ^ bits n) by (apply Z.pow_pos_nonneg; lia).
  assert (H0 : 0 <= Z.lor (Z.shiftl a c mod 2 ^ bits n) (Z.shiftr a (bits n - c))).
  { apply Z.lor_nonneg. split; [apply Z.mod_pos_bound, Hp|]. apply Z.shiftr_nonneg. lia. }
  split; [exact H0|]. apply lt_pow2_bits; [lia|exact H0|]. intros i Hi.
  rewrite Z.lor_spec, Z.mod_pow2_bits_high by lia. rewrite Z.shiftr_spec by lia.
  apply (testbit_above (bits n)); [lia|exact Ha|lia].
Qed.
Lemma u_rotr_range n a b : 1 <= n -> urange (bits n) a -> urange (bits n) (u_rotr n a b).
Proof.
  intros Hn Ha. pose proof (bits_pos n Hn) as Hb. unfold urange, u_rotr in *. cbv zeta.
  set (c := b mod bits n). assert (Hc : 0 <= c < bits n) by (apply Z.mod_pos_bound; lia).
  rewrite mask_eq by exact Hn. rewrite land_ones_pow by lia.
  assert (Hp : 0 < 2 ^ bits n) by (apply Z.pow_pos_nonneg; lia).
  assert (H0 : 0 <= Z.lor (Z.shiftr a c) (Z.shiftl a (bits n - c) mod 2 ^ bits n)).
  { apply Z.lor_nonneg. split; [|apply Z.mod_pos_bound, Hp]. apply Z.shiftr_nonneg. lia. }
  split; [exact H0|]. apply lt_pow2_bits; [lia|exact H0|]. intros i Hi.
  rewrite Z.lor_spec, Z.mod_pow2_bits_high by lia. rewrite Z.shiftr_spec by lia.
  rewrite orb_false_r. apply (testbit_above (bits n)); [lia|exact Ha|lia].
Qed.

(* ---- bit counting ---- *)
Lemma clz_loop_spec n a k j : 1 <= n -> 0 <= j -> bits n = Z.of_nat k + j ->
  (forall i, bits n - j <= i < bits n -> Z.testbit a i = false) ->
  is_clz (bits n) a (clz_loop n k (Z.shiftl a j) j).
Proof.
  intros Hn. pose proof (bits_pos n Hn) as Hb. revert j; induction k as [|k IH]; intros j Hj Hk Hz; cbn [clz_loop].
  - split; [lia|]. split; [exact Hz|]. lia.
  - rewrite mask_sign_eq, land_pow2 by lia. rewrite Z.shiftl_spec by lia.
    destruct (Z.testbit a (bits n - 1 - j)) eqn:E.
    + assert (0 < 2 ^ (bits n - 1)) by (apply Z.pow_pos_nonneg; lia).
      destruct (Z.eqb_spec (2 ^ (bits n - 1)) 0); [lia|]. cbn [negb].
      split; [lia|]. split; [exact Hz|]. intros _. exact E.
    + cbn [Z.eqb negb]. rewrite Z.shiftl_shiftl by lia. apply IH; [lia|lia|].
      intros i Hi. destruct (Z.eq_dec i (bits n - 1 - j)) as [->|Hne]; [exact E|]. apply Hz. lia.
Qed.
Lemma u_clz_spec n a : 1 <= n -> is_clz (bits n) a (u_clz n a).
Proof.
  intros Hn. pose proof (bits_pos n Hn). unfold u_clz. rewrite <- (Z.shiftl_0_r a) at 2.
  apply clz_loop_spec; lia.
Qed.
Lemma land_1 a : Z.land a 1 = if Z.testbit a 0 then 1 else 0.
Proof. change 1 with (2 ^ 0) at 1. rewrite land_pow2 by lia. reflexivity. Qed.
Lemma ctz_loop_spec N a k j : 0 <= j -> N = Z.of_nat k + j ->
  (forall i, 0 <= i < j -> Z.testbit a i = false) -> is_ctz N a (ctz_loop k (Z.shiftr a j) j).
Proof.
  revert j; induction k as [|k IH]; intros j Hj Hk Hz; cbn [ctz_loop].
  - split; [lia|]. split; [exact Hz|]. lia.
  - rewrite land_1, Z.shiftr_spec by lia. rewrite Z.add_0_l. destruct (Z.testbit a j) eqn:E; cbn [Z.eqb negb].
    + split; [lia|]. split; [exact Hz|]. intros _. exact E.
    + rewrite Z.shiftr_shiftr by lia. apply IH; [lia|lia|].
      intros i Hi. destruct (Z.eq_dec i j) as [->|Hne]; [exact E|]. apply Hz. lia.
Qed.
Lemma u_ctz_spec n a : 1 <= n -> is_ctz (bits n) a (u_ctz n a).
Proof.
  intros Hn. pose proof (bits_pos n Hn). unfold u_ctz. rewrite <- (Z.shiftr_0_r a) at 2.
  apply ctz_loop_spec; lia.
Qed.
Lemma popcnt_loop_spec a k j b :
  popcnt_loop k (Z.shiftr a (Z.of_nat j)) b = b + Z.of_nat (length (filter (fun i => Z.testbit a (Z.of_nat i)) (seq j k))).
Proof.
  revert j b; induction k as [|k IH]; intros j b; cbn [popcnt_loop seq filter].
  - cbn [length]. lia.
  - rewrite land_1, Z.shiftr_spec by lia. rewrite Z.add_0_l. rewrite Z.shiftr_shiftr by lia.
    replace (Z.of_nat j + 1) with (Z.of_nat (S j)) by lia. rewrite IH.
    destruct (Z.testbit a (Z.of_nat j)); cbn [Z.eqb negb length]; lia.
Qed.
Lemma u_popcnt_spec n a : 1 <= n -> u_popcnt n a = bitcount (bits n) a.
Proof.
  intros Hn. unfold u_popcnt, bitcount. rewrite <- (Z.shiftr_0_r a) at 1. change 0 with (Z.of_nat 0) at 1.
  rewrite popcnt_loop_spec. lia.
Qed.

(* ---- saturation ---- *)
Lemma clamp_closest lo hi z : lo <= hi -> closest (fun r => lo <= r <= hi) z (Z.max (Z.min z hi) lo).
Proof. intros H. unfold closest. split; [lia|]. intros r' Hr. lia. Qed.
Lemma i_sat_closest n z : 1 <= n -> closest (srange (8 * n)) z (i_sat n z).
Proof.
  intros Hn. pose proof (bits_pos n Hn). assert (0 < 2 ^ (bits n - 1)) by (apply Z.pow_pos_nonneg; lia).
  unfold i_sat. rewrite i_max_eq, i_min_eq by exact Hn.
  destruct (clamp_closest (- 2 ^ (bits n - 1)) (2 ^ (bits n - 1) - 1) z ltac:(lia)) as [H1 H2].
  unfold closest, srange. replace (8 * n) with (bits n) by (unfold bits; lia). split; [lia|].
  intros r' Hr. apply H2. lia.
Qed.
Lemma u_sat_closest n z : 1 <= n -> closest (urange (8 * n)) z (u_sat n z).
Proof.
  intros Hn. pose proof (bits_pos n Hn). assert (0 < 2 ^ bits n) by (apply Z.pow_pos_nonneg; lia).
  unfold u_sat, u_max, u_min. rewrite mask_eq by exact Hn.
  destruct (clamp_closest 0 (2 ^ bits n - 1) z ltac:(lia)) as [H1 H2].
  unfold closest, urange. replace (8 * n) with (bits n) by (unfold bits; lia). split; [lia|].
  intros r' Hr. apply H2. lia.
Qed.

(* ---- bytes ---- *)
Lemma le_of_s_to_le n z : 1 <= n -> srange (8 * n) z -> le_of_s (to_le (Z.to_nat n) z) = z.
Proof.
  intros Hn Hz. unfold le_of_s. destruct (to_le (Z.to_nat n) z) as [|x l] eqn:E.
  { apply (f_equal (@length Z)) in E. rewrite to_le_length in E. cbn in E. lia. }
  rewrite <- E. rewrite len_to_le, le_of_to_le. rewrite Z2Nat.id by lia.
  apply signed_of_unique; [lia|exact Hz|reflexivity].
Qed.
Lemma le_of_s_range b : bytes b -> b <> [] -> srange (8 * len b) (le_of_s b).
Proof.
  intros Hb Hne. destruct b as [|x b]; [congruence|]. unfold le_of_s.
  apply signed_of_range; [rewrite len_cons; pose proof (len_nonneg b); lia|]. apply le_of_bound, Hb.
Qed.
Lemma le_of_s_mod b : bytes b -> le_of_s b mod 2 ^ (8 * len b) = le_of b.
Proof.
  intros Hb. destruct b as [|x b]; [reflexivity|]. unfold le_of_s.
  rewrite signed_of_mod by (pose proof (len_nonneg (x :: b)); lia). apply Z.mod_small, le_of_bound, Hb.
Qed.
Lemma to_le_le_of_s b : bytes b -> to_le (length b) (le_of_s b) = b.
Proof.
  intros Hb. rewrite <- (to_le_le_of b Hb) at 3. apply to_le_inj_mod. fold (len b). rewrite le_of_s_mod by exact Hb.
  symmetry. apply Z.mod_small, le_of_bound, Hb.
Qed.

(* ---- statements used by PropArith.v ---- *)
Definition bits_of_shift (N : Z) (fill : bool) (a r : Z) (src : Z -> Z) : Prop :=
  forall i, 0 <= i < N ->
    Z.testbit r i = if (0 <=? src i) && (src i <? N) then Z.testbit a (src i) else fill.

Lemma pow_width n k : 1 <= n -> 8 * n = 2 ^ k -> 0 <= k.
Proof. intros Hn E. destruct (Z.leb_spec 0 k) as [|Hk]; [assumption|]. rewrite Z.pow_neg_r in E by exact Hk. lia. Qed.

Lemma i_shl_bits n k a b : 1 <= n -> 8 * n = 2 ^ k ->
  srange (8 * n) (i_shl n a b) /\ forall i, 0 <= i < 8 * n ->
    Z.testbit (i_shl n a b) i = if i <? b mod (8 * n) then false else Z.testbit a (i - b mod (8 * n)).
Proof.
  intros Hn E. pose proof (pow_width n k Hn E) as Hk. unfold i_shl. split; [apply i_fit_range, Hn|]. intros i Hi.
  rewrite (land_count n b k) by (unfold bits; lia). unfold bits. rewrite (Z.mul_comm n 8).
  set (c := b mod (8 * n)). assert (Hc : 0 <= c < 8 * n) by (apply Z.mod_pos_bound; lia).
  rewrite i_fit_eq by exact Hn. unfold bits. rewrite (Z.mul_comm n 8).
  rewrite signed_of_bits by lia. rewrite Z.shiftl_spec by lia.
  destruct (Z.ltb_spec i c); [apply Z.testbit_neg_r; lia|reflexivity].
Qed.
Lemma u_shl_bits n k a b : 1 <= n -> 8 * n = 2 ^ k ->
  urange (8 * n) (u_shl n a b) /\ forall i, 0 <= i < 8 * n ->
    Z.testbit (u_shl n a b) i = if i <? b mod (8 * n) then false else Z.testbit a (i - b mod (8 * n)).
Proof.
  intros Hn E. pose proof (pow_width n k Hn E) as Hk. unfold u_shl. split; [apply u_fit_range, Hn|]. intros i Hi.
  rewrite (land_count n b k) by (unfold bits; lia). unfold bits. rewrite (Z.mul_comm n 8).
  set (c := b mod (8 * n)). assert (Hc : 0 <= c < 8 * n) by (apply Z.mod_pos_bound; lia).
  rewrite u_fit_eq by exact Hn. unfold bits. rewrite (Z.mul_comm n 8).
  rewrite Z.mod_pow2_bits_low by lia. rewrite Z.shiftl_spec by lia.
  destruct (Z.ltb_spec i c); [apply Z.testbit_neg_r; lia|reflexivity].
Qed.
Lemma i_shr_bits n k a b : 1 <= n -> 8 * n = 2 ^ k -> srange (8 * n) a ->
  srange (8 * n) (i_shr n a b) /\ forall i, 0 <= i < 8 * n ->
    Z.testbit (i_shr n a b) i =
      if i + b mod (8 * n) <? 8 * n then Z.testbit a (i + b mod (8 * n)) else (a <? 0).
Proof.
  intros Hn E Ha. pose proof (pow_width n k Hn E) as Hk. unfold i_shr. split; [apply i_fit_range, Hn|]. intros i Hi.
  rewrite (land_count n b k) by (unfold bits; lia). unfold bits. rewrite (Z.mul_comm n 8).
  set (c := b mod (8 * n)). assert (Hc : 0 <= c < 8 * n) by (apply Z.mod_pos_bound; lia).
  rewrite i_fit_eq by exact Hn. unfold bits. rewrite (Z.mul_comm n 8).
  rewrite signed_of_bits by lia. rewrite Z.shiftr_spec by lia.
  destruct (Z.ltb_spec (i + c) (8 * n)); [reflexivity|]. apply (testbit_sign (8 * n)); [lia|exact Ha|lia].
Qed.
Lemma u_shr_bits n k a b : 1 <= n -> 8 * n = 2 ^ k -> urange (8 * n) a ->
  urange (8 * n) (u_shr n a b) /\ forall i, 0 <= i < 8 * n ->
    Z.testbit (u_shr n a b) i =
      if i + b mod (8 * n) <? 8 * n then Z.testbit a (i + b mod (8 * n)) else false.
Proof.
  intros Hn E Ha. pose proof (pow_width n k Hn E) as Hk. unfold u_shr. split; [apply u_fit_range, Hn|]. intros i Hi.
  rewrite (land_count n b k) by (unfold bits; lia). unfold bits. rewrite (Z.mul_comm n 8).
  set (c := b mod (8 * n)). assert (Hc : 0 <= c < 8 * n) by (apply Z.mod_pos_bound; lia).
  rewrite u_fit_eq by exact Hn. unfold bits. rewrite (Z.mul_comm n 8).
  rewrite Z.mod_pow2_bits_low by lia. rewrite Z.shiftr_spec by lia.
  destruct (Z.ltb_spec (i + c) (8 * n)); [reflexivity|]. apply (testbit_above (8 * n)); [lia|exact Ha|lia].
Qed.
Lemma rot_bits n a b : 1 <= n -> urange (8 * n) a ->
  (urange (8 * n) (u_rotl n a b) /\ forall i, 0 <= i < 8 * n ->
     Z.testbit (u_rotl n a b) ((i + b) mod (8 * n)) = Z.testbit a i) /\
  (urange (8 * n) (u_rotr n a b) /\ forall i, 0 <= i < 8 * n ->
     Z.testbit (u_rotr n a b) ((i - b) mod (8 * n)) = Z.testbit a i).
Proof.
  intros Hn Ha. assert (E : 8 * n = bits n) by (unfold bits; lia). rewrite E in *. pose proof (bits_pos n Hn) as Hb.
  split; (split; [apply u_rotl_range || apply u_rotr_range; assumption|]); intros i Hi.
  - rewrite u_rotl_bits by (try apply Z.mod_pos_bound; assumption || lia).
    rewrite <- Zminus_mod. f_equal. replace (i + b - b) with i by lia. apply Z.mod_small. exact Hi.
  - rewrite u_rotr_bits by (try apply Z.mod_pos_bound; assumption || lia).
    rewrite <- Z.add_mod by lia. f_equal. replace (i - b + b) with i by lia. apply Z.mod_small. exact Hi.
Qed.

Lemma div_rem_spec n a b : 1 <= n -> b <> 0 -> ~ (a = - 2 ^ (8 * n - 1) /\ b = -1) ->
  exists q r, i_div n a b = Ok q /\ i_rem n a b = Ok r /\
    a = q * b + r /\ Z.abs r < Z.abs b /\ (r = 0 \/ (r < 0 <-> a < 0)) /\ q = Z.quot a b /\ r = Z.rem a b.
Proof.
  intros Hn Hb Hm. exists (Z.quot a b), (Z.rem a b). rewrite i_div_eq, i_rem_eq by assumption. repeat split.
  - pose proof (Z.quot_rem' a b). lia.
  - apply Z.rem_bound_abs, Hb.
  - destruct (Z.eq_dec (Z.rem a b) 0) as [|Hr]; [left; assumption|right].
    pose proof (Z.rem_sign_mul a b Hb) as Hs. pose proof (Z.quot_rem' a b). assert (a <> 0) by (intros ->; rewrite Z.rem_0_l in Hr by exact Hb; lia). nia.
Qed.

Lemma into_bytes_spec_s n z : 1 <= n ->
  (srange (8 * n) z -> exists b, i_into_bytearray n z = Ok b /\ len b = n /\ bytes b /\
     (forall i, 0 <= i < n -> py_index b i = Ok ((z / 256 ^ i) mod 256)) /\ i_from_bytearray n b = Ok z) /\
  (~ srange (8 * n) z -> exists e, i_into_bytearray n z = Err e).
Proof.
  intros Hn. unfold i_into_bytearray, to_bytes_s. split; intros Hz.
  - unfold srange in Hz. replace ((- 2 ^ (8 * n - 1) <=? z) && (z <? 2 ^ (8 * n - 1))) with true by lia.
    eexists. split; [reflexivity|]. rewrite len_to_le. split; [lia|]. split; [apply to_le_bytes|]. split.
    + intros i Hi. rewrite (py_index_in _ i 0) by (rewrite len_to_le; lia). f_equal.
      assert (Hgen : forall m k y, (k < m)%nat -> nth k (to_le m y) 0 = (y / 256 ^ Z.of_nat k) mod 256).
      { clear. intros m k; revert m; induction k as [|k IH]; intros m y H; destruct m as [|m]; try lia;
        rewrite to_le_S; cbn [nth].
        - change (256 ^ Z.of_nat 0) with 1. rewrite Z.div_1_r. reflexivity.
        - rewrite IH by lia. rewrite Z.div_div by (try apply Z.pow_pos_nonneg; lia).
          rewrite Nat2Z.inj_succ, Z.pow_succ_r by lia. reflexivity. }
      rewrite Hgen by lia. rewrite Z2Nat.id by lia. reflexivity.
    + unfold i_from_bytearray. rewrite len_to_le. replace (Z.of_nat (Z.to_nat n) =? n) with true by lia.
      cbn [py_assert rbind]. rewrite le_of_s_to_le by assumption. reflexivity.
  - unfold srange in Hz. destruct ((- 2 ^ (8 * n - 1) <=? z) && (z <? 2 ^ (8 * n - 1))) eqn:E; [lia|].
    eexists. reflexivity.
Qed.
Lemma into_bytes_spec_u n z : 1 <= n ->
  (urange (8 * n) z -> exists b, u_into_bytearray n z = Ok b /\ len b = n /\ bytes b /\
     (forall i, 0 <= i < n -> py_index b i = Ok ((z / 256 ^ i) mod 256)) /\ u_from_bytearray n b = Ok z) /\
  (~ urange (8 * n) z -> exists e, u_into_bytearray n z = Err e).
Proof.
  intros Hn. unfold u_into_bytearray, to_bytes_u. split; intros Hz.
  - unfold urange in Hz. replace ((0 <=? z) && (z <? 2 ^ (8 * n))) with true by lia.
    eexists. split; [reflexivity|]. rewrite len_to_le. split; [lia|]. split; [apply to_le_bytes|]. split.
    + intros i Hi. rewrite (py_index_in _ i 0) by (rewrite len_to_le; lia). f_equal.
      assert (Hgen : forall m k y, (k < m)%nat -> nth k (to_le m y) 0 = (y / 256 ^ Z.of_nat k) mod 256).
      { clear. intros m k; revert m; induction k as [|k IH]; intros m y H; destruct m as [|m]; try lia;
        rewrite to_le_S; cbn [nth].
        - change (256 ^ Z.of_nat 0) with 1. rewrite Z.div_1_r. reflexivity.
        - rewrite IH by lia. rewrite Z.div_div by (try apply Z.pow_pos_nonneg; lia).
          rewrite Nat2Z.inj_succ, Z.pow_succ_r by lia. reflexivity. }
      rewrite Hgen by lia. rewrite Z2Nat.id by lia. reflexivity.
    + unfold u_from_bytearray. rewrite len_to_le. replace (Z.of_nat (Z.to_nat n) =? n) with true by lia.
      cbn [py_assert rbind]. rewrite le_of_to_le. rewrite Z.mod_small; [reflexivity|]. rewrite Z2Nat.id by lia. exact Hz.
  - unfold urange in Hz. destruct ((0 <=? z) && (z <? 2 ^ (8 * n))) eqn:E; [lia|].
    eexists. reflexivity.
Qed.
Lemma from_bytes_spec n b : 1 <= n -> bytes b ->
  (len b = n -> exists s u, i_from_bytearray n b = Ok s /\ u_from_bytearray n b = Ok u /\
      srange (8 * n) s /\ urange (8 * n) u /\ congr (8 * n) s u /\
      i_into_bytearray n s = Ok b /\ u_into_bytearray n u = Ok b) /\
  (len b <> n -> exists e e', i_from_bytearray n b = Err e /\ u_from_bytearray n b = Err e').
Proof.
  intros Hn Hb. unfold i_from_bytearray, u_from_bytearray. split; intros Hl.
  - rewrite Hl, Z.eqb_refl. cbn [py_assert rbind].
    assert (Hne : b <> []) by (intros ->; change (len (@nil Z)) with 0 in Hl; lia).
    pose proof (le_of_s_range b Hb Hne) as Hs. pose proof (le_of_bound b Hb) as Hu. rewrite Hl in Hs, Hu.
    exists (le_of_s b), (le_of b). repeat split; try reflexivity; try apply Hs; try apply Hu.
    + apply congr_mod; [lia|]. rewrite <- Hl at 1. rewrite le_of_s_mod by exact Hb. symmetry. apply Z.mod_small, Hu.
    + unfold i_into_bytearray, to_bytes_s. unfold srange in Hs.
      replace ((- 2 ^ (8 * n - 1) <=? le_of_s b) && (le_of_s b <? 2 ^ (8 * n - 1))) with true by lia.
      f_equal. unfold len in Hl. replace (Z.to_nat n) with (length b) by lia. apply to_le_le_of_s, Hb.
    + unfold u_into_bytearray, to_bytes_u. 
      replace ((0 <=? le_of b) && (le_of b <? 2 ^ (8 * n))) with true by lia.
      f_equal. unfold len in Hl. replace (Z.to_nat n) with (length b) by lia. apply to_le_le_of, Hb.
  - destruct (Z.eqb_spec (len b) n); [lia|]. eexists; eexists; split; reflexivity.
Qed.
Lemma signed_wrap_all n a b : 1 <= n ->
  wraps_s (8 * n) a (i_fit n a) /\ wraps_s (8 * n) (a + b) (i_add n a b) /\
  wraps_s (8 * n) (a - b) (i_sub n a b) /\ wraps_s (8 * n) (a * b) (i_mul n a b).
Proof. intros H. repeat split; try apply i_fit_wraps; assumption. Qed.
Lemma unsigned_wrap_all n a b : 1 <= n ->
  wraps_u (8 * n) a (u_fit n a) /\ wraps_u (8 * n) (a + b) (u_add n a b) /\
  wraps_u (8 * n) (a - b) (u_sub n a b) /\ wraps_u (8 * n) (a * b) (u_mul n a b).
Proof. intros H. repeat split; try apply u_fit_wraps; assumption. Qed.
Lemma div_raises n a : 1 <= n ->
  i_div n a 0 = Err EZeroDiv /\ i_rem n a 0 = Err EZeroDiv /\
  i_div n (- 2 ^ (8 * n - 1)) (-1) = Err EAssert /\ i_rem n (- 2 ^ (8 * n - 1)) (-1) = Ok 0.
Proof.
  intros H. split; [apply i_div_zero, H|]. split; [apply i_rem_zero|]. split; [apply i_div_overflow, H|].
  rewrite i_rem_eq by lia. f_equal. change (-1) with (Z.opp 1). rewrite Z.rem_opp_r by lia. apply Z.rem_1_r.
Qed.
Lemma shl_bits n k a b : 1 <= n -> 8 * n = 2 ^ k ->
  (srange (8 * n) (i_shl n a b) /\ forall i, 0 <= i < 8 * n ->
    Z.testbit (i_shl n a b) i = if i <? b mod (8 * n) then false else Z.testbit a (i - b mod (8 * n))) /\
  (urange (8 * n) (u_shl n a b) /\ forall i, 0 <= i < 8 * n ->
    Z.testbit (u_shl n a b) i = if i <? b mod (8 * n) then false else Z.testbit a (i - b mod (8 * n))).
Proof. intros Hn Hk. split; [apply (i_shl_bits n k)|apply (u_shl_bits n k)]; assumption. Qed.
Lemma bit_counting n a : 1 <= n -> urange (8 * n) a ->
  is_clz (8 * n) a (u_clz n a) /\ is_ctz (8 * n) a (u_ctz n a) /\ u_popcnt n a = bitcount (8 * n) a.
Proof.
  intros H _. replace (8 * n) with (bits n) by (unfold bits; lia).
  split; [apply u_clz_spec, H|]. split; [apply u_ctz_spec, H|apply u_popcnt_spec, H].
Qed.
Lemma saturation_all n a b : 1 <= n ->
  closest (srange (8 * n)) a (i_sat n a) /\
  closest (srange (8 * n)) (a + b) (i_add_sat n a b) /\
  closest (srange (8 * n)) (a - b) (i_sub_sat n a b) /\
  closest (urange (8 * n)) a (u_sat n a) /\
  closest (urange (8 * n)) (a + b) (u_add_sat n a b) /\
  closest (urange (8 * n)) (a - b) (u_sub_sat n a b).
Proof. intros H. repeat apply conj; try (apply i_sat_closest, H); apply u_sat_closest, H. Qed.
