(* The integer value instructions against SpecNum.v. *)
From Coq Require Import ZArith List Bool Lia Znumtheory.
From Verif Require Import Py Arith Floatops Val Opcode Numeric Syntax Store Basic Machine
  SpecInt SpecNum SpecMachine PyFacts ArithFacts ValFacts StepFacts.
Import ListNotations.
Open Scope Z_scope.

Lemma sgn_signed N a : sgn N a = signed_of N a.
Proof. reflexivity. Qed.

(* [x] written as a signed / unsigned N-bit value has the bits of [r] *)
Definition enc_s (N x r : Z) : Prop := srange N x /\ x mod 2 ^ N = r.
Definition enc_u (N x r : Z) : Prop := urange N x /\ x = r.

Lemma enc_i32 x r : enc_s 32 x r -> from_i32 x = Ok (num_val T_i32 r).
Proof. intros [H <-]. apply from_i32_ok, H. Qed.
Lemma enc_i64 x r : enc_s 64 x r -> from_i64 x = Ok (num_val T_i64 r).
Proof. intros [H <-]. apply from_i64_ok, H. Qed.
Lemma enc_u32 x r : enc_u 32 x r -> from_u32 x = Ok (num_val T_i32 r).
Proof. intros [H <-]. apply from_u32_ok, H. Qed.
Lemma enc_u64 x r : enc_u 64 x r -> from_u64 x = Ok (num_val T_i64 r).
Proof. intros [H <-]. apply from_u64_ok, H. Qed.

Lemma fit_enc n z : 1 <= n -> enc_s (8 * n) (i_fit n z) (z mod 2 ^ (8 * n)).
Proof. intros Hn. split; [apply i_fit_range, Hn|apply i_fit_mod, Hn]. Qed.
Lemma ufit_enc n z : 1 <= n -> enc_u (8 * n) (u_fit n z) (z mod 2 ^ (8 * n)).
Proof. intros Hn. split; [apply u_fit_range, Hn|]. rewrite u_fit_eq by exact Hn. unfold bits. f_equal. f_equal. lia. Qed.

Lemma low_range N v : 0 <= N -> urange N (low N v).
Proof. intros HN. apply Z.mod_pos_bound. apply Z.pow_pos_nonneg; lia. Qed.

Lemma sgn_range N a : 0 < N -> urange N a -> srange N (sgn N a).
Proof. intros HN Ha. apply signed_of_range; assumption. Qed.
Lemma sgn_mod N a : 0 < N -> urange N a -> sgn N a mod 2 ^ N = a.
Proof. intros HN Ha. rewrite sgn_signed, signed_of_mod by lia. apply Z.mod_small, Ha. Qed.

Section fam.
Context (n a b : Z) (Hn : 1 <= n) (Ha : urange (8 * n) a) (Hb : urange (8 * n) b).
Let N := 8 * n.

Lemma pow_pos : 0 < 2 ^ N.
Proof. apply Z.pow_pos_nonneg; unfold N; lia. Qed.

Lemma fam_add : enc_s N (i_add n (sgn N a) (sgn N b)) (iadd N a b).
Proof.
  unfold i_add, iadd. pose proof (fit_enc n (sgn N a + sgn N b) Hn) as H. fold N in H.
  rewrite Z.add_mod, !sgn_mod in H by (try assumption; unfold N; lia). exact H.
Qed.
Lemma fam_sub : enc_s N (i_sub n (sgn N a) (sgn N b)) (isub N a b).
Proof.
  unfold i_sub, isub. pose proof (fit_enc n (sgn N a - sgn N b) Hn) as H. fold N in H.
  rewrite Zminus_mod, !sgn_mod in H by (try assumption; unfold N; lia).
  replace (a - b + 2 ^ N) with (a - b + 1 * 2 ^ N) by lia. rewrite Z.mod_add by (pose proof pow_pos; lia). exact H.
Qed.
Lemma fam_mul : enc_s N (i_mul n (sgn N a) (sgn N b)) (imul N a b).
Proof.
  unfold i_mul, imul. pose proof (fit_enc n (sgn N a * sgn N b) Hn) as H. fold N in H.
  rewrite Z.mul_mod, !sgn_mod in H by (try assumption; pose proof pow_pos; unfold N in *; lia). exact H.
Qed.

(* traps or results *)
Definition enc_opt (enc : Z -> Z -> Prop) (x : res Z) (r : option Z) : Prop :=
  match r with Some r => exists y, x = Ok y /\ enc y r | None => exists e, x = Err e end.

Lemma fam_div_u : enc_opt (enc_u N) (u_div n a b) (idiv_u N a b).
Proof.
  unfold u_div, idiv_u, py_floordiv. destruct (Z.eqb_spec b 0) as [->|Hb0]; cbn [enc_opt]; [eexists; reflexivity|].
  eexists; split; [reflexivity|]. split; [|reflexivity]. unfold urange in *.
  split; [apply Z.div_pos; lia|]. apply Z.le_lt_trans with a; [|unfold N; lia].
  apply Z.div_le_upper_bound; [lia|]. nia.
Qed.
Lemma fam_rem_u : enc_opt (enc_u N) (u_rem n a b) (irem_u N a b).
Proof.
  unfold u_rem, irem_u, py_mod. destruct (Z.eqb_spec b 0) as [->|Hb0]; cbn [enc_opt]; [eexists; reflexivity|].
  eexists; split; [reflexivity|]. unfold urange in *. split; [|apply Z.mod_eq, Hb0].
  pose proof (Z.mod_pos_bound a b ltac:(lia)). unfold N, urange. lia.
Qed.

Lemma quot_bound x y : srange N x -> y <> 0 -> Z.quot x y <> 2 ^ (N - 1) -> srange N (Z.quot x y).
Proof.
  intros Hx Hy Hq. assert (HN : 0 < N) by (unfold N; lia). unfold srange in *.
  assert (Z.abs (Z.quot x y) <= Z.abs x).
  { rewrite <- Z.quot_abs by exact Hy. apply Z.quot_le_upper_bound; [lia|]. nia. }
  lia.
Qed.
Lemma quot_max x y : srange N x -> y <> 0 -> Z.quot x y = 2 ^ (N - 1) -> x = - 2 ^ (N - 1) /\ y = -1.
Proof.
  intros Hx Hy Hq. assert (HN : 0 < N) by (unfold N; lia). unfold srange in *.
  assert (Hp : 0 < 2 ^ (N - 1)) by (apply Z.pow_pos_nonneg; lia).
  pose proof (Z.quot_rem' x y) as E. pose proof (Z.rem_bound_abs x y Hy) as R.
  rewrite Hq in E. nia.
Qed.

Lemma fam_div_s : enc_opt (enc_s N) (i_div n (sgn N a) (sgn N b)) (idiv_s N a b).
Proof.
  assert (HN : 0 < N) by (unfold N; lia).
  pose proof (sgn_range N a HN Ha) as Ra. unfold idiv_s.
  destruct (Z.eqb_spec (sgn N b) 0) as [E|Hb0]; cbn [enc_opt].
  { rewrite E. eexists. apply i_div_zero, Hn. }
  destruct (Z.eqb_spec (Z.quot (sgn N a) (sgn N b)) (2 ^ (N - 1))) as [E|Hq]; cbn [enc_opt].
  { destruct (quot_max _ _ Ra Hb0 E) as [-> ->]. eexists. apply i_div_overflow, Hn. }
  eexists. split; [apply i_div_eq; [exact Hn|exact Hb0|]|].
  - intros [E1 E2]. apply Hq. rewrite E1, E2. fold N. change (-1) with (- (1)). rewrite Z.quot_opp_opp by lia. apply Z.quot_1_r.
  - split; [apply quot_bound; assumption|reflexivity].
Qed.
Lemma fam_rem_s : enc_opt (enc_s N) (i_rem n (sgn N a) (sgn N b)) (irem_s N a b).
Proof.
  assert (HN : 0 < N) by (unfold N; lia).
  pose proof (sgn_range N a HN Ha) as Ra. pose proof (sgn_range N b HN Hb) as Rb. unfold irem_s.
  destruct (Z.eqb_spec (sgn N b) 0) as [E|Hb0]; cbn [enc_opt].
  { rewrite E. eexists. apply i_rem_zero. }
  eexists. split; [apply i_rem_eq, Hb0|].
  pose proof (Z.quot_rem' (sgn N a) (sgn N b)) as Q.
  split; [|unfold unsgn; f_equal; lia].
  pose proof (Z.rem_bound_abs (sgn N a) (sgn N b) Hb0) as R. unfold srange in *. lia.
Qed.

(* bitwise operators: on the low N bits signed and unsigned operands agree *)
Lemma sgn_bits x i : urange N x -> 0 <= i < N -> Z.testbit (sgn N x) i = Z.testbit x i.
Proof.
  intros Hx Hi. rewrite sgn_signed, <- (Z.mod_small x (2 ^ N) Hx) at 1. apply signed_of_bits; lia.
Qed.
Lemma srange_bits z : (forall i, N - 1 <= i -> Z.testbit z i = Z.testbit z (N - 1)) -> srange N z.
Proof.
  intros H. assert (HN : 0 < N) by (unfold N; lia).
  assert (E : signed_of N (z mod 2 ^ N) = z).
  { apply Z.bits_inj'. intros i Hi. destruct (Z.ltb_spec i N) as [L|G].
    - apply signed_of_bits; lia.
    - rewrite (testbit_sign N _ i), (H i) by (try apply srange_of_signed; lia).
      rewrite <- (signed_of_bits N z (N - 1)) by lia.
      rewrite (testbit_sign N _ (N - 1)) by (try apply srange_of_signed; lia). reflexivity. }
  rewrite <- E. apply srange_of_signed, HN.
Qed.
Lemma fam_bitwise (f : Z -> Z -> Z) (g : bool -> bool -> bool) :
  (forall x y i, Z.testbit (f x y) i = g (Z.testbit x i) (Z.testbit y i)) ->
  g false false = false -> enc_s N (f (sgn N a) (sgn N b)) (f a b).
Proof.
  intros Hf Hg. assert (HN : 0 < N) by (unfold N; lia).
  pose proof (sgn_range N a HN Ha) as Ra. pose proof (sgn_range N b HN Hb) as Rb. split.
  - apply srange_bits. intros i Hi. rewrite !Hf.
    rewrite (testbit_sign N (sgn N a) i), (testbit_sign N (sgn N b) i),
      (testbit_sign N (sgn N a) (N - 1)), (testbit_sign N (sgn N b) (N - 1)) by (assumption || lia). reflexivity.
  - apply Z.bits_inj'. intros i Hi. destruct (Z.ltb_spec i N) as [L|G].
    + rewrite Z.mod_pow2_bits_low, !Hf, !sgn_bits by (assumption || lia). reflexivity.
    + rewrite Z.mod_pow2_bits_high, Hf, (testbit_above N a i), (testbit_above N b i) by (assumption || lia).
      symmetry; exact Hg.
Qed.
Lemma fam_and : enc_s N (Z.land (sgn N a) (sgn N b)) (iand N a b).
Proof. apply (fam_bitwise Z.land andb); [intros; apply Z.land_spec|reflexivity]. Qed.
Lemma fam_or : enc_s N (Z.lor (sgn N a) (sgn N b)) (ior N a b).
Proof. apply (fam_bitwise Z.lor orb); [intros; apply Z.lor_spec|reflexivity]. Qed.
Lemma fam_xor : enc_s N (Z.lxor (sgn N a) (sgn N b)) (ixor N a b).
Proof. apply (fam_bitwise Z.lxor xorb); [intros; apply Z.lxor_spec|reflexivity]. Qed.

(* shifts and rotations *)
Context (k : Z) (Hk : 8 * n = 2 ^ k).

Lemma sgn_count : sgn N b mod N = b mod N.
Proof.
  pose proof (pow_width n k Hn Hk) as K. assert (HN : 0 < N) by (unfold N; lia).
  assert (D : (N | 2 ^ N)).
  { unfold N at 1. rewrite Hk. exists (2 ^ (N - k)). rewrite <- Z.pow_add_r; [f_equal; lia| |lia].
    assert (k < 2 ^ k) by (apply Z.pow_gt_lin_r; lia). unfold N. lia. }
  rewrite <- (sgn_mod N b HN Hb) at 2. apply Zmod_div_mod; [exact HN|apply pow_pos|exact D].
Qed.
Lemma count_land x : Z.land x (bits n - 1) = x mod N.
Proof. rewrite (land_count n x k) by (try apply (pow_width n k); unfold bits; lia). unfold bits, N. f_equal. lia. Qed.

Lemma fam_shl : enc_s N (i_shl n (sgn N a) (sgn N b)) (ishl N a b).
Proof.
  assert (HN : 0 < N) by (unfold N; lia). pose proof (Z.mod_pos_bound b N HN) as C.
  unfold i_shl, ishl. rewrite count_land, sgn_count, Z.shiftl_mul_pow2 by lia.
  pose proof (fit_enc n (sgn N a * 2 ^ (b mod N)) Hn) as H. fold N in H.
  rewrite <- Z.mul_mod_idemp_l, sgn_mod in H by (try assumption; pose proof pow_pos; lia). exact H.
Qed.
Lemma fam_shl_u : enc_u N (u_shl n a b) (ishl N a b).
Proof.
  assert (HN : 0 < N) by (unfold N; lia). pose proof (Z.mod_pos_bound b N HN) as C.
  unfold u_shl, ishl. rewrite count_land, Z.shiftl_mul_pow2 by lia. exact (ufit_enc n (a * 2 ^ (b mod N)) Hn).
Qed.
Lemma shiftr_srange x c : srange N x -> 0 <= c -> srange N (x / 2 ^ c).
Proof.
  intros Hx Hc. assert (HN : 0 < N) by (unfold N; lia). assert (0 < 2 ^ c) by (apply Z.pow_pos_nonneg; lia).
  unfold srange in *. assert (Hp : 0 < 2 ^ (N - 1)) by (apply Z.pow_pos_nonneg; lia). split.
  - apply Z.div_le_lower_bound; [lia|]. nia.
  - apply Z.div_lt_upper_bound; [lia|]. nia.
Qed.
Lemma fam_shr_s : enc_s N (i_shr n (sgn N a) (sgn N b)) (ishr_s N a b).
Proof.
  assert (HN : 0 < N) by (unfold N; lia). pose proof (Z.mod_pos_bound b N HN) as C.
  unfold i_shr, ishr_s. rewrite count_land, sgn_count, Z.shiftr_div_pow2 by lia.
  exact (fit_enc n (sgn N a / 2 ^ (b mod N)) Hn).
Qed.
Lemma fam_shr_u : enc_u N (u_shr n a b) (ishr_u N a b).
Proof.
  assert (HN : 0 < N) by (unfold N; lia). pose proof (Z.mod_pos_bound b N HN) as C.
  unfold u_shr, ishr_u. rewrite count_land, Z.shiftr_div_pow2 by lia.
  assert (R : urange N (a / 2 ^ (b mod N))).
  { assert (0 < 2 ^ (b mod N)) by (apply Z.pow_pos_nonneg; lia). unfold urange in *. fold N in Ha.
    split; [apply Z.div_pos; lia|]. apply Z.le_lt_trans with a; [|lia]. apply Z.div_le_upper_bound; [lia|]. nia. }
  rewrite u_fit_small by (assumption || exact Hn). split; [exact R|reflexivity].
Qed.

Lemma lor_add x y c : 0 <= c -> x mod 2 ^ c = 0 -> 0 <= y < 2 ^ c -> Z.lor x y = x + y.
Proof.
  intros Hc Hx Hy. symmetry. rewrite Z.add_nocarry_lxor, Z.lxor_lor.
  all: try reflexivity.
  all: apply Z.bits_inj'; intros i Hi; rewrite Z.land_spec, Z.bits_0; destruct (Z.ltb_spec i c).
  1, 3: rewrite <- (Z.mod_pow2_bits_low x c) by lia; rewrite Hx, Z.bits_0; reflexivity.
  all: rewrite (testbit_above c y) by lia; apply andb_false_r.
Qed.

Lemma fam_rotl : enc_u N (u_rotl n a b) (irotl N a b).
Proof.
  assert (HN : 0 < N) by (unfold N; lia). pose proof (Z.mod_pos_bound b N HN) as C.
  split; [unfold N; rewrite (Z.mul_comm 8 n); apply u_rotl_range; [exact Hn|unfold bits; rewrite Z.mul_comm; exact Ha]|].
  unfold u_rotl, irotl. replace (bits n) with N by (unfold bits, N; lia). cbv zeta.
  set (c := b mod N) in *. rewrite mask_eq by exact Hn. replace (bits n) with N by (unfold bits, N; lia).
  rewrite land_ones_pow by lia. rewrite Z.shiftl_mul_pow2, Z.shiftr_div_pow2 by lia.
  assert (P : 2 ^ N = 2 ^ (N - c) * 2 ^ c) by (rewrite <- Z.pow_add_r by lia; f_equal; lia).
  assert (P1 : 0 < 2 ^ c) by (apply Z.pow_pos_nonneg; lia).
  assert (P2 : 0 < 2 ^ (N - c)) by (apply Z.pow_pos_nonneg; lia).
  apply (lor_add _ _ c); [lia| |].
  - rewrite P. rewrite Z.mul_mod_distr_r by lia. apply Z.mod_mul. lia.
  - unfold urange in Ha. fold N in Ha. split; [apply Z.div_pos; lia|apply Z.div_lt_upper_bound; lia].
Qed.
Lemma fam_rotr : enc_u N (u_rotr n a b) (irotr N a b).
Proof.
  assert (HN : 0 < N) by (unfold N; lia). pose proof (Z.mod_pos_bound b N HN) as C.
  split; [unfold N; rewrite (Z.mul_comm 8 n); apply u_rotr_range; [exact Hn|unfold bits; rewrite Z.mul_comm; exact Ha]|].
  unfold u_rotr, irotr. replace (bits n) with N by (unfold bits, N; lia). cbv zeta.
  set (c := b mod N) in *. rewrite mask_eq by exact Hn. replace (bits n) with N by (unfold bits, N; lia).
  rewrite land_ones_pow by lia. rewrite Z.shiftl_mul_pow2, Z.shiftr_div_pow2 by lia.
  assert (P : 2 ^ N = 2 ^ c * 2 ^ (N - c)) by (rewrite <- Z.pow_add_r by lia; f_equal; lia).
  assert (P1 : 0 < 2 ^ c) by (apply Z.pow_pos_nonneg; lia).
  assert (P2 : 0 < 2 ^ (N - c)) by (apply Z.pow_pos_nonneg; lia).
  rewrite P at 1. rewrite Z.mul_mod_distr_r by lia. rewrite Z.lor_comm, Z.add_comm.
  apply (lor_add _ _ (N - c)); [lia| |].
  - apply Z.mod_mul. lia.
  - unfold urange in Ha. fold N in Ha. split; [apply Z.div_pos; lia|apply Z.div_lt_upper_bound; lia].
Qed.
End fam.

(* bit counting *)
Lemma zero_run_ge l : 0 <= zero_run l <= Z.of_nat (length l).
Proof. induction l as [|[] l IH]; cbn [zero_run length]; lia. Qed.
Lemma zero_run_spec l r : 0 <= r <= Z.of_nat (length l) ->
  (forall i, 0 <= i < r -> nth (Z.to_nat i) l true = false) ->
  (r < Z.of_nat (length l) -> nth (Z.to_nat r) l false = true) -> zero_run l = r.
Proof.
  revert r. induction l as [|x l IH]; intros r Hr H0 H1; cbn [length] in *.
  - cbn. lia.
  - destruct (Z.eqb_spec r 0) as [->|Hr0].
    + assert (x = true) by (apply H1; lia). subst. reflexivity.
    + assert (E : x = false) by (apply (H0 0); lia). rewrite E. cbn [zero_run].
      assert (zero_run l = r - 1); [|lia]. apply IH; [lia| |].
      * intros i Hi. specialize (H0 (i + 1) ltac:(lia)). replace (Z.to_nat (i + 1)) with (S (Z.to_nat i)) in H0 by lia.
        exact H0.
      * intros L. specialize (H1 ltac:(lia)). replace (Z.to_nat r) with (S (Z.to_nat (r - 1))) in H1 by lia. exact H1.
Qed.
Lemma ibits_length N a : length (ibits N a) = Z.to_nat N.
Proof. unfold ibits. rewrite map_length, seq_length. reflexivity. Qed.
Lemma ibits_nth N a i d : (i < Z.to_nat N)%nat -> nth i (ibits N a) d = Z.testbit a (Z.of_nat i).
Proof.
  intros Hi. unfold ibits. rewrite (nth_indep _ d (Z.testbit a (Z.of_nat 0))) by (rewrite map_length, seq_length; exact Hi).
  rewrite (map_nth (fun k => Z.testbit a (Z.of_nat k))), seq_nth by exact Hi. reflexivity.
Qed.
Lemma ictz_spec N a r : 0 <= N -> is_ctz N a r -> r = ictz N a.
Proof.
  intros HN (Hr & H0 & H1). symmetry. apply zero_run_spec; rewrite ?ibits_length; [lia| |].
  - intros i Hi. rewrite ibits_nth by lia. rewrite Z2Nat.id by lia. apply H0, Hi.
  - intros L. rewrite ibits_nth by lia. rewrite Z2Nat.id by lia. apply H1. lia.
Qed.
Lemma iclz_spec N a r : 0 <= N -> is_clz N a r -> r = iclz N a.
Proof.
  intros HN (Hr & H0 & H1). symmetry. apply zero_run_spec; rewrite ?rev_length, ?ibits_length; [lia| |].
  - intros i Hi. rewrite rev_nth by (rewrite ibits_length; lia). rewrite ibits_length, ibits_nth by lia. apply H0. lia.
  - intros L. rewrite rev_nth by (rewrite ibits_length; lia). rewrite ibits_length, ibits_nth by lia.
    rewrite <- (H1 ltac:(lia)). f_equal. lia.
Qed.
Lemma filter_map_length {A} (f : A -> bool) l : length (filter (fun b => b) (map f l)) = length (filter f l).
Proof. induction l as [|x l IH]; [reflexivity|]. cbn [map filter]. destruct (f x); cbn [length]; rewrite IH; reflexivity. Qed.
Lemma ipopcnt_spec N a : bitcount N a = ipopcnt N a.
Proof. unfold bitcount, ipopcnt, ibits. rewrite filter_map_length. reflexivity. Qed.
Lemma filter_le {A} (f : A -> bool) l : (length (filter f l) <= length l)%nat.
Proof. induction l as [|x l IH]; [auto|]. cbn [filter]. destruct (f x); cbn [length]; lia. Qed.
Lemma bitcount_bound N a : 0 <= N -> 0 <= bitcount N a <= N.
Proof. intros HN. unfold bitcount. pose proof (filter_le (fun i => Z.testbit a (Z.of_nat i)) (seq 0 (Z.to_nat N))) as H. rewrite seq_length in H. lia. Qed.

Lemma small_enc N x : 0 < N -> 0 <= x < 2 ^ (N - 1) -> enc_s N x x.
Proof.
  intros HN Hx. assert (2 ^ N = 2 * 2 ^ (N - 1)) by (apply pow_half; lia).
  split; [unfold srange; lia|apply Z.mod_small; lia].
Qed.
Lemma count_small n : 4 <= n -> 8 * n < 2 ^ (8 * n - 1).
Proof.
  intros Hn. replace (8 * n) with (8 + (8 * n - 8)) at 1 by lia.
  assert (8 * n - 1 < 2 ^ (8 * n - 1)) by (apply Z.pow_gt_lin_r; lia).
  replace (8 * n - 1) with (Z.succ (8 * n - 2)) in * by lia. rewrite Z.pow_succ_r in * by lia.
  assert (8 * n - 2 < 2 ^ (8 * n - 2)) by (apply Z.pow_gt_lin_r; lia). lia.
Qed.
Lemma fam_clz n a : 4 <= n -> enc_s (8 * n) (u_clz n a) (iclz (8 * n) a).
Proof.
  intros Hn. pose proof (u_clz_spec n a ltac:(lia)) as H. replace (bits n) with (8 * n) in H by (unfold bits; lia).
  rewrite <- (iclz_spec (8 * n) a _ ltac:(lia) H). pose proof (count_small n Hn). destruct H as (Hr & _).
  apply small_enc; lia.
Qed.
Lemma fam_ctz n a : 4 <= n -> enc_s (8 * n) (u_ctz n a) (ictz (8 * n) a).
Proof.
  intros Hn. pose proof (u_ctz_spec n a ltac:(lia)) as H. replace (bits n) with (8 * n) in H by (unfold bits; lia).
  rewrite <- (ictz_spec (8 * n) a _ ltac:(lia) H). pose proof (count_small n Hn). destruct H as (Hr & _).
  apply small_enc; lia.
Qed.
Lemma fam_popcnt n a : 4 <= n -> enc_s (8 * n) (u_popcnt n a) (ipopcnt (8 * n) a).
Proof.
  intros Hn. rewrite u_popcnt_spec by lia. replace (bits n) with (8 * n) by (unfold bits; lia).
  rewrite <- ipopcnt_spec. pose proof (bitcount_bound (8 * n) a ltac:(lia)). pose proof (count_small n Hn).
  apply small_enc; lia.
Qed.

(* sign extension *)
Lemma srange_weaken M N z : 0 < M <= N -> srange M z -> srange N z.
Proof. intros H Hz. unfold srange in *. assert (2 ^ (M - 1) <= 2 ^ (N - 1)) by (apply Z.pow_le_mono_r; lia). lia. Qed.
Lemma fam_extend m n a : 1 <= m <= n -> urange (8 * n) a ->
  enc_s (8 * n) (i_fit m (sgn (8 * n) a)) (iextend_s (8 * m) (8 * n) a).
Proof.
  intros Hmn Ha. split; [apply (srange_weaken (8 * m)); [lia|apply i_fit_range; lia]|].
  unfold iextend_s, unsgn. f_equal. rewrite i_fit_eq by lia. unfold bits. rewrite (Z.mul_comm m 8).
  change (sgn (8 * m) (a mod 2 ^ (8 * m))) with (signed_of (8 * m) (a mod 2 ^ (8 * m))). f_equal.
  transitivity ((signed_of (8 * n) a mod 2 ^ (8 * n)) mod 2 ^ (8 * m)); [|rewrite <- sgn_signed, sgn_mod by (assumption || lia); reflexivity].
  apply Zmod_div_mod; try (apply Z.pow_pos_nonneg; lia).
  exists (2 ^ (8 * n - 8 * m)). rewrite <- Z.pow_add_r by lia. f_equal. lia.
Qed.

Lemma b2z_enc N b : 1 < N -> enc_s N (b2z b) (truth b).
Proof.
  intros HN. unfold b2z, truth. assert (2 ^ 1 <= 2 ^ (N - 1)) by (apply Z.pow_le_mono_r; lia).
  destruct b; apply small_enc; lia.
Qed.
Lemma truth_val b : from_i32 (b2z b) = Ok (num_val T_i32 (truth b)).
Proof. apply enc_i32, b2z_enc. lia. Qed.

Lemma low_uval N v : low N v = uval v mod 2 ^ N.
Proof. reflexivity. Qed.

Ltac rd :=
  intros; cbn [op1 op2 op3 rbind];
  rewrite ?into_i32_ok, ?into_i64_ok, ?into_u32_ok, ?into_u64_ok by assumption; cbn [rbind];
  rewrite <- ?low_uval, <- ?sgn_signed.

Lemma opt_s (N : Z) t (wr : Z -> res val) x r :
  (forall x r, enc_s N x r -> wr x = Ok (num_val t r)) -> enc_opt (enc_s N) x r ->
  match r with Some r => (let? y := x in wr y) = Ok (num_val t r) | None => exists e, (let? y := x in wr y) = Err e end.
Proof. intros Hw H. destruct r as [r|]; cbn in H; [destruct H as (y & -> & H); apply Hw, H|destruct H as (e & ->); eexists; reflexivity]. Qed.
Lemma opt_u (N : Z) t (wr : Z -> res val) x r :
  (forall x r, enc_u N x r -> wr x = Ok (num_val t r)) -> enc_opt (enc_u N) x r ->
  match r with Some r => (let? y := x in wr y) = Ok (num_val t r) | None => exists e, (let? y := x in wr y) = Err e end.
Proof. intros Hw H. destruct r as [r|]; cbn in H; [destruct H as (y & -> & H); apply Hw, H|destruct H as (e & ->); eexists; reflexivity]. Qed.

Ltac k32 := (lia || (apply low_range; lia) || exact (eq_refl : 8 * 4 = 2 ^ 5) || exact (eq_refl : 8 * 8 = 2 ^ 6)).

Lemma binop_ok F o N f : wasm_binop o = Some (N, f) -> o <> O_i64_div_u ->
  exists g, num_op F o = Some (N2 g) /\ forall args va vb, val_wf va -> val_wf vb ->
    match f (low N va) (low N vb) with
    | Some r => g args va vb = Ok (num_val (int_type N) r)
    | None => exists e, g args va vb = Err e
    end.
Proof.
  destruct o; cbn [wasm_binop]; intros H; try discriminate H; intros Hd; try (exfalso; apply Hd; reflexivity);
    injection H as <- <-; eexists; (split; [reflexivity|]); rd.
  - apply enc_i32, (fam_add 4); k32.
  - apply enc_i32, (fam_sub 4); k32.
  - apply enc_i32, (fam_mul 4); k32.
  - apply (opt_s 32 T_i32 from_i32); [exact enc_i32|apply (fam_div_s 4); k32].
  - apply (opt_u 32 T_i32 from_u32); [exact enc_u32|apply (fam_div_u 4); k32].
  - apply (opt_s 32 T_i32 from_i32); [exact enc_i32|apply (fam_rem_s 4); k32].
  - apply (opt_u 32 T_i32 from_u32); [exact enc_u32|apply (fam_rem_u 4); k32].
  - apply enc_i32, (fam_and 4); k32.
  - apply enc_i32, (fam_or 4); k32.
  - apply enc_i32, (fam_xor 4); k32.
  - apply enc_i32, (fam_shl 4) with (k := 5); k32.
  - apply enc_i32, (fam_shr_s 4) with (k := 5); k32.
  - apply enc_u32, (fam_shr_u 4) with (k := 5); k32.
  - apply enc_u32, (fam_rotl 4) with (k := 5); k32.
  - apply enc_u32, (fam_rotr 4) with (k := 5); k32.
  - apply enc_i64, (fam_add 8); k32.
  - apply enc_i64, (fam_sub 8); k32.
  - apply enc_i64, (fam_mul 8); k32.
  - apply (opt_s 64 T_i64 from_i64); [exact enc_i64|apply (fam_div_s 8); k32].
  - apply (opt_s 64 T_i64 from_i64); [exact enc_i64|apply (fam_rem_s 8); k32].
  - apply (opt_u 64 T_i64 from_u64); [exact enc_u64|apply (fam_rem_u 8); k32].
  - apply enc_i64, (fam_and 8); k32.
  - apply enc_i64, (fam_or 8); k32.
  - apply enc_i64, (fam_xor 8); k32.
  - apply enc_i64, (fam_shl 8) with (k := 6); k32.
  - apply enc_i64, (fam_shr_s 8) with (k := 6); k32.
  - apply enc_u64, (fam_shr_u 8) with (k := 6); k32.
  - apply enc_u64, (fam_rotl 8) with (k := 6); k32.
  - apply enc_u64, (fam_rotr 8) with (k := 6); k32.
Qed.

Lemma unop_ok F o N f : wasm_unop o = Some (N, f) ->
  exists g, num_op F o = Some (N1 g) /\ forall args va, val_wf va ->
    g args va = Ok (num_val (int_type N) (f (low N va))).
Proof.
  destruct o; cbn [wasm_unop]; intros H; try discriminate H;
    injection H as <- <-; eexists; (split; [reflexivity|]); rd.
  - apply enc_i32, (fam_clz 4); k32.
  - apply enc_i32, (fam_ctz 4); k32.
  - apply enc_i32, (fam_popcnt 4); k32.
  - apply enc_i64, (fam_clz 8); k32.
  - apply enc_i64, (fam_ctz 8); k32.
  - apply enc_i64, (fam_popcnt 8); k32.
  - apply enc_i32, (fam_extend 1 4); k32.
  - apply enc_i32, (fam_extend 2 4); k32.
  - apply enc_i64, (fam_extend 1 8); k32.
  - apply enc_i64, (fam_extend 2 8); k32.
  - apply enc_i64, (fam_extend 4 8); k32.
Qed.

Lemma sgn_inj N a b : 0 < N -> urange N a -> urange N b -> sgn N a = sgn N b -> a = b.
Proof. intros HN Ha Hb E. rewrite <- (sgn_mod N a), <- (sgn_mod N b), E by assumption. reflexivity. Qed.
Lemma sgn_eqb N a b : 0 < N -> urange N a -> urange N b -> (sgn N a =? sgn N b) = (a =? b).
Proof.
  intros HN Ha Hb. destruct (Z.eqb_spec a b) as [->|D]; [apply Z.eqb_refl|].
  apply Z.eqb_neq. intros E. apply D, (sgn_inj N); assumption.
Qed.
Lemma sgn_zero N : 0 < N -> sgn N 0 = 0.
Proof. intros HN. unfold sgn. assert (0 < 2 ^ (N - 1)) by (apply Z.pow_pos_nonneg; lia). destruct (Z.ltb_spec 0 (2 ^ (N - 1))); lia. Qed.
Lemma sgn_eqz N a : 0 < N -> urange N a -> (sgn N a =? 0) = (a =? 0).
Proof.
  intros HN Ha. rewrite <- (sgn_zero N HN) at 1. apply sgn_eqb; try assumption.
  unfold urange. split; [lia|apply Z.pow_pos_nonneg; lia].
Qed.

Lemma relop_ok F o N f : wasm_relop o = Some (N, f) ->
  exists g, num_op F o = Some (N2 g) /\ forall args va vb, val_wf va -> val_wf vb ->
    g args va vb = Ok (num_val T_i32 (truth (f (low N va) (low N vb)))).
Proof.
  destruct o; cbn [wasm_relop]; intros H; try discriminate H;
    injection H as <- <-; eexists; (split; [reflexivity|]); rd;
    rewrite ?sgn_eqb by k32; rewrite ?Z.gtb_ltb, ?Z.geb_leb; apply truth_val.
Qed.
Lemma testop_ok F o N f : wasm_testop o = Some (N, f) ->
  exists g, num_op F o = Some (N1 g) /\ forall args va, val_wf va ->
    g args va = Ok (num_val T_i32 (truth (f (low N va)))).
Proof.
  destruct o; cbn [wasm_testop]; intros H; try discriminate H;
    injection H as <- <-; eexists; (split; [reflexivity|]); rd;
    rewrite ?sgn_eqz by k32; apply truth_val.
Qed.

(* a 32- or 64-bit value whose upper bytes are zero *)
Lemma clean_data N v : val_wf v -> 0 <= N <= 128 -> le_of (v_data v) < 2 ^ N -> v_data v = to_le 16 (low N v).
Proof.
  intros Hv HN Hc. unfold low. rewrite Z.mod_small.
  - symmetry. destruct Hv as [L Hb]. rewrite <- L. apply to_le_le_of, Hb.
  - split; [apply le_of_bound, Hv|exact Hc].
Qed.

Lemma intcvt_ok F o N t f : wasm_intcvt o = Some (N, t, f) ->
  exists g, num_op F o = Some (N1 g) /\ forall args va, val_wf va -> le_of (v_data va) < 2 ^ N ->
    g args va = Ok (num_val t (f (low N va))).
Proof.
  destruct o; cbn [wasm_intcvt]; intros H; try discriminate H;
    injection H as <- <- <-; eexists; (split; [reflexivity|]); rd.
  - apply enc_i32.
    assert (E : sgn 64 (low 64 va) mod 2 ^ 32 = low 64 va mod 2 ^ 32).
    { rewrite <- (sgn_mod 64 (low 64 va)) at 2 by k32. apply Zmod_div_mod; [lia|lia|exists (2 ^ 32); reflexivity]. }
    pose proof (fit_enc 4 (sgn 64 (low 64 va)) ltac:(lia)) as X. change (8 * 4) with 32 in X. rewrite E in X. exact X.
  - apply enc_i64. split; [apply (srange_weaken 32); [lia|apply sgn_range; k32]|reflexivity].
  - apply enc_i64. pose proof (low_range 32 va ltac:(lia)) as R. unfold urange in R. apply small_enc; lia.
  - rewrite (clean_data 32) by (assumption || lia). apply mk_val_ok, to_le_length.
  - rewrite (clean_data 64) by (assumption || lia). apply mk_val_ok, to_le_length.
  - rewrite (clean_data 32) by (assumption || lia). apply mk_val_ok, to_le_length.
  - rewrite (clean_data 64) by (assumption || lia). apply mk_val_ok, to_le_length.
Qed.

(* ---- statements used by PropNum.v ---- *)
Lemma binop_step F host m o args fr N f va vb V :
  about_to_run m (IOp o args) fr -> wasm_binop o = Some (N, f) -> o <> O_i64_div_u ->
  k_value m = vb :: va :: V -> val_wf va -> val_wf vb ->
  match f (low N va) (low N vb) with
  | Some r => step F host m = (Ok tt, moved_on m (num_val (int_type N) r :: V))
  | None => exists e, step F host m = (Err e, moved_on m V)
  end.
Proof.
  intros H Ho Hd Hv Wa Wb. destruct (binop_ok F o N f Ho Hd) as (g & Hg & E).
  specialize (E args va vb Wa Wb). rewrite (step_num2 F host m o args fr g va vb V H Hg Hv).
  destruct (f (low N va) (low N vb)) as [r|]; [rewrite E; reflexivity|destruct E as (e & ->); exists e; reflexivity].
Qed.
Lemma unop_step F host m o args fr N f va V :
  about_to_run m (IOp o args) fr -> wasm_unop o = Some (N, f) -> k_value m = va :: V -> val_wf va ->
  step F host m = (Ok tt, moved_on m (num_val (int_type N) (f (low N va)) :: V)).
Proof.
  intros H Ho Hv Wa. destruct (unop_ok F o N f Ho) as (g & Hg & E).
  rewrite (step_num1 F host m o args fr g va V H Hg Hv), E by exact Wa. reflexivity.
Qed.
Lemma relop_step F host m o args fr N f va vb V :
  about_to_run m (IOp o args) fr -> wasm_relop o = Some (N, f) ->
  k_value m = vb :: va :: V -> val_wf va -> val_wf vb ->
  step F host m = (Ok tt, moved_on m (num_val T_i32 (truth (f (low N va) (low N vb))) :: V)).
Proof.
  intros H Ho Hv Wa Wb. destruct (relop_ok F o N f Ho) as (g & Hg & E).
  rewrite (step_num2 F host m o args fr g va vb V H Hg Hv), E by assumption. reflexivity.
Qed.
Lemma testop_step F host m o args fr N f va V :
  about_to_run m (IOp o args) fr -> wasm_testop o = Some (N, f) -> k_value m = va :: V -> val_wf va ->
  step F host m = (Ok tt, moved_on m (num_val T_i32 (truth (f (low N va))) :: V)).
Proof.
  intros H Ho Hv Wa. destruct (testop_ok F o N f Ho) as (g & Hg & E).
  rewrite (step_num1 F host m o args fr g va V H Hg Hv), E by exact Wa. reflexivity.
Qed.
Lemma intcvt_step F host m o args fr N t f va V :
  about_to_run m (IOp o args) fr -> wasm_intcvt o = Some (N, t, f) -> k_value m = va :: V -> val_wf va ->
  le_of (v_data va) < 2 ^ N ->
  step F host m = (Ok tt, moved_on m (num_val t (f (low N va)) :: V)).
Proof.
  intros H Ho Hv Wa Hc. destruct (intcvt_ok F o N t f Ho) as (g & Hg & E).
  rewrite (step_num1 F host m o args fr g va V H Hg Hv), E by assumption. reflexivity.
Qed.

(* i64.div_u: the quotient goes through from_i64 *)
Lemma div_u64_step F host m args fr va vb V :
  about_to_run m (IOp O_i64_div_u args) fr -> k_value m = vb :: va :: V -> val_wf va -> val_wf vb ->
  step F host m =
    if low 64 vb =? 0 then (Err EZeroDiv, moved_on m V)
    else if low 64 va / low 64 vb <? 2 ^ 63
      then (Ok tt, moved_on m (num_val T_i64 (low 64 va / low 64 vb) :: V))
      else (Err EOverflow, moved_on m V).
Proof.
  intros H Hv Wa Wb.
  rewrite (step_num2 F host m O_i64_div_u args fr _ va vb V H eq_refl Hv). rd.
  unfold u_div, py_floordiv. destruct (Z.eqb_spec (low 64 vb) 0) as [E|Hb0]; [reflexivity|]. cbn [rbind].
  pose proof (low_range 64 va ltac:(lia)) as Ra. pose proof (low_range 64 vb ltac:(lia)) as Rb.
  assert (Hq : 0 <= low 64 va / low 64 vb) by (unfold urange in *; apply Z.div_pos; lia).
  destruct (Z.ltb_spec (low 64 va / low 64 vb) (2 ^ 63)) as [L|G].
  - rewrite (enc_i64 _ (low 64 va / low 64 vb)); [reflexivity|]. apply small_enc; [lia|].
    change (64 - 1) with 63. lia.
  - rewrite from_i64_err; [reflexivity|]. unfold srange. change (64 - 1) with 63. lia.
Qed.
Lemma num_val_wf t z : val_wf (num_val t z).
Proof. apply mkval_wf. Qed.
Lemma div_u64_fails : exists va vb,
  val_wf va /\ val_wf vb /\ low 64 vb <> 0 /\
  forall F host m args fr V,
    about_to_run m (IOp O_i64_div_u args) fr -> k_value m = vb :: va :: V ->
    step F host m = (Err EOverflow, moved_on m V).
Proof.
  exists (num_val T_i64 (2 ^ 63)), (num_val T_i64 1).
  split; [apply num_val_wf|]. split; [apply num_val_wf|]. split; [vm_compute; discriminate|].
  intros F host m args fr V H Hv. rewrite (div_u64_step F host m args fr _ _ V H Hv) by apply num_val_wf. reflexivity.
Qed.
