(* Proofs about Leb128.v. *)
From Coq Require Import ZArith List Bool Lia ZifyBool ZifyNat.
From Verif Require Import Py PyFacts Leb128 SpecLeb.
Import ListNotations.
Open Scope Z_scope.

Lemma land_127 e : Z.land e 0x7f = e mod 128.
Proof. change 0x7f with (2 ^ 7 - 1). rewrite land_ones_pow by lia. reflexivity. Qed.
Lemma shiftr_7 i : Z.shiftr i 7 = i / 128.
Proof. rewrite Z.shiftr_div_pow2 by lia. reflexivity. Qed.
Lemma lor_128 x : 0 <= x < 128 -> Z.lor 0x80 x = 128 + x.
Proof.
  intros H. rewrite <- Z.lxor_lor, <- Z.add_nocarry_lxor; [reflexivity| |];
  (rewrite Z.land_comm; change 0x80 with (2 ^ 7); rewrite land_pow2 by lia;
   rewrite testbit_top by lia; change (2 ^ 7) with 128; destruct (Z.leb_spec 128 x); lia).
Qed.
Lemma land_128 b : byte b -> (Z.land b 0x80 =? 0) = (b <? 128).
Proof.
  unfold byte. intros H. change 0x80 with (2 ^ 7). rewrite land_pow2 by lia. rewrite testbit_top by lia.
  change (2 ^ 7) with 128. destruct (Z.leb_spec 128 b); destruct (Z.ltb_spec b 128); lia.
Qed.
Lemma land_64 b : (Z.land b 0x40 =? 0) = (b mod 128 <? 64).
Proof.
  change 0x40 with (2 ^ 6). rewrite land_pow2 by lia. rewrite testbit_mod_top by lia.
  change (2 ^ (6 + 1)) with 128. change (2 ^ 6) with 64.
  destruct (Z.leb_spec 64 (b mod 128)); destruct (Z.ltb_spec (b mod 128) 64); lia.
Qed.
Lemma lor_neg_pow r k : 0 <= k -> 0 <= r < 2 ^ k -> Z.lor r (- 2 ^ k) = r - 2 ^ k.
Proof.
  intros Hk Hr.
  assert (Hz : Z.land r (- 2 ^ k) = 0).
  { apply Z.bits_inj'. intros j Hj. rewrite Z.land_spec, Z.testbit_0_l.
    destruct (Z.ltb_spec j k) as [Hjk|Hjk].
    - replace (- 2 ^ k) with ((-1) * 2 ^ k) by lia. rewrite Z.mul_pow2_bits_low by lia. apply andb_false_r.
    - destruct (Z.eq_dec r 0) as [->|Hn]; [rewrite Z.testbit_0_l; reflexivity|].
      rewrite (Z.bits_above_log2 r j); [reflexivity|lia|].
      apply Z.lt_le_trans with k; [|exact Hjk]. apply Z.log2_lt_pow2; lia. }
  rewrite <- Z.lxor_lor by exact Hz. rewrite <- Z.add_nocarry_lxor by exact Hz. lia.
Qed.

Lemma decode_loop_spec b i r : 0 <= i -> decode_loop b i r = r + 2 ^ (7 * i) * base128 b.
Proof.
  revert i r; induction b as [|e b IH]; intros i r Hi; cbn [decode_loop base128]; [lia|].
  rewrite IH by lia. rewrite land_127, Z.shiftl_mul_pow2 by lia.
  replace (7 * (i + 1)) with (7 + 7 * i) by lia. rewrite Z.pow_add_r by lia. change (2 ^ 7) with 128.
  replace (i * 7) with (7 * i) by lia. ring.
Qed.
Lemma u_decode_spec b : u_decode b = base128 b.
Proof. unfold u_decode. rewrite decode_loop_spec by lia. change (2 ^ (7 * 0)) with 1. lia. Qed.

Lemma base128_bound b : 0 <= base128 b < 128 ^ Z.of_nat (length b).
Proof.
  induction b as [|e b IH]; cbn [base128 length].
  - change (128 ^ Z.of_nat 0) with 1. lia.
  - rewrite Nat2Z.inj_succ, Z.pow_succ_r by lia. lia.
Qed.
Lemma pow_128 k : 0 <= k -> 2 ^ (7 * k) = 128 ^ k.
Proof. intros H. rewrite Z.pow_mul_r by lia. reflexivity. Qed.

Lemma i_decode_spec b : b <> [] -> i_decode b = Ok (base128_signed b).
Proof.
  intros Hne. destruct b as [|e b]; [congruence|]. unfold i_decode, base128_signed.
  set (l := e :: b). rewrite decode_loop_spec by lia. change (2 ^ (7 * 0)) with 1.
  replace (0 + 1 * base128 l) with (base128 l) by lia.
  rewrite land_64. replace ((len l - 1) * 7 + 7) with (7 * len l) by lia.
  rewrite Z.shiftl_1_l. rewrite pow_128 by apply len_nonneg.
  destruct (Z.leb_spec 64 (last l 0 mod 128)) as [H|H].
  - destruct (Z.ltb_spec (last l 0 mod 128) 64); [lia|]. cbn [negb]. f_equal.
    unfold len. rewrite <- pow_128 by lia. rewrite lor_neg_pow; [reflexivity|lia|].
    rewrite pow_128 by lia. apply base128_bound.
  - destruct (Z.ltb_spec (last l 0 mod 128) 64); [|lia]. reflexivity.
Qed.

(* ---- reader ---- *)
Lemma read_group_group b rest : group b -> read_group (b ++ rest) = Ok (b, rest).
Proof.
  intros (pre & l & -> & Hpre & Hl). induction Hpre as [|x pre Hx Hpre IH]; cbn [app read_group].
  - rewrite land_128 by (unfold byte; lia). destruct (Z.ltb_spec l 128); [reflexivity|lia].
  - rewrite land_128 by (unfold byte; lia). destruct (Z.ltb_spec x 128); [lia|].
    cbn [app] in IH. rewrite IH. reflexivity.
Qed.
Lemma read_group_all r : bytes r ->
  (exists b rest, group b /\ r = b ++ rest /\ read_group r = Ok (b, rest)) \/
  (Forall (fun x => 128 <= x) r /\ read_group r = Err EType).
Proof.
  induction 1 as [|x r Hx Hr IH].
  - right. split; [constructor|reflexivity].
  - cbn [read_group]. rewrite land_128 by exact Hx. unfold byte in Hx.
    destruct (Z.ltb_spec x 128) as [H|H].
    + left. exists [x], r. repeat split. exists [], x. repeat split; [constructor|lia..].
    + destruct IH as [(b & rest & Hb & -> & IH)|[Hall IH]].
      * left. exists (x :: b), rest. rewrite IH. repeat split.
        destruct Hb as (pre & l & -> & Hpre & Hl). exists (x :: pre), l. repeat split; [|lia..].
        constructor; [lia|exact Hpre].
      * right. rewrite IH. split; [constructor; [lia|exact Hall]|reflexivity].
Qed.
Lemma group_nonnil b : group b -> b <> [].
Proof. intros (pre & l & -> & _). destruct pre; discriminate. Qed.
Lemma u_reader_group b rest : group b -> u_decode_reader (b ++ rest) = Ok (base128 b, len b, rest).
Proof.
  intros H. unfold u_decode_reader. rewrite read_group_group by exact H. cbn [rbind].
  rewrite u_decode_spec. reflexivity.
Qed.
Lemma i_reader_group b rest : group b -> i_decode_reader (b ++ rest) = Ok (base128_signed b, len b, rest).
Proof.
  intros H. unfold i_decode_reader. rewrite read_group_group by exact H. cbn [rbind].
  rewrite i_decode_spec by (apply group_nonnil, H). reflexivity.
Qed.

(* ---- encoders ---- *)
Lemma group_cons x b : 128 <= x < 256 -> group b -> group (x :: b).
Proof.
  intros Hx (pre & l & -> & Hpre & Hl). exists (x :: pre), l. repeat split; [|lia..]. constructor; assumption.
Qed.
Lemma group_one l : 0 <= l < 128 -> group [l].
Proof. intros H. exists [], l. repeat split; [constructor|lia..]. Qed.

Lemma log2_div128 i : 128 <= i -> Z.log2 (i / 128) < Z.log2 i.
Proof.
  intros H. change 128 with (2 ^ 7). rewrite <- Z.shiftr_div_pow2 by lia.
  rewrite Z.log2_shiftr by lia.
  assert (0 < Z.log2 i) by (apply Z.log2_pos; lia). lia.
Qed.

(* result of the unsigned encoder: a group with the right value and the shortest length *)
Lemma u_encode_loop_spec fuel i :
  0 <= i -> Z.log2 i < Z.of_nat fuel ->
  exists b, u_encode_loop fuel i = Ok b /\ group b /\ base128 b = i /\
            (forall k, 0 <= k -> i < 128 ^ k -> len b <= Z.max 1 k).
Proof.
  revert i; induction fuel as [|f IH]; intros i Hi Hf.
  { pose proof (Z.log2_nonneg i). lia. }
  cbn [u_encode_loop]. rewrite land_127, shiftr_7.
  destruct (Z.eqb_spec (i / 128) 0) as [H0|H0].
  - exists [i mod 128]. repeat split.
    + apply group_one. lia.
    + cbn [base128]. rewrite Z.mod_mod by lia. lia.
    + intros k Hk Hik. unfold len. cbn [length]. lia.
  - destruct (IH (i / 128)) as (b & Eb & Hg & Hv & Hmin).
    { lia. }
    { pose proof (log2_div128 i). lia. }
    rewrite Eb. cbn [rbind]. rewrite lor_128 by lia. exists (128 + i mod 128 :: b). repeat split.
    + apply group_cons; [lia|exact Hg].
    + cbn [base128]. rewrite Hv. lia.
    + intros k Hk Hik. rewrite len_cons.
      destruct (Z.ltb_spec k 2) as [Hk2|Hk2].
      { assert (128 ^ k <= 128 ^ 1) by (apply Z.pow_le_mono_r; lia). lia. }
      assert (Hlt : i / 128 < 128 ^ (k - 1)).
      { apply Z.div_lt_upper_bound; [lia|].
        rewrite <- Z.pow_succ_r by lia. replace (Z.succ (k - 1)) with k by lia. exact Hik. }
      specialize (Hmin (k - 1) ltac:(lia) Hlt). lia.
Qed.

Lemma u_encode_spec i : 0 <= i ->
  exists b, u_encode i = Ok b /\ group b /\ base128 b = i /\
            (forall k, 0 <= k -> i < 128 ^ k -> len b <= Z.max 1 k).
Proof.
  intros Hi. unfold u_encode. destruct (Z.leb_spec 0 i); [|lia]. cbn [py_assert rbind].
  apply u_encode_loop_spec; [exact Hi|]. unfold leb_fuel. rewrite Z.abs_eq by exact Hi.
  pose proof (Z.log2_nonneg i). lia.
Qed.

(* signed: the stop condition says the rest fits in 7 bits *)
Lemma i_stop i :
  ((Z.shiftr i 7 =? 0) && (Z.land (Z.land i 0x7f) 0x40 =? 0))
  || ((Z.shiftr i 7 =? -1) && negb (Z.land (Z.land i 0x7f) 0x40 =? 0)) = (-64 <=? i) && (i <? 64).
Proof. rewrite land_64, land_127, shiftr_7. rewrite Z.mod_mod by lia. lia. Qed.

Lemma base128_signed_cons x b : b <> [] ->
  base128_signed (x :: b) = x mod 128 + 128 * base128_signed b.
Proof.
  intros Hb. unfold base128_signed. replace (last (x :: b) 0) with (last b 0) by (destruct b; [congruence|reflexivity]).
  cbn [base128 length]. rewrite Nat2Z.inj_succ, Z.pow_succ_r by lia.
  destruct (64 <=? last b 0 mod 128); ring.
Qed.
Lemma base128_signed_one x : base128_signed [x] = if 64 <=? x mod 128 then x mod 128 - 128 else x mod 128.
Proof. unfold base128_signed. cbn [last base128 length]. change (128 ^ Z.of_nat 1) with 128.
  destruct (64 <=? x mod 128); lia. Qed.

Definition fits (k i : Z) : Prop := - 128 ^ k <= 2 * i < 128 ^ k.

Lemma base128_signed_fits b : b <> [] -> fits (len b) (base128_signed b).
Proof.
  intros Hb. unfold fits. induction b as [|x b IH]; [congruence|].
  destruct b as [|y b].
  - rewrite base128_signed_one. change (len [x]) with 1. change (128 ^ 1) with 128.
    destruct (Z.leb_spec 64 (x mod 128)); lia.
  - rewrite base128_signed_cons by discriminate. specialize (IH ltac:(discriminate)).
    rewrite len_cons. rewrite Z.pow_add_r by (try apply len_nonneg; lia). change (128 ^ 1) with 128. 
    set (z := base128_signed (y :: b)) in *.
    assert (He : exists t, 128 ^ len (y :: b) = 2 * t).
    { rewrite len_cons, Z.pow_add_r by (try apply len_nonneg; lia).
      exists (64 * 128 ^ len b). change (128 ^ 1) with 128. lia. }
    destruct He as [t Ht]. rewrite Ht in *. lia.
Qed.

Lemma log2_abs_div128 i : (i < -64 \/ 64 <= i) -> 64 <= Z.abs (i / 128) -> Z.log2 (Z.abs (i / 128)) < Z.log2 (Z.abs i).
Proof.
  intros H H2. 
  apply Z.lt_le_trans with (Z.log2 (2 * Z.abs (i / 128))).
  - rewrite Z.log2_double by lia. lia.
  - apply Z.log2_le_mono. lia.
Qed.

Lemma i_encode_loop_spec fuel i :
  Z.log2 (Z.abs i) + 1 < Z.of_nat fuel ->
  exists b, i_encode_loop fuel i = Ok b /\ group b /\ base128_signed b = i /\
            (forall k, 1 <= k -> fits k i -> len b <= k).
Proof.
  revert i; induction fuel as [|f IH]; intros i Hf.
  { pose proof (Z.log2_nonneg (Z.abs i)). lia. }
  cbn [i_encode_loop]. cbv zeta. rewrite i_stop. rewrite land_127, shiftr_7.
  destruct ((-64 <=? i) && (i <? 64)) eqn:Hc.
  - exists [i mod 128]. repeat split.
    + apply group_one. lia.
    + rewrite base128_signed_one. rewrite Z.mod_mod by lia. destruct (Z.leb_spec 64 (i mod 128)); lia.
    + intros k Hk _. change (len [i mod 128]) with 1. lia.
  - assert (Hrange : i < -64 \/ 64 <= i) by lia.
    destruct (IH (i / 128)) as (b & Eb & Hg & Hv & Hmin).
    { destruct (Z.leb_spec 64 (Z.abs (i / 128))) as [Hbig|Hsmall].
      - pose proof (log2_abs_div128 i Hrange Hbig). lia.
      - assert (H5 : 6 <= Z.log2 (Z.abs i)) by (change 6 with (Z.log2 64); apply Z.log2_le_mono; lia).
        assert (H6 : Z.log2 (Z.abs (i / 128)) <= 5) by (change 5 with (Z.log2 63); apply Z.log2_le_mono; lia).
        lia. }
    rewrite Eb. cbn [rbind]. rewrite lor_128 by lia. exists (128 + i mod 128 :: b). repeat split.
    + apply group_cons; [lia|exact Hg].
    + rewrite base128_signed_cons by (apply group_nonnil, Hg). rewrite Hv. lia.
    + intros k Hk Hik. rewrite len_cons. unfold fits in *.
      destruct (Z.ltb_spec k 2) as [Hk2|Hk2].
      { replace k with 1 in Hik by lia. change (128 ^ 1) with 128 in Hik. lia. }
      assert (Hlt : - 128 ^ (k - 1) <= 2 * (i / 128) < 128 ^ (k - 1)).
      { replace k with (1 + ((k - 2) + 1)) in Hik by lia. rewrite !Z.pow_add_r in Hik by lia.
        replace (k - 1) with ((k - 2) + 1) by lia. rewrite !Z.pow_add_r by lia.
        change (128 ^ 1) with 128 in *. lia. }
      specialize (Hmin (k - 1) ltac:(lia) Hlt). lia.
Qed.

Lemma i_encode_spec i :
  exists b, i_encode i = Ok b /\ group b /\ base128_signed b = i /\
            (forall k, 1 <= k -> fits k i -> len b <= k).
Proof.
  unfold i_encode. apply i_encode_loop_spec. unfold leb_fuel.
  pose proof (Z.log2_nonneg (Z.abs i)). lia.
Qed.

Lemma group_bytes b : group b -> bytes b.
Proof.
  intros (pre & l & -> & Hpre & Hl). apply bytes_app. split.
  - unfold bytes. eapply Forall_impl; [|exact Hpre]. unfold byte. cbn. intros; lia.
  - repeat constructor; lia.
Qed.

(* ---- the statements used by PropLeb.v ---- *)
Lemma u_roundtrip i rest : 0 <= i ->
  exists b, u_encode i = Ok b /\ u_decode_reader (b ++ rest) = Ok (i, len b, rest).
Proof.
  intros Hi. destruct (u_encode_spec i Hi) as (b & Eb & Hg & Hv & _).
  exists b. split; [exact Eb|]. rewrite u_reader_group by exact Hg. rewrite Hv. reflexivity.
Qed.
Lemma i_roundtrip i rest :
  exists b, i_encode i = Ok b /\ i_decode_reader (b ++ rest) = Ok (i, len b, rest).
Proof.
  destruct (i_encode_spec i) as (b & Eb & Hg & Hv & _).
  exists b. split; [exact Eb|]. rewrite i_reader_group by exact Hg. rewrite Hv. reflexivity.
Qed.
Lemma read_group_shrinks r a r' : read_group r = Ok (a, r') -> r = a ++ r' /\ a <> [].
Proof.
  revert a r'; induction r as [|y r IH]; intros a r' H; cbn [read_group] in H; [discriminate|].
  destruct (Z.land y 128 =? 0).
  - injection H as <- <-. split; [reflexivity|discriminate].
  - destruct (read_group r) as [[a1 r1]|]; [|discriminate]. cbn [rbind] in H. injection H as <- <-.
    destruct (IH _ _ eq_refl) as [-> _]. split; [reflexivity|discriminate].
Qed.
Lemma read_group_is_group r a r' : bytes r -> read_group r = Ok (a, r') -> group a.
Proof.
  intros Hr H. destruct (read_group_all r Hr) as [(b & rest & Hb & _ & E)|[_ E]]; [|congruence].
  rewrite E in H. injection H as <- <-. exact Hb.
Qed.
Lemma read_group_locally c rest a r' : read_group (c ++ rest) = Ok (a, r') -> bytes c -> (length a <= length c)%nat ->
  group a.
Proof.
  revert a r'; induction c as [|y c IH]; intros a r' H Hc Hl.
  - apply read_group_shrinks in H. destruct H as [_ H]. destruct a; [congruence|cbn in Hl; lia].
  - inversion Hc as [|? ? Hy Hc']; subst. cbn [app read_group] in H. rewrite land_128 in H by exact Hy.
    unfold byte in Hy. destruct (Z.ltb_spec y 128).
    + injection H as <- <-. apply group_one. lia.
    + destruct (read_group (c ++ rest)) as [[a1 r1]|] eqn:E; [|discriminate]. cbn [rbind] in H. injection H as <- <-.
      apply group_cons; [lia|]. eapply IH; [reflexivity|exact Hc'|cbn in Hl; lia].
Qed.
(* a byte string read as one number is a group *)
Lemma read_group_exact c rest a : bytes c -> read_group (c ++ rest) = Ok (a, rest) -> a = c /\ group c.
Proof.
  intros Hc H. pose proof (read_group_shrinks _ _ _ H) as [He _].
  assert (a = c). { apply (app_inv_tail rest). congruence. }
  subst a. split; [reflexivity|]. eapply read_group_locally; [exact H|exact Hc|lia].
Qed.
Lemma group_len b : group b -> 1 <= len b.
Proof. intros H. apply group_nonnil in H. destruct b; [congruence|]. rewrite len_cons. pose proof (len_nonneg b). lia. Qed.

Lemma u_canonical i b : u_encode i = Ok b ->
  group b /\
  forall c rest n, bytes c -> u_decode_reader (c ++ rest) = Ok (i, n, rest) -> len b <= len c.
Proof.
  intros Eb. destruct (Z.leb_spec 0 i) as [Hi|Hi].
  2:{ unfold u_encode in Eb. destruct (Z.leb_spec 0 i); [lia|]. discriminate. }
  destruct (u_encode_spec i Hi) as (b' & Eb' & Hg & Hv & Hmin).
  assert (b' = b) by congruence. subst b'. split; [exact Hg|].
  intros c rest n Hc Hr. unfold u_decode_reader in Hr.
  destruct (read_group (c ++ rest)) as [[a r]|] eqn:E; [|discriminate]. cbn [rbind] in Hr.
  injection Hr as Hr1 _ Hr2. subst r. apply read_group_exact in E; [|exact Hc]. destruct E as [-> Hgc].
  rewrite u_decode_spec in Hr1. pose proof (base128_bound c) as Hbd. rewrite Hr1 in Hbd. fold (len c) in Hbd.
  specialize (Hmin (len c) (len_nonneg c)). pose proof (group_len c Hgc). lia.
Qed.
Lemma i_canonical i b : i_encode i = Ok b ->
  group b /\
  forall c rest n, bytes c -> i_decode_reader (c ++ rest) = Ok (i, n, rest) -> len b <= len c.
Proof.
  intros Eb. destruct (i_encode_spec i) as (b' & Eb' & Hg & Hv & Hmin).
  assert (b' = b) by congruence. subst b'. split; [exact Hg|].
  intros c rest n Hc Hr. unfold i_decode_reader in Hr.
  destruct (read_group (c ++ rest)) as [[a r]|] eqn:E; [|discriminate]. cbn [rbind] in Hr.
  destruct (i_decode a) as [m|] eqn:Em; [|discriminate]. cbn [rbind] in Hr.
  injection Hr as Hr1 _ Hr2. subst r m. apply read_group_exact in E; [|exact Hc]. destruct E as [-> Hgc].
  rewrite i_decode_spec in Em by (apply group_nonnil, Hgc). injection Em as Em.
  pose proof (base128_signed_fits c (group_nonnil c Hgc)) as Hf. rewrite Em in Hf.
  apply Hmin; [apply group_len, Hgc|exact Hf].
Qed.

Lemma u_reader_total r : bytes r ->
  (exists b rest, r = b ++ rest /\ group b /\ u_decode_reader r = Ok (base128 b, len b, rest)) \/
  (Forall (fun x => 128 <= x) r /\ exists e, u_decode_reader r = Err e).
Proof.
  intros Hr. destruct (read_group_all r Hr) as [(b & rest & Hb & -> & E)|[Hall E]].
  - left. exists b, rest. repeat split; [exact Hb|]. apply u_reader_group, Hb.
  - right. split; [exact Hall|]. unfold u_decode_reader. rewrite E. eexists. reflexivity.
Qed.
Lemma i_reader_total r : bytes r ->
  (exists b rest, r = b ++ rest /\ group b /\ i_decode_reader r = Ok (base128_signed b, len b, rest)) \/
  (Forall (fun x => 128 <= x) r /\ exists e, i_decode_reader r = Err e).
Proof.
  intros Hr. destruct (read_group_all r Hr) as [(b & rest & Hb & -> & E)|[Hall E]].
  - left. exists b, rest. repeat split; [exact Hb|]. apply i_reader_group, Hb.
  - right. split; [exact Hall|]. unfold i_decode_reader. rewrite E. eexists. reflexivity.
Qed.
Lemma u_negative i : i < 0 -> exists e, u_encode i = Err e.
Proof. intros H. unfold u_encode. destruct (Z.leb_spec 0 i); [lia|]. eexists. reflexivity. Qed.
