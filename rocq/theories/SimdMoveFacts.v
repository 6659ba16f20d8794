(* Lemmas for the vector instructions that move lanes, change their width or work on all 128 bits. *)
From Coq Require Import ZArith List Bool Lia Znumtheory ZifyBool ZifyNat.
From Verif Require Import Py Arith Floatops Val Opcode Numeric Syntax Store Basic Machine SpecInt SpecNum SpecMachine SpecMem SpecSimd.
From Verif Require Import PyFacts ArithFacts ValFacts LaneFacts StepFacts NumFacts SimdFacts.
Import ListNotations.
Open Scope Z_scope.

(* ---- moving lanes ---- *)
Lemma Forall2_repeat {A B} (P : A -> B -> Prop) x y n : P x y -> Forall2 P (repeat x n) (repeat y n).
Proof. intros H. induction n; cbn [repeat]; constructor; assumption. Qed.
Lemma low_low M N v : 0 <= M <= N -> low N v mod 2 ^ M = low M v.
Proof.
  intros H. unfold low. symmetry. apply Zmod_div_mod; try (apply Z.pow_pos_nonneg; lia).
  exists (2 ^ (N - M)). rewrite <- Z.pow_add_r by lia. f_equal. lia.
Qed.
Lemma sgn_low M N v : 0 < M <= N -> sgn N (low N v) mod 2 ^ M = low M v.
Proof.
  intros H. rewrite <- (low_low M N v) by lia. rewrite <- (sgn_mod N (low N v)) at 2 by (try apply low_range; lia).
  apply Zmod_div_mod; try (apply Z.pow_pos_nonneg; lia).
  exists (2 ^ (N - M)). rewrite <- Z.pow_add_r by lia. f_equal. lia.
Qed.
Lemma low_bytes w v : 1 <= w <= 16 -> val_wf v -> py_slice (v_data v) 0 w = to_le (Z.to_nat w) (low (8 * w) v).
Proof.
  intros Hw Wv. destruct Wv as [L B]. 
  assert (E : le_of (py_slice (v_data v) 0 w) = low (8 * w) v).
  { pose proof (lane_slice w (v_data v) 0 ltac:(lia) ltac:(lia) B ltac:(unfold len; lia)) as E. rewrite Z.mul_0_l, Z.add_0_l in E.
    rewrite E. unfold lane, low. rewrite Z.mul_0_r. change (2 ^ 0) with 1. rewrite Z.div_1_r. reflexivity. }
  rewrite <- E. rewrite <- (to_le_le_of (py_slice (v_data v) 0 w)) at 1 by (apply bytes_slice, B).
  f_equal. pose proof (len_py_slice_in (v_data v) 0 w ltac:(lia) ltac:(unfold len; lia)) as Q. unfold len in Q. lia.
Qed.
Lemma repeat_concat w v n : 1 <= w -> w * Z.of_nat n = 16 -> val_wf v ->
  from_v128 (concat (repeat (py_slice (v_data v) 0 w) n)) = Ok (vec (8 * w) (repeat (low (8 * w) v) n)).
Proof.
  intros Hw Hn Wv. assert (W16 : 1 <= w <= 16) by (destruct n; [lia|nia]). rewrite low_bytes by assumption.
  assert (E : concat (repeat (to_le (Z.to_nat w) (low (8 * w) v)) n) = to_le 16 (join (8 * w) (repeat (low (8 * w) v) n))).
  { rewrite <- concat_lanes; [| lia | unfold len; rewrite repeat_length; exact Hn
      | apply Forall_forall; intros x Hx; apply repeat_spec in Hx; subst x; apply low_range; lia].
    f_equal. clear Hn. induction n as [|n IH]; cbn [repeat map]; [reflexivity|]. rewrite IH. reflexivity. }
  rewrite E. apply from_v128_ok. apply to_le_length.
Qed.
Lemma splat_ok F o N : splat_op o = Some N ->
  exists g, num_op F o = Some (N1 g) /\ forall args va, val_wf va ->
    g args va = Ok (vec N (repeat (low N va) (Z.to_nat (128 / N)))).
Proof.
  destruct o; cbn [splat_op]; intros H; try discriminate H; injection H as <-; eexists; (split; [reflexivity|]);
    intros args va Wa; rd.
  1: refine (from_sg_ok true 1 (repeat _ 16) (repeat _ 16) w1 eq_refl _).
  2: refine (from_sg_ok true 2 (repeat _ 8) (repeat _ 8) w2 eq_refl _).
  3: refine (from_sg_ok true 4 (repeat _ 4) (repeat _ 4) w4 eq_refl _).
  4: refine (from_sg_ok true 8 (repeat _ 2) (repeat _ 2) w8 eq_refl _).
  5: exact (repeat_concat 4 va 4 ltac:(lia) eq_refl Wa).
  5: exact (repeat_concat 8 va 2 ltac:(lia) eq_refl Wa).
  - apply (Forall2_repeat _ _ _ 16). cbn [enc]. rewrite <- (sgn_low 8 32) by lia. apply (fit_enc 1). lia.
  - apply (Forall2_repeat _ _ _ 8). cbn [enc]. rewrite <- (sgn_low 16 32) by lia. apply (fit_enc 2). lia.
  - apply (Forall2_repeat _ _ _ 4). cbn [enc]. apply sgn_enc; [lia|apply low_range; lia].
  - apply (Forall2_repeat _ _ _ 2). cbn [enc]. apply sgn_enc; [lia|apply low_range; lia].
Qed.

Lemma index_lane sg w v k : width_ok w -> val_wf v -> 0 <= k < 16 / w ->
  py_index (map (as_int (8 * w) sg) (vlanes (8 * w) v)) k = Ok (as_int (8 * w) sg (nth_lane (vlanes (8 * w) v) k)) /\
  urange (8 * w) (nth_lane (vlanes (8 * w) v) k).
Proof.
  intros Hw Wv Hk. pose proof (vlanes_len w v Hw) as L. destruct (width_pos w Hw) as (W1 & _).
  rewrite (py_index_in _ k 0) by (unfold len in *; rewrite map_length; lia).
  rewrite nth_map_as by (unfold len in L; lia). split; [reflexivity|].
  pose proof (vlanes_urange (8 * w) v ltac:(lia)) as R. rewrite Forall_forall in R. apply R, nth_In. unfold len in L. lia.
Qed.
Lemma arg_int0 k l : arg_int (AInt k :: l) 0 = Ok k.
Proof. reflexivity. Qed.
Lemma extract_gen sg w wr t f v k : width_ok w -> val_wf v -> 0 <= k < 16 / w ->
  (forall x, urange (8 * w) x -> wr (as_int (8 * w) sg x) = Ok (num_val t (f x))) ->
  (let? a := into_sg sg w v in let? r := let? t1 := arg_int [AInt k] 0 in py_index a t1 in wr r) =
    Ok (num_val t (f (nth_lane (vlanes (8 * w) v) k))).
Proof.
  intros Hw Wv Hk H. rewrite into_sg_ok by assumption. rewrite arg_int0. cbn [rbind].
  destruct (index_lane sg w v k Hw Wv Hk) as [-> R]. cbn [rbind]. apply H, R.
Qed.
Lemma nth_vlanes N v k : 0 <= k < 128 / N -> nth_lane (vlanes N v) k = lane N (low 128 v) k.
Proof.
  intros Hk. unfold nth_lane, vlanes, lanes.
  rewrite nth_indep with (d' := lane N (low 128 v) (Z.of_nat 0)) by (rewrite map_length, seq_length; lia).
  rewrite (map_nth (fun k => lane N (low 128 v) (Z.of_nat k))). rewrite seq_nth by lia. f_equal. lia.
Qed.
Lemma zero_extend w x : 1 <= w <= 16 -> urange (8 * w) x -> to_le (Z.to_nat w) x ++ zeros (16 - w) = to_le 16 x.
Proof.
  intros Hw Hx. pose proof (to_le_pad (Z.to_nat w) x ltac:(lia)) as E. rewrite Z2Nat.id in E by lia.
  rewrite E. f_equal. apply Z.mod_small, Hx.
Qed.
Lemma extract_bytes w t v k : width_ok w -> val_wf v -> 0 <= k < 16 / w ->
  (let? a := into_v128 v in let? r := let? b := arg_int [AInt k] 0 in Ok (py_slice a (b * w) (b * w + w) ++ zeros (blen - w)) in
   mk_val t r) = Ok (num_val t (nth_lane (vlanes (8 * w) v) k)).
Proof.
  intros Hw Wv Hk. destruct (width_pos w Hw) as (W1 & W2 & W3 & W4). rewrite into_v128_ok by exact Wv.
  rewrite arg_int0. cbn [rbind]. rewrite nth_vlanes by lia.
  destruct Wv as [L B].
  assert (E : py_slice (v_data v) (k * w) (k * w + w) = to_le (Z.to_nat w) (lane (8 * w) (low 128 v) k)).
  { rewrite low128 by (split; assumption). rewrite <- lane_slice by (try exact B; try lia; unfold len; rewrite L; nia).
    rewrite <- (to_le_le_of (py_slice (v_data v) (k * w) (k * w + w))) at 1 by (apply bytes_slice, B).
    f_equal. pose proof (len_py_slice_in (v_data v) (k * w) (k * w + w) ltac:(nia) ltac:(unfold len; rewrite L; nia)) as Q.
    unfold len in Q. lia. }
  rewrite E. unfold blen. rewrite zero_extend; [|nia|apply lane_range; lia].
  unfold mk_val, num_val. unfold len. rewrite to_le_length. reflexivity.
Qed.
Lemma extract_ok F o N t f k : extract_op o = Some (N, t, f) -> 0 <= k < 128 / N ->
  exists g, num_op F o = Some (N1 g) /\ forall va, val_wf va ->
    g [AInt k] va = Ok (num_val t (f (nth_lane (vlanes N va) k))).
Proof.
  destruct o; cbn [extract_op]; intros H; try discriminate H; injection H as <- <- <-; intros Hk; eexists; (split; [reflexivity|]);
    intros va Wa.
  1: refine (extract_gen true 1 from_i32 T_i32 (fun a => unsgn 32 (sgn 8 a)) va k w1 Wa Hk _).
  2: refine (extract_gen false 1 from_i32 T_i32 (fun a => a) va k w1 Wa Hk _).
  3: refine (extract_gen true 2 from_i32 T_i32 (fun a => unsgn 32 (sgn 16 a)) va k w2 Wa Hk _).
  4: refine (extract_gen false 2 from_i32 T_i32 (fun a => a) va k w2 Wa Hk _).
  5: refine (extract_gen true 4 from_i32 T_i32 (fun a => a) va k w4 Wa Hk _).
  6: refine (extract_gen true 8 from_i64 T_i64 (fun a => a) va k w8 Wa Hk _).
  7: exact (extract_bytes 4 T_f32 va k w4 Wa Hk).
  7: exact (extract_bytes 8 T_f64 va k w8 Wa Hk).
  all: intros x Hx; cbn [as_int]; cbv beta.
  - apply enc_i32. split; [apply (srange_weaken 8); [lia|apply sgn_range; [lia|exact Hx]]|reflexivity].
  - apply enc_i32, small_enc; [lia|]. unfold urange in Hx. change (2 ^ (8 * 1)) with 256 in Hx. lia.
  - apply enc_i32. split; [apply (srange_weaken 16); [lia|apply sgn_range; [lia|exact Hx]]|reflexivity].
  - apply enc_i32, small_enc; [lia|]. unfold urange in Hx. change (2 ^ (8 * 2)) with 65536 in Hx. lia.
  - apply enc_i32, sgn_enc; [lia|exact Hx].
  - apply enc_i64, sgn_enc; [lia|exact Hx].
Qed.

(* replacing a lane *)
Lemma put_lane_upd k x l : 0 <= k < len l -> upd l (Z.to_nat k) x = put_lane k x l.
Proof.
  intros Hk. unfold put_lane, len in *. assert (Hn : (Z.to_nat k < length l)%nat) by lia. clear Hk. revert Hn.
  generalize (Z.to_nat k). induction l as [|y l IH]; intros n Hn; cbn [length] in Hn; [lia|].
  destruct n as [|n]; cbn [upd firstn skipn app]; [reflexivity|]. f_equal. apply IH. lia.
Qed.
Lemma Forall2_put {A B} (P : A -> B -> Prop) la lb n x y : Forall2 P la lb -> P x y -> Forall2 P (upd la n x) (upd lb n y).
Proof. intros H Hxy. revert n. induction H; intros [|n]; cbn [upd]; constructor; try assumption. apply IHForall2. Qed.
Lemma Forall2_as sg N l : 0 < N -> Forall (urange N) l -> Forall2 (enc sg N) (map (as_int N sg) l) l.
Proof.
  intros HN. induction 1 as [|x l Hx Hl IH]; cbn [map]; constructor; [|exact IH].
  destruct sg; cbn [enc as_int]; [apply sgn_enc; assumption|split; [exact Hx|reflexivity]].
Qed.
Lemma replace_gen w (rdb : val -> res Z) z (fit : Z -> Z) va vb k : width_ok w -> val_wf va -> 0 <= k < 16 / w ->
  rdb vb = Ok z -> enc_s (8 * w) (fit z) (low (8 * w) vb) ->
  (let? b := rdb vb in let? a := into_v128_i w va in
   let? r := let? k := arg_int [AInt k] 0 in py_setitem a k (fit b) in from_v128_i w r) =
    Ok (vec (8 * w) (put_lane k (low (8 * w) vb) (vlanes (8 * w) va))).
Proof.
  intros Hw Wa Hk Hb He. destruct (width_pos w Hw) as (W1 & W2 & W3 & W4). rewrite Hb. cbn [rbind].
  pose proof (into_sg_ok true w va Hw Wa) as E. cbn [into_sg] in E. rewrite E. rewrite arg_int0. cbn [rbind].
  pose proof (vlanes_len w va Hw) as L. pose proof (vlanes_urange (8 * w) va ltac:(lia)) as R.
  rewrite py_setitem_in by (unfold len in *; rewrite map_length; lia). cbn [rbind].
  rewrite <- put_lane_upd by lia.
  apply (from_sg_ok true w); [exact Hw|rewrite len_upd; unfold len in *; rewrite map_length; exact L|].
  apply Forall2_put; [apply Forall2_as; [lia|exact R]|exact He].
Qed.
Lemma firstn_concat w (l : list Z) n : firstn (w * n) (concat (map (to_le w) l)) = concat (map (to_le w) (firstn n l)).
Proof.
  revert n. induction l as [|x l IH]; intros n; [rewrite !firstn_nil; reflexivity|].
  destruct n as [|n]; [rewrite Nat.mul_0_r; reflexivity|]. cbn [map concat firstn].
  replace (w * S n)%nat with (length (to_le w x) + w * n)%nat by (rewrite to_le_length; lia).
  rewrite firstn_app_2, IH. reflexivity.
Qed.
Lemma skipn_concat w (l : list Z) n : skipn (w * n) (concat (map (to_le w) l)) = concat (map (to_le w) (skipn n l)).
Proof.
  revert n. induction l as [|x l IH]; intros n; [rewrite !skipn_nil; reflexivity|].
  destruct n as [|n]; [rewrite Nat.mul_0_r; reflexivity|]. cbn [map concat skipn].
  rewrite skipn_app, to_le_length. rewrite skipn_all2 by (rewrite to_le_length; lia).
  replace (w * S n - w)%nat with (w * n)%nat by lia. cbn [app]. apply IH.
Qed.
Lemma data_concat w v : width_ok w -> val_wf v -> v_data v = concat (map (to_le (Z.to_nat w)) (vlanes (8 * w) v)).
Proof.
  intros Hw Wv. destruct (width_pos w Hw) as (W1 & W2 & W3 & W4).
  rewrite concat_lanes; [|lia|rewrite vlanes_len by exact Hw; exact W2|apply vlanes_urange; lia].
  unfold vlanes. rewrite join_lanes by lia. rewrite low128 by exact Wv.
  replace (8 * w * Z.of_nat (Z.to_nat (128 / (8 * w)))) with 128 by nia.
  pose proof (uval_range v Wv) as U. unfold uval in U. rewrite Z.mod_small by exact U.
  destruct Wv as [L B]. rewrite <- L. symmetry. apply to_le_le_of, B.
Qed.
Lemma put_lane_range w k x l : Forall (urange w) l -> urange w x -> Forall (urange w) (put_lane k x l).
Proof.
  intros Hl Hx. unfold put_lane. apply Forall_app. split.
  - apply Forall_forall. intros y Hy. rewrite Forall_forall in Hl. apply Hl. rewrite <- (firstn_skipn (Z.to_nat k) l).
    apply in_app_iff. left. exact Hy.
  - constructor; [exact Hx|]. apply Forall_forall. intros y Hy. rewrite Forall_forall in Hl. apply Hl.
    rewrite <- (firstn_skipn (S (Z.to_nat k)) l). apply in_app_iff. right. exact Hy.
Qed.
Lemma replace_bytes w (rdb : val -> res Z) va vb k : width_ok w -> val_wf va -> 0 <= k < 16 / w ->
  rdb vb = Ok (low (8 * w) vb) ->
  (let? b := rdb vb in let? a := into_v128 va in
   let? r := let? c := arg_int [AInt k] 0 in let? x := u_into_bytearray w b in Ok (py_slice_set a (c * w) (c * w + w) x) in
   mk_val T_v128 r) = Ok (vec (8 * w) (put_lane k (low (8 * w) vb) (vlanes (8 * w) va))).
Proof.
  intros Hw Wa Hk Hb. destruct (width_pos w Hw) as (W1 & W2 & W3 & W4). rewrite Hb, into_v128_ok by exact Wa. cbn [rbind].
  rewrite arg_int0. cbn [rbind].
  destruct (enc_bytes false w (low (8 * w) vb) (low (8 * w) vb) W1) as [E _].
  { split; [apply low_range; lia|reflexivity]. }
  rewrite E. cbn [rbind]. pose proof (vlanes_len w va Hw) as L.
  assert (Ld : len (v_data va) = 16) by (unfold len; rewrite (proj1 Wa); reflexivity).
  rewrite py_slice_set_in by (rewrite ?Ld; nia). rewrite (data_concat w va Hw Wa).
  replace (Z.to_nat (k * w)) with (Z.to_nat w * Z.to_nat k)%nat by nia.
  replace (Z.to_nat (k * w + w)) with (Z.to_nat w * S (Z.to_nat k))%nat by nia.
  rewrite firstn_concat, skipn_concat. set (l := vlanes (8 * w) va) in *. set (x := low (8 * w) vb).
  assert (Q : concat (map (to_le (Z.to_nat w)) (firstn (Z.to_nat k) l)) ++ to_le (Z.to_nat w) x ++
      concat (map (to_le (Z.to_nat w)) (skipn (S (Z.to_nat k)) l)) = to_le 16 (join (8 * w) (put_lane k x l))).
  { rewrite <- concat_lanes; [| lia | | apply put_lane_range; [apply vlanes_urange; lia|apply low_range; lia]].
    - unfold put_lane. rewrite map_app, concat_app. reflexivity.
    - rewrite <- put_lane_upd, len_upd by lia. rewrite L. exact W2. }
  rewrite Q. unfold mk_val, vec, num_val, len. rewrite to_le_length. reflexivity.
Qed.
Lemma replace_ok F o N k : replace_op o = Some N -> 0 <= k < 128 / N ->
  exists g, num_op F o = Some (N2 g) /\ forall va vb, val_wf va -> val_wf vb ->
    g [AInt k] va vb = Ok (vec N (put_lane k (low N vb) (vlanes N va))).
Proof.
  destruct o; cbn [replace_op]; intros H; try discriminate H; injection H as <-; intros Hk; eexists; (split; [reflexivity|]);
    intros va vb Wa Wb.
  1: refine (replace_gen 1 into_i32 (sgn 32 (low 32 vb)) (i_fit 1) va vb k w1 Wa Hk (into_i32_ok vb Wb) _).
  2: refine (replace_gen 2 into_i32 (sgn 32 (low 32 vb)) (i_fit 2) va vb k w2 Wa Hk (into_i32_ok vb Wb) _).
  3: refine (replace_gen 4 into_i32 (sgn 32 (low 32 vb)) (fun b => b) va vb k w4 Wa Hk (into_i32_ok vb Wb) _).
  4: refine (replace_gen 8 into_i64 (sgn 64 (low 64 vb)) (fun b => b) va vb k w8 Wa Hk (into_i64_ok vb Wb) _).
  5: exact (replace_bytes 4 into_u32 va vb k w4 Wa Hk (into_u32_ok vb Wb)).
  5: exact (replace_bytes 8 into_u64 va vb k w8 Wa Hk (into_u64_ok vb Wb)).
  - rewrite <- (sgn_low (8 * 1) 32) by lia. apply (fit_enc 1). lia.
  - rewrite <- (sgn_low (8 * 2) 32) by lia. apply (fit_enc 2). lia.
  - apply sgn_enc; [lia|apply low_range; lia].
  - apply sgn_enc; [lia|apply low_range; lia].
Qed.

(* selecting bytes *)
Lemma rmapl_ok {A B} (f : A -> res B) (g : A -> B) l : (forall x, In x l -> f x = Ok (g x)) -> rmapl f l = Ok (map g l).
Proof.
  induction l as [|x l IH]; intros H; cbn [rmapl map]; [reflexivity|].
  rewrite (H x) by (left; reflexivity). cbn [rbind]. rewrite IH by (intros y Hy; apply H; right; exact Hy). reflexivity.
Qed.
Lemma arg_int_nth ks i : 0 <= i < len ks -> arg_int (map AInt ks) i = Ok (nth_lane ks i).
Proof.
  intros Hi. unfold arg_int, nth_lane. rewrite (py_index_in _ i (AInt 0)) by (unfold len in *; rewrite map_length; exact Hi).
  cbn [rbind]. rewrite map_nth. reflexivity.
Qed.
Lemma map_range_nth {A} (g : Z -> A) ks n : len ks = n -> map (fun i => g (nth_lane ks i)) (py_range n) = map g ks.
Proof.
  intros <-. unfold py_range, len. rewrite Nat2Z.id, map_map. unfold nth_lane.
  apply nth_ext with (g 0) (g 0); [rewrite !map_length, seq_length; reflexivity|]. intros k Hk. rewrite map_length, seq_length in Hk.
  rewrite map_nth. rewrite nth_indep with (d' := (fun x => g (nth (Z.to_nat (Z.of_nat x)) ks 0)) 0%nat)
    by (rewrite map_length, seq_length; exact Hk).
  rewrite (map_nth (fun x => g (nth (Z.to_nat (Z.of_nat x)) ks 0))). rewrite seq_nth by exact Hk. rewrite Nat2Z.id. reflexivity.
Qed.
Lemma shuffle_ok F ks : length ks = 16%nat -> Forall (fun k => 0 <= k < 32) ks ->
  exists g, num_op F O_i8x16_shuffle = Some (N2 g) /\ forall va vb, val_wf va -> val_wf vb ->
    g (map AInt ks) va vb = Ok (vec 8 (map (nth_lane (vlanes 8 va ++ vlanes 8 vb)) ks)).
Proof.
  intros Lk Rk. eexists; split; [reflexivity|]. intros va vb Wa Wb. cbv beta.
  change (into_v128_i 1) with (into_sg true 1). rewrite !into_sg_ok by (try assumption; apply w1). cbn [rbind]. change (8 * 1) with 8.
  pose proof (vlanes_len 1 va w1) as La. pose proof (vlanes_len 1 vb w1) as Lb. change (16 / 1) with 16 in *. change (8 * 1) with 8 in *.
  rewrite <- map_app. set (l := vlanes 8 va ++ vlanes 8 vb).
  assert (Ll : len l = 32) by (unfold l, len in *; rewrite app_length; lia).
  assert (Rl : Forall (urange 8) l) by (apply Forall_app; split; apply vlanes_urange; lia).
  rewrite (rmapl_ok _ (fun i => as_int 8 true (nth_lane l (nth_lane ks i)))).
  2:{ intros i Hi. apply py_range_in in Hi. rewrite arg_int_nth by (unfold len; rewrite Lk; exact Hi). cbn [rbind].
      assert (R : 0 <= nth_lane ks i < 32).
      { rewrite Forall_forall in Rk. apply Rk, nth_In. lia. }
      rewrite (py_index_in _ _ 0) by (unfold len in *; rewrite map_length; lia).
      rewrite nth_map_as by (unfold len in Ll; lia). reflexivity. }
  cbn [rbind]. rewrite (map_range_nth (fun k => as_int 8 true (nth_lane l k))) by (unfold len; rewrite Lk; reflexivity).
  apply (from_sg_ok true 1); [exact w1|unfold len; rewrite map_length, Lk; reflexivity|].
  change (8 * 1) with 8. rewrite <- (map_map (nth_lane l) (as_int 8 true)). apply Forall2_as; [lia|].
  apply Forall_forall. intros x Hx. apply in_map_iff in Hx. destruct Hx as (k & <- & Hk). rewrite Forall_forall in Rl, Rk.
  apply Rl, nth_In. specialize (Rk k Hk). unfold len in Ll. lia.
Qed.
Lemma swizzle_ok F : exists g, num_op F O_i8x16_swizzle = Some (N2 g) /\ forall args va vb, val_wf va -> val_wf vb ->
    g args va vb = Ok (vec 8 (map (fun k => if k <? 16 then nth_lane (vlanes 8 va) k else 0) (vlanes 8 vb))).
Proof.
  eexists; split; [reflexivity|]. intros args va vb Wa Wb. cbv beta.
  change (into_v128_i 1) with (into_sg true 1). change (into_v128_u 1) with (into_sg false 1).
  rewrite !into_sg_ok by (try assumption; apply w1). cbn [rbind]. change (8 * 1) with 8. rewrite map_as_int_u.
  pose proof (vlanes_len 1 va w1) as La. pose proof (vlanes_len 1 vb w1) as Lb. change (16 / 1) with 16 in *. change (8 * 1) with 8 in *.
  pose proof (vlanes_urange 8 va ltac:(lia)) as Ra. pose proof (vlanes_urange 8 vb ltac:(lia)) as Rb.
  set (la := vlanes 8 va) in *. set (lb := vlanes 8 vb) in *.
  rewrite (rmapl_ok _ (fun i => as_int 8 true ((fun k => if k <? 16 then nth_lane la k else 0) (nth_lane lb i)))).
  2:{ intros i Hi. apply py_range_in in Hi. rewrite (py_index_in lb i 0) by lia. cbn [rbind]. fold (nth_lane lb i).
      assert (R : urange 8 (nth_lane lb i)).
      { rewrite Forall_forall in Rb. apply Rb, nth_In. unfold len in Lb. lia. }
      destruct (Z.ltb_spec (nth_lane lb i) 16) as [H|H]; [|reflexivity]. unfold urange in R.
      rewrite (py_index_in _ _ 0) by (unfold len in *; rewrite map_length; lia).
      rewrite nth_map_as by (unfold len in La; lia). reflexivity. }
  cbn [rbind]. rewrite (map_range_nth (fun k => as_int 8 true (if k <? 16 then nth_lane la k else 0)) lb 16 Lb).
  apply (from_sg_ok true 1); [exact w1|unfold len in *; rewrite map_length; exact Lb|].
  change (8 * 1) with 8. rewrite <- (map_map (fun k => if k <? 16 then nth_lane la k else 0) (as_int 8 true)).
  apply Forall2_as; [lia|]. apply Forall_forall. intros x Hx. apply in_map_iff in Hx. destruct Hx as (k & <- & Hk).
  rewrite Forall_forall in Ra, Rb. specialize (Rb k Hk). destruct (Z.ltb_spec k 16) as [H|H]; [|unfold urange; lia].
  apply Ra, nth_In. unfold urange in Rb. unfold len in La. lia.
Qed.
