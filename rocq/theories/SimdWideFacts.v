(* Lemmas for the vector instructions that change the lane width or work on all 128 bits. *)
From Coq Require Import ZArith List Bool Lia Znumtheory ZifyBool ZifyNat.
From Verif Require Import Py Arith Floatops Val Opcode Numeric Syntax Store Basic Machine SpecInt SpecNum SpecMachine SpecMem SpecSimd.
From Verif Require Import PyFacts ArithFacts ValFacts LaneFacts StepFacts NumFacts SimdFacts SimdMoveFacts.
Import ListNotations.
Open Scope Z_scope.

Lemma half_length {A} high (l : list A) n : length l = (2 * n)%nat -> length (half high l) = n.
Proof.
  intros H. unfold half. rewrite H, Nat.div2_double. destruct high; [rewrite skipn_length|rewrite firstn_length]; lia.
Qed.
Lemma half_map {A B} (f : A -> B) high l : half high (map f l) = map f (half high l).
Proof. unfold half. rewrite map_length. destruct high; [apply skipn_map|apply firstn_map]. Qed.
Lemma half_Forall {A} (P : A -> Prop) high l : Forall P l -> Forall P (half high l).
Proof.
  intros H. apply Forall_forall. intros x Hx. rewrite Forall_forall in H. apply H. unfold half in Hx.
  rewrite <- (firstn_skipn (Nat.div2 (length l)) l). apply in_app_iff. destruct high; tauto.
Qed.
(* what the slices of the source select *)
Lemma half_slice {A} high (l : list A) n : len l = 2 * n -> 0 <= n ->
  py_slice l (if high : bool then n else 0) (if high then len l else n) = half high l.
Proof.
  intros H Hn. assert (L : length l = (2 * Z.to_nat n)%nat) by (unfold len in H; lia).
  unfold half. rewrite L, Nat.div2_double. destruct high.
  - rewrite py_slice_in by lia. apply firstn_all2. rewrite skipn_length. unfold len in *. lia.
  - rewrite py_slice_in by lia. rewrite Z.sub_0_r. reflexivity.
Qed.
Lemma vlanes_half w v : width_ok w -> w <= 4 -> len (vlanes (8 * w) v) = 2 * (8 / w).
Proof. intros Hw H. rewrite vlanes_len by exact Hw. destruct Hw as [->|[->|[->| ->]]]; try reflexivity; lia. Qed.

Definition enc_int sg N z : Prop := if sg : bool then srange N z else urange N z.
Lemma enc_unsgn sg N z : 0 < N -> enc_int sg N z -> enc sg N z (unsgn N z).
Proof.
  intros HN. destruct sg; cbn [enc_int enc]; intros H; split; try exact H; try reflexivity.
  unfold unsgn. symmetry. apply Z.mod_small, H.
Qed.
Lemma Forall2_enc sg N l : 0 < N -> Forall (enc_int sg N) l -> Forall2 (enc sg N) l (map (unsgn N) l).
Proof. intros HN. induction 1; cbn [map]; constructor; [apply enc_unsgn; assumption|assumption]. Qed.

(* bounds of a lane as an integer *)
Lemma as_int_bound sg n x : 1 <= n -> urange (8 * n) x ->
  exists p, 0 < p /\ 2 ^ (8 * n) = 2 * p /\ (if sg : bool then - p <= as_int (8 * n) sg x < p else 0 <= as_int (8 * n) sg x < 2 * p).
Proof.
  intros Hn Hx. exists (2 ^ (8 * n - 1)). assert (D : 2 ^ (8 * n) = 2 * 2 ^ (8 * n - 1)) by (apply pow_half; lia).
  split; [apply Z.pow_pos_nonneg; lia|]. split; [exact D|]. destruct sg; cbn [as_int].
  - apply (sgn_range (8 * n) x); [lia|exact Hx].
  - unfold urange in Hx. rewrite D in Hx. exact Hx.
Qed.
Lemma double_pow n : 1 <= n -> 2 ^ (8 * (2 * n)) = 2 ^ (8 * n) * 2 ^ (8 * n) /\ 2 ^ (8 * (2 * n) - 1) = 2 ^ (8 * n - 1) * 2 ^ (8 * n)
  /\ 2 ^ (8 * n) = 2 * 2 ^ (8 * n - 1) /\ 128 <= 2 ^ (8 * n - 1).
Proof.
  intros Hn. split; [|split; [|split]].
  - rewrite <- Z.pow_add_r by lia. f_equal. lia.
  - rewrite <- Z.pow_add_r by lia. f_equal. lia.
  - apply pow_half. lia.
  - change 128 with (2 ^ 7). apply Z.pow_le_mono_r; lia.
Qed.
Lemma as_int_range sg n x : 1 <= n -> urange (8 * n) x ->
  if sg : bool then - 2 ^ (8 * n - 1) <= as_int (8 * n) sg x < 2 ^ (8 * n - 1) else 0 <= as_int (8 * n) sg x < 2 ^ (8 * n).
Proof. intros Hn Hx. destruct sg; [apply (sgn_range (8 * n) x); [lia|exact Hx]|exact Hx]. Qed.

Lemma extend_fits sg n x : 1 <= n -> urange (8 * n) x -> srange (8 * (2 * n)) (as_int (8 * n) sg x).
Proof.
  intros Hn Hx. pose proof (as_int_range sg n x Hn Hx) as R. destruct (double_pow n Hn) as (_ & D2 & D3 & D4).
  unfold srange. rewrite D2. set (p := 2 ^ (8 * n - 1)) in *. set (q := 2 ^ (8 * n)) in *. clearbody p q.
  destruct sg; nia.
Qed.
Lemma extmul_fits sg n x y : 1 <= n -> urange (8 * n) x -> urange (8 * n) y ->
  enc_int sg (8 * (2 * n)) (as_int (8 * n) sg x * as_int (8 * n) sg y).
Proof.
  intros Hn Hx Hy. pose proof (as_int_range sg n x Hn Hx) as R. pose proof (as_int_range sg n y Hn Hy) as R'.
  destruct (double_pow n Hn) as (D1 & D2 & D3 & D4).
  destruct sg; cbn [enc_int]; unfold srange, urange; rewrite ?D1, ?D2; set (p := 2 ^ (8 * n - 1)) in *; set (q := 2 ^ (8 * n)) in *;
    clearbody p q; nia.
Qed.
Lemma sum_fits sg n x y : 1 <= n -> urange (8 * n) x -> urange (8 * n) y ->
  enc_int sg (8 * (2 * n)) (as_int (8 * n) sg x + as_int (8 * n) sg y).
Proof.
  intros Hn Hx Hy. pose proof (as_int_range sg n x Hn Hx) as R. pose proof (as_int_range sg n y Hn Hy) as R'.
  destruct (double_pow n Hn) as (D1 & D2 & D3 & D4).
  destruct sg; cbn [enc_int]; unfold srange, urange; rewrite ?D1, ?D2; set (p := 2 ^ (8 * n - 1)) in *; set (q := 2 ^ (8 * n)) in *;
    clearbody p q; nia.
Qed.

Lemma extend_gen sg high w lo n va : width_ok w -> width_ok (2 * w) -> val_wf va -> n = 8 / w -> lo = (if high : bool then n else 0) ->
  (let? a := into_sg sg w va in let? r := Ok (py_slice a lo (if high : bool then len a else n)) in from_v128_i (2 * w) r) =
    Ok (vec (8 * (2 * w)) (map (fun a => unsgn (8 * (2 * w)) (as_int (8 * w) sg a)) (half high (vlanes (8 * w) va)))).
Proof.
  intros Hw Hw2 Wa -> ->. destruct (width_pos w Hw) as (W1 & _). rewrite into_sg_ok by assumption. cbn [rbind].
  assert (W4 : w <= 4) by (destruct Hw as [->|[->|[->| ->]]]; try lia; destruct Hw2 as [H|[H|[H|H]]]; discriminate H).
  pose proof (vlanes_half w va Hw W4) as L. pose proof (vlanes_urange (8 * w) va ltac:(lia)) as R.
  set (l := vlanes (8 * w) va) in *. clearbody l.
  rewrite (half_slice high (map (as_int (8 * w) sg) l) (8 / w)).
  2:{ unfold len in *. rewrite map_length. exact L. }
  2:{ apply Z.div_pos; lia. }
  rewrite half_map. rewrite <- (map_map (as_int (8 * w) sg) (unsgn (8 * (2 * w)))).
  apply (from_sg_ok true (2 * w)); [exact Hw2| |].
  - unfold len in *. rewrite map_length, (half_length high l (Z.to_nat (8 / w))) by lia.
    destruct Hw as [->|[->|[->| ->]]]; try reflexivity; lia.
  - apply (Forall2_enc true); [lia|]. apply Forall_forall. intros z Hz. apply in_map_iff in Hz. destruct Hz as (x & <- & Hx).
    apply (half_Forall _ high) in R. rewrite Forall_forall in R. apply extend_fits; [exact W1|]. apply R, Hx.
Qed.
Lemma extend_ok F o M sg high : extend_op o = Some (M, sg, high) ->
  exists g, num_op F o = Some (N1 g) /\ forall args va, val_wf va ->
    g args va = Ok (vec (2 * M) (map (fun a => unsgn (2 * M) (as_int M sg a)) (half high (vlanes M va)))).
Proof.
  destruct o; cbn [extend_op]; intros H; try discriminate H; injection H as <- <- <-; eexists; (split; [reflexivity|]);
    intros args va Wa.
  1: exact (extend_gen true false 1 0 8 va w1 w2 Wa eq_refl eq_refl).
  1: exact (extend_gen true true 1 8 8 va w1 w2 Wa eq_refl eq_refl).
  1: exact (extend_gen false false 1 0 8 va w1 w2 Wa eq_refl eq_refl).
  1: exact (extend_gen false true 1 8 8 va w1 w2 Wa eq_refl eq_refl).
  1: exact (extend_gen true false 2 0 4 va w2 w4 Wa eq_refl eq_refl).
  1: exact (extend_gen true true 2 4 4 va w2 w4 Wa eq_refl eq_refl).
  1: exact (extend_gen false false 2 0 4 va w2 w4 Wa eq_refl eq_refl).
  1: exact (extend_gen false true 2 4 4 va w2 w4 Wa eq_refl eq_refl).
  1: exact (extend_gen true false 4 0 2 va w4 w8 Wa eq_refl eq_refl).
  1: exact (extend_gen true true 4 2 2 va w4 w8 Wa eq_refl eq_refl).
  1: exact (extend_gen false false 4 0 2 va w4 w8 Wa eq_refl eq_refl).
  1: exact (extend_gen false true 4 2 2 va w4 w8 Wa eq_refl eq_refl).
Qed.

(* products of halves *)
Lemma skipn_combine {A B} n (a : list A) (b : list B) : skipn n (combine a b) = combine (skipn n a) (skipn n b).
Proof.
  revert a b. induction n as [|n IH]; intros a b; [reflexivity|]. destruct a as [|x a]; [reflexivity|].
  destruct b as [|y b]; [cbn [combine skipn]; destruct (skipn n a); reflexivity|]. cbn [combine skipn]. apply IH.
Qed.
Lemma lanes2_half high f (a b : list Z) n : len a = 2 * n -> len b = 2 * n -> 0 <= n ->
  lanes2 (if high : bool then n else 0) (if high then 2 * n else n) f a b = lanes2 0 n f (half high a) (half high b).
Proof.
  intros La Lb Hn.
  assert (Ha : length (half high a) = Z.to_nat n) by (apply half_length; unfold len in La; lia).
  assert (Hb : length (half high b) = Z.to_nat n) by (apply half_length; unfold len in Lb; lia).
  assert (Da : Nat.div2 (length a) = Z.to_nat n) by (replace (length a) with (2 * Z.to_nat n)%nat by (unfold len in La; lia); apply Nat.div2_double).
  assert (Db : Nat.div2 (length b) = Z.to_nat n) by (replace (length b) with (2 * Z.to_nat n)%nat by (unfold len in Lb; lia); apply Nat.div2_double).
  rewrite !lanes2_combine; try (unfold len in *; destruct high; lia).
  f_equal. rewrite !skipn_combine, !combine_firstn. rewrite Z.sub_0_r. unfold half in *. rewrite Da, Db in *.
  destruct high; cbn [Z.to_nat skipn].
  - replace (Z.to_nat (2 * n - n)) with (Z.to_nat n) by lia. reflexivity.
  - rewrite Z.sub_0_r. rewrite !firstn_firstn, Nat.min_id. reflexivity.
Qed.
Lemma extmul_gen sg high w lo hi va vb : width_ok w -> width_ok (2 * w) -> val_wf va -> val_wf vb ->
  lo = (if high : bool then 8 / w else 0) -> hi = (if high then 2 * (8 / w) else 8 / w) ->
  (let? b := into_sg sg w vb in let? a := into_sg sg w va in let? r := lanes2 lo hi (fun x y => Ok (x * y)) a b in
   from_sg sg (2 * w) r) =
    Ok (vec (8 * (2 * w)) (map2 (fun a b => unsgn (8 * (2 * w)) (as_int (8 * w) sg a * as_int (8 * w) sg b))
      (half high (vlanes (8 * w) va)) (half high (vlanes (8 * w) vb)))).
Proof.
  intros Hw Hw2 Wa Wb -> ->. destruct (width_pos w Hw) as (W1 & _). rewrite !into_sg_ok by assumption. cbn [rbind].
  assert (W4 : w <= 4) by (destruct Hw as [->|[->|[->| ->]]]; try lia; destruct Hw2 as [H|[H|[H|H]]]; discriminate H).
  pose proof (vlanes_half w va Hw W4) as La. pose proof (vlanes_urange (8 * w) va ltac:(lia)) as Ra.
  pose proof (vlanes_half w vb Hw W4) as Lb. pose proof (vlanes_urange (8 * w) vb ltac:(lia)) as Rb.
  set (la := vlanes (8 * w) va) in *. set (lb := vlanes (8 * w) vb) in *. clearbody la lb.
  assert (N0 : 0 <= 8 / w) by (apply Z.div_pos; lia).
  rewrite lanes2_half by (unfold len in *; rewrite ?map_length; assumption). rewrite !half_map.
  assert (Ha : length (half high la) = Z.to_nat (8 / w)) by (apply half_length; unfold len in La; lia).
  assert (Hb : length (half high lb) = Z.to_nat (8 / w)) by (apply half_length; unfold len in Lb; lia).
  apply (half_Forall _ high) in Ra. apply (half_Forall _ high) in Rb.
  set (ha := half high la) in *. set (hb := half high lb) in *. clearbody ha hb. clear la lb La Lb.
  set (g := fun a b => unsgn (8 * (2 * w)) (as_int (8 * w) sg a * as_int (8 * w) sg b)).
  destruct (lanes2_all (fun x y => Ok (x * y)) (map (as_int (8 * w) sg) ha) (map (as_int (8 * w) sg) hb) (map2 g ha hb)
    (enc sg (8 * (2 * w))) (8 / w)) as (l & El & Fl).
  - unfold len. rewrite map_length. lia.
  - rewrite !map_length. lia.
  - rewrite map_length, map2_length; lia.
  - intros k Hk. rewrite map_length in Hk. rewrite !nth_map_as, nth_map2 by lia. eexists; split; [reflexivity|].
    apply enc_unsgn; [lia|]. rewrite Forall_forall in Ra, Rb. apply extmul_fits; [exact W1|apply Ra, nth_In; lia|apply Rb, nth_In; lia].
  - rewrite El. cbn [rbind]. apply from_sg_ok; [exact Hw2| |exact Fl].
    assert (L : length l = length (map2 g ha hb)) by (clear - Fl; induction Fl; cbn [length]; congruence).
    unfold len. rewrite L, map2_length by lia. rewrite Ha. destruct Hw as [->|[->|[->| ->]]]; try reflexivity; lia.
Qed.
Lemma extmul_ok F o M sg high : extmul_op o = Some (M, sg, high) ->
  exists g, num_op F o = Some (N2 g) /\ forall args va vb, val_wf va -> val_wf vb ->
    g args va vb = Ok (vec (2 * M) (map2 (fun a b => unsgn (2 * M) (as_int M sg a * as_int M sg b))
      (half high (vlanes M va)) (half high (vlanes M vb)))).
Proof.
  destruct o; cbn [extmul_op]; intros H; try discriminate H; injection H as <- <- <-; eexists; (split; [reflexivity|]);
    intros args va vb Wa Wb.
  1: exact (extmul_gen true false 1 0 8 va vb w1 w2 Wa Wb eq_refl eq_refl).
  1: exact (extmul_gen true true 1 8 16 va vb w1 w2 Wa Wb eq_refl eq_refl).
  1: exact (extmul_gen false false 1 0 8 va vb w1 w2 Wa Wb eq_refl eq_refl).
  1: exact (extmul_gen false true 1 8 16 va vb w1 w2 Wa Wb eq_refl eq_refl).
  1: exact (extmul_gen true false 2 0 4 va vb w2 w4 Wa Wb eq_refl eq_refl).
  1: exact (extmul_gen true true 2 4 8 va vb w2 w4 Wa Wb eq_refl eq_refl).
  1: exact (extmul_gen false false 2 0 4 va vb w2 w4 Wa Wb eq_refl eq_refl).
  1: exact (extmul_gen false true 2 4 8 va vb w2 w4 Wa Wb eq_refl eq_refl).
  1: exact (extmul_gen true false 4 0 2 va vb w4 w8 Wa Wb eq_refl eq_refl).
  1: exact (extmul_gen true true 4 2 4 va vb w4 w8 Wa Wb eq_refl eq_refl).
  1: exact (extmul_gen false false 4 0 2 va vb w4 w8 Wa Wb eq_refl eq_refl).
  1: exact (extmul_gen false true 4 2 4 va vb w4 w8 Wa Wb eq_refl eq_refl).
Qed.

(* sums of neighbours *)
Lemma pair_sums_fit sg n l : 1 <= n -> Forall (urange (8 * n)) l ->
  Forall (enc_int sg (8 * (2 * n))) (pair_sums (map (as_int (8 * n) sg) l)).
Proof.
  intros Hn. revert l. fix IH 1. intros [|x [|y l]] H; cbn [map pair_sums]; [constructor|constructor|].
  inversion H as [|x' l' Hx H' E]; subst. inversion H' as [|y' l'' Hy H'' E]; subst.
  constructor; [apply sum_fits; assumption|apply IH, H''].
Qed.
Lemma pairs16 (l : list Z) : length l = 16%nat ->
  rmapl (fun i => let? t11 := py_index l i in let? t12 := py_index l (i + 1) in Ok (t11 + t12)) (py_range_step 0 16 2) =
    Ok (pair_sums l).
Proof. intros H. do 16 (destruct l as [|? l]; [discriminate H|]). destruct l; [reflexivity|discriminate H]. Qed.
Lemma pairs8 (l : list Z) : length l = 8%nat ->
  rmapl (fun i => let? t11 := py_index l i in let? t12 := py_index l (i + 1) in Ok (t11 + t12)) (py_range_step 0 8 2) =
    Ok (pair_sums l).
Proof. intros H. do 8 (destruct l as [|? l]; [discriminate H|]). destruct l; [reflexivity|discriminate H]. Qed.
Lemma pair_sums_length l n : length l = (2 * n)%nat -> length (pair_sums l) = n.
Proof.
  revert l. induction n as [|n IH]; intros l H; [destruct l; [reflexivity|discriminate H]|].
  destruct l as [|x [|y l]]; cbn [length] in H; try lia. cbn [pair_sums length]. f_equal. apply IH. lia.
Qed.
Lemma pairwise_gen sg w n va : width_ok w -> width_ok (2 * w) -> val_wf va -> n = 16 / w ->
  (forall l : list Z, length l = Z.to_nat n ->
    rmapl (fun i => let? t11 := py_index l i in let? t12 := py_index l (i + 1) in Ok (t11 + t12)) (py_range_step 0 n 2) =
    Ok (pair_sums l)) ->
  (let? a := into_sg sg w va in
   let? r := rmapl (fun i => let? t11 := py_index a i in let? t12 := py_index a (i + 1) in Ok (t11 + t12)) (py_range_step 0 n 2) in
   from_sg sg (2 * w) r) =
    Ok (vec (8 * (2 * w)) (map (unsgn (8 * (2 * w))) (pair_sums (map (as_int (8 * w) sg) (vlanes (8 * w) va))))).
Proof.
  intros Hw Hw2 Wa -> H. destruct (width_pos w Hw) as (W1 & _). rewrite into_sg_ok by assumption. cbn [rbind].
  pose proof (vlanes_len w va Hw) as L. pose proof (vlanes_urange (8 * w) va ltac:(lia)) as R.
  rewrite H by (rewrite map_length; unfold len in L; lia). cbn [rbind].
  apply from_sg_ok; [exact Hw2| |apply Forall2_enc; [lia|apply pair_sums_fit; assumption]].
  unfold len in *. rewrite (pair_sums_length _ (Z.to_nat (8 / w))).
  - destruct Hw as [->|[->|[->| ->]]]; reflexivity.
  - rewrite map_length. destruct Hw as [->|[->|[->| ->]]]; apply Nat2Z.inj; rewrite L; reflexivity.
Qed.
Lemma pairwise_ok F o M sg : pairwise_op o = Some (M, sg) ->
  exists g, num_op F o = Some (N1 g) /\ forall args va, val_wf va ->
    g args va = Ok (vec (2 * M) (map (unsgn (2 * M)) (pair_sums (map (as_int M sg) (vlanes M va))))).
Proof.
  destruct o; cbn [pairwise_op]; intros H; try discriminate H; injection H as <- <-; eexists; (split; [reflexivity|]);
    intros args va Wa.
  1: exact (pairwise_gen true 1 16 va w1 w2 Wa eq_refl pairs16).
  1: exact (pairwise_gen false 1 16 va w1 w2 Wa eq_refl pairs16).
  1: exact (pairwise_gen true 2 8 va w2 w4 Wa eq_refl pairs8).
  1: exact (pairwise_gen false 2 8 va w2 w4 Wa eq_refl pairs8).
Qed.

(* dot product *)
Lemma dot8 (a b : list Z) : length a = 8%nat -> length b = 8%nat ->
  rmapl (fun i => let? a0 := py_index a (i * 2) in let? b0 := py_index b (i * 2) in let? a1 := py_index a (i * 2 + 1) in
    let? b1 := py_index b (i * 2 + 1) in Ok (i_fit 4 (a0 * b0 + a1 * b1))) (py_range 4) =
    Ok (map (i_fit 4) (pair_sums (map2 Z.mul a b))).
Proof.
  intros Ha Hb. do 8 (destruct a as [|? a]; [discriminate Ha|]). destruct a; [|discriminate Ha].
  do 8 (destruct b as [|? b]; [discriminate Hb|]). destruct b; [|discriminate Hb]. 
  change (py_range 4) with [0; 1; 2; 3]. reflexivity.
Qed.
Lemma map2_map {A B C D E} (f : A -> B -> C) (g : D -> A) (h : E -> B) la lb :
  map2 f (map g la) (map h lb) = map2 (fun x y => f (g x) (h y)) la lb.
Proof. revert lb. induction la as [|a la IH]; intros [|b lb]; cbn [map map2]; try reflexivity. f_equal. apply IH. Qed.
Lemma dot_ok F : exists g, num_op F O_i32x4_dot_i16x8_s = Some (N2 g) /\ forall args va vb, val_wf va -> val_wf vb ->
  g args va vb = Ok (vec 32 (map (unsgn 32) (pair_sums (map2 (fun a b => sgn 16 a * sgn 16 b) (vlanes 16 va) (vlanes 16 vb))))).
Proof.
  eexists; split; [reflexivity|]. intros args va vb Wa Wb. cbv beta.
  change (into_v128_i 2) with (into_sg true 2). rewrite !into_sg_ok by (try assumption; apply w2). cbn [rbind].
  pose proof (vlanes_len 2 va w2) as La. pose proof (vlanes_len 2 vb w2) as Lb. change (16 / 2) with 8 in *. change (8 * 2) with 16 in *.
  rewrite dot8 by (rewrite map_length; unfold len in *; lia). cbn [rbind].
  rewrite map2_map. change (fun x y => as_int 16 true x * as_int 16 true y) with (fun a b => sgn 16 a * sgn 16 b).
  set (ps := pair_sums _).
  apply (from_sg_ok true 4); [exact w4| |].
  - unfold len. rewrite map_length. unfold ps. rewrite (pair_sums_length _ 4); [reflexivity|].
    rewrite map2_length; unfold len in *; lia.
  - clearbody ps. induction ps as [|z ps IH]; cbn [map]; constructor; [|exact IH]. apply (fit_enc 4). lia.
Qed.

(* narrowing *)
Lemma narrow_gen sg w va vb : width_ok w -> width_ok (2 * w) -> val_wf va -> val_wf vb ->
  (let? b := into_v128_i (2 * w) vb in let? a := into_v128_i (2 * w) va in
   let? r := Ok (map (fun e => (if sg : bool then i_sat else u_sat) w e) (a ++ b)) in from_sg sg w r) =
    Ok (vec (8 * w) (map (fun a => sat (8 * w) sg (sgn (8 * (2 * w)) a)) (vlanes (8 * (2 * w)) va ++ vlanes (8 * (2 * w)) vb))).
Proof.
  intros Hw Hw2 Wa Wb. destruct (width_pos w Hw) as (W1 & _).
  pose proof (into_sg_ok true (2 * w) va Hw2 Wa) as Ea. pose proof (into_sg_ok true (2 * w) vb Hw2 Wb) as Eb.
  cbn [into_sg] in Ea, Eb. rewrite Ea, Eb. cbn [rbind].
  pose proof (vlanes_len (2 * w) va Hw2) as La. pose proof (vlanes_len (2 * w) vb Hw2) as Lb.
  rewrite <- map_app. set (l := vlanes (8 * (2 * w)) va ++ vlanes (8 * (2 * w)) vb).
  assert (Ll : len l = 16 / w).
  { unfold l, len in *. rewrite app_length, Nat2Z.inj_add, La, Lb. destruct Hw as [->|[->|[->| ->]]]; reflexivity. }
  clearbody l. rewrite map_map. apply from_sg_ok; [exact Hw|unfold len in *; rewrite map_length; exact Ll|].
  clear Ll La Lb. induction l as [|x l IH]; cbn [map]; constructor; [|exact IH]. cbn [as_int].
  destruct sg; cbn [enc sat]; [apply fam_sat_s|apply fam_sat_u]; exact W1.
Qed.
Lemma narrow_ok F o N sg : narrow_op o = Some (N, sg) ->
  exists g, num_op F o = Some (N2 g) /\ forall args va vb, val_wf va -> val_wf vb ->
    g args va vb = Ok (vec N (map (fun a => sat N sg (sgn (2 * N) a)) (vlanes (2 * N) va ++ vlanes (2 * N) vb))).
Proof.
  destruct o; cbn [narrow_op]; intros H; try discriminate H; injection H as <- <-; eexists; (split; [reflexivity|]);
    intros args va vb Wa Wb.
  1: exact (narrow_gen true 1 va vb w1 w2 Wa Wb).
  1: exact (narrow_gen false 1 va vb w1 w2 Wa Wb).
  1: exact (narrow_gen true 2 va vb w2 w4 Wa Wb).
  1: exact (narrow_gen false 2 va vb w2 w4 Wa Wb).
Qed.

(* ---- all 128 bits ---- *)
Lemma to_le_lanes n z : to_le n z = lanes 8 n z.
Proof.
  revert z. induction n as [|n IH]; intros z; [reflexivity|]. rewrite lanes_S, to_le_S by lia. change (2 ^ 8) with 256.
  f_equal. apply IH.
Qed.
Lemma lane_bits w x k i : 0 <= w -> 0 <= k -> 0 <= i -> Z.testbit (lane w x k) i = (i <? w) && Z.testbit x (i + w * k).
Proof.
  intros Hw Hk Hi. unfold lane. destruct (Z.ltb_spec i w) as [H|H]; cbn [andb].
  - rewrite Z.mod_pow2_bits_low by lia. rewrite Z.div_pow2_bits by nia. reflexivity.
  - apply Z.mod_pow2_bits_high. lia.
Qed.
Lemma data_lanes v : val_wf v -> v_data v = lanes 8 16 (low 128 v).
Proof. intros W. rewrite low128 by exact W. apply bytes_are_lanes, W. Qed.
Lemma nth_lanes w n x k : (k < n)%nat -> nth k (lanes w n x) 0 = lane w x (Z.of_nat k).
Proof.
  intros Hk. unfold lanes. rewrite nth_indep with (d' := lane w x (Z.of_nat 0)) by (rewrite map_length, seq_length; lia).
  rewrite (map_nth (fun k => lane w x (Z.of_nat k))). rewrite seq_nth by lia. reflexivity.
Qed.
Lemma from_v128_lanes z : from_v128 (lanes 8 16 z) = Ok (num_val T_v128 z).
Proof. rewrite from_v128_ok by apply lanes_length. unfold num_val. rewrite to_le_lanes. reflexivity. Qed.
Lemma logic_gen fb f va vb : val_wf va -> val_wf vb ->
  (forall x y k, 0 <= k -> fb (lane 8 x k) (lane 8 y k) = lane 8 (f x y) k) ->
  (let? b := into_v128 vb in let? a := into_v128 va in let? r := lanes2 0 16 (fun x y => Ok (fb x y)) a b in from_v128 r) =
    Ok (num_val T_v128 (f (low 128 va) (low 128 vb))).
Proof.
  intros Wa Wb H. rewrite !into_v128_ok by assumption. cbn [rbind]. rewrite !data_lanes by assumption.
  destruct (lanes2_all (fun x y => Ok (fb x y)) (lanes 8 16 (low 128 va)) (lanes 8 16 (low 128 vb))
    (lanes 8 16 (f (low 128 va) (low 128 vb))) eq 16) as (l & El & Fl); try (unfold len; rewrite ?lanes_length; reflexivity).
  - intros k Hk. rewrite lanes_length in Hk. eexists; split; [reflexivity|]. rewrite !nth_lanes by exact Hk. apply H. lia.
  - rewrite El. cbn [rbind]. replace l with (lanes 8 16 (f (low 128 va) (low 128 vb))); [apply from_v128_lanes|].
    clear - Fl. symmetry. induction Fl; congruence.
Qed.
Lemma land_lane x y k : 0 <= k -> Z.land (lane 8 x k) (lane 8 y k) = lane 8 (Z.land x y) k.
Proof.
  intros Hk. apply Z.bits_inj'. intros i Hi. rewrite Z.land_spec, !lane_bits, Z.land_spec by lia. destruct (i <? 8); reflexivity.
Qed.
Lemma lor_lane x y k : 0 <= k -> Z.lor (lane 8 x k) (lane 8 y k) = lane 8 (Z.lor x y) k.
Proof.
  intros Hk. apply Z.bits_inj'. intros i Hi. rewrite Z.lor_spec, !lane_bits, Z.lor_spec by lia. destruct (i <? 8); reflexivity.
Qed.
Lemma lxor_lane x y k : 0 <= k -> Z.lxor (lane 8 x k) (lane 8 y k) = lane 8 (Z.lxor x y) k.
Proof.
  intros Hk. apply Z.bits_inj'. intros i Hi. rewrite Z.lxor_spec, !lane_bits, Z.lxor_spec by lia. destruct (i <? 8); reflexivity.
Qed.
Lemma ldiff_lane x y k : 0 <= k -> Z.land (lane 8 x k) (Z.lnot (lane 8 y k)) = lane 8 (Z.ldiff x y) k.
Proof.
  intros Hk. rewrite <- Z.ldiff_land. apply Z.bits_inj'. intros i Hi. rewrite Z.ldiff_spec, !lane_bits, Z.ldiff_spec by lia.
  destruct (i <? 8); reflexivity.
Qed.
Lemma logic_ok F o f : logic_op o = Some f ->
  exists g, num_op F o = Some (N2 g) /\ forall args va vb, val_wf va -> val_wf vb ->
    g args va vb = Ok (num_val T_v128 (f (low 128 va) (low 128 vb))).
Proof.
  destruct o; cbn [logic_op]; intros H; try discriminate H; injection H as <-; eexists; (split; [reflexivity|]);
    intros args va vb Wa Wb.
  1: exact (logic_gen Z.land Z.land va vb Wa Wb land_lane).
  1: exact (logic_gen (fun a b => Z.land a (Z.lnot b)) Z.ldiff va vb Wa Wb ldiff_lane).
  1: exact (logic_gen Z.lor Z.lor va vb Wa Wb lor_lane).
  1: exact (logic_gen Z.lxor Z.lxor va vb Wa Wb lxor_lane).
Qed.
Lemma not_lane x k : 0 <= x < 2 ^ 128 -> 0 <= k < 16 -> u_fit 1 (Z.lnot (lane 8 x k)) = lane 8 (2 ^ 128 - 1 - x) k.
Proof.
  intros Hx Hk. rewrite u_fit_eq by lia. change (bits 1) with 8.
  assert (E : 2 ^ 128 - 1 - x = Z.ldiff (Z.ones 128) x).
  { rewrite <- Z.sub_nocarry_ldiff; [rewrite Z.ones_equiv; reflexivity|]. apply Z.bits_inj'. intros i Hi. rewrite Z.ldiff_spec, Z.bits_0.
    destruct (Z.ltb_spec i 128) as [H|H]; [rewrite Z.ones_spec_low by lia; apply andb_false_r|].
    rewrite (testbit_above 128 x) by (try exact Hx; lia). reflexivity. }
  rewrite E. apply Z.bits_inj'. intros i Hi. rewrite lane_bits by lia. destruct (Z.ltb_spec i 8) as [H|H]; cbn [andb].
  - rewrite Z.mod_pow2_bits_low, Z.lnot_spec, lane_bits by lia. replace (i <? 8) with true by lia. cbn [andb].
    rewrite Z.ldiff_spec, Z.ones_spec_low by lia. reflexivity.
  - apply Z.mod_pow2_bits_high. lia.
Qed.
Lemma not_ok F : exists g, num_op F O_v128_not = Some (N1 g) /\ forall args va, val_wf va ->
  g args va = Ok (num_val T_v128 (2 ^ 128 - 1 - low 128 va)).
Proof.
  eexists; split; [reflexivity|]. intros args va Wa. cbv beta. rewrite into_v128_ok by exact Wa. cbn [rbind].
  rewrite data_lanes by exact Wa. rewrite <- from_v128_lanes. f_equal. unfold lanes. rewrite map_map. apply map_ext_in.
  intros k Hk. apply in_seq in Hk. apply not_lane; [apply low_range; lia|lia].
Qed.
Lemma lanes3_ok f (a b c : list Z) n : n = len a -> len b = len a -> len c = len a ->
  lanes3 0 n (fun x y z => Ok (f x y z)) a b c =
    Ok (map (fun k => f (nth k a 0) (nth k b 0) (nth k c 0)) (seq 0 (length a))).
Proof.
  intros -> Hb Hc. unfold lanes3. rewrite py_range_from_0.
  rewrite (rmapl_ok _ (fun i => f (nth (Z.to_nat i) a 0) (nth (Z.to_nat i) b 0) (nth (Z.to_nat i) c 0))).
  - f_equal. unfold py_range, len. rewrite map_map, Nat2Z.id. apply map_ext. intros k. rewrite Nat2Z.id. reflexivity.
  - intros i Hi. apply py_range_in in Hi. rewrite (py_index_in a i 0), (py_index_in b i 0), (py_index_in c i 0) by lia. reflexivity.
Qed.
Lemma bitselect_ok F : exists g, num_op F O_v128_bitselect = Some (N3 g) /\ forall args va vb vc, val_wf va -> val_wf vb -> val_wf vc ->
  g args va vb vc = Ok (num_val T_v128 (Z.lor (Z.land (low 128 va) (low 128 vc)) (Z.ldiff (low 128 vb) (low 128 vc)))).
Proof.
  eexists; split; [reflexivity|]. intros args va vb vc Wa Wb Wc. cbv beta. rewrite !into_v128_ok by assumption. cbn [rbind].
  rewrite !data_lanes by assumption.
  rewrite (lanes3_ok (fun x y z => Z.lor (Z.land x z) (Z.land y (Z.lnot z)))) by (unfold len; rewrite !lanes_length; reflexivity).
  cbn [rbind]. rewrite <- from_v128_lanes. f_equal. rewrite lanes_length. symmetry. unfold lanes at 1. apply map_ext_in. intros k Hk.
  apply in_seq in Hk. rewrite !nth_lanes by lia. rewrite land_lane, ldiff_lane, lor_lane by lia. reflexivity.
Qed.
Lemma le_of_zero_iff d : bytes d -> existsb (fun e => negb (e =? 0)) d = negb (le_of d =? 0).
Proof.
  induction d as [|x d IH]; intros B; [reflexivity|]. inversion B as [|x' d' Hx Hd E]; subst. cbn [existsb le_of].
  rewrite IH by exact Hd. pose proof (le_of_bound d Hd) as P. unfold byte in Hx. lia.
Qed.
Lemma any_true_ok F : exists g, num_op F O_v128_any_true = Some (N1 g) /\ forall args va, val_wf va ->
  g args va = Ok (num_val T_i32 (truth (negb (low 128 va =? 0)))).
Proof.
  eexists; split; [reflexivity|]. intros args va Wa. cbv beta. rewrite into_v128_ok by exact Wa. cbn [rbind].
  rewrite le_of_zero_iff by apply Wa. rewrite low128 by exact Wa. apply truth_val.
Qed.
Lemma all_true_gen w va : width_ok w -> val_wf va ->
  (let? a := into_v128_i w va in let? r := Ok (if forallb (fun e => negb (e =? 0)) a then 1 else 0) in from_i32 r) =
    Ok (num_val T_i32 (truth (forallb (fun a => negb (a =? 0)) (vlanes (8 * w) va)))).
Proof.
  intros Hw Wa. destruct (width_pos w Hw) as (W1 & _). pose proof (into_sg_ok true w va Hw Wa) as E. cbn [into_sg] in E.
  rewrite E. cbn [rbind]. pose proof (vlanes_urange (8 * w) va ltac:(lia)) as R.
  replace (forallb (fun e => negb (e =? 0)) (map (as_int (8 * w) true) (vlanes (8 * w) va)))
    with (forallb (fun a => negb (a =? 0)) (vlanes (8 * w) va)); [apply truth_val|].
  clear E. induction R as [|x l Hx Hl IH]; cbn [map forallb]; [reflexivity|]. rewrite IH. f_equal. f_equal. cbn [as_int].
  rewrite <- (sgn_eqb (8 * w) x 0) by (try exact Hx; try lia; unfold urange; lia). f_equal.
  unfold sgn. assert (0 < 2 ^ (8 * w - 1)) by (apply Z.pow_pos_nonneg; lia). destruct (Z.ltb_spec 0 (2 ^ (8 * w - 1))); lia.
Qed.
Lemma all_true_ok F o N : all_true_op o = Some N ->
  exists g, num_op F o = Some (N1 g) /\ forall args va, val_wf va ->
    g args va = Ok (num_val T_i32 (truth (forallb (fun a => negb (a =? 0)) (vlanes N va)))).
Proof.
  destruct o; cbn [all_true_op]; intros H; try discriminate H; injection H as <-; eexists; (split; [reflexivity|]);
    intros args va Wa.
  1: exact (all_true_gen 1 va w1 Wa).
  1: exact (all_true_gen 2 va w2 Wa).
  1: exact (all_true_gen 4 va w4 Wa).
  1: exact (all_true_gen 8 va w8 Wa).
Qed.
Lemma lor_plus x y c : 0 <= c -> x mod 2 ^ c = 0 -> 0 <= y < 2 ^ c -> Z.lor x y = x + y.
Proof.
  intros Hc Hx Hy. symmetry. rewrite Z.add_nocarry_lxor, Z.lxor_lor.
  all: try reflexivity.
  all: apply Z.bits_inj'; intros i Hi; rewrite Z.land_spec, Z.bits_0; destruct (Z.ltb_spec i c).
  1, 3: rewrite <- (Z.mod_pow2_bits_low x c) by lia; rewrite Hx, Z.bits_0; reflexivity.
  all: rewrite (testbit_above c y) by lia; apply andb_false_r.
Qed.
Lemma join1_snoc l x : join 1 (l ++ [x]) = join 1 l + x * 2 ^ len l.
Proof.
  induction l as [|y l IH]; cbn [app join]; [change (len (@nil Z)) with 0; cbn; lia|].
  rewrite IH, len_cons. rewrite Z.pow_add_r by (unfold len; lia). change (2 ^ 1) with 2. lia.
Qed.
Definition msb (N a : Z) : Z := a / 2 ^ (N - 1).
Lemma msb_range N l : 0 < N -> Forall (urange N) l -> Forall (urange 1) (map (msb N) l).
Proof.
  intros HN. induction 1 as [|x l Hx Hl IH]; cbn [map]; constructor; [|exact IH].
  assert (P : 0 < 2 ^ (N - 1)) by (apply Z.pow_pos_nonneg; lia). assert (D : 2 ^ N = 2 * 2 ^ (N - 1)) by (apply pow_half; lia).
  unfold urange, msb in *. rewrite D in Hx. split; [apply Z.div_pos; lia|]. apply Z.div_lt_upper_bound; lia.
Qed.
Lemma msb_sgn N x : 0 < N -> urange N x -> msb N x = if sgn N x <? 0 then 1 else 0.
Proof.
  intros HN Hx. assert (P : 0 < 2 ^ (N - 1)) by (apply Z.pow_pos_nonneg; lia). assert (D : 2 ^ N = 2 * 2 ^ (N - 1)) by (apply pow_half; lia).
  unfold urange, msb, sgn in *. rewrite D in *. set (p := 2 ^ (N - 1)) in *. clearbody p. destruct (Z.ltb_spec x p) as [H|H].
  - rewrite Z.div_small by lia. destruct (Z.ltb_spec x 0); lia.
  - replace x with (1 * p + (x - p)) at 1 by lia. rewrite Z.div_add_l by lia. rewrite Z.div_small by lia.
    destruct (Z.ltb_spec (x - 2 * p) 0); lia.
Qed.
Lemma bitmask_ok_gen N l : 0 < N -> Forall (urange N) l ->
  bitmask (len l) (map (sgn N) l) = Ok (join 1 (map (msb N) l)).
Proof.
  intros HN R. unfold bitmask, py_range, len. rewrite Nat2Z.id.
  assert (G : forall suf pre, l = pre ++ suf ->
    fold_left (fun r i => let? b := r in let? x := py_index (map (sgn N) l) i in Ok (if x <? 0 then Z.lor b (Z.shiftl 1 i) else b))
      (map Z.of_nat (seq (length pre) (length suf))) (Ok (join 1 (map (msb N) pre))) = Ok (join 1 (map (msb N) l))).
  { induction suf as [|x suf IH]; intros pre E; cbn [length seq map fold_left]; [rewrite E, app_nil_r; reflexivity|].
    cbn [rbind]. rewrite (py_index_in _ _ 0) by (subst l; unfold len; rewrite map_length, app_length; cbn [length]; lia).
    cbn [rbind]. rewrite Nat2Z.id. rewrite E at 1. rewrite map_app, app_nth2 by (rewrite map_length; lia).
    rewrite map_length, Nat.sub_diag. cbn [map nth].
    assert (Hx : urange N x) by (rewrite Forall_forall in R; apply R; rewrite E; apply in_elt).
    assert (Rp : Forall (urange N) pre) by (rewrite E in R; apply Forall_app in R; apply R).
    specialize (IH (pre ++ [x])). rewrite <- app_assoc in IH. specialize (IH E). rewrite app_length in IH. cbn [length] in IH.
    rewrite Nat.add_1_r in IH. rewrite <- IH. f_equal. f_equal. rewrite map_app. cbn [map]. rewrite join1_snoc.
    rewrite msb_sgn by assumption. pose proof (join_range 1 (map (msb N) pre) ltac:(lia) (msb_range N pre HN Rp)) as J.
    rewrite Z.mul_1_l in J. unfold len in *. rewrite map_length in *.
    destruct (sgn N x <? 0); [|lia]. rewrite Z.shiftl_mul_pow2, Z.mul_1_l, Z.lor_comm by lia.
    rewrite (lor_plus _ _ (Z.of_nat (length pre))); [lia|lia|apply Z_mod_same_full|exact J]. }
  apply (G l []). reflexivity.
Qed.
Lemma bitmask_gen w n va : width_ok w -> val_wf va -> n = 16 / w ->
  (let? a := into_v128_i w va in let? r := bitmask n a in from_i32 r) =
    Ok (num_val T_i32 (join 1 (map (msb (8 * w)) (vlanes (8 * w) va)))).
Proof.
  intros Hw Wa ->. destruct (width_pos w Hw) as (W1 & W2 & W3 & W4). pose proof (into_sg_ok true w va Hw Wa) as E. cbn [into_sg] in E.
  rewrite E. cbn [rbind]. pose proof (vlanes_urange (8 * w) va ltac:(lia)) as R. pose proof (vlanes_len w va Hw) as L.
  rewrite <- L. change (map (as_int (8 * w) true)) with (map (sgn (8 * w))). rewrite bitmask_ok_gen by (try exact R; lia). cbn [rbind].
  apply enc_i32, small_enc; [lia|].
  pose proof (join_range 1 (map (msb (8 * w)) (vlanes (8 * w) va)) ltac:(lia) (msb_range (8 * w) _ ltac:(lia) R)) as J.
  unfold urange, len in *. rewrite map_length, L in J. destruct J as [J1 J2]. split; [exact J1|].
  eapply Z.lt_le_trans; [exact J2|]. apply Z.pow_le_mono_r; [lia|]. destruct Hw as [->|[->|[->| ->]]]; cbn; lia.
Qed.
Lemma bitmask_ok F o N : bitmask_op o = Some N ->
  exists g, num_op F o = Some (N1 g) /\ forall args va, val_wf va ->
    g args va = Ok (num_val T_i32 (join 1 (map (fun a => a / 2 ^ (N - 1)) (vlanes N va)))).
Proof.
  destruct o; cbn [bitmask_op]; intros H; try discriminate H; injection H as <-; eexists; (split; [reflexivity|]);
    intros args va Wa.
  1: exact (bitmask_gen 1 16 va w1 Wa eq_refl).
  1: exact (bitmask_gen 2 8 va w2 Wa eq_refl).
  1: exact (bitmask_gen 4 4 va w4 Wa eq_refl).
  1: exact (bitmask_gen 8 2 va w8 Wa eq_refl).
Qed.
