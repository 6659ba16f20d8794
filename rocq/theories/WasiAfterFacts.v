(* Facts about the descriptor table after main, and the calls on the standard streams then. *)
From Coq Require Import ZArith List Bool Lia ZifyBool ZifyNat.
From Verif Require Import Py Syntax Store Val Machine Utf8 Os Wasi WasiRun SpecMem SpecFormat SpecWasi SpecWasiRun PyFacts MemFacts
  WasiFacts WasiTableFacts WasiRunFacts WasiEndFacts WasiNamedFacts.
Import ListNotations.
Open Scope Z_scope.

(* ---- main leaves the guest's side of the table ---- *)
Definition shut (i : nat) (t t' : list file) : Prop :=
  length t' = length t /\ forall k f, nth_error t k = Some f ->
    nth_error t' k = Some f \/ ((i <= k)%nat /\ nth_error t' k = Some (set_host_open f false)).
Lemma shut_refl i t : shut i t t.
Proof. split; [reflexivity|]. intros k f N. now left. Qed.
Lemma shut_upd i t k f : nth_error t k = Some f -> (i <= k)%nat -> shut i t (upd t k (set_host_open f false)).
Proof.
  intros N L. split; [apply upd_length|]. intros j g Nj. destruct (Nat.eq_dec j k) as [->|NE].
  - right. split; [exact L|]. rewrite N in Nj. injection Nj as <-. eapply nth_upd_same, N.
  - left. now rewrite nth_upd_other.
Qed.
Lemma shut_trans i t1 t2 t3 : shut i t1 t2 -> shut i t2 t3 -> shut i t1 t3.
Proof.
  intros (A1 & A2) (B1 & B2). split; [congruence|]. intros k f N. destruct (A2 k f N) as [M|(L & M)]; [exact (B2 k f M)|].
  right. split; [exact L|]. destruct (B2 k _ M) as [Q|(_ & Q)]; exact Q.
Qed.
Lemma close_shut Os l : forall i w, l = skipn i (p_fd (w_self w)) -> (3 <= i)%nat ->
  shut 3 (p_fd (w_self w)) (p_fd (w_self (snd (close_from Os (Z.of_nat i) l w)))).
Proof.
  induction l as [|f l IH]; intros i w E I3; cbn [close_from]; [apply shut_refl|]. apply skipn_step in E. destruct E as (Hf & E).
  replace (Z.of_nat i + 1) with (Z.of_nat (S i)) by lia. unfold bind at 1.
  destruct (wasm_type f =? T_CHARACTER_DEVICE); [|destruct (host_open f)].
  - unfold ret. apply IH; [exact E|lia].
  - unfold bind at 1. unfold ask_unit. unfold bind at 1. unfold ask.
    destruct (Os (w_log w) (OsClose (host_fd f))); try apply shut_refl. unfold ret. set (w1 := mkworld _ _ _ _).
    assert (entry w1 (Z.of_nat i) f) as E1 by (split; [lia|now rewrite Nat2Z.id]). rewrite (put_file_at w1 (Z.of_nat i) f _ E1), Nat2Z.id.
    eapply shut_trans; [|apply IH; [|lia]].
    + cbn [with_fd w_self p_fd w1]. apply shut_upd; [exact Hf|exact I3].
    + cbn [with_fd w_self p_fd w1]. rewrite E. symmetry. apply skipn_upd.
  - unfold ret. apply IH; [exact E|lia].
Qed.
Lemma finally_shut Os w : shut 3 (p_fd (w_self w)) (p_fd (w_self (snd (main_finally Os w)))).
Proof.
  unfold main_finally. unfold bind at 1. unfold self. unfold bind at 1.
  pose proof (rewinds_self (py_slice (p_fd (w_self w)) 1 3) w) as (S & _). destruct (forl _ _ w) as [[u|e] w1]; cbn [snd] in *; [|rewrite S; apply shut_refl].
  rewrite <- S. destruct (Z.le_gt_cases 3 (len (p_fd (w_self w1)))) as [G|G].
  - apply (close_shut Os _ 3); [|lia]. rewrite py_slice_in by lia. apply firstn_all2. rewrite skipn_length. unfold len. lia.
  - replace (py_slice (p_fd (w_self w1)) 3 (len (p_fd (w_self w1)))) with (@nil file); [apply shut_refl|].
    unfold py_slice, py_bound. cbn zeta. rewrite (skipn_all2 (n := Z.to_nat _)); [symmetry; apply firstn_nil|].
    change (3 <? 0) with false. cbn iota. unfold len in *. lia.
Qed.

(* ---- the standard streams afterwards ---- *)
Definition streams_ok (init : list Z) (w : world) : Prop :=
  (forall fd f, fd < 3 -> is_open w fd f -> live init (w_log w) (host_fd f)) /\ only_live init (w_log w).
Lemma finally_streams init Os w : sane init Os -> table_ok init w -> only_live init (w_log w) -> streams_ok init (snd (main_finally Os w)).
Proof.
  intros SN (T1 & T2 & T3) O. destruct (finally_ok init Os w SN) as (A & _ & B); [split; [exact T2|split; [exact T3|exact O]]|].
  split; [|exact B]. intros fd f L ((P & N) & W). destruct (finally_shut Os w) as (SL & SH).
  destruct (nth_error (p_fd (w_self w)) (Z.to_nat fd)) as [g|] eqn:E.
  - destruct (SH _ _ E) as [M|(M & _)]; [|lia]. assert (g = f) as -> by congruence. apply A; [now apply nth_error_In in N|]. apply T1; [now apply nth_error_In in E|exact W].
  - apply nth_error_None in E. rewrite <- SL in E. apply nth_error_None in E. congruence.
Qed.
Lemma own_neutral H evs : own H evs -> Forall (fun e : event => neutral (fst e)) evs -> Forall (fun e : event => Forall H (uses (fst e))) evs.
Proof.
  induction evs as [|[c r] evs IH]; intros O N; [constructor|]. destruct O as (O1 & O2). inversion N as [|? ? N1 N2]; subst. constructor; [|now apply IH].
  eapply Forall_impl; [|exact O1]. intros h [Hh|(a & b & c' & d & I)]; [exact Hh|]. exfalso. exact (proj1 (Forall_forall _ _) N2 _ I).
Qed.
Lemma std_step init Os w x : only_std x -> streams_ok init w -> streams_ok init (act Os w x).
Proof.
  intros S (A & B). destruct x as [f args|m p]; [|now split]. cbn [act only_std] in *.
  assert (changes_table f = false /\ f <> F_poll_oneoff /\ Forall (fun fd => fd < 3) (descriptors f args)) as (T & NP & D).
  { destruct f; try contradiction; (split; [reflexivity|]); (split; [discriminate|exact S]). }
  destruct (quiet_call Os (w_self w) w f args T eq_refl) as (Q & evs & L & C). apply calm_neutral in C.
  destruct (only_named Os w f args NP) as (evs' & L' & O). rewrite L in L'. apply app_inv_tail in L'. subst evs'.
  pose proof (own_neutral _ _ O C) as K. split.
  - intros fd g Lt Op. rewrite L. apply live_neutrals; [exact C|]. apply (A fd g Lt). unfold is_open, entry in *. now rewrite Q in Op.
  - rewrite L. apply only_live_more; [|exact B]. apply Forall_forall. intros e I. pose proof (proj1 (Forall_forall _ _) C e I). pose proof (proj1 (Forall_forall _ _) K e I) as Ke.
    split; [assumption|]. eapply Forall_impl; [|exact Ke]. intros h (fd & g & I1 & I2 & <-). apply (A fd g); [|exact I2]. exact (proj1 (Forall_forall _ _) D fd I1).
Qed.
Lemma std_history init Os h : forall w, Forall only_std h -> streams_ok init w -> streams_ok init (history Os w h).
Proof.
  induction h as [|x h IH]; intros w S K; [exact K|]. inversion S; subst. change (history Os w (x :: h)) with (history Os (act Os w x) h).
  apply IH; [assumption|]. now apply std_step.
Qed.
