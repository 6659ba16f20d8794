(* C106: function references never dangle. *)
From Coq Require Import ZArith List Bool Lia.
From Verif Require Import Py Arith Floatops Val Opcode Numeric Syntax Store Basic Machine
  SpecInt SpecNum SpecMachine SpecMem SpecRun SpecControl SpecType SpecConverse Float PropControl TypeFacts TypeIeeeFacts CallFacts PropType ConverseFacts PropConverse
  SpecInst SpecValid SpecRef HistoryFacts PropValid RefFacts RefHistoryFacts NumFacts.
Import ListNotations.
Open Scope Z_scope.

(* C106, part 1. Whatever code the machine runs, validated or not, for however many turns, and whether or not it raises:
   references that referred to functions do so afterwards; and so do the results of an invocation. *)
Theorem C106_references F host sg m : host_refs sg host -> machine_refs sg m ->
  (forall n, machine_refs sg (snd (evaluate F host n m))) /\
  (forall n a args, Forall (refers (length (s_func (k_store m)))) args ->
     machine_refs sg (snd (invocate F host n a args m)) /\
     forall rs, fst (invocate F host n a args m) = Ok rs -> Forall (refers (length (s_func (k_store (snd (invocate F host n a args m)))))) rs).
Proof.
  intros HR HM. split.
  - intros n. pose proof (f_evaluate sg F host HR n m HM) as H. destruct (evaluate F host n m) as [[u|e] m']; exact H.
  - intros n a args HA. pose proof (f_invocate sg F host HR n a args m HM HA) as H. destruct (invocate F host n a args m) as [[rs|e] m']; cbn [fst snd].
    + split; [apply H|]. intros rs' E. injection E as <-. apply H.
    + split; [exact H|discriminate].
Qed.
Print Assumptions C106_references.
(* C106, part 2. They do after every honest history. *)
Theorem C106_histories F host sg m : converts F -> well_behaved host -> host_typed sg host -> host_refs sg host ->
  honest F host sg machine_empty m -> history F host sg machine_empty m /\ machine_refs sg m.
Proof.
  intros H1 H2 H3 H4 H. split; [exact (honest_history F host sg _ _ H)|exact (honest_refs F H1 host H2 sg H3 H4 m H)].
Qed.
Print Assumptions C106_histories.
(* C106, part 3. C105 without exception: after an honest history, and for arguments that refer to existing functions, a
   validated function returns exactly what its structured run returns, raises exactly if it traps and runs forever exactly
   if there is none. *)
Theorem C106_exactly F sg hs m a t h code args : converts F -> well_behaved (plain_host hs) -> host_typed sg (plain_host hs) ->
  host_refs sg (plain_host hs) -> honest F (plain_host hs) sg machine_empty m ->
  nth_error (s_func (k_store m)) a = Some (FWasm t h code) ->
  Forall val_wf args -> has_types args (ft_args t) -> Forall (refers (length (s_func (k_store m)))) args ->
  let s := k_store m in
  let runs s' L' o := run F hs 2 (MRef h) s (args ++ default_locals (fd_locals code)) [] (fd_expr code) s' L' o in
  m = mkmach s [] [] [] /\
  (forall R s', (exists n, invocate F (plain_host hs) n (Z.of_nat a) args m = (Ok R, mkmach s' [] [] [])) <->
     (exists L' o, runs s' L' o /\ result (length (ft_rets t)) o (Some R))) /\
  (forall s', (exists n e m', evaluate F (plain_host hs) n (starts s t h code args) = (Err e, m') /\ k_store m' = s') <->
     (exists L' o, runs s' L' o /\ result (length (ft_rets t)) o None)) /\
  ((forall n, unfinished F (plain_host hs) n (starts s t h code args)) <->
     ~ exists s' L' o r, runs s' L' o /\ result (length (ft_rets t)) o r).
Proof.
  intros H1 H2 H3 H4 H N W HT RA s.
  destruct (history_settled F H1 _ H2 sg H3 _ _ (honest_history _ _ _ _ _ H) (empty_settled sg)) as [HS _].
  pose proof (honest_refs F H1 _ H2 sg H3 H4 m H) as RM. pose proof (settled_eq _ _ HS) as E. split; [exact E|]. rewrite E. fold s.
  exact (exactly F H1 hs H2 H3 s a t h code args (se_ok _ _ HS) (se_typed _ _ HS) N W HT
    (no_stray F H1 sg _ H2 H3 H4 s a t h code args (se_ok _ _ HS) (se_typed _ _ HS) (mr_store _ _ RM) N W HT RA)).
Qed.
Print Assumptions C106_exactly.

(* the module of C103, whose table refers to an imported function *)
Lemma ex_shost_refs : host_refs ex_sg (plain_host ex_shost).
Proof.
  intros hid args m r m' Hm E. rewrite ex_shost_eq in E. unfold ex_host in E.
  assert (X : m' = m) by (destruct args as [|[x|x|x|] [|y args]]; injection E as _ <-; reflexivity). subst m'. split; [exact Hm|].
  intros l _ i z H _. cbn in H. destruct i as [|[|i]]; discriminate H.
Qed.
Lemma ex_honest : honest ieee (plain_host ex_shost) ex_sg machine_empty ex_ready.
Proof.
  eapply (hon_module _ _ _ _ ex_before ex_whole ex_whole_loaded ex_read 100 [mkext 0 0] 0 ex_ready);
    [|exact ex_whole_ok|exact ex_whole_valid|cbn; lia|reflexivity|exact ex_whole_fits|lia|vm_compute; reflexivity].
  eapply hon_host with (hid := 7%nat); [apply hon_nil|cbn; lia|reflexivity].
Qed.
Example C106_example :
  machine_refs ex_sg ex_ready /\ map ti_elem (s_tabl (k_store ex_ready)) = [[null_ref T_func; ref_to T_func 0; null_ref T_func]] /\
  (* x => table[x](100 / x) on 1 has the structured run that calls function 0 on 100, on 0 one that traps *)
  (exists s' L' o, run ieee ex_shost 2 (MRef 0) (k_store ex_ready) [num_val T_i32 1] [] (fd_expr ex_divides) s' L' o /\
     result 1 o (Some [num_val T_i32 (2 ^ 32 - 99)])) /\
  (exists s' L' o, run ieee ex_shost 2 (MRef 0) (k_store ex_ready) [num_val T_i32 0] [] (fd_expr ex_divides) s' L' o /\ result 1 o None).
Proof.
  assert (G : forall x, 0 <= x < 256 -> val_wf (num_val T_i32 x)) by (intros x Hx; apply NumFacts.num_val_wf).
  split; [exact (proj2 (C106_histories _ _ _ _ ieee_converts ex_shost_behaved ex_shost_typed ex_shost_refs ex_honest))|]. split; [vm_compute; reflexivity|].
  split.
  - destruct (C106_exactly ieee ex_sg ex_shost ex_ready 1 ex_ii 0 ex_divides [num_val T_i32 1] ieee_converts ex_shost_behaved ex_shost_typed ex_shost_refs ex_honest
      eq_refl ltac:(constructor; [apply G; lia|constructor]) eq_refl ltac:(constructor; [discriminate|constructor])) as (_ & H & _).
    destruct (proj1 (H [num_val T_i32 (2 ^ 32 - 99)] (k_store ex_ready))) as (L' & o & H1 & H2); [exists 100%nat; vm_compute; reflexivity|].
    exists (k_store ex_ready), L', o. split; assumption.
  - destruct (C106_exactly ieee ex_sg ex_shost ex_ready 1 ex_ii 0 ex_divides [num_val T_i32 0] ieee_converts ex_shost_behaved ex_shost_typed ex_shost_refs ex_honest
      eq_refl ltac:(constructor; [apply G; lia|constructor]) eq_refl ltac:(constructor; [discriminate|constructor])) as (_ & _ & H & _).
    destruct (proj1 (H (k_store ex_ready))) as (L' & o & H1 & H2); [exists 100%nat; eexists _, _; split; [vm_compute; reflexivity|vm_compute; reflexivity]|].
    exists (k_store ex_ready), L', o. split; assumption.
Qed.
