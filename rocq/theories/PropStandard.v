(* C107: validated functions run as the WebAssembly standard prescribes, up to a list of named deviations. *)
From Coq Require Import ZArith List Bool Lia.
From Verif Require Import Py Arith Floatops Val Opcode Numeric Syntax Store Basic Machine
  SpecInt SpecNum SpecMachine SpecMem SpecRun SpecControl SpecType SpecConverse Float StepFacts PropControl TypeFacts TypeIeeeFacts CallFacts PropType ConverseFacts PropConverse
  SpecInst SpecValid SpecRef HistoryFacts PropValid RefFacts RefHistoryFacts NumFacts PropRef SpecStandard StandardFacts StandardRunFacts.
Import ListNotations.
Open Scope Z_scope.

(* C107, part 1. In every state [m] that a call of a validated function comes to: if the next instruction is [o], other
   than control flow, the machine does with it what the standard says, or the state is one of the known deviations. *)
Theorem C107_instructions sg host s a t h code args m o oargs fr : well_behaved host -> host_typed sg host ->
  store_ok s -> store_typed sg s -> nth_error (s_func s) a = Some (FWasm t h code) ->
  Forall val_wf args -> has_types args (ft_args t) -> gets_to ieee host (starts s t h code args) m ->
  about_to_run m (IOp o oargs) fr -> is_control o = false ->
  amiss (fr_module fr) (k_store m) o oargs (k_value m) \/
  (exists s' L' V', step ieee host m = (Ok tt, with_locals (with_store (moved_on m V') s') L') /\
     does (fr_module fr) o oargs (k_store m) (fr_locals fr) (k_value m) s' L' (Some V')) \/
  (exists e V', step ieee host m = (Err e, moved_on m V') /\
     does (fr_module fr) o oargs (k_store m) (fr_locals fr) (k_value m) (k_store m) (fr_locals fr) None).
Proof. intros H1 H2. exact (reached_good host H1 H2 s a t h code args m o oargs fr). Qed.
Print Assumptions C107_instructions.

(* C107, part 2. Calling a validated function with a limit of [n] turns: the limit is hit, or a stray reference (C105) or
   a known deviation is met, or the call returns or raises as in a run of the structured semantics (C28) in which every
   straight-line instruction has its standard meaning. *)
Theorem C107_runs sg hs s a t h code args n : well_behaved (plain_host hs) -> host_typed sg (plain_host hs) ->
  store_ok s -> store_typed sg s -> nth_error (s_func s) a = Some (FWasm t h code) ->
  Forall val_wf args -> has_types args (ft_args t) ->
  unfinished ieee (plain_host hs) n (starts s t h code args) \/ stray ieee (plain_host hs) (starts s t h code args) \/
  meets_deviation ieee (plain_host hs) (starts s t h code args) \/
  exists s' L' o r,
    run_by does ieee hs 2 (MRef h) s (args ++ default_locals (fd_locals code)) [] (fd_expr code) s' L' o /\
    result (length (ft_rets t)) o r /\
    match invocate ieee (plain_host hs) n (Z.of_nat a) args (mkmach s [] [] []) with
    | (Ok R, m') => r = Some R /\ m' = mkmach s' [] [] []
    | (Err _, m') => r = None /\ k_store m' = s'
    end.
Proof. intros H1 H2. exact (standard_run hs H1 H2 s a t h code args n). Qed.
Print Assumptions C107_runs.

(* C107, part 3. After an honest history (C106) there are no stray references: only the limit and the known deviations
   are left. *)
Theorem C107_honest_runs sg hs m a t h code args n : well_behaved (plain_host hs) -> host_typed sg (plain_host hs) ->
  host_refs sg (plain_host hs) -> honest ieee (plain_host hs) sg machine_empty m ->
  nth_error (s_func (k_store m)) a = Some (FWasm t h code) ->
  Forall val_wf args -> has_types args (ft_args t) -> Forall (refers (length (s_func (k_store m)))) args ->
  let s := k_store m in
  unfinished ieee (plain_host hs) n (starts s t h code args) \/
  meets_deviation ieee (plain_host hs) (starts s t h code args) \/
  exists s' L' o r,
    run_by does ieee hs 2 (MRef h) s (args ++ default_locals (fd_locals code)) [] (fd_expr code) s' L' o /\
    result (length (ft_rets t)) o r /\
    match invocate ieee (plain_host hs) n (Z.of_nat a) args m with
    | (Ok R, m') => r = Some R /\ m' = mkmach s' [] [] []
    | (Err _, m') => r = None /\ k_store m' = s'
    end.
Proof.
  intros H2 H3 H4 H N W HT RA s.
  destruct (history_settled ieee ieee_converts _ H2 sg H3 _ _ (honest_history _ _ _ _ _ H) (empty_settled sg)) as [HS _].
  pose proof (honest_refs ieee ieee_converts _ H2 sg H3 H4 m H) as RM. pose proof (settled_eq _ _ HS) as E.
  destruct (standard_run hs H2 H3 s a t h code args n (se_ok _ _ HS) (se_typed _ _ HS) N W HT) as [U|[U|[U|U]]].
  - left. exact U.
  - exfalso. exact (no_stray ieee ieee_converts sg _ H2 H3 H4 s a t h code args (se_ok _ _ HS) (se_typed _ _ HS) (mr_store _ _ RM) N W HT RA U).
  - right. left. exact U.
  - right. right. rewrite E. exact U.
Qed.
Print Assumptions C107_honest_runs.

(* x => table[x](100 / x) in the module of C103: on 1 it comes to no deviation, and there is a standard run that calls the
   imported function on 100 and gives its result; on 0 there is one that traps *)
Lemma ex_calm x k m : x = 0 \/ x = 1 ->
  evaluate ieee (plain_host ex_shost) k (starts (k_store ex_ready) ex_ii 0 ex_divides [num_val T_i32 x]) = (Ok tt, m) -> ~ deviates m.
Proof.
  intros Hx E (o & args & fr & [(lb & ls & El & Ei) _] & A).
  assert (G : In (IOp o args) (fd_expr ex_divides)).
  { destruct Hx as [-> | ->]; do 8 (destruct k as [|k]; [vm_compute in E; first [discriminate E|injection E as <-]; cbn in El;
      first [discriminate El|injection El as <- <-; cbn [lb_instr] in Ei; eapply nth_error_In; exact Ei]|]).
    - exfalso. cut (fst (evaluate ieee (plain_host ex_shost) (8 + k) (starts (k_store ex_ready) ex_ii 0 ex_divides [num_val T_i32 0])) = Err EZeroDiv).
      { cbn [Nat.add]. rewrite E. discriminate. } clear. vm_compute. reflexivity.
    - exfalso. rewrite (evaluate_finished ieee ex_shost 7) in E by
        (first [lia|intros (m' & E' & U); vm_compute in E'; injection E' as <-; apply U; reflexivity]).
      vm_compute in E. injection E as <-. discriminate El. }
  cbn in G. repeat (destruct G as [G|G]; [injection G as <- <-; inversion A; discriminate|]). exact G.
Qed.
Example C107_example :
  (exists s' L' o, run_by does ieee ex_shost 2 (MRef 0) (k_store ex_ready) [num_val T_i32 1] [] (fd_expr ex_divides) s' L' o /\
     result 1 o (Some [num_val T_i32 (2 ^ 32 - 99)])) /\
  (exists s' L' o, run_by does ieee ex_shost 2 (MRef 0) (k_store ex_ready) [num_val T_i32 0] [] (fd_expr ex_divides) s' L' o /\ result 1 o None).
Proof.
  assert (G : forall x, x = 0 \/ x = 1 -> exists s' L' o r,
    run_by does ieee ex_shost 2 (MRef 0) (k_store ex_ready) [num_val T_i32 x] [] (fd_expr ex_divides) s' L' o /\ result 1 o r /\
    match invocate ieee (plain_host ex_shost) 30 1 [num_val T_i32 x] ex_ready with
    | (Ok R, m') => r = Some R /\ m' = mkmach s' [] [] []
    | (Err _, m') => r = None /\ k_store m' = s'
    end).
  { intros x Hx. destruct (C107_honest_runs ex_sg ex_shost ex_ready 1 ex_ii 0 ex_divides [num_val T_i32 x] 30 ex_shost_behaved ex_shost_typed ex_shost_refs ex_honest
      eq_refl ltac:(constructor; [apply num_val_wf|constructor]) eq_refl ltac:(constructor; [discriminate|constructor])) as [(m' & U1 & U2)|[(m1 & (k & U1) & U2)|H]].
    - exfalso. destruct Hx as [-> | ->]; vm_compute in U1; first [discriminate U1|injection U1 as <-; apply U2; reflexivity].
    - exfalso. exact (ex_calm x k m1 Hx U1 U2).
    - exact H. }
  split.
  - destruct (G 1 (or_intror eq_refl)) as (s' & L' & o & r & H1 & H2 & H3). exists s', L', o. split; [exact H1|].
    assert (X : fst (invocate ieee (plain_host ex_shost) 30 1 [num_val T_i32 1] ex_ready) = Ok [num_val T_i32 (2 ^ 32 - 99)]) by (vm_compute; reflexivity).
    destruct (invocate ieee (plain_host ex_shost) 30 1 [num_val T_i32 1] ex_ready) as [[R|e] m']; [|discriminate X]. injection X as ->.
    destruct H3 as [-> _]. exact H2.
  - destruct (G 0 (or_introl eq_refl)) as (s' & L' & o & r & H1 & H2 & H3). exists s', L', o. split; [exact H1|].
    assert (X : fst (invocate ieee (plain_host ex_shost) 30 1 [num_val T_i32 0] ex_ready) = Err EZeroDiv) by (vm_compute; reflexivity).
    destruct (invocate ieee (plain_host ex_shost) 30 1 [num_val T_i32 0] ex_ready) as [[R|e] m']; [discriminate X|].
    destruct H3 as [-> _]. exact H2.
Qed.
