(* C105: the runs of validated functions are exactly their structured runs. *)
From Coq Require Import ZArith List Bool Lia.
From Verif Require Import Py Arith Floatops Val Opcode Numeric Syntax Store Basic Machine
  SpecInt SpecNum SpecMachine SpecMem SpecRun SpecControl SpecType SpecConverse Float PropControl TypeFacts TypeIeeeFacts CallFacts PropType ConverseFacts.
Import ListNotations.
Open Scope Z_scope.

(* C105. Calling a validated function with a limit of [n] turns: the limit is hit, or a call_indirect meets a stray
   reference, or the function has a structured run (SpecControl.v) on these arguments and this store, and what the call
   does is what that run says: the same results and store, or an exception with the store of the trap. *)
Theorem C105_structured F sg hs s a t h code args n : converts F -> well_behaved (plain_host hs) -> host_typed sg (plain_host hs) ->
  store_ok s -> store_typed sg s -> nth_error (s_func s) a = Some (FWasm t h code) ->
  Forall val_wf args -> has_types args (ft_args t) ->
  unfinished F (plain_host hs) n (starts s t h code args) \/ stray F (plain_host hs) (starts s t h code args) \/
  exists s' L' o r,
    run F hs 2 (MRef h) s (args ++ default_locals (fd_locals code)) [] (fd_expr code) s' L' o /\
    result (length (ft_rets t)) o r /\
    match invocate F (plain_host hs) n (Z.of_nat a) args (mkmach s [] [] []) with
    | (Ok R, m') => r = Some R /\ m' = mkmach s' [] [] []
    | (Err _, m') => r = None /\ k_store m' = s'
    end.
Proof. intros H1 H2 H3 H4 H5 H6 H7 H8. exact (structured F H1 hs H2 H3 s a t h code args H4 H5 H6 H7 H8 n). Qed.
Print Assumptions C105_structured.
(* With C28: where no stray reference is met, returning is having a structured run with these results, raising is having
   one that traps, and running forever is having none. *)
Theorem C105_exactly F sg hs s a t h code args : converts F -> well_behaved (plain_host hs) -> host_typed sg (plain_host hs) ->
  store_ok s -> store_typed sg s -> nth_error (s_func s) a = Some (FWasm t h code) ->
  Forall val_wf args -> has_types args (ft_args t) -> ~ stray F (plain_host hs) (starts s t h code args) ->
  let runs s' L' o := run F hs 2 (MRef h) s (args ++ default_locals (fd_locals code)) [] (fd_expr code) s' L' o in
  (forall R s', (exists n, invocate F (plain_host hs) n (Z.of_nat a) args (mkmach s [] [] []) = (Ok R, mkmach s' [] [] [])) <->
     (exists L' o, runs s' L' o /\ result (length (ft_rets t)) o (Some R))) /\
  (forall s', (exists n e m', evaluate F (plain_host hs) n (starts s t h code args) = (Err e, m') /\ k_store m' = s') <->
     (exists L' o, runs s' L' o /\ result (length (ft_rets t)) o None)) /\
  ((forall n, unfinished F (plain_host hs) n (starts s t h code args)) <->
     ~ exists s' L' o r, runs s' L' o /\ result (length (ft_rets t)) o r).
Proof. intros H1 H2 H3 H4 H5 H6 H7 H8. exact (exactly F H1 hs H2 H3 s a t h code args H4 H5 H6 H7 H8). Qed.
Print Assumptions C105_exactly.

(* x => table[x](100 / x) on 1 (the functions of C99): the interpreter returns 200, so there is a structured run *)
Definition ex_shost : storehost := fun _ args s => match args with [PInt x] => (Ok [PInt (1 - x)], s) | _ => (Err EType, s) end.
Lemma ex_shost_eq hid args m : plain_host ex_shost hid args m = ex_host hid args m.
Proof. destruct m as [s V LB FS]. destruct args as [|[x|x|x|] [|y args]]; reflexivity. Qed.
Lemma ex_shost_typed : host_typed (fun _ => ex_ii) (plain_host ex_shost).
Proof. intros hid args m r m' Hs E. rewrite ex_shost_eq in E. exact (ex_host_typed hid args m r m' Hs E). Qed.
Lemma ex_shost_behaved : well_behaved (plain_host ex_shost).
Proof. intros hid args m r m' Hm E. rewrite ex_shost_eq in E. exact (ex_host_behaved hid args m r m' Hm E). Qed.
Example C105_example :
  exists s' L' o, run ieee ex_shost 2 (MRef 0) ex_validated [num_val T_i32 1] [] (fd_expr ex_divides) s' L' o /\
    result 1 o (Some [num_val T_i32 200]).
Proof.
  assert (W : Forall val_wf [num_val T_i32 1]) by (constructor; [in_order|constructor]).
  destruct (C105_structured ieee (fun _ => ex_ii) ex_shost ex_validated 2 ex_ii 0 ex_divides [num_val T_i32 1] 20
    ieee_converts ex_shost_behaved ex_shost_typed ex_ok ex_typed eq_refl W eq_refl) as [U|[U|(s' & L' & o & r & H1 & H2 & H3)]].
  - exfalso. destruct U as (m' & E & U). vm_compute in E. injection E as <-. apply U. reflexivity.
  - exfalso. destruct U as (m1 & fr & i & j & c & V & ta & tab & r & (k & G) & AB & EV & E1 & E2 & E3 & E4 & E5).
    do 12 (destruct k as [|k];
      [vm_compute in G; injection G as <-; destruct AB as [(lb & ls & B1 & B2) (fs & B3)]; try discriminate B1;
       injection B1 as <- <-; try discriminate B2; cbn in B2; injection B2 as Bi Bj; injection B3 as <- <-; injection EV as <- <-;
       assert (Hj : j = O) by lia; subst j; injection E1 as E1; assert (Hta : ta = O) by lia; subst ta; injection E2 as <-; vm_compute in E3; injection E3 as <-;
       apply (E5 O); first [vm_compute; reflexivity|vm_compute; lia]|]).
    rewrite (evaluate_finished ieee ex_shost 12) in G by (first [lia|intros (m' & E & U); vm_compute in E; injection E as <-; apply U; reflexivity]).
    vm_compute in G. injection G as <-.
    destruct AB as [(lb & ls & B1 & _) _]. discriminate B1.
  - assert (E : fst (invocate ieee (plain_host ex_shost) 20 (Z.of_nat 2) [num_val T_i32 1] (mkmach ex_validated [] [] [])) = Ok [num_val T_i32 200]) by (vm_compute; reflexivity).
    destruct (invocate ieee (plain_host ex_shost) 20 (Z.of_nat 2) _ _) as [[R|e] m'] eqn:EI; [|discriminate E].
    injection E as ->. destruct H3 as [-> H3]. exists s', L', o. split; [exact H1|exact H2].
Qed.
(* A stray reference: -1 names the last function of the store, and call_indirect calls it. *)
Example C105_stray :
  let s := set_s_tabl ex_validated [mktab (mktt T_func (mklim 1 0)) [num_val T_func (2 ^ 33 - 1)] 1] in
  from_ref T_func (-1) = Ok (num_val T_func (2 ^ 33 - 1)) /\
  fst (evaluate ieee (plain_host ex_shost) 20 (mkmach s [num_val T_i32 0; num_val T_i32 5]
    [mklabel 1 1 0 KFunc [IOp O_call_indirect [imm 0; imm 0]] 0] [mkframe (MRef 0) [] 1 0 0; dummy])) = Ok tt /\
  k_value (snd (evaluate ieee (plain_host ex_shost) 20 (mkmach s [num_val T_i32 0; num_val T_i32 5]
    [mklabel 1 1 0 KFunc [IOp O_call_indirect [imm 0; imm 0]] 0] [mkframe (MRef 0) [] 1 0 0; dummy]))) = [num_val T_i32 (2 ^ 32 - 4)].
Proof. vm_compute. auto. Qed.
