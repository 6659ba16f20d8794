(* C99-C101: validated code. *)
From Coq Require Import ZArith List Bool Lia.
From Verif Require Import Py Arith Floatops Val Opcode Numeric Syntax Store Basic Machine
  SpecInt SpecNum SpecMachine SpecMem SpecRun SpecControl SpecType Float PropControl TypeFacts TypeIeeeFacts.
Import ListNotations.
Open Scope Z_scope.

(* C99. A call of a validated function raises only when an instruction is next that the standard allows to trap, or when
   the interpreter's limit [n] on turns of its loop is hit; the store stays well typed. *)
Theorem C99_only_traps F sg host s a t h code args n : converts F -> well_behaved host -> host_typed sg host ->
  store_ok s -> store_typed sg s -> nth_error (s_func s) a = Some (FWasm t h code) ->
  Forall val_wf args -> has_types args (ft_args t) ->
  match invocate F host n (Z.of_nat a) args (mkmach s [] [] []) with
  | (Ok rs, m') => has_types rs (ft_rets t) /\ k_value m' = [] /\ k_label m' = [] /\ k_frame m' = [] /\
      store_typed sg (k_store m') /\ same_types s (k_store m')
  | (Err e, m') => store_typed sg (k_store m') /\ same_types s (k_store m') /\
      ((exists m1 i fr, gets_to F host (starts s t h code args) m1 /\ about_to_run m1 i fr /\ inst_may_trap i = true /\
          step F host m1 = (Err e, m')) \/
       (exists m1, evaluate F host n (starts s t h code args) = (Ok tt, m1) /\ k_label m1 <> []))
  end.
Proof. intros H1 H2 H3. exact (invocate_typed F H1 host H2 H3 s a t h code args n). Qed.
Print Assumptions C99_only_traps.
(* every state on the way: the next turn succeeds unless it runs such an instruction, and leaves the store well typed *)
Theorem C99_every_turn F sg host s a t h code args m : converts F -> well_behaved host -> host_typed sg host ->
  store_ok s -> store_typed sg s -> nth_error (s_func s) a = Some (FWasm t h code) ->
  Forall val_wf args -> has_types args (ft_args t) -> gets_to F host (starts s t h code args) m ->
  store_typed sg (k_store m) /\ same_types s (k_store m) /\
  (k_label m = [] \/ exists r m', step F host m = (r, m') /\ store_typed sg (k_store m') /\ same_types s (k_store m') /\
     (r = Ok tt \/ exists i fr, about_to_run m i fr /\ inst_may_trap i = true)).
Proof. intros H1 H2 H3. exact (reached_typed F H1 host H2 H3 s a t h code args m). Qed.
Print Assumptions C99_every_turn.
(* the floating-point unit of IEEE-754 qualifies *)
Theorem C99_ieee : converts ieee.
Proof. exact ieee_converts. Qed.
Print Assumptions C99_ieee.

(* x => table[x](100 / x), with the functions of C28 *)
Definition ex_divides : funcdesc :=
  mkfd 0 [] [IOp O_i32_const [AInt 100]; IOp O_local_get [imm 0]; IOp O_i32_div_s []; IOp O_local_get [imm 0]; IOp O_call_indirect [imm 0; imm 0]].
Definition ex_ii : functype := mkft [T_i32] [T_i32].
Definition ex_validated : store :=
  mkstore [FWasm ex_ii 0 ex_double; FWasm ex_ii 0 ex_main; FWasm ex_ii 0 ex_divides; FHost ex_ii 7]
    [mktab (mktt T_func (mklim 3 0)) [ref_to T_func 1; ref_to T_func 0; null_ref T_func] 3]
    [mkmem (mklim 0 0) [] 0] [mkglob (num_val T_i64 5) 1] [] []
    [mkmi [ex_ii] [0; 1; 2; 3] [0] [0] [0] [] [] []] [].
Definition ex_context (locals : list valtype) : tctx :=
  mkctx [ex_ii] [ex_ii; ex_ii; ex_ii; ex_ii] [T_func] 1 [(T_i64, 1)] [] 0 locals [] [T_i32].
Lemma ex_instance L : instance_typed ex_validated (mkmi [ex_ii] [0; 1; 2; 3] [0] [0] [0] [] [] []) (ex_context L).
Proof.
  constructor; cbn [ex_context c_types c_funcs c_tabls c_mems c_globs c_elems c_datas].
  - reflexivity.
  - intros i t H. destruct i as [|[|[|[|i]]]]; [injection H as <-..|destruct i; discriminate H].
    + exists 0%nat. eexists. repeat split.
    + exists 1%nat. eexists. repeat split.
    + exists 2%nat. eexists. repeat split.
    + exists 3%nat. eexists. repeat split.
  - intros i t H. destruct i as [|i]; [injection H as <-|destruct i; discriminate H]. exists 0%nat. eexists. repeat split.
  - intros i H. assert (i = 0%nat) by lia. subst i. exists 0%nat. eexists. repeat split.
  - intros i t mut H. destruct i as [|i]; [injection H as <- <-|destruct i; discriminate H]. exists 0%nat. eexists. repeat split.
  - intros i t H. destruct i; discriminate H.
  - intros i H. lia.
Qed.
Lemma t_next C i is A B R ts outs : typed_inst C i A B -> ts = A ++ R -> typed_seq C is (B ++ R) outs -> typed_seq C (i :: is) ts outs.
Proof. intros H -> H2. eapply t_cons; eassumption. Qed.
Tactic Notation "on" constr(l) "do" tactic3(tac) := eapply (t_next _ _ _ _ _ l); [tac|reflexivity|cbn [app rev ft_rets ex_ii c_return]].
Notation none := (@nil valtype).
Ltac pure := eapply t_pure; [reflexivity|]; first [exact I|eexists; split; [reflexivity|unfold srange; lia]].
Ltac gets i := apply (t_local_get _ i); reflexivity.
Ltac sets i := apply (t_local_set _ i); reflexivity.
Lemma ex_typed : store_typed (fun _ => ex_ii) ex_validated.
Proof.
  constructor.
  - constructor; [|constructor; [|constructor; [|constructor; [reflexivity|constructor]]]].
    + eexists _, (ex_context [T_i32]). split; [reflexivity|]. split; [apply ex_instance|]. split; [reflexivity|]. split; [reflexivity|]. split; [reflexivity|].
      on none do gets 0%nat. on [T_i32] do gets 0%nat. on none do pure. on none do apply (t_return _ _ [] [T_i32]). apply t_nil.
    + eexists _, (ex_context [T_i32; T_i32]). split; [reflexivity|]. split; [apply ex_instance|]. split; [reflexivity|]. split; [reflexivity|]. split; [reflexivity|].
      on none do (eapply (t_block _ BT_empty (mkft [] [])); [reflexivity|]); [|on none do gets 1%nat; apply t_nil].
      on none do (eapply (t_loop _ BT_empty (mkft [] [])); [reflexivity|]); [|apply t_nil].
      cbn [ft_args ft_rets rev]. unfold ex_loop.
      on none do gets 0%nat. on none do pure. on none do (apply (t_br_if _ 1); reflexivity).
      on none do gets 1%nat. on none do (apply (t_call _ 0 ex_ii); reflexivity). on [T_i32] do pure.
      on none do pure. on none do sets 1%nat. on none do gets 0%nat.
      on [T_i32] do pure. on none do pure. on none do sets 0%nat. on none do (apply (t_br _ 0 [] [] []); reflexivity). apply t_nil.
    + eexists _, (ex_context [T_i32]). split; [reflexivity|]. split; [apply ex_instance|]. split; [reflexivity|]. split; [reflexivity|]. split; [reflexivity|].
      on none do pure. on [T_i32] do gets 0%nat. on none do pure. on [T_i32] do gets 0%nat.
      on none do (apply (t_call_indirect _ 0 0 ex_ii); reflexivity). apply t_nil.
  - reflexivity.
  - constructor; [|constructor]. split; [reflexivity|]. repeat constructor.
  - constructor.
Qed.
Ltac op_in_order := split; [intros b Hb; cbn in Hb; repeat destruct Hb as [Hb|Hb]; try discriminate Hb; contradiction|
  intros off [Hb|[Hb|[Hb|Hb]]]; exfalso; apply Hb; reflexivity].
Ltac code_in_order := repeat (first [apply ok_block|apply ok_loop|apply ok_op; op_in_order|apply Forall_nil|apply Forall_cons]).
Ltac in_order := unfold val_wf; vm_compute; split; [reflexivity|repeat constructor; discriminate].
Lemma ex_ok : store_ok ex_validated.
Proof.
  constructor; cbn [ex_validated s_func s_tabl s_mems s_glob s_elem s_blob].
  - constructor; [|constructor; [|constructor; [|constructor; [exact I|constructor]]]]; unfold func_ok, code_ok; cbn [fd_expr ex_double ex_main ex_divides]; unfold ex_loop; code_in_order.
  - constructor; [|constructor]. split; [split; [reflexivity|intros H; contradiction H; reflexivity]|]. repeat (constructor; [in_order|]). constructor.
  - constructor; [|constructor]. split; [reflexivity|]. split; [cbn; lia|]. split; [intros H; contradiction H; reflexivity|constructor].
  - constructor; [|constructor]. in_order.
  - constructor.
  - constructor.
Qed.
(* host functions of type [i32] -> [i32] that return 1 - x *)
Definition ex_host : hostcode := fun _ args m => match args with [PInt x] => (Ok [PInt (1 - x)], m) | _ => (Err EType, m) end.
Lemma ex_host_typed : host_typed (fun _ => ex_ii) ex_host.
Proof.
  intros hid args m r m' Hs E. assert (m' = m /\ (forall l, r = Ok l -> length l = 1%nat)) as [-> HL].
  { destruct args as [|[x|x|x|] [|y args]]; injection E as <- <-; split; try reflexivity; intros l HE; try discriminate HE; injection HE as <-; reflexivity. }
  split; [exact Hs|]. split; [constructor; intros a x H; exists x; auto|]. intros l HE. specialize (HL l HE). auto.
Qed.
Lemma ex_host_behaved : well_behaved ex_host.
Proof.
  intros hid args m r m' Hm E. assert (m' = m /\ (forall l, r = Ok l -> Forall pyval_ok l)) as [-> HL].
  { destruct args as [|[x|x|x|] [|y args]]; injection E as <- <-; split; try reflexivity; intros l HE; try discriminate HE; injection HE as <-.
    repeat constructor. }
  split; [exact Hm|]. split; [constructor; intros a x H; exists x; auto using Z.le_refl|]. exact HL.
Qed.
(* 100 / 0 traps in the division, table[2] is null, and table[1] doubles 100 *)
Example C99_example :
  (forall x n, val_wf x -> v_type x = T_i32 ->
     store_typed (fun _ => ex_ii) (k_store (snd (invocate ieee ex_host n 2 [x] (mkmach ex_validated [] [] []))))) /\
  fst (invocate ieee ex_host 100 2 [num_val T_i32 0] (mkmach ex_validated [] [] [])) = Err EZeroDiv /\
  fst (invocate ieee ex_host 100 2 [num_val T_i32 2] (mkmach ex_validated [] [] [])) = Err EAssert /\
  fst (invocate ieee ex_host 100 2 [num_val T_i32 1] (mkmach ex_validated [] [] [])) = Ok [num_val T_i32 200].
Proof.
  split; [|repeat split; vm_compute; reflexivity]. intros x n Hx Tx.
  pose proof (C99_only_traps ieee (fun _ => ex_ii) ex_host ex_validated 2 ex_ii 0 ex_divides [x] n ieee_converts ex_host_behaved ex_host_typed
    ex_ok ex_typed eq_refl (Forall_cons _ Hx (Forall_nil _)) (f_equal (fun t => [t]) Tx)) as H.
  change (Z.of_nat 2) with 2 in H. destruct (invocate ieee ex_host n 2 [x] (mkmach ex_validated [] [] [])) as [[rs|e] m']; apply H.
Qed.

(* C100. A call of a validated function that comes to its end within the limit on turns returns: the interpreter's own
   checks of the stacks and of the result types never fail. *)
Theorem C100_returns F sg host s a t h code args n m' : converts F -> well_behaved host -> host_typed sg host ->
  store_ok s -> store_typed sg s -> nth_error (s_func s) a = Some (FWasm t h code) ->
  Forall val_wf args -> has_types args (ft_args t) ->
  evaluate F host n (starts s t h code args) = (Ok tt, m') -> k_label m' = [] ->
  exists rs, invocate F host n (Z.of_nat a) args (mkmach s [] [] []) = (Ok rs, mkmach (k_store m') [] [] []) /\ has_types rs (ft_rets t).
Proof. intros H1 H2 H3. exact (invocate_done F H1 host H2 H3 s a t h code args n m'). Qed.
Print Assumptions C100_returns.
Example C100_example : exists m', evaluate ieee ex_host 100 (starts ex_validated ex_ii 0 ex_divides [num_val T_i32 1]) = (Ok tt, m') /\
  k_label m' = [] /\ k_value m' = [num_val T_i32 200].
Proof. eexists. split; [vm_compute; reflexivity|]. split; reflexivity. Qed.

(* C101. Whenever an instruction with signature [ins] -> [out] is next, its operands are there, have the types [ins], and
   belong to the current block. *)
Theorem C101_operands F sg host s a t h code args m o oargs fr ins out : converts F -> well_behaved host -> host_typed sg host ->
  store_ok s -> store_typed sg s -> nth_error (s_func s) a = Some (FWasm t h code) ->
  Forall val_wf args -> has_types args (ft_args t) -> gets_to F host (starts s t h code args) m ->
  about_to_run m (IOp o oargs) fr -> signature o = Some (ins, out) ->
  exists lb ls vs V, k_label m = lb :: ls /\ k_value m = vs ++ V /\ has_types (rev vs) ins /\ (lb_value lb <= length V)%nat.
Proof. intros H1 H2 H3. exact (operands_typed F H1 host H2 H3 s a t h code args m o oargs fr ins out). Qed.
Print Assumptions C101_operands.
Example C101_example : exists m fr, gets_to ieee ex_host (starts ex_validated ex_ii 0 ex_divides [num_val T_i32 5]) m /\
  about_to_run m (IOp O_i32_div_s []) fr /\ k_value m = [num_val T_i32 5; num_val T_i32 100].
Proof.
  eexists _, _. split; [exists 2%nat; vm_compute; reflexivity|]. split; [|reflexivity].
  split; [eexists _, _; split; reflexivity|eexists; reflexivity].
Qed.
