(* C103-C104: validated modules. *)
From Coq Require Import ZArith List Bool Lia.
From Verif Require Import Py Arith Floatops Val Opcode Numeric Syntax Store Basic Machine
  SpecInt SpecNum SpecMachine SpecMem SpecRun SpecControl SpecInst SpecType SpecValid Float TypeIeeeFacts PropType ValidFacts HistoryFacts.
Import ListNotations.
Open Scope Z_scope.

(* C103. Instantiating a validated module with imports that fit: the instance has the types of the module and exports
   what the module says, and everything in the store stays well typed; or the initialisation code of an active segment
   or the call of the start function stops at an instruction that may trap, or at the limit [n] on turns. *)
Theorem C103_instantiation F host sg n L ext s : converts F -> well_behaved host -> host_typed sg host ->
  store_ok s -> store_typed sg s ->
  desc_ok (l_desc L) -> valid_module (l_desc L) -> blobs_ok s L -> Forall2 (fits s (l_desc L)) (md_imps (l_desc L)) ext ->
  len (s_func s) + len (md_func (l_desc L)) < 2 ^ 31 -> (2 <= n)%nat ->
  match instance F host n L ext (mkmach s [] [] []) with
  | (Ok h, m') => k_value m' = [] /\ k_label m' = [] /\ k_frame m' = [] /\ store_ok (k_store m') /\
      store_typed sg (k_store m') /\ same_types s (k_store m') /\
      exists mi, nth_error (s_inst (k_store m')) h = Some mi /\ instance_typed (k_store m') mi (module_ctx (l_desc L) [] []) /\
        Forall2 (exported mi) (md_exps (l_desc L)) (m_exps mi)
  | (Err e, m') => store_typed sg (k_store m') /\ same_types s (k_store m') /\ init_stops F host sg n L s e m'
  end.
Proof. exact (instance_exports F host sg n L ext s). Qed.
Print Assumptions C103_instantiation.
(* every runtime that was built from nothing out of validated modules qualifies, and keeps the types it had *)
Theorem C103_histories F host sg m m' : converts F -> well_behaved host -> host_typed sg host ->
  history F host sg machine_empty m -> history F host sg m m' ->
  k_value m' = [] /\ k_label m' = [] /\ k_frame m' = [] /\ store_ok (k_store m') /\ store_typed sg (k_store m') /\
  same_types (k_store m) (k_store m').
Proof. exact (histories F host sg m m'). Qed.
Print Assumptions C103_histories.

(* C104, as far as it holds: [e] exports one of the module's own functions, and every call so far returned. The call
   returns a result of the right kind for each result type, or raises at an instruction that may trap, or at the limit
   [n'] on turns, or the function returned and one of its results is a null reference. *)
Theorem C104_calls_partial F host sg n n' md L ext m m1 m2 m3 h e t args : converts F -> well_behaved host -> host_typed sg host ->
  history F host sg machine_empty m -> desc_ok md -> valid_module md -> len (s_func (k_store m)) + len (md_func md) < 2 ^ 31 ->
  load_module md m = (Ok L, m1) -> Forall2 (fits (k_store m1) md) (md_imps md) ext -> (2 <= n)%nat ->
  instance F host n L ext m1 = (Ok h, m2) -> history F host sg m2 m3 ->
  In e (md_exps md) -> ex_kind e = 0 -> len (imp_funcs md) <= ex_desc e -> item (c_funcs (module_ctx md [] [])) (ex_desc e) t ->
  Forall2 of_kind (ft_args t) args ->
  exists a hh code vs, nth_error (s_func (k_store m3)) a = Some (FWasm t hh code) /\ from_alls F (ft_args t) args = Ok vs /\
  match rt_invocate F host n' h (ex_name e) args m3 with
  | (Ok rs, m4) => Forall2 of_kind (ft_rets t) rs /\ history F host sg m2 m4
  | (Err x, m4) => store_typed sg (k_store m4) /\ same_types (k_store m3) (k_store m4) /\
      ((exists m5 i fr, gets_to F host (starts (k_store m3) t hh code vs) m5 /\ about_to_run m5 i fr /\ inst_may_trap i = true /\
          step F host m5 = (Err x, m4)) \/
       (exists m5, evaluate F host n' (starts (k_store m3) t hh code vs) = (Ok tt, m5) /\ k_label m5 <> []) \/
       (exists rs, invocate F host n' (Z.of_nat a) vs m3 = (Ok rs, m4) /\ x = EAssert /\ exists v, In v rs /\ is_null v))
  end.
Proof. exact (export_called F host sg n n' md L ext m m1 m2 m3 h e t args). Qed.
Print Assumptions C104_calls_partial.

(* A module that imports a function, and has a table, a memory, a global, a segment of each kind and a start function.
   Function 1 is that of C99: x => table[x](100 / x). Function 2, the start function, adds 1 to the global. Function 3
   gives table[x]. Functions 0 (the imported one), 1 and 3 are exported under the names "h", "d" and "g". *)
Definition ex_if : functype := mkft [T_i32] [T_func].
Definition ex_whole : moddesc :=
  mkmd [ex_ii; mkft [] []; ex_if]
    [ex_divides; mkfd 1 [] [IOp O_global_get [imm 0]; IOp O_i32_const [AInt 1]; IOp O_i32_add []; IOp O_global_set [imm 0]];
     mkfd 2 [] [IOp O_local_get [imm 0]; IOp O_table_get [imm 0]]]
    [mktt T_func (mklim 3 0)] [mklim 0 1] [mkgd (mkgt T_i32 1) [IOp O_i32_const [AInt 41]]]
    [mked 0 T_func 0 [IOp O_i32_const [AInt 1]] [[IOp O_ref_func [imm 0]]]] [mkdd 0 0 [IOp O_i32_const [AInt 0]] []] 2
    [mkimp [101] [104] (ImpFunc 0)] [mkexp [104] 0 0; mkexp [100] 0 1; mkexp [103] 0 3; mkexp [116] 1 0].
Definition ex_sg : nat -> functype := fun _ => ex_ii.
Definition ex_before : machine := snd (rt_allocate_func_host ex_ii 7 machine_empty).
Definition ex_whole_loaded : loaded := mkloaded ex_whole [0%nat].
Definition ex_read : machine := snd (load_module ex_whole ex_before).
Definition ex_ready : machine := snd (instance ieee ex_host 100 ex_whole_loaded [mkext 0 0] ex_read).

Lemma ex_whole_ok : desc_ok ex_whole.
Proof.
  split; [|split; [|split; [|split]]]; cbn [ex_whole md_func md_tabl md_glob md_elem md_data].
  - repeat (apply Forall_cons || apply Forall_nil); unfold code_ok; cbn [fd_expr ex_divides]; code_in_order.
  - repeat constructor. discriminate.
  - repeat constructor; intros; cbn in *; intuition discriminate.
  - constructor; [|constructor]. split; [|constructor; [|constructor]]; unfold code_ok; cbn; code_in_order.
  - constructor; [|constructor]. split; [|constructor]. unfold code_ok. cbn. code_in_order.
Qed.
Ltac is_constant := eexists _, _; split; [reflexivity|cbn; tauto].
Lemma ex_whole_valid : valid_module ex_whole.
Proof.
  constructor; cbn [ex_whole md_imps md_func md_tabl md_mems md_glob md_elem md_data md_star md_exps md_type].
  - constructor; [|constructor]. intros i E. injection E as <-. cbn. lia.
  - constructor; [|constructor; [|constructor; [|constructor]]]; eexists; (split; [split; [cbn; lia|reflexivity]|]); cbn [fd_expr ex_divides fd_locals].
    + on none do pure. on [T_i32] do gets 0%nat. on none do pure. on [T_i32] do gets 0%nat.
      on none do (apply (t_call_indirect _ 0 0 ex_ii); reflexivity). apply t_nil.
    + on none do (apply (t_global_get _ 0 T_i32 1); reflexivity). on [T_i32] do pure. on none do pure.
      on none do (apply (t_global_set _ 0 T_i32); reflexivity). apply t_nil.
    + on none do gets 0%nat. on none do (apply (t_table_get _ 0 T_func); reflexivity). apply t_nil.
  - constructor; [|constructor]. unfold sound_limits. cbn. split; [lia|]. split; [lia|reflexivity].
  - constructor; [|constructor]. unfold sound_limits. cbn. lia.
  - constructor; [|constructor]. cbn. split; [right; reflexivity|]. split; [is_constant|]. on none do pure. apply t_nil.
  - constructor; [|constructor]. cbn [ed_type ed_init ed_kind ed_offset ed_tidx]. split; [reflexivity|]. split; [cbn; lia|]. split.
    + constructor; [|constructor]. split; [is_constant|]. on none do (apply (t_ref_func _ 0 ex_ii); reflexivity). apply t_nil.
    + intros _. split; [split; [is_constant|]; on none do pure; apply t_nil|]. split; [cbn; lia|reflexivity].
  - constructor; [|constructor]. cbn [dd_init dd_offset]. split; [cbn; lia|]. intros _. split; [|cbn; lia].
    split; [is_constant|]. on none do pure. apply t_nil.
  - right. split; [cbn; lia|reflexivity].
  - repeat (apply Forall_cons || apply Forall_nil); cbn [ex_desc ex_kind]; (split; [lia|]); [left|left|left|right; left]; (split; [reflexivity|]); vm_compute; reflexivity.
  - cbn. repeat constructor; cbn; intuition discriminate.
Qed.
Lemma ex_history : history ieee ex_host ex_sg machine_empty ex_before.
Proof. eapply his_host with (hid := 7%nat); [apply his_nil|cbn; lia|reflexivity]. Qed.
Lemma ex_whole_fits : Forall2 (fits (k_store ex_read) ex_whole) (md_imps ex_whole) [mkext 0 0].
Proof. constructor; [|constructor]. split; [reflexivity|]. eexists. split; [split; [cbn; lia|reflexivity]|]. split; [cbn; lia|reflexivity]. Qed.
Lemma ex_instantiated : instance ieee ex_host 100 ex_whole_loaded [mkext 0 0] ex_read = (Ok 0%nat, ex_ready).
Proof. vm_compute. reflexivity. Qed.
Lemma ex_calls n' e t args m3 : In e (md_exps ex_whole) -> ex_kind e = 0 -> 1 <= ex_desc e ->
  item [ex_ii; ex_ii; mkft [] []; ex_if] (ex_desc e) t -> Forall2 of_kind (ft_args t) args -> history ieee ex_host ex_sg ex_ready m3 ->
  forall rs m4, rt_invocate ieee ex_host n' 0 (ex_name e) args m3 = (Ok rs, m4) -> Forall2 of_kind (ft_rets t) rs /\ history ieee ex_host ex_sg ex_ready m4.
Proof.
  intros H1 H2 H3 H4 H5 H6 rs m4 E.
  pose proof (C104_calls_partial ieee ex_host ex_sg 100 n' ex_whole ex_whole_loaded [mkext 0 0] ex_before ex_read ex_ready m3 0 e t args
    ieee_converts ex_host_behaved ex_host_typed ex_history ex_whole_ok ex_whole_valid ltac:(cbn; lia) eq_refl ex_whole_fits ltac:(lia) ex_instantiated
    H6 H1 H2 H3 H4 H5) as (a & hh & code & vs & _ & _ & H). rewrite E in H. exact H.
Qed.

(* it can be instantiated; the start function has run, the table has its segment *)
Example C103_example : store_typed ex_sg (k_store ex_ready) /\
  map gi_data (s_glob (k_store ex_ready)) = [num_val T_i32 42] /\
  map ti_elem (s_tabl (k_store ex_ready)) = [[null_ref T_func; ref_to T_func 0; null_ref T_func]].
Proof.
  split; [|split; vm_compute; reflexivity].
  pose proof (C103_histories ieee ex_host ex_sg ex_before ex_ready ieee_converts ex_host_behaved ex_host_typed ex_history) as H. apply H.
  eapply (his_module _ _ _ _ ex_before ex_whole ex_whole_loaded ex_read 100 [mkext 0 0] 0 ex_ready (his_nil _ _ _ _)); 
    [exact ex_whole_ok|exact ex_whole_valid|cbn; lia|reflexivity|exact ex_whole_fits|lia|exact ex_instantiated].
Qed.
(* "d" of 1: table[1], the imported function, of 100 / 1 is 1 - 100 = -99; "d" of 0 divides by zero, "d" of 2 meets a null *)
Example C104_example :
  fst (rt_invocate ieee ex_host 100 0 [100] [PInt 1] ex_ready) = Ok [PInt (-99)] /\
  fst (rt_invocate ieee ex_host 100 0 [100] [PInt 1] (snd (rt_invocate ieee ex_host 100 0 [100] [PInt 1] ex_ready))) = Ok [PInt (-99)] /\
  fst (rt_invocate ieee ex_host 100 0 [100] [PInt 0] ex_ready) = Err EZeroDiv /\
  fst (rt_invocate ieee ex_host 100 0 [100] [PInt 2] ex_ready) = Err EAssert /\
  forall n rs m4, rt_invocate ieee ex_host n 0 [100] [PInt 1] ex_ready = (Ok rs, m4) -> exists z, rs = [PInt z] /\ - 2 ^ 31 <= z < 2 ^ 31.
Proof.
  split; [vm_compute; reflexivity|]. split; [vm_compute; reflexivity|]. split; [vm_compute; reflexivity|]. split; [vm_compute; reflexivity|]. intros n rs m4 E.
  destruct (ex_calls n (mkexp [100] 0 1) ex_ii [PInt 1] ex_ready) with (rs := rs) (m4 := m4) as [H _];
    [cbn; tauto|reflexivity|cbn; lia|split; [cbn; lia|reflexivity]|repeat constructor; cbn; lia|apply his_nil|exact E|].
  inversion H as [|t p ts ps H1 H2]; subst. inversion H2; subst. destruct p; try contradiction H1. eexists. split; [reflexivity|exact H1].
Qed.

(* C104 does not hold as stated. An imported host function that is exported again cannot be called: *)
Theorem C104_host_function_refuted : exists host sg md L ext m m1 m2 e t args,
  well_behaved host /\ host_typed sg host /\ history ieee host sg machine_empty m /\ desc_ok md /\ valid_module md /\
  load_module md m = (Ok L, m1) /\ Forall2 (fits (k_store m1) md) (md_imps md) ext /\ instance ieee host 100 L ext m1 = (Ok 0%nat, m2) /\
  In e (md_exps md) /\ ex_kind e = 0 /\ item (c_funcs (module_ctx md [] [])) (ex_desc e) t /\ Forall2 of_kind (ft_args t) args /\
  rt_invocate ieee host 100 0 (ex_name e) args m2 = (Err EAssert, m2).
Proof.
  exists ex_host, ex_sg, ex_whole, ex_whole_loaded, [mkext 0 0], ex_before, ex_read, ex_ready, (mkexp [104] 0 0), ex_ii, [PInt 5].
  split; [exact ex_host_behaved|]. split; [exact ex_host_typed|]. split; [exact ex_history|]. split; [exact ex_whole_ok|]. split; [exact ex_whole_valid|].
  split; [reflexivity|]. split; [exact ex_whole_fits|]. split; [exact ex_instantiated|]. split; [cbn; tauto|]. split; [reflexivity|].
  split; [split; [cbn; lia|reflexivity]|]. split; [repeat constructor; cbn; lia|]. vm_compute. reflexivity.
Qed.
Print Assumptions C104_host_function_refuted.
(* a function that returns a null reference raises, although it does return: *)
Theorem C104_null_result_refuted : exists host sg md L ext m m1 m2 m3 e t args,
  well_behaved host /\ host_typed sg host /\ history ieee host sg machine_empty m /\ desc_ok md /\ valid_module md /\
  load_module md m = (Ok L, m1) /\ Forall2 (fits (k_store m1) md) (md_imps md) ext /\ instance ieee host 100 L ext m1 = (Ok 0%nat, m2) /\
  In e (md_exps md) /\ ex_kind e = 0 /\ item (c_funcs (module_ctx md [] [])) (ex_desc e) t /\ Forall2 of_kind (ft_args t) args /\
  invocate ieee host 100 (ex_desc e) [num_val T_i32 0] m2 = (Ok [null_ref T_func], m3) /\
  rt_invocate ieee host 100 0 (ex_name e) args m2 = (Err EAssert, m3).
Proof.
  exists ex_host, ex_sg, ex_whole, ex_whole_loaded, [mkext 0 0], ex_before, ex_read, ex_ready. eexists _, (mkexp [103] 0 3), ex_if, [PInt 0].
  split; [exact ex_host_behaved|]. split; [exact ex_host_typed|]. split; [exact ex_history|]. split; [exact ex_whole_ok|]. split; [exact ex_whole_valid|].
  split; [reflexivity|]. split; [exact ex_whole_fits|]. split; [exact ex_instantiated|]. split; [cbn; tauto|]. split; [reflexivity|].
  split; [split; [cbn; lia|reflexivity]|]. split; [repeat constructor; cbn; lia|]. split; [vm_compute; reflexivity|]. vm_compute. reflexivity.
Qed.
Print Assumptions C104_null_result_refuted.
(* and after a call that trapped, a call that returned before raises: *)
Theorem C104_after_trap_refuted : exists host sg md L ext m m1 m2 m3 e t args bad,
  well_behaved host /\ host_typed sg host /\ history ieee host sg machine_empty m /\ desc_ok md /\ valid_module md /\
  load_module md m = (Ok L, m1) /\ Forall2 (fits (k_store m1) md) (md_imps md) ext /\ instance ieee host 100 L ext m1 = (Ok 0%nat, m2) /\
  In e (md_exps md) /\ ex_kind e = 0 /\ item (c_funcs (module_ctx md [] [])) (ex_desc e) t /\
  Forall2 of_kind (ft_args t) args /\ Forall2 of_kind (ft_args t) bad /\
  fst (rt_invocate ieee host 100 0 (ex_name e) args m2) = Ok [PInt (-99)] /\
  rt_invocate ieee host 100 0 (ex_name e) bad m2 = (Err EZeroDiv, m3) /\
  fst (rt_invocate ieee host 100 0 (ex_name e) args m3) = Err EIndex.
Proof.
  exists ex_host, ex_sg, ex_whole, ex_whole_loaded, [mkext 0 0], ex_before, ex_read, ex_ready. eexists _, (mkexp [100] 0 1), ex_ii, [PInt 1], [PInt 0].
  split; [exact ex_host_behaved|]. split; [exact ex_host_typed|]. split; [exact ex_history|]. split; [exact ex_whole_ok|]. split; [exact ex_whole_valid|].
  split; [reflexivity|]. split; [exact ex_whole_fits|]. split; [exact ex_instantiated|]. split; [cbn; tauto|]. split; [reflexivity|].
  split; [split; [cbn; lia|reflexivity]|]. split; [repeat constructor; cbn; lia|]. split; [repeat constructor; cbn; lia|].
  split; [vm_compute; reflexivity|]. split; [vm_compute; reflexivity|]. vm_compute. reflexivity.
Qed.
Print Assumptions C104_after_trap_refuted.
