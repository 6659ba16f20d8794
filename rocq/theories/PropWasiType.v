(* Validated programs run with the WASI functions bound.
   Specification: SpecWasiRun.v, SpecValid.v, SpecType.v and SpecRun.v. *)
From Coq Require Import String.
From Coq Require Import ZArith List Bool Lia.
From Verif Require Import Py Arith Floatops Val Opcode Numeric Syntax Store Basic Machine Utf8 Os Wasi WasiRun SpecInt SpecNum SpecMachine SpecMem
  SpecRun SpecControl SpecInst SpecType SpecFormat SpecValid PyFacts Float TypeIeeeFacts PropType HistoryFacts SpecWasi SpecWasiRun WasiTypeFacts PropWasi PropWasiRun.
Import ListNotations.
Open Scope Z_scope.

(* ---- the programs of the examples ---- *)
(* asks for random bytes at the given place, then runs [more] *)
Definition ex_ask (at_ size : Z) (more : list inst) : list inst := [konst at_; konst size; IOp O_call [imm 1]; IOp O_drop []] ++ more.
Definition ex_peek : list inst := [konst 0; IOp O_i32_load [AInt 2; AInt 0]; IOp O_drop []].

Lemma firstn_In {A} (x : A) n l : In x (firstn n l) -> In x l.
Proof. intros H. rewrite <- (firstn_skipn n l). apply in_or_app. now left. Qed.
Lemma skipn_In {A} (x : A) n l : In x (skipn n l) -> In x l.
Proof. intros H. rewrite <- (firstn_skipn n l). apply in_or_app. now right. Qed.
Lemma ex4_replies : replies_bytes ex4.
Proof.
  intros log c d. unfold ex4, ex_os. destruct c; try discriminate; intros [= <-].
  - apply Forall_forall. intros x H. apply firstn_In, skipn_In in H. revert x H. apply Forall_forall. ex_bytes.
  - apply Forall_forall. intros x H. apply repeat_spec in H. subst x. split; [discriminate|reflexivity].
Qed.
Lemma ex_prog_ok code : code_ok code -> desc_ok (ex_prog 0 [] code).
Proof. intros H. split; [|split; [|split; [|split]]]; cbn; repeat constructor. exact H. Qed.
Lemma ex_prog_valid code : typed_seq (module_ctx (ex_prog 0 [] code) [] []) code [] [] -> valid_module (ex_prog 0 [] code).
Proof.
  intros T. constructor; cbn [ex_prog md_imps md_func md_tabl md_mems md_glob md_elem md_data md_star md_exps md_type]; try (now constructor).
  - repeat (apply Forall_cons; [intros i [= <-]; cbn; lia|]). constructor.
  - constructor; [|constructor]. exists (mkft [] []). split; [split; [cbn; lia|reflexivity]|exact T].
  - constructor; [|constructor]. unfold sound_limits. cbn. lia.
  - constructor; [|constructor]. cbn [ex_desc ex_kind]. split; [lia|]. left. split; [reflexivity|]. vm_compute. reflexivity.
  - cbn. repeat constructor. cbn. tauto.
Qed.
Ltac asks := on none do pure; on [T_i32] do pure; on none do (apply (t_call _ 1 (mkft [T_i32; T_i32] [T_i32])); reflexivity); on none do (apply t_drop).
Lemma ex_peek_valid : valid_module (ex_prog 0 [] (ex_ask 0 4 ex_peek)) /\ desc_ok (ex_prog 0 [] (ex_ask 0 4 ex_peek)).
Proof.
  split; [apply ex_prog_valid|apply ex_prog_ok; unfold code_ok, ex_ask, ex_peek; cbn [app]; code_in_order].
  2:{ apply ok_op. split; [intros b Hb; cbn in Hb; intuition discriminate|]. intros off _ [= <-]. lia. }
  unfold ex_ask, ex_peek. cbn [app]. asks. on none do pure. on none do (eapply t_memory; [reflexivity| |cbn; lia]).
  { split; intros v [= <-]. exists 2, 0. repeat split; lia. }
  on none do (apply t_drop). apply t_nil.
Qed.
Lemma ex_quiet_valid z : srange 32 z -> valid_module (ex_prog 0 [] (ex_ask 0 0 (ex_exit z))) /\ desc_ok (ex_prog 0 [] (ex_ask 0 0 (ex_exit z))).
Proof.
  intros Z. split; [apply ex_prog_valid|apply ex_prog_ok; unfold code_ok, ex_ask, ex_exit; cbn [app]; code_in_order].
  unfold ex_ask, ex_exit. cbn [app]. asks. on none do (eapply t_pure; [reflexivity|eexists; split; [reflexivity|exact Z]]).
  on none do (apply (t_call _ 0 (mkft [T_i32] [])); reflexivity). apply t_nil.
Qed.

(* C118: false. The module has a memory of no pages; random_get is asked for four bytes at 0. Afterwards the memory has
   four bytes, which is no whole number of pages, and i32.load at 0, which the standard says must trap, succeeds: the
   program ends by itself. *)
Theorem C118_refuted : forall F, exists Os md, sane [0; 1; 2] Os /\ replies_bytes Os /\ valid_module md /\ desc_ok md /\
  In (mkfd 4 [] (ex_ask 0 4 [konst 0; IOp O_i32_load [AInt 2; AInt 0]; IOp O_drop []])) (md_func md) /\
  let go := wasi_program F Os (nm "/") ex_std [] [] [] 100 md ex_off in
  fst go = Ok 0 /\ map (fun x => (mi_size x, len (mi_data x))) (s_mems (k_store (w_mach (snd go)))) = [(0, 4)].
Proof.
  intros F. exists ex4, (ex_prog 0 [] (ex_ask 0 4 ex_peek)). split; [exact ex4_sane|]. split; [exact ex4_replies|]. split; [apply ex_peek_valid|]. split; [apply ex_peek_valid|].
  split; [now left|]. split; vm_compute; reflexivity.
Qed.
Print Assumptions C118_refuted.

(* What holds. bind adds host functions with the types that the standard gives them to the runtime, and nothing else. *)
Theorem C118_bind F host m imps imps' m' : SpecValid.history F host wasi_sig machine_empty m -> len (s_func (k_store m)) < 2 ^ 31 - 46 ->
  wasi_bind imps m = (Ok imps', m') -> SpecValid.history F host wasi_sig machine_empty m'.
Proof. exact (wasi_bind_history F host machine_empty m imps imps' m'). Qed.
Print Assumptions C118_bind.
(* If a module can be instantiated when calls of host functions are not possible (so it has no start function, or one
   that calls no WASI function), it is instantiated in the same way with the WASI functions. *)
Theorem C118_instantiation F Os n imps L w h m' : rt_instance F none_called n imps L (w_mach w) = (Ok h, m') ->
  wrt_instance F Os n imps L w = (Ok h, with_mach w m').
Proof. exact (same_rt_instance F Os n imps L w h m'). Qed.
Print Assumptions C118_instantiation.
(* The runtimes that arise from these are at rest. *)
Theorem C118_rest F w : converts F -> SpecValid.history F none_called wasi_sig machine_empty (w_mach w) -> pipes_ok w -> at_rest w.
Proof. exact (history_at_rest F w). Qed.
Print Assumptions C118_rest.
(* A function is called in a state at rest. Unless some WASI call makes the data of a memory longer: it returns values of
   its result types, and everything is at rest again, so the same holds for further calls; or it raises, at an
   instruction that may trap (calls are among them) or at the limit on turns, and the store is still well typed. *)
Theorem C118_only_traps_partial F Os n w a t h code args : converts F -> replies_bytes Os -> at_rest w -> nth_error (s_func (k_store (w_mach w))) a = Some (FWasm t h code) ->
  Forall val_wf args -> has_types args (ft_args t) ->
  let w0 := with_mach w (SpecType.starts (k_store (w_mach w)) t h code args) in
  (exists k w1, (k < n)%nat /\ wevaluate F Os k w0 = (Ok tt, w1) /\ k_label (w_mach w1) <> [] /\ lengthens F Os w1) \/
  match winvocate F Os n (Z.of_nat a) args w with
  | (Ok rs, w') => has_types rs (ft_rets t) /\ at_rest w' /\ same_types (k_store (w_mach w)) (k_store (w_mach w'))
  | (Err e, w') => store_typed wasi_sig (k_store (w_mach w')) /\ same_types (k_store (w_mach w)) (k_store (w_mach w')) /\
      ((exists k w1 i fr, wevaluate F Os k w0 = (Ok tt, w1) /\ about_to_run (w_mach w1) i fr /\ inst_may_trap i = true /\ wturn F Os w1 = (Err e, w')) \/
       (exists w1, wevaluate F Os n w0 = (Ok tt, w1) /\ k_label (w_mach w1) <> []))
  end.
Proof. exact (at_rest_run F Os n w a t h code args). Qed.
Print Assumptions C118_only_traps_partial.

(* A program that asks for no random bytes and exits with 7. *)
Definition ex_quiet : list inst := ex_ask 0 0 (ex_exit 7).
Definition ex_bound : imports * machine := match wasi_bind [] machine_empty with (Ok i, m) => (i, m) | (Err _, m) => ([], m) end.
Definition ex_quiet_read : machine := snd (load_module (ex_prog 0 [] ex_quiet) (snd ex_bound)).
Definition ex_quiet_ready : machine := snd (rt_instance ieee none_called 10 (fst ex_bound) (mkloaded (ex_prog 0 [] ex_quiet) []) ex_quiet_read).
Example C118_ex_rest : w_mach (ex_loaded ieee ex_quiet) = ex_quiet_ready /\ at_rest (ex_loaded ieee ex_quiet) /\
  nth_error (s_func (k_store ex_quiet_ready)) 46 = Some (FWasm (mkft [] []) 0 (mkfd 4 [] ex_quiet)).
Proof.
  assert (w_mach (ex_loaded ieee ex_quiet) = ex_quiet_ready) as E by (vm_compute; reflexivity).
  split; [exact E|]. split; [|vm_compute; reflexivity]. apply (C118_rest ieee); [exact ieee_converts| |unfold pipes_ok; vm_compute; constructor]. rewrite E.
  assert (SpecValid.history ieee none_called wasi_sig machine_empty (snd ex_bound)) as HB.
  { apply (C118_bind ieee none_called machine_empty [] (fst ex_bound)); [apply his_nil|vm_compute; reflexivity|vm_compute; reflexivity]. }
  destruct (ex_quiet_valid 7) as [V D]; [unfold srange; lia|].
  apply (his_module _ _ _ _ (snd ex_bound) (ex_prog 0 [] ex_quiet) (mkloaded (ex_prog 0 [] ex_quiet) []) ex_quiet_read 10 [mkext 0 38; mkext 0 40; mkext 0 31; mkext 0 3] 0 ex_quiet_ready HB D V);
    [vm_compute; reflexivity|reflexivity| |lia|vm_compute; reflexivity].
  repeat (apply Forall2_cons; [split; [reflexivity|]; eexists; split; split; [cbn; lia|vm_compute; reflexivity|cbn; lia|vm_compute; reflexivity]|]). constructor.
Qed.
(* The call of random_get, the third turn, lengthens nothing; the program raises in proc_exit. In the program of
   C118_refuted it lengthens the memory. *)
Example C118_ex_run :
  fst (winvocate ieee ex4 100 46 [] (ex_loaded ieee ex_quiet)) = Err (ESystemExit 7) /\
  (forall w, (exists k, (k < 4)%nat /\ wevaluate ieee ex4 k (ex_turns ieee 0 ex_quiet) = (Ok tt, w)) -> ~ lengthens ieee ex4 w) /\
  lengthens ieee ex4 (ex_turns ieee 2 (ex_ask 0 4 ex_peek)).
Proof.
  split; [vm_compute; reflexivity|]. split.
  - intros w (k & K & E) [L _]. apply L.
    assert (w = ex_turns ieee k ex_quiet) as -> by (unfold ex_turns at 1 in E; cbn [wevaluate ret snd] in E; unfold ex_turns; now rewrite E).
    destruct k as [|[|[|[|k]]]]; [vm_compute; reflexivity..|lia].
  - split; [vm_compute; discriminate|]. eexists O_call, _, _. split; [|now left]. split; [eexists _, _; split; vm_compute; reflexivity|eexists; vm_compute; reflexivity].
Qed.
