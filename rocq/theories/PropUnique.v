(* C128: where the standard makes no choice there is one result, and pywasm returns it. *)
From Coq Require Import ZArith List Bool Lia.
From Verif Require Import Leb128 Utf8 Decode SpecLeb SpecFormat LebFacts DecodeFacts PropDecode.
From Verif Require Import Py Arith Floatops Val Opcode Numeric Syntax Store Basic Machine
  SpecInt SpecNum SpecMachine SpecMem SpecRun SpecControl SpecType SpecConverse Float PyFacts StepFacts RunFacts TypeBasicFacts TypeFacts TypeIeeeFacts CallFacts ConverseFacts
  SpecInst SpecValid SpecRef HistoryFacts RefFacts RefHistoryFacts NumFacts SpecStandard StandardFacts StandardRunFacts SpecInstantiate SpecWhole WholeFacts PropConverse PropWhole SpecCode CodeFacts PropCode
  SpecUnique UniqueFacts UniqueStepFacts UniqueOpFacts UniqueRunFacts.
Import ListNotations.
Open Scope Z_scope.

(* A run of the standard without choices is the only run of the standard from where it starts. *)
Theorem C128_only_run F hs d mr s L V code s1 L1 o1 s2 L2 o2 :
  run_by definite F hs d mr s L V code s1 L1 o1 -> run_by does F hs d mr s L V code s2 L2 o2 -> s1 = s2 /\ L1 = L2 /\ o1 = o2.
Proof. apply run_once. Qed.
Print Assumptions C128_only_run.

(* C109, where the run of the standard is the only one. *)
Theorem C128_results hs sg n n' all b md L ext m m1 m2 m3 h e j d t args :
  well_behaved (plain_host hs) -> host_typed sg (plain_host hs) -> host_refs sg (plain_host hs) ->
  honest ieee (plain_host hs) sg machine_empty m -> enc_module all md b -> bytes b ->
  Forall (fun s => fst s <> 0) all \/ (length all <= 32)%nat ->
  valid_module md -> len (s_func (k_store m)) + len (md_func md) < 2 ^ 31 ->
  load_module md m = (Ok L, m1) -> Forall2 (SpecInst.fits (k_store m1) md) (md_imps md) ext -> (2 <= n)%nat ->
  instance ieee (plain_host hs) n L ext m1 = (Ok h, m2) -> honest ieee (plain_host hs) sg m2 m3 ->
  In e (md_exps md) -> ex_kind e = 0 -> ex_desc e = len (imp_funcs md) + Z.of_nat j ->
  nth_error (md_func md) j = Some d -> item (md_type md) (fd_type d) t ->
  Forall2 of_kind (ft_args t) args -> Forall double_ok args -> numbers_ok (k_store m3) (ft_args t) args ->
  let s := k_store m3 in
  module_from_reader b = Ok md /\
  exists vs, arguments (ft_args t) args vs /\
    ((unfinished ieee (plain_host hs) n' (starts s t h d vs) /\ exists x, fst (rt_invocate ieee (plain_host hs) n' h (ex_name e) args m3) = Err x) \/
     meets_deviation ieee (plain_host hs) (starts s t h d vs) \/
     meets_choice ieee (plain_host hs) (starts s t h d vs) \/
     exists s' L' o r,
       run_by does ieee hs 2 (MRef h) s (vs ++ default_locals (fd_locals d)) [] (fd_expr d) s' L' o /\ result (length (ft_rets t)) o r /\
       (forall s2 L2 o2, run_by does ieee hs 2 (MRef h) s (vs ++ default_locals (fd_locals d)) [] (fd_expr d) s2 L2 o2 -> s2 = s' /\ L2 = L' /\ o2 = o) /\
       match rt_invocate ieee (plain_host hs) n' h (ex_name e) args m3 with
       | (Ok ps, m4) => exists R, r = Some R /\ Forall2 answer R ps /\ m4 = mkmach s' [] [] []
       | (Err _, m4) => k_store m4 = s' /\ (r = None \/ exists R v, r = Some R /\ In v R /\ is_null v)
       end).
Proof.
  intros H1 H2 H3 H4 HE HB HA H5 H6 H7 H8 H9 H10 H11 H12 H13 H14 H15 H16 H17 H18 H19 s.
  assert (ER : module_from_reader b = Ok md) by (destruct HA as [HA|HA]; [exact (C38_module _ _ _ HE HA)|exact (C39_up_to_32_sections_partial _ _ _ HE HA)]).
  split; [exact ER|].
  destruct (whole_call_by hs sg definite (fun m => astray m \/ deviates m \/ chooses m) n n' md L ext m m1 m2 m3 h e j d t args) as (vs & A & NS & X); try assumption.
  - intros. edestruct (model_definite (sg := sg)) as [X|X]; try eassumption; [left; right; exact X|right; exact X].
  - tauto.
  - exact (C72_loaded_in_order _ _ HB ER).
  - exists vs. split; [exact A|]. destruct X as [X|[(m' & G & [X|[X|X]])|X]].
    + now left.
    + exfalso. apply NS, meets_astray. exists m'. now split.
    + right. left. now exists m'.
    + right. right. left. now exists m'.
    + right. right. right. destruct X as (s' & L' & o & r & R & X1 & X2). exists s', L', o, r. split; [exact (definite_does _ _ _ _ _ _ _ _ _ _ _ R)|]. split; [exact X1|]. split; [|exact X2].
      intros s2 L2 o2 R2. destruct (run_once _ _ _ _ _ _ _ _ _ _ _ _ _ _ R R2) as (-> & -> & ->). auto.
Qed.
Print Assumptions C128_results.

(* Modules without suspect instructions and without choices: a call that is not cut off has one right result and gives it. *)
Theorem C128_certain hs sg n n' all b md L ext m m1 m2 m3 h e j d t args :
  well_behaved (plain_host hs) -> host_typed sg (plain_host hs) -> host_refs sg (plain_host hs) ->
  adds_no_code (plain_host hs) -> made_from ieee (plain_host hs) certain_module m3 ->
  honest ieee (plain_host hs) sg machine_empty m -> enc_module all md b -> bytes b ->
  Forall (fun s => fst s <> 0) all \/ (length all <= 32)%nat ->
  valid_module md -> len (s_func (k_store m)) + len (md_func md) < 2 ^ 31 ->
  load_module md m = (Ok L, m1) -> Forall2 (SpecInst.fits (k_store m1) md) (md_imps md) ext -> (2 <= n)%nat ->
  instance ieee (plain_host hs) n L ext m1 = (Ok h, m2) -> honest ieee (plain_host hs) sg m2 m3 ->
  In e (md_exps md) -> ex_kind e = 0 -> ex_desc e = len (imp_funcs md) + Z.of_nat j ->
  nth_error (md_func md) j = Some d -> item (md_type md) (fd_type d) t ->
  Forall2 of_kind (ft_args t) args -> Forall double_ok args -> numbers_ok (k_store m3) (ft_args t) args ->
  let s := k_store m3 in
  module_from_reader b = Ok md /\
  exists vs, arguments (ft_args t) args vs /\
    ((unfinished ieee (plain_host hs) n' (starts s t h d vs) /\ exists x, fst (rt_invocate ieee (plain_host hs) n' h (ex_name e) args m3) = Err x) \/
     exists s' L' o r,
       run_by does ieee hs 2 (MRef h) s (vs ++ default_locals (fd_locals d)) [] (fd_expr d) s' L' o /\ result (length (ft_rets t)) o r /\
       (forall s2 L2 o2, run_by does ieee hs 2 (MRef h) s (vs ++ default_locals (fd_locals d)) [] (fd_expr d) s2 L2 o2 -> s2 = s' /\ L2 = L' /\ o2 = o) /\
       match rt_invocate ieee (plain_host hs) n' h (ex_name e) args m3 with
       | (Ok ps, m4) => exists R, r = Some R /\ Forall2 answer R ps /\ m4 = mkmach s' [] [] []
       | (Err _, m4) => k_store m4 = s' /\ (r = None \/ exists R v, r = Some R /\ In v R /\ is_null v)
       end).
Proof.
  intros H1 H2 H3 HA HM H4 HE HB HS H5 H6 H7 H8 H9 H10 H11 H12 H13 H14 H15 H16 H17 H18 H19 s.
  destruct (C128_results hs sg n n' all b md L ext m m1 m2 m3 h e j d t args H1 H2 H3 H4 HE HB HS H5 H6 H7 H8 H9 H10 H11 H12 H13 H14 H15 H16 H17 H18 H19) as (ER & vs & A & X).
  split; [exact ER|]. exists vs. split; [exact A|].
  destruct (export_function ieee _ sg n md L ext m m1 m2 m3 h e j d t ieee_converts H1 H2 (honest_history _ _ _ _ _ H4) (C72_loaded_in_order _ _ HB ER) H5 H6 H7 H8 H9 H10 (honest_history _ _ _ _ _ H11) H12 H13 H14 H15 H16) as (a & x & _ & _ & NF & _).
  apply nth_error_In in NF.
  destruct X as [X|[X|[X|X]]]; [now left| | |now right]; exfalso; revert X.
  - apply C126_no_deviation; [exact HA| |exact NF]. exact (made_mono _ _ _ _ _ certain_is_clean HM).
  - now apply certain_run.
Qed.
Print Assumptions C128_certain.

(* Every run of 7 / 2 in C109's module by the standard gives 3 and leaves the store alone; but the square root of -1, which
   is a NaN, has two results by it. *)
Example C128_example : certain_module ex_q /\
  (forall s' L' o, run_by does ieee ex_shost 2 (MRef 0) (k_store ex_q_ready) [num_val T_i32 7; num_val T_i32 2] [] (fd_expr ex_quotient) s' L' o ->
     s' = k_store ex_q_ready /\ o = Done [num_val T_i32 3]) /\
  (forall s, run_by does ieee ex_shost 2 (MRef 0) s [] [num_val T_f32 0xbf800000] [IOp O_f32_sqrt []] s [] (Done [num_val T_f32 0x7fc00000]) /\
     run_by does ieee ex_shost 2 (MRef 0) s [] [num_val T_f32 0xbf800000] [IOp O_f32_sqrt []] s [] (Done [num_val T_f32 0x7fc00001])).
Proof.
  split; [|split].
  - constructor; [|constructor]. intros o args H. inversion H; subst; match goal with H : In _ _ |- _ => cbn in H end; intuition (subst; try discriminate); match goal with H : _ = IOp o args |- _ => injection H as <- _; reflexivity end.
  - intros s' L' o R.
    assert (D : run_by definite ieee ex_shost 2 (MRef 0) (k_store ex_q_ready) [num_val T_i32 7; num_val T_i32 2] [] (fd_expr ex_quotient)
      (k_store ex_q_ready) [num_val T_i32 7; num_val T_i32 2] (Done [num_val T_i32 3])).
    { eapply run_cons; [eapply one_op; [reflexivity|]|eapply run_cons; [eapply one_op; [reflexivity|]|eapply run_cons; [eapply one_op; [reflexivity|]|apply run_nil]]].
      - split; [apply (d_local_get _ 0); reflexivity|]. split; [reflexivity|discriminate].
      - split; [apply (d_local_get _ 1); reflexivity|]. split; [reflexivity|discriminate].
      - split; [|split; [reflexivity|discriminate]]. apply (d_computes _ _ _ _ _ [_; _]). eapply c_binop; [reflexivity|vm_compute; reflexivity|reflexivity]. }
    destruct (C128_only_run _ _ _ _ _ _ _ _ _ _ _ _ _ _ D R) as (<- & _ & <-). auto.
  - intros s. split; (eapply run_cons; [eapply one_op; [reflexivity|]|apply run_nil]); apply (d_computes _ _ _ _ _ [_]); apply c_f32_sqrt.
    + exists 0x7fc00000. split; [lia|]. split; [reflexivity|]. vm_compute. auto.
    + exists 0x7fc00001. split; [lia|]. split; [reflexivity|]. vm_compute. auto.
Qed.
