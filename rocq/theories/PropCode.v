(* C126: which code is run, and modules without the instructions known to deviate. *)
From Coq Require Import ZArith List Bool Lia.
From Verif Require Import CommandLine SpecCommand CommandFacts Os Wasi WasiRun Leb128 Utf8 Decode SpecLeb SpecFormat LebFacts DecodeFacts PropDecode.
From Verif Require Import Py Arith Floatops Val Opcode Numeric Syntax Store Basic Machine
  SpecInt SpecNum SpecMachine SpecMem SpecRun SpecControl SpecType SpecConverse Float PyFacts StepFacts RunFacts TypeBasicFacts TypeFacts TypeIeeeFacts CallFacts ConverseFacts
  SpecInst SpecValid SpecRef HistoryFacts RefFacts RefHistoryFacts NumFacts SpecStandard StandardFacts StandardRunFacts SpecInstantiate SpecWhole WholeFacts PropWhole PropConverse CommandRunFacts PropCommandRun SpecCode CodeFacts.
Import ListNotations.
Open Scope Z_scope.

(* Whatever a run does, the instruction it comes to is written in a function of the store it has then. *)
Theorem C126_provenance F host s t h code args m i fr : leaves_code host -> In (FWasm t h code) (s_func s) ->
  gets_to F host (starts s t h code args) m -> about_to_run m i fr -> in_function (k_store m) i.
Proof. apply provenance. Qed.
Print Assumptions C126_provenance.
(* Every function of a store was in a module that was loaded, however calls and instantiations ended. *)
Theorem C126_origin F host D m t h code : adds_no_code host -> made_from F host D m -> In (FWasm t h code) (s_func (k_store m)) ->
  exists md, D md /\ In code (md_func md).
Proof. intros H. apply origin, H. Qed.
Print Assumptions C126_origin.
(* Runs of code from modules without suspect instructions never come to a deviation from the standard. *)
Theorem C126_no_deviation F host m t h code args : adds_no_code host -> made_from F host clean_module m ->
  In (FWasm t h code) (s_func (k_store m)) -> ~ meets_deviation F host (starts (k_store m) t h code args).
Proof. intros HH HM. apply clean_run; [exact HH|]. exact (clean_made F host m HH HM). Qed.
Print Assumptions C126_no_deviation.

(* C109 without its case for deviations. *)
Theorem C126_bytes_to_results hs sg n n' all b md L ext m m1 m2 m3 h e j d t args :
  well_behaved (plain_host hs) -> host_typed sg (plain_host hs) -> host_refs sg (plain_host hs) ->
  adds_no_code (plain_host hs) -> made_from ieee (plain_host hs) clean_module m3 ->
  honest ieee (plain_host hs) sg machine_empty m -> enc_module all md b -> bytes b ->
  Forall (fun s => fst s <> 0) all \/ (length all <= 32)%nat ->
  valid_module md -> len (s_func (k_store m)) + len (md_func md) < 2 ^ 31 ->
  load_module md m = (Ok L, m1) -> Forall2 (SpecInst.fits (k_store m1) md) (md_imps md) ext -> (2 <= n)%nat ->
  instance ieee (plain_host hs) n L ext m1 = (Ok h, m2) -> honest ieee (plain_host hs) sg m2 m3 ->
  In e (md_exps md) -> ex_kind e = 0 -> ex_desc e = len (imp_funcs md) + Z.of_nat j ->
  nth_error (md_func md) j = Some d -> item (md_type md) (fd_type d) t ->
  Forall2 of_kind (ft_args t) args -> Forall double_ok args -> numbers_ok (k_store m3) (ft_args t) args ->
  let s := k_store m3 in
  module_from_reader b = Ok md /\
  exists vs, arguments (ft_args t) args vs /\
    ((unfinished ieee (plain_host hs) n' (starts s t h d vs) /\ exists x, fst (rt_invocate ieee (plain_host hs) n' h (ex_name e) args m3) = Err x) \/
     exists s' L' o r,
       run_by does ieee hs 2 (MRef h) s (vs ++ default_locals (fd_locals d)) [] (fd_expr d) s' L' o /\ result (length (ft_rets t)) o r /\
       match rt_invocate ieee (plain_host hs) n' h (ex_name e) args m3 with
       | (Ok ps, m4) => exists R, r = Some R /\ Forall2 answer R ps /\ m4 = mkmach s' [] [] []
       | (Err _, m4) => k_store m4 = s' /\ (r = None \/ exists R v, r = Some R /\ In v R /\ is_null v)
       end).
Proof.
  intros H1 H2 H3 HA HM H4 HE HB HS H5 H6 H7 H8 H9 H10 H11 H12 H13 H14 H15 H16 H17 H18 H19 s.
  destruct (C109_bytes_to_results hs sg n n' all b md L ext m m1 m2 m3 h e j d t args H1 H2 H3 H4 HE HB HS H5 H6 H7 H8 H9 H10 H11 H12 H13 H14 H15 H16 H17 H18 H19) as (ER & vs & A & X).
  split; [exact ER|]. exists vs. split; [exact A|]. destruct X as [X|[X|X]]; [now left| |now right]. exfalso. revert X. apply C126_no_deviation; [exact HA|exact HM|].
  destruct (export_function ieee _ sg n md L ext m m1 m2 m3 h e j d t ieee_converts H1 H2 (honest_history _ _ _ _ _ H4) (C72_loaded_in_order _ _ HB ER) H5 H6 H7 H8 H9 H10 (honest_history _ _ _ _ _ H11) H12 H13 H14 H15 H16) as (a & x & _ & _ & NF & _).
  exact (nth_error_In _ _ NF).
Qed.
Print Assumptions C126_bytes_to_results.

(* C124 without it: the command line on a module without suspect instructions. *)
Theorem C126_command : forall Os fl cwd std n all b md L m1 m2 h e j d t o ps w,
  enc_module all md b -> bytes b -> Forall (fun s => fst s <> 0) all \/ (length all <= 32)%nat ->
  valid_module md -> clean_module md -> md_imps md = [] -> len (md_func md) < 2 ^ 31 ->
  load_module md machine_empty = (Ok L, m1) -> (2 <= n)%nat -> instance ieee no_host n L [] m1 = (Ok h, m2) ->
  In e (md_exps md) -> ex_kind e = 0 -> ex_desc e = Z.of_nat j -> nth_error (md_func md) j = Some d -> item (md_type md) (fd_type d) t ->
  o_wasi o = false -> o_func o = ex_name e -> all_written fl (ft_args t) (o_func_args o) ps -> Forall2 of_kind (ft_args t) ps ->
  (forall s x, fl s = Ok x -> 0 <= x < 2 ^ 64) -> w_mach w = machine_empty ->
  let s := k_store m2 in
  exists vs, arguments (ft_args t) ps vs /\
    ((unfinished ieee no_host n (starts s t h d vs) /\ exists x, fst (command ieee Os fl cwd std n o (Ok b) w) = Raised x) \/
     exists s' L' out r,
       run_by does ieee (fun _ _ s => (Err EKey, s)) 2 (MRef h) s (vs ++ default_locals (fd_locals d)) [] (fd_expr d) s' L' out /\ result (length (ft_rets t)) out r /\
       match fst (command ieee Os fl cwd std n o (Ok b) w) with
       | Printed qs => exists R, r = Some R /\ Forall2 answer R qs
       | Raised _ => r = None \/ exists R v, r = Some R /\ In v R /\ is_null v
       | Exited _ => False
       end).
Proof.
  intros Os fl cwd std n all b md L m1 m2 h e j d t o ps w HE HB HS H5 HC HI H6 H7 H9 H10 H12 H13 H14 H15 H16 H17 H18 H19 H20 H21 H22 s.
  destruct (C124_results Os fl cwd std n all b md L m1 m2 h e j d t o ps w HE HB HS H5 HI H6 H7 H9 H10 H12 H13 H14 H15 H16 H17 H18 H19 H20 H21 H22) as (vs & A & X).
  exists vs. split; [exact A|]. destruct X as [X|[X|X]]; [now left| |now right]. exfalso. revert X. apply C126_no_deviation.
  - intros hid args m r m' E. injection E as _ <-. now split.
  - eapply mf_instance; [eapply mf_load; [apply mf_new|exact H7]| |exact H10]. injection H7 as <- _. exact HC.
  - rewrite no_host_plain in H10. assert (imp_funcs md = []) as IF by (unfold imp_funcs; now rewrite HI).
    assert (Forall2 (SpecInst.fits (k_store m1) md) (md_imps md) []) as FI by (rewrite HI; constructor).
    assert (ex_desc e = len (imp_funcs md) + Z.of_nat j) as HO' by (rewrite IF; exact H14).
    assert (len (s_func (k_store machine_empty)) + len (md_func md) < 2 ^ 31) as HL' by (cbn; lia).
    destruct (C109_bytes_to_results no_hosts any_sg n n all b md L [] machine_empty m1 m2 m2 h e j d t ps nh_behaved nh_typed nh_refs (hon_nil _ _ _ _) HE HB HS H5 HL' H7 FI H9 H10
      (hon_nil _ _ _ _) H12 H13 HO' H15 H16 H20 (written_doubles _ _ _ _ H21 H19) (written_numbers _ _ _ _ _ H19)) as (ER & _).
    destruct (export_function ieee _ any_sg n md L [] machine_empty m1 m2 m2 h e j d t ieee_converts nh_behaved nh_typed (his_nil _ _ _ _)
      (C72_loaded_in_order _ _ HB ER) H5 HL' H7 FI H9 H10 (his_nil _ _ _ _) H12 H13 HO' H15 H16) as (a & x & _ & _ & NF & _).
    exact (nth_error_In _ _ NF).
Qed.
Print Assumptions C126_command.

(* C109's example has no suspect instruction; after three turns the division is about to run, which is in its function *)
Example C126_example : clean_module ex_q /\ made_from ieee no_host clean_module (snd (instance ieee no_host 100 (mkloaded ex_q []) [] machine_empty)) /\
  (exists m fr, gets_to ieee (plain_host ex_shost) (starts (k_store ex_q_ready) ex_qt 0 ex_quotient [num_val T_i32 7; num_val T_i32 2]) m /\
     about_to_run m (IOp O_i32_div_u []) fr /\ in_function (k_store m) (IOp O_i32_div_u [])) /\
  (forall v w, ~ meets_deviation ieee (plain_host ex_shost) (starts (k_store ex_q_ready) ex_qt 0 ex_quotient [v; w])).
Proof.
  assert (CQ : clean_module ex_q).
  { constructor; [|constructor]. intros o args H. inversion H; subst; match goal with H : In _ _ |- _ => cbn in H end; intuition (subst; try discriminate); match goal with H : _ = IOp o args |- _ => injection H as <- _; reflexivity end. }
  assert (AN : adds_no_code (plain_host ex_shost)).
  { intros hid args m r m' E. destruct args as [|[x|x|x|] [|y args]]; injection E as _ <-; now split. }
  split; [exact CQ|]. split; [|split].
  - eapply mf_instance; [apply mf_new| |apply surjective_pairing]. exact CQ.
  - eexists. eexists. split; [exists 2%nat; vm_compute; reflexivity|]. split.
    + split; [eexists; eexists; split; reflexivity|eexists; reflexivity].
    + exists ex_qt, 0%nat, ex_quotient. split; [now left|]. apply in_here. cbn. tauto.
  - intros v w. apply C126_no_deviation; [exact AN| |now left].
    eapply mf_instance; [apply mf_new| |apply surjective_pairing]. exact CQ.
Qed.
