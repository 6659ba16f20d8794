(* What the command prints (C124): C109 in a new runtime without host functions. *)
From Coq Require Import ZArith List Bool Lia.
From Verif Require Import CommandLine SpecCommand CommandFacts Os Wasi WasiRun Leb128 Utf8 Decode SpecLeb SpecFormat LebFacts DecodeFacts PropDecode.
From Verif Require Import Py Arith Floatops Val Opcode Numeric Syntax Store Basic Machine
  SpecInt SpecNum SpecMachine SpecMem SpecRun SpecControl SpecType SpecConverse Float PyFacts MemFacts StepFacts RunFacts TypeBasicFacts TypeFacts TypeIeeeFacts CallFacts ConverseFacts
  SpecInst SpecValid SpecRef HistoryFacts RefFacts RefHistoryFacts NumFacts SpecStandard StandardFacts StandardRunFacts SpecInstantiate SpecWhole WholeFacts PropWhole.
Import ListNotations.
Open Scope Z_scope.

Definition no_hosts : storehost := fun _ _ s => (Err EKey, s).
Lemma no_host_plain : no_host = plain_host no_hosts.
Proof. reflexivity. Qed.
Definition any_sg : nat -> functype := fun _ => mkft [] [].
Lemma eta_mach m : mkmach (k_store m) (k_value m) (k_label m) (k_frame m) = m.
Proof. now destruct m. Qed.
Lemma nh_behaved : well_behaved (plain_host no_hosts).
Proof. intros hid args m r m' H E. unfold plain_host, no_hosts in E. rewrite eta_mach in E. injection E as <- <-. split; [exact H|]. split; [apply later_refl|discriminate]. Qed.
Lemma nh_typed : host_typed any_sg (plain_host no_hosts).
Proof. intros hid args m r m' H E. unfold plain_host, no_hosts in E. rewrite eta_mach in E. injection E as <- <-. split; [exact H|]. split; [apply same_refl|discriminate]. Qed.
Lemma nh_refs : host_refs any_sg (plain_host no_hosts).
Proof. intros hid args m r m' H E. unfold plain_host, no_hosts in E. rewrite eta_mach in E. injection E as <- <-. split; [exact H|discriminate]. Qed.
Lemma written_numbers fl ts ss ps s : all_written fl ts ss ps -> numbers_ok s ts ps.
Proof.
  intros H i z E1 E2. exfalso. revert i E1 E2. induction H as [|t ts u ss p ps W _ IH]; intros [|i] E1 E2; try discriminate; cbn [nth_error] in *; [|exact (IH i E1 E2)].
  injection E1 as ->. inversion W.
Qed.
Lemma written_doubles fl ts ss ps : (forall s x, fl s = Ok x -> 0 <= x < 2 ^ 64) -> all_written fl ts ss ps -> Forall double_ok ps.
Proof. intros D. induction 1 as [|t ts u ss p ps W _ IH]; constructor; [|exact IH]. destruct W; try exact I; cbn [double_ok]; eapply D; eassumption. Qed.
Theorem results Os fl cwd std n all b md L m1 m2 h e j d t o ps w :
  enc_module all md b -> bytes b -> Forall (fun s => fst s <> 0) all \/ (length all <= 32)%nat ->
  valid_module md -> md_imps md = [] -> len (md_func md) < 2 ^ 31 ->
  load_module md machine_empty = (Ok L, m1) -> (2 <= n)%nat -> instance ieee no_host n L [] m1 = (Ok h, m2) ->
  In e (md_exps md) -> ex_kind e = 0 -> ex_desc e = Z.of_nat j -> nth_error (md_func md) j = Some d -> item (md_type md) (fd_type d) t ->
  o_wasi o = false -> o_func o = ex_name e -> all_written fl (ft_args t) (o_func_args o) ps -> Forall2 of_kind (ft_args t) ps ->
  (forall s x, fl s = Ok x -> 0 <= x < 2 ^ 64) -> w_mach w = machine_empty ->
  let s := k_store m2 in
  exists vs, arguments (ft_args t) ps vs /\
    ((unfinished ieee no_host n (starts s t h d vs) /\ exists x, fst (command ieee Os fl cwd std n o (Ok b) w) = Raised x) \/
     meets_deviation ieee no_host (starts s t h d vs) \/
     exists s' L' out r,
       run_by does ieee no_hosts 2 (MRef h) s (vs ++ default_locals (fd_locals d)) [] (fd_expr d) s' L' out /\ result (length (ft_rets t)) out r /\
       match fst (command ieee Os fl cwd std n o (Ok b) w) with
       | Printed qs => exists R, r = Some R /\ Forall2 answer R qs
       | Raised _ => r = None \/ exists R v, r = Some R /\ In v R /\ is_null v
       | Exited _ => False
       end).
Proof.
  intros HE HB HA VM NI HL EL Hn EI He HK HO HD HT OW OF W K DB EM s. rewrite no_host_plain in EI |- *.
  assert (imp_funcs md = []) as IF by (unfold imp_funcs; now rewrite NI).
  assert (Forall2 (SpecInst.fits (k_store m1) md) (md_imps md) []) as FI by (rewrite NI; constructor).
  assert (ex_desc e = len (imp_funcs md) + Z.of_nat j) as HO' by (rewrite IF; exact HO).
  assert (len (s_func (k_store machine_empty)) + len (md_func md) < 2 ^ 31) as HL' by (cbn; lia).
  destruct (C109_bytes_to_results no_hosts any_sg n n all b md L [] machine_empty m1 m2 m2 h e j d t ps nh_behaved nh_typed nh_refs (hon_nil _ _ _ _) HE HB HA VM HL' EL FI Hn EI
    (hon_nil _ _ _ _) He HK HO' HD HT K (written_doubles _ _ _ _ DB W) (written_numbers _ _ _ _ _ W)) as (ER & vs & V & H).
  exists vs. split; [exact V|].
  destruct (export_function ieee _ any_sg n md L [] machine_empty m1 m2 m2 h e j d t ieee_converts nh_behaved nh_typed (his_nil _ _ _ _)
    (C72_loaded_in_order _ _ HB ER) VM HL' EL FI Hn EI (his_nil _ _ _ _) He HK HO' HD HT) as (a & x & X1 & X2 & X3 & _).
  assert (SpecCommand.found ieee n o b machine_empty h (FWasm t h d) m2) as FO.
  { exists md, L, m1, x. split; [exact ER|]. split; [exact EL|]. split; [|split; [rewrite OF; exact X1|rewrite X2; now apply py_index_nth]].
    unfold rt_instance. injection EL as EL _. subst L. cbn [l_desc]. rewrite NI. exact EI. }
  unfold command. rewrite OW. unfold mach. rewrite EM, (call_made _ _ _ _ _ _ _ _ _ ps FO W), OF, no_host_plain.
  destruct H as [[H HX]|[H|(s' & L' & out & r & H1 & H2 & H3)]]; [left; split; [exact H|]|right; now left|].
  { destruct (rt_invocate ieee (plain_host no_hosts) n h (ex_name e) ps m2) as [r m4]. cbn [fst] in HX. destruct HX as (y & ->). now exists y. }
  right. right. exists s', L', out, r. split; [exact H1|]. split; [exact H2|].
  destruct (rt_invocate ieee (plain_host no_hosts) n h (ex_name e) ps m2) as [[qs|y] m4]; cbn [fst].
  - destruct H3 as (R & R1 & R2 & _). now exists R.
  - apply H3.
Qed.
