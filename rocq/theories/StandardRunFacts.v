(* From single turns to whole runs: validated functions run as the standard says, known deviations apart. *)
From Coq Require Import ZArith List Bool Lia.
From Verif Require Import Py Arith Floatops Val Opcode Numeric Syntax Store Basic Machine SpecInt SpecNum SpecMachine SpecMem SpecRun
  SpecControl SpecType SpecConverse SpecStandard Float StepFacts RunFacts TypeFacts TypeIeeeFacts ControlFacts ConverseFacts StandardFacts.
Import ListNotations.
Open Scope Z_scope.

Lemma amiss_more mr s o args V W : amiss mr s o args V -> amiss mr s o args (V ++ W).
Proof. intros H. inversion H; subst; cbn [app]; econstructor; eassumption. Qed.
Lemma same_machine m fr fs s L V s' L' V' : k_frame m = fr :: fs ->
  with_locals (with_store (moved_on m V) s) L = with_locals (with_store (moved_on m V') s') L' -> s = s' /\ L = L' /\ V = V'.
Proof. intros E. unfold with_locals, with_store, moved_on. cbn [k_frame k_store k_value k_label]. rewrite E. intros H. injection H. auto. Qed.

Section sg.
Context {sg : nat -> functype}.
(* the operands an instruction does not use are no part of its meaning *)
Lemma model_means C o args A B R s va vr W lb LS fr FS rest :
  typed_inst C (IOp o args) A B -> is_control o = false -> inst_ok (IOp o args) -> has_types va A -> has_types vr R ->
  Forall val_wf va -> Forall val_wf vr -> sound (sg := sg) s C fr -> at_code lb (IOp o args :: rest) ->
  deviates (mkmach s ((va ++ vr) ++ W) (lb :: LS) (fr :: FS)) \/
  forall s' L' r, by_model ieee (fr_module fr) o args s (fr_locals fr) (va ++ vr) s' L' r ->
    does (fr_module fr) o args s (fr_locals fr) (va ++ vr) s' L' r.
Proof.
  intros Ht Hc Hok HA HR WA WR (Hso & Hst & Hf & Hl) Hcode.
  set (m := mkmach s (va ++ vr) [lb] [fr]).
  assert (AC : nth_error (lb_instr lb) (lb_index lb) = Some (IOp o args)).
  { destruct Hcode as [E1 E2]. rewrite <- (firstn_skipn (lb_index lb) (lb_instr lb)) at 1. rewrite nth_error_app2; rewrite firstn_length_le by lia; [|lia].
    rewrite Nat.sub_diag, E1. reflexivity. }
  assert (AB : about_to_run m (IOp o args) fr).
  { split; [exists lb, []; split; [reflexivity|exact AC]|exists []; reflexivity]. }
  destruct (all_good (sg := sg) (fun _ _ m => (Err EAssert, m)) m fr C o args A B va vr Ht Hc Hok AB eq_refl HA WA Hso Hst (frame_instance _ _ _ Hf)
    ltac:(destruct Hf as (? & ? & _ & _ & _ & Hf); exact Hf)) as [X|X].
  - left. exists o, args, fr. split; [split; [exists lb, LS; split; [reflexivity|exact AC]|exists FS; reflexivity]|].
    cbn [k_store k_value]. apply amiss_more. exact X.
  - right. intros s' L' r BM. pose proof (step_basic ieee (fun _ _ m => (Err EAssert, m)) m o args fr AB Hc) as SB. cbn [k_store k_value m] in SB.
    destruct r as [V'|]; cbn [by_model] in BM.
    + rewrite BM in SB. cbn [b_value b_store b_locals] in SB. destruct X as [(s1 & L1 & V1 & E & D)|(e & V1 & E & D)]; rewrite E in SB; [|discriminate SB].
      apply (f_equal snd) in SB. cbn [snd] in SB. destruct (same_machine m fr [] _ _ _ _ _ _ eq_refl SB) as (<- & <- & <-). exact D.
    + destruct BM as (e & V' & BM & _). rewrite BM in SB. cbn [b_value b_store b_locals] in SB.
      destruct X as [(s1 & L1 & V1 & E & D)|(e' & V1 & E & D)]; rewrite E in SB; [discriminate SB|]. apply (f_equal snd) in SB. cbn [snd] in SB.
      rewrite (same_state m fr o args AB V1) in SB. destruct (same_machine m fr [] _ _ _ _ _ _ eq_refl SB) as (<- & <- & <-). exact D.
Qed.

(* one turn *)
Section turn.
Context (host : hostcode) (HB : well_behaved host) (HH : host_typed sg host).
Lemma reached_good s a t h code args m o oargs fr : store_ok s -> store_typed sg s -> nth_error (s_func s) a = Some (FWasm t h code) ->
  Forall val_wf args -> has_types args (ft_args t) -> gets_to ieee host (starts s t h code args) m ->
  about_to_run m (IOp o oargs) fr -> is_control o = false ->
  amiss (fr_module fr) (k_store m) o oargs (k_value m) \/ good host m fr o oargs.
Proof.
  intros Ok_s Hs N W HT (k & G) AB Hc. pose proof (starts_running s t h code args a Ok_s Hs N W HT) as HR.
  pose proof (evaluate_typed ieee ieee_converts host HB HH _ k _ HR) as EV. rewrite G in EV. destruct EV as [(Ok_m & Hst & C & K) _].
  pose proof AB as [(lb & ls & El & Ei) (fs & Ef)]. rewrite El in K.
  destruct (kont_run _ _ _ _ _ _ _ K) as [(fr' & FS' & _ & Hi & _)|(fr' & FS' & i & A & B & va & V' & EF & N' & HTI & Hva & EV & _ & K')].
  - assert (lb_index lb < length (lb_instr lb))%nat by (apply nth_error_Some; congruence). lia.
  - rewrite Ei in N'. injection N' as <-. rewrite Ef in EF. injection EF as <- <-.
    destruct (kont_frame _ _ _ _ _ _ _ _ K) as (fr1 & FS1 & EF & Hf). rewrite Ef in EF. injection EF as <- <-.
    assert (WV : Forall val_wf va) by (pose proof (mo_value _ Ok_m) as X; rewrite EV in X; apply Forall_app in X; apply X).
    assert (HO : inst_ok (IOp o oargs)).
    { pose proof (mo_label _ Ok_m) as X. rewrite El in X. apply Forall_cons_iff in X. destruct X as [X _]. unfold code_ok in X.
      rewrite Forall_forall in X. apply X. eapply nth_error_In, Ei. }
    apply (all_good (sg := sg) host m fr C o oargs A B va V' HTI Hc HO AB EV Hva WV (mo_store _ Ok_m) Hst (frame_instance _ _ _ Hf)).
    destruct Hf as (? & ? & _ & _ & _ & Hf). exact Hf.
Qed.
End turn.

(* a whole run *)
Section run.
Context (hs : storehost).
Notation host := (plain_host hs).
Context (HB : well_behaved host) (HH : host_typed sg host).
Lemma standard_run s a t h code args n : store_ok s -> store_typed sg s -> nth_error (s_func s) a = Some (FWasm t h code) ->
  Forall val_wf args -> has_types args (ft_args t) ->
  unfinished ieee host n (starts s t h code args) \/ stray ieee host (starts s t h code args) \/
  meets_deviation ieee host (starts s t h code args) \/
  exists s' L' o r,
    run_by does ieee hs 2 (MRef h) s (args ++ default_locals (fd_locals code)) [] (fd_expr code) s' L' o /\
    result (length (ft_rets t)) o r /\
    match invocate ieee host n (Z.of_nat a) args (mkmach s [] [] []) with
    | (Ok R, m') => r = Some R /\ m' = mkmach s' [] [] []
    | (Err _, m') => r = None /\ k_store m' = s'
    end.
Proof.
  intros Ok_s Hs N W HT.
  destruct (meant ieee ieee_converts hs HB HH s a t h code args Ok_s Hs N W HT does (fun m => astray m \/ deviates m)) with (n := n)
    as [U|[U|(s' & L' & o & r & HR & H)]].
  - intros. edestruct model_means as [X|X]; try eassumption; [left; right; exact X|right; exact X].
  - tauto.
  - left. exact U.
  - destruct U as (m1 & G & [U|U]).
    + right. left. apply meets_astray. exists m1. split; assumption.
    + right. right. left. exists m1. split; assumption.
  - right. right. right. exists s', L', o, r. split; [|exact H]. eapply run_mono; [|exact HR]. cbv beta. intros ? ? ? ? ? ? ? ? ? [_ X]. exact X.
Qed.
End run.
End sg.
