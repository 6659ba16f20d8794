(* Calls by name, given a run of the standard (C129). *)
From Coq Require Import ZArith List Bool Lia ZifyBool ZifyNat.
From Verif Require Import StandardFacts StandardRunFacts ConverseFacts.
From Verif Require Import Py Arith Floatops Val Opcode Numeric Syntax Store Basic Machine Float
  SpecInt SpecNum SpecIeee SpecVecFloat SpecMachine SpecMem SpecRun SpecControl SpecInst SpecType SpecValid SpecConverse
  PyFacts ArithFacts ValFacts StepFacts LaneFacts NumFacts FloatFacts FloatOpFacts VecFloatFacts MemFacts BulkFacts WfFacts RunFacts ControlFacts CallFacts InstFacts InitFacts
  TypeOpFacts TypeBasicFacts TypeFacts TypeIeeeFacts ValidFacts HistoryFacts SpecRef RefFacts RefHistoryFacts SpecStandard SpecInstantiate InstantiateFacts SpecWhole CodeFacts AnswerFacts WholeFacts FollowFacts.
Import ListNotations.
Open Scope Z_scope.

Lemma whole_follow hs sg (means given : meaning) (odd : machine -> Prop) n md L ext m m1 m2 m3 h e j d t args :
  (forall C o args A B R s va vr W lb LS fr FS rest,
    typed_inst C (IOp o args) A B -> is_control o = false -> inst_ok (IOp o args) -> has_types va A -> has_types vr R ->
    Forall val_wf va -> Forall val_wf vr -> sound (sg := sg) s C fr -> at_code lb (IOp o args :: rest) ->
    odd (mkmach s ((va ++ vr) ++ W) (lb :: LS) (fr :: FS)) \/
    forall s' L' r, by_model ieee (fr_module fr) o args s (fr_locals fr) (va ++ vr) s' L' r ->
      means (fr_module fr) o args s (fr_locals fr) (va ++ vr) s' L' r) ->
  (forall mr o args s L V s1 L1 r1 s2 L2 r2, means mr o args s L V s1 L1 r1 -> given mr o args s L V s2 L2 r2 -> s1 = s2 /\ L1 = L2 /\ r1 = r2) ->
  (forall m, astray m -> odd m) ->
  well_behaved (plain_host hs) -> host_typed sg (plain_host hs) -> host_refs sg (plain_host hs) ->
  honest ieee (plain_host hs) sg machine_empty m -> desc_ok md -> valid_module md -> len (s_func (k_store m)) + len (md_func md) < 2 ^ 31 ->
  load_module md m = (Ok L, m1) -> Forall2 (SpecInst.fits (k_store m1) md) (md_imps md) ext -> (2 <= n)%nat ->
  instance ieee (plain_host hs) n L ext m1 = (Ok h, m2) -> honest ieee (plain_host hs) sg m2 m3 ->
  In e (md_exps md) -> ex_kind e = 0 -> ex_desc e = len (imp_funcs md) + Z.of_nat j -> nth_error (md_func md) j = Some d -> item (md_type md) (fd_type d) t ->
  Forall2 of_kind (ft_args t) args -> Forall double_ok args -> numbers_ok (k_store m3) (ft_args t) args ->
  let s := k_store m3 in
  exists vs, arguments (ft_args t) args vs /\ ~ stray ieee (plain_host hs) (starts s t h d vs) /\
    (forall s' L' o, run_by given ieee hs 2 (MRef h) s (vs ++ default_locals (fd_locals d)) [] (fd_expr d) s' L' o ->
      (exists m', gets_to ieee (plain_host hs) (starts s t h d vs) m' /\ odd m') \/
      exists r n0, result (length (ft_rets t)) o r /\ forall n', (n0 <= n')%nat ->
        ~ unfinished ieee (plain_host hs) n' (starts s t h d vs) /\
        match rt_invocate ieee (plain_host hs) n' h (ex_name e) args m3 with
        | (Ok ps, m4) => exists R, r = Some R /\ Forall2 answer R ps /\ m4 = mkmach s' [] [] []
        | (Err _, m4) => k_store m4 = s' /\ (r = None \/ exists R v, r = Some R /\ In v R /\ is_null v)
        end) /\
    (forall n', unfinished ieee (plain_host hs) n' (starts s t h d vs) -> exists x, fst (rt_invocate ieee (plain_host hs) n' h (ex_name e) args m3) = Err x) /\
    (forall n', unfinished ieee (plain_host hs) n' (starts s t h d vs) \/
      (exists m', gets_to ieee (plain_host hs) (starts s t h d vs) m' /\ odd m') \/
      exists s' L' o, run_by means ieee hs 2 (MRef h) s (vs ++ default_locals (fd_locals d)) [] (fd_expr d) s' L' o).
Proof.
  intros HM HSm HO' HB HH HR H1 DO VM HL EL IM Hn EI H2 He HK HO HD HT HA HF HN s.
  destruct (export_function ieee _ sg n md L ext m m1 m2 m3 h e j d t ieee_converts HB HH (honest_history _ _ _ _ _ H1) DO VM HL EL IM Hn EI
    (honest_history _ _ _ _ _ H2) He HK HO HD HT) as (a & x & E1 & EA & NF & S3).
  assert (H3 : honest ieee (plain_host hs) sg machine_empty m3).
  { eapply honest_trans; [|exact H2]. eapply hon_module; eassumption. }
  destruct (args_from ieee _ _ HA) as (vs & EV). exists vs. split; [exact (args_stand _ _ _ HA HF EV)|].
  assert (LA : len (ft_args t) = len args) by (unfold len; rewrite (Forall2_len _ _ _ HA); reflexivity).
  pose proof (fun n' => rt_call ieee (plain_host hs) sg n' h (ex_name e) args m3 x a t h d S3 E1 ltac:(rewrite EA; apply py_index_nth, NF) NF LA) as RT. rewrite EV in RT.
  pose proof (from_alls_types ieee _ _ _ EV ltac:(unfold len in LA; lia)) as TV. pose proof (from_alls_gives ieee _ _ (kinds_ok _ _ HA) _ EV) as WV.
  pose proof (from_alls_refs ieee _ _ _ HN _ EV) as RV.
  pose proof (honest_refs ieee ieee_converts _ HB sg HH HR m3 H3) as RM. pose proof (settled_eq _ _ S3) as E.
  pose proof (fun n' => invocate_typed ieee ieee_converts _ HB HH (k_store m3) a t h d vs n' (se_ok _ _ S3) (se_typed _ _ S3) NF WV TV) as IT.
  split; [exact (no_stray ieee ieee_converts sg _ HB HH HR s a t h d vs (se_ok _ _ S3) (se_typed _ _ S3) (mr_store _ _ RM) NF WV TV RV)|]. split; [|split].
  - intros s' L' o HG. destruct (followed ieee ieee_converts hs HB HH s a t h d vs (se_ok _ _ S3) (se_typed _ _ S3) NF WV TV means given odd HM HSm s' L' o HG) as [U|(r & n0 & U2 & U)]; [left; exact U|].
    right. exists r, n0. split; [exact U2|]. intros n' Hn'. destruct (U n' Hn') as [U0 U3]. split; [exact U0|]. specialize (RT n'). specialize (IT n').
    fold s in RT, IT, E. rewrite RT. unfold bind, lift. pose proof (settled_ok _ _ S3) as MO. rewrite E in MO.
    destruct (invocate ieee (plain_host hs) n' (Z.of_nat a) vs (mkmach s [] [] [])) as [[rs|y] m4] eqn:EIV.
    + destruct (safe_ok s _ _ _ _ _ (s_invocate s ieee (plain_host hs) HB n' (Z.of_nat a) vs WV) (inv_here _ MO) EIV) as [_ WR].
      destruct IT as (TR & _). pose proof (into_kinds ieee _ _ WR TR) as IK. destruct U3 as [-> ->].
      destruct (rmapl (into_all ieee) rs) as [ps|y] eqn:ER.
      * exists rs. split; [reflexivity|]. split; [exact (all_answers _ WR _ ER)|reflexivity].
      * split; [reflexivity|]. right. destruct IK as (_ & v & K1 & K2). exists rs, v. auto.
    + destruct U3 as [-> U3]. split; [exact U3|]. left. reflexivity.
  - intros n' U. exact (cut_call ieee _ n' h (ex_name e) x a t h d args vs m3 E E1 EA NF EV U).
  - intros n'. destruct (meant ieee ieee_converts hs HB HH s a t h d vs (se_ok _ _ S3) (se_typed _ _ S3) NF WV TV means odd HM HO' n') as [U|[U|U]].
    + left. exact U.
    + right. left. exact U.
    + right. right. destruct U as (s' & L' & o & r & U1 & _). exists s', L', o. eapply run_mono; [|exact U1]. cbv beta. intros ? ? ? ? ? ? ? ? ? [_ X]. exact X.
Qed.
