(* C129: programs that end by the standard end in pywasm. *)
From Coq Require Import ZArith List Bool Lia.
From Verif Require Import Leb128 Utf8 Decode SpecLeb SpecFormat LebFacts DecodeFacts PropDecode.
From Verif Require Import Py Arith Floatops Val Opcode Numeric Syntax Store Basic Machine
  SpecInt SpecNum SpecMachine SpecMem SpecRun SpecControl SpecType SpecConverse Float PyFacts StepFacts RunFacts TypeBasicFacts TypeFacts TypeIeeeFacts CallFacts ConverseFacts
  SpecInst SpecValid SpecRef HistoryFacts RefFacts RefHistoryFacts NumFacts SpecStandard StandardFacts StandardRunFacts SpecInstantiate SpecWhole WholeFacts PropType PropValid PropRef PropConverse PropWhole SpecCode CodeFacts PropCode
  SpecUnique UniqueFacts UniqueStepFacts UniqueOpFacts UniqueRunFacts PropUnique FollowFacts WholeFollowFacts.
Import ListNotations.
Open Scope Z_scope.

(* Under the hypotheses of C109: whatever run the standard has of the exported function, the call gives its results, or
   fails as it does, from some limit on - unless it comes to a known deviation or to a choice of the standard. *)
Theorem C129_terminates hs sg n all b md L ext m m1 m2 m3 h e j d t args :
  well_behaved (plain_host hs) -> host_typed sg (plain_host hs) -> host_refs sg (plain_host hs) ->
  honest ieee (plain_host hs) sg machine_empty m -> enc_module all md b -> bytes b ->
  Forall (fun s => fst s <> 0) all \/ (length all <= 32)%nat ->
  valid_module md -> len (s_func (k_store m)) + len (md_func md) < 2 ^ 31 ->
  load_module md m = (Ok L, m1) -> Forall2 (SpecInst.fits (k_store m1) md) (md_imps md) ext -> (2 <= n)%nat ->
  instance ieee (plain_host hs) n L ext m1 = (Ok h, m2) -> honest ieee (plain_host hs) sg m2 m3 ->
  In e (md_exps md) -> ex_kind e = 0 -> ex_desc e = len (imp_funcs md) + Z.of_nat j ->
  nth_error (md_func md) j = Some d -> item (md_type md) (fd_type d) t ->
  Forall2 of_kind (ft_args t) args -> Forall double_ok args -> numbers_ok (k_store m3) (ft_args t) args ->
  let s := k_store m3 in
  module_from_reader b = Ok md /\
  exists vs, arguments (ft_args t) args vs /\
    forall s' L' o, run_by does ieee hs 2 (MRef h) s (vs ++ default_locals (fd_locals d)) [] (fd_expr d) s' L' o ->
      meets_deviation ieee (plain_host hs) (starts s t h d vs) \/
      meets_choice ieee (plain_host hs) (starts s t h d vs) \/
      exists r n0, result (length (ft_rets t)) o r /\ forall n', (n0 <= n')%nat ->
        match rt_invocate ieee (plain_host hs) n' h (ex_name e) args m3 with
        | (Ok ps, m4) => exists R, r = Some R /\ Forall2 answer R ps /\ m4 = mkmach s' [] [] []
        | (Err _, m4) => k_store m4 = s' /\ (r = None \/ exists R v, r = Some R /\ In v R /\ is_null v)
        end.
Proof.
  intros H1 H2 H3 H4 HE HB HA H5 H6 H7 H8 H9 H10 H11 H12 H13 H14 H15 H16 H17 H18 H19 s.
  assert (ER : module_from_reader b = Ok md) by (destruct HA as [HA|HA]; [exact (C38_module _ _ _ HE HA)|exact (C39_up_to_32_sections_partial _ _ _ HE HA)]).
  split; [exact ER|].
  destruct (whole_follow hs sg definite does (fun m => astray m \/ deviates m \/ chooses m) n md L ext m m1 m2 m3 h e j d t args) as (vs & A & NS & X & _); try assumption.
  - intros. edestruct (model_definite (sg := sg)) as [X|X]; try eassumption; [left; right; exact X|right; exact X].
  - exact definite_once.
  - tauto.
  - exact (C72_loaded_in_order _ _ HB ER).
  - exists vs. split; [exact A|]. intros s' L' o HG. destruct (X s' L' o HG) as [(m' & G & [Y|[Y|Y]])|(r & n0 & Y1 & Y2)].
    + exfalso. apply NS, meets_astray. exists m'. now split.
    + left. now exists m'.
    + right. left. now exists m'.
    + right. right. exists r, n0. split; [exact Y1|]. intros n' Hn'. apply (Y2 n' Hn').
Qed.
Print Assumptions C129_terminates.

(* For modules without suspect instructions and without choices: calls of programs that end by the standard end, with its
   result; the others, and only they, are cut off at every limit, and the call raises. *)
Theorem C129_certain hs sg n all b md L ext m m1 m2 m3 h e j d t args :
  well_behaved (plain_host hs) -> host_typed sg (plain_host hs) -> host_refs sg (plain_host hs) ->
  adds_no_code (plain_host hs) -> made_from ieee (plain_host hs) certain_module m3 ->
  honest ieee (plain_host hs) sg machine_empty m -> enc_module all md b -> bytes b ->
  Forall (fun s => fst s <> 0) all \/ (length all <= 32)%nat ->
  valid_module md -> len (s_func (k_store m)) + len (md_func md) < 2 ^ 31 ->
  load_module md m = (Ok L, m1) -> Forall2 (SpecInst.fits (k_store m1) md) (md_imps md) ext -> (2 <= n)%nat ->
  instance ieee (plain_host hs) n L ext m1 = (Ok h, m2) -> honest ieee (plain_host hs) sg m2 m3 ->
  In e (md_exps md) -> ex_kind e = 0 -> ex_desc e = len (imp_funcs md) + Z.of_nat j ->
  nth_error (md_func md) j = Some d -> item (md_type md) (fd_type d) t ->
  Forall2 of_kind (ft_args t) args -> Forall double_ok args -> numbers_ok (k_store m3) (ft_args t) args ->
  let s := k_store m3 in
  module_from_reader b = Ok md /\
  exists vs, arguments (ft_args t) args vs /\
    let runs s' L' o := run_by does ieee hs 2 (MRef h) s (vs ++ default_locals (fd_locals d)) [] (fd_expr d) s' L' o in
    (forall s' L' o, runs s' L' o ->
      exists r n0, result (length (ft_rets t)) o r /\ forall n', (n0 <= n')%nat ->
        match rt_invocate ieee (plain_host hs) n' h (ex_name e) args m3 with
        | (Ok ps, m4) => exists R, r = Some R /\ Forall2 answer R ps /\ m4 = mkmach s' [] [] []
        | (Err _, m4) => k_store m4 = s' /\ (r = None \/ exists R v, r = Some R /\ In v R /\ is_null v)
        end) /\
    ((forall n', unfinished ieee (plain_host hs) n' (starts s t h d vs)) <-> ~ exists s' L' o, runs s' L' o) /\
    (forall n', unfinished ieee (plain_host hs) n' (starts s t h d vs) -> exists x, fst (rt_invocate ieee (plain_host hs) n' h (ex_name e) args m3) = Err x).
Proof.
  intros H1 H2 H3 HAC HM H4 HE HB HA H5 H6 H7 H8 H9 H10 H11 H12 H13 H14 H15 H16 H17 H18 H19 s.
  assert (ER : module_from_reader b = Ok md) by (destruct HA as [HA|HA]; [exact (C38_module _ _ _ HE HA)|exact (C39_up_to_32_sections_partial _ _ _ HE HA)]).
  split; [exact ER|].
  destruct (export_function ieee _ sg n md L ext m m1 m2 m3 h e j d t ieee_converts H1 H2 (honest_history _ _ _ _ _ H4) (C72_loaded_in_order _ _ HB ER) H5 H6 H7 H8 H9 H10 (honest_history _ _ _ _ _ H11) H12 H13 H14 H15 H16) as (a & x & E1 & EA & NF & S3).
  destruct (whole_follow hs sg definite does (fun m => astray m \/ deviates m \/ chooses m) n md L ext m m1 m2 m3 h e j d t args) as (vs & A & NS & X & K & Y); try assumption.
  - intros. edestruct (model_definite (sg := sg)) as [X|X]; try eassumption; [left; right; exact X|right; exact X].
  - exact definite_once.
  - tauto.
  - exact (C72_loaded_in_order _ _ HB ER).
  - assert (NO : ~ exists m', gets_to ieee (plain_host hs) (starts s t h d vs) m' /\ (astray m' \/ deviates m' \/ chooses m')).
    { pose proof (nth_error_In _ _ NF) as IN. intros (m' & G & [Z|[Z|Z]]).
      - apply NS, meets_astray. exists m'. now split.
      - apply (C126_no_deviation ieee (plain_host hs) m3 t h d vs HAC (made_mono _ _ _ _ _ certain_is_clean HM) IN). now exists m'.
      - apply (certain_run ieee (plain_host hs) m3 t h d vs HAC HM IN). now exists m'. }
    exists vs. split; [exact A|]. cbv zeta. split; [|split].
    + intros s' L' o HG. destruct (X s' L' o HG) as [Z|(r & n0 & Y1 & Y2)]; [contradiction|]. exists r, n0. split; [exact Y1|]. intros n' Hn'. apply (Y2 n' Hn').
    + split.
      * intros U (s' & L' & o & HG). destruct (X s' L' o HG) as [Z|(r & n0 & Y1 & Y2)]; [contradiction|]. exact (proj1 (Y2 n0 (le_n _)) (U n0)).
      * intros NR n'. destruct (Y n') as [U|[Z|(s' & L' & o & R)]]; [exact U|contradiction|]. exfalso. apply NR. exists s', L', o. exact (definite_does _ _ _ _ _ _ _ _ _ _ _ R).
    + exact K.
Qed.
Print Assumptions C129_certain.

(* the run of 7 / 2 in C109's module: from some limit on every call returns 3 *)
Example C129_example : exists n0, forall n', (n0 <= n')%nat -> fst (rt_invocate ieee (plain_host ex_shost) n' 0 [0x71] [PInt 7; PInt 2] ex_q_ready) = Ok [PInt 3].
Proof.
  destruct (C129_certain ex_shost ex_sg 100 ex_q_all ex_q_bytes ex_q (mkloaded ex_q []) [] machine_empty machine_empty ex_q_ready ex_q_ready 0
    (mkexp [0x71] 0 0) 0 ex_quotient ex_qt [PInt 7; PInt 2] ex_shost_behaved ex_shost_typed ex_shost_refs) as (_ & vs & A & H & _).
  - intros hid args m r m' E. destruct args as [|[x|x|x|] [|y args]]; injection E as _ <-; now split.
  - eapply mf_instance; [apply mf_new| |apply surjective_pairing]. apply C128_example.
  - apply hon_nil.
  - exact ex_q_enc.
  - repeat constructor; discriminate.
  - left. repeat constructor; discriminate.
  - exact ex_q_valid.
  - cbn. lia.
  - reflexivity.
  - constructor.
  - lia.
  - vm_compute. reflexivity.
  - apply hon_nil.
  - cbn. tauto.
  - reflexivity.
  - reflexivity.
  - reflexivity.
  - split; [cbn; lia|reflexivity].
  - repeat constructor; cbn; lia.
  - repeat constructor.
  - intros [|[|[|i]]] z E; discriminate E.
  - assert (vs = [num_val T_i32 7; num_val T_i32 2]) as ->.
    { destruct vs as [|v [|w [|]]]; cbn in A; try tauto. destruct A as (-> & -> & _). reflexivity. }
    destruct (H (k_store ex_q_ready) [num_val T_i32 7; num_val T_i32 2] (Done [num_val T_i32 3])) as (r & n0 & Hr & G).
    { eapply run_cons; [eapply one_op; [reflexivity|]|eapply run_cons; [eapply one_op; [reflexivity|]|eapply run_cons; [eapply one_op; [reflexivity|]|apply run_nil]]].
      - apply (d_local_get _ 0); reflexivity.
      - apply (d_local_get _ 1); reflexivity.
      - apply (d_computes _ _ _ _ _ [_; _]). eapply c_binop; [reflexivity|vm_compute; reflexivity|reflexivity]. }
    exists n0. intros n' Hn'. specialize (G n' Hn'). inversion Hr; subst. cbn [ex_name] in G.
    destruct (rt_invocate ieee (plain_host ex_shost) n' 0 [0x71] [PInt 7; PInt 2] ex_q_ready) as [[ps|e] m4].
    + destruct G as (R & E & F2 & _). injection E as <-. cbn [rev app] in F2. inversion F2 as [|v p R' ps' H4 H5]; subst. inversion H5; subst. cbn [fst]. do 2 f_equal.
      destruct H4 as [_ H4]. cbn in H4. destruct p as [z| | |]; try contradiction. destruct H4 as [H4 H6].
      assert (K : z mod 2 ^ 32 = 3) by (symmetry; exact H6). clear - H4 K. f_equal. pose proof (Z.div_mod z (2 ^ 32) ltac:(lia)). lia.
    + destruct G as (_ & [G|(R & v & E & I & N)]); [discriminate G|]. injection E as <-. cbn in I. destruct I as [<-|[]]. destruct N as [N _]. discriminate N.
Qed.
