(* From the bytes of a module to the results of its functions (C109). *)
From Coq Require Import ZArith List Bool Lia ZifyBool ZifyNat.
From Flocq Require Import IEEE754.Bits.
From Verif Require Import StandardFacts StandardRunFacts ConverseFacts.
From Verif Require Import Py Arith Floatops Val Opcode Numeric Syntax Store Basic Machine Float
  SpecInt SpecNum SpecIeee SpecVecFloat SpecMachine SpecMem SpecRun SpecControl SpecInst SpecType SpecValid SpecConverse
  PyFacts ArithFacts ValFacts StepFacts LaneFacts NumFacts FloatFacts FloatOpFacts VecFloatFacts MemFacts BulkFacts WfFacts RunFacts ControlFacts CallFacts InstFacts InitFacts
  TypeOpFacts TypeBasicFacts TypeFacts TypeIeeeFacts ValidFacts HistoryFacts SpecRef RefFacts RefHistoryFacts SpecStandard SpecInstantiate InstantiateFacts SpecWhole CodeFacts AnswerFacts.
Import ListNotations.
Open Scope Z_scope.

(* ---- values ---- *)
Lemma arg_stands t p v : of_kind t p -> double_ok p -> from_all ieee t p = Ok v -> argument t p v.
Proof.
  intros K D E. destruct t, p; cbn [of_kind] in K; try contradiction; cbn [from_all argument double_ok] in *.
  - apply from_i32_inv in E. apply E.
  - apply from_i64_inv in E. apply E.
  - rewrite from_f32_ieee in E. injection E as <-. eexists. split; [apply to32_range|]. split; [reflexivity|]. apply demoted_ok, D.
  - rewrite from_f64_num in E by exact D. injection E as <-. reflexivity.
  - destruct K as [K1 K2]. assert (LB : length b = 16%nat) by (unfold len in K1; lia). rewrite from_v128_ok in E by exact LB. injection E as <-.
    unfold num_val. rewrite <- LB, to_le_le_of by exact K2. reflexivity.
  - rewrite from_ref_ok in E by exact K. injection E as <-. reflexivity.
  - rewrite from_ref_ok in E by exact K. injection E as <-. reflexivity.
Qed.
Lemma args_stand ts ps vs : Forall2 of_kind ts ps -> Forall double_ok ps -> from_alls ieee ts ps = Ok vs -> arguments ts ps vs.
Proof.
  intros K. revert vs. unfold from_alls. induction K as [|t p ts ps H _ IH]; intros vs D E; cbn [combine rmapl] in E; [injection E as <-; exact I|].
  apply Forall_cons_iff in D. destruct D as [D1 D2]. rewrite rbind_ok in E. destruct E as (v & E1 & E). rewrite rbind_ok in E. destruct E as (vs' & E2 & E). injection E as <-.
  split; [exact (arg_stands _ _ _ H D1 E1)|exact (IH _ D2 E2)].
Qed.
Lemma signed_mod w x : 0 < w -> signed_of w (x mod 2 ^ w) mod 2 ^ w = x mod 2 ^ w.
Proof.
  intros Hw. assert (0 < 2 ^ w) by (apply Z.pow_pos_nonneg; lia). unfold signed_of. destruct (_ <? _); [apply Z.mod_mod; lia|].
  replace (x mod 2 ^ w - 2 ^ w) with (x mod 2 ^ w + (-1) * 2 ^ w) by lia. rewrite Z.mod_add by lia. apply Z.mod_mod. lia.
Qed.
Lemma answers v p : val_wf v -> into_all ieee v = Ok p -> answer v p.
Proof.
  intros W E. assert (R32 : - 2 ^ 31 <= signed_of 32 (uval v mod 2 ^ 32) < 2 ^ 31) by (apply (signed_range 32); [lia|apply Z.mod_pos_bound; lia]).
  assert (R64 : - 2 ^ 63 <= signed_of 64 (uval v mod 2 ^ 64) < 2 ^ 63) by (apply (signed_range 64); [lia|apply Z.mod_pos_bound; lia]).
  assert (RR : forall t, is_ref t = true -> (let? x := into_ref v in Ok (PInt x)) = Ok p ->
    ~ (is_ref t = true /\ nth 4 (v_data v) 0 <> 1) /\ match p with PInt z => - 2 ^ 31 <= z < 2 ^ 31 /\ low 32 v = z mod 2 ^ 32 | _ => False end).
  { clear E. intros t _ E. unfold into_ref in E. destruct W as [WL WB]. rewrite (py_index_in _ 4 0) in E by (unfold len; lia). cbn [rbind] in E. change (Z.to_nat 4) with 4%nat in E.
    destruct (Z.eqb_spec (nth 4 (v_data v) 0) 1) as [E1|E1]; cbn [py_assert rbind] in E; [|discriminate E].
    rewrite into_i32_ok in E by (split; assumption). cbn [rbind] in E. injection E as <-. split; [tauto|]. split; [exact R32|]. rewrite signed_mod by lia. reflexivity. }
  unfold answer, is_null. unfold into_all, rmap in E. destruct (v_type v) eqn:T.
  1-5: split; [intros [X _]; discriminate X|].
  - rewrite into_i32_ok in E by exact W. injection E as <-. split; [exact R32|]. rewrite signed_mod by lia. reflexivity.
  - rewrite into_i64_ok in E by exact W. injection E as <-. split; [exact R64|]. rewrite signed_mod by lia. reflexivity.
  - rewrite low_f32 in E by exact W. injection E as <-. split; [apply of32_range|]. apply promoted_ok, low32_range.
  - rewrite low_f64 in E by exact W. injection E as <-. reflexivity.
  - rewrite into_v128_ok in E by exact W. injection E as <-. destruct W as [W1 W2]. split; [exact W1|]. split; [exact W2|].
    unfold low. rewrite Z.mod_small; [reflexivity|]. pose proof (le_of_bound (v_data v) W2) as X. unfold len in X. rewrite W1 in X. exact X.
  - exact (RR T_func eq_refl E).
  - exact (RR T_extern eq_refl E).
Qed.
Lemma all_answers vs : Forall val_wf vs -> forall ps, rmapl (into_all ieee) vs = Ok ps -> Forall2 answer vs ps.
Proof.
  induction 1 as [|v vs W _ IH]; intros ps E; cbn [rmapl] in E; [injection E as <-; constructor|]. rewrite rbind_ok in E. destruct E as (p & E1 & E).
  rewrite rbind_ok in E. destruct E as (qs & E2 & E). injection E as <-. constructor; [exact (answers _ _ W E1)|exact (IH _ E2)].
Qed.

(* ---- the function that an export names ---- *)
Lemma export_function F host sg n md L ext m m1 m2 m3 h e j d t : converts F -> well_behaved host -> host_typed sg host ->
  history F host sg machine_empty m -> desc_ok md -> valid_module md -> len (s_func (k_store m)) + len (md_func md) < 2 ^ 31 ->
  load_module md m = (Ok L, m1) -> Forall2 (SpecInst.fits (k_store m1) md) (md_imps md) ext -> (2 <= n)%nat ->
  instance F host n L ext m1 = (Ok h, m2) -> history F host sg m2 m3 ->
  In e (md_exps md) -> ex_kind e = 0 -> ex_desc e = len (imp_funcs md) + Z.of_nat j -> nth_error (md_func md) j = Some d -> item (md_type md) (fd_type d) t ->
  exists a x, find_export (mod_of (k_store m3) (MRef h)) (ex_name e) = Ok x /\ Store.e_data x = Z.of_nat a /\
    nth_error (s_func (k_store m3)) a = Some (FWasm t h d) /\ settled sg m3.
Proof.
  intros CF HB HH H1 DO VM HL EL IM Hn EI H2 He HK HO HD HT.
  destruct (history_settled F CF host HB sg HH _ _ H1 (empty_settled sg)) as [S0 _].
  destruct (module_settled F CF host HB sg HH _ _ _ _ _ _ _ _ S0 DO VM HL EL IM Hn EI) as (S2 & _ & mi & V1 & V2 & V3 & V4).
  destruct (history_settled F CF host HB sg HH _ _ H2 S2) as [S3 SA].
  destruct (load_settled sg md m L m1 S0 DO VM EL) as (_ & _ & <- & _ & _).
  destruct (sa_inst _ _ SA _ _ V1) as (mi' & V5 & <-).
  destruct (lookup mi _ _ e V4 (vm_names _ VM) He HK) as (x & (X1 & X2 & X3 & X4) & X5).
  rewrite HK in X4. cbn [space Z.eqb] in X4. destruct (io_func _ _ _ _ _ _ V3) as [F1 F2]. unfold space in X4. cbn [Z.eqb] in X4.
  assert (LI : length (imp_funcs (l_desc L)) = length (imported 0 ext)) by exact (Forall2_len _ _ _ (proj1 (imports_at _ _ _ _ IM))).
  assert (J : (j < length (md_func (l_desc L)))%nat) by (apply nth_error_Some; congruence).
  destruct (F2 j d HD) as (f' & B1 & t' & B3 & B2). subst f'.
  assert (t' = t) as -> by (destruct HT as [T1 T2]; destruct B3 as [B3 B4]; congruence).
  destruct (sa_func _ _ SA _ _ B1) as (f & C1 & <-).
  eexists _, (ei_data x). split; [rewrite (mod_of_ref _ _ _ V5); exact X5|]. split; [|split; [exact C1|exact S3]].
  rewrite HO in X4. replace (len (imp_funcs (l_desc L)) + Z.of_nat j) with (Z.of_nat (length (imported 0 ext) + j)) in X4 by (unfold len; lia).
  erewrite py_index_nth in X4; [apply Ok_inj in X4; symmetry; exact X4|].
  rewrite F1, nth_error_app2 by lia. replace (length (imported 0 ext) + j - length (imported 0 ext))%nat with j by lia. apply nth_fresh, J.
Qed.
Lemma honest_trans F host sg m m1 m2 : honest F host sg m m1 -> honest F host sg m1 m2 -> honest F host sg m m2.
Proof.
  intros H. induction 1; [exact H|eapply hon_host; eassumption|eapply hon_table; eassumption|eapply hon_memory; eassumption|eapply hon_global; eassumption|
    eapply hon_module; eassumption|eapply hon_call; eassumption].
Qed.

(* ---- calling it ---- *)
(* the same for any meaning of the instructions other than control flow, whose exceptions are the states [odd] *)
Lemma whole_call_by hs sg (means : meaning) (odd : machine -> Prop) n n' md L ext m m1 m2 m3 h e j d t args :
  (forall C o args A B R s va vr W lb LS fr FS rest,
    typed_inst C (IOp o args) A B -> is_control o = false -> inst_ok (IOp o args) -> has_types va A -> has_types vr R ->
    Forall val_wf va -> Forall val_wf vr -> sound (sg := sg) s C fr -> at_code lb (IOp o args :: rest) ->
    odd (mkmach s ((va ++ vr) ++ W) (lb :: LS) (fr :: FS)) \/
    forall s' L' r, by_model ieee (fr_module fr) o args s (fr_locals fr) (va ++ vr) s' L' r ->
      means (fr_module fr) o args s (fr_locals fr) (va ++ vr) s' L' r) ->
  (forall m, astray m -> odd m) ->
  well_behaved (plain_host hs) -> host_typed sg (plain_host hs) -> host_refs sg (plain_host hs) ->
  honest ieee (plain_host hs) sg machine_empty m -> desc_ok md -> valid_module md -> len (s_func (k_store m)) + len (md_func md) < 2 ^ 31 ->
  load_module md m = (Ok L, m1) -> Forall2 (SpecInst.fits (k_store m1) md) (md_imps md) ext -> (2 <= n)%nat ->
  instance ieee (plain_host hs) n L ext m1 = (Ok h, m2) -> honest ieee (plain_host hs) sg m2 m3 ->
  In e (md_exps md) -> ex_kind e = 0 -> ex_desc e = len (imp_funcs md) + Z.of_nat j -> nth_error (md_func md) j = Some d -> item (md_type md) (fd_type d) t ->
  Forall2 of_kind (ft_args t) args -> Forall double_ok args -> numbers_ok (k_store m3) (ft_args t) args ->
  let s := k_store m3 in
  exists vs, arguments (ft_args t) args vs /\ ~ stray ieee (plain_host hs) (starts s t h d vs) /\
    ((unfinished ieee (plain_host hs) n' (starts s t h d vs) /\ exists x, fst (rt_invocate ieee (plain_host hs) n' h (ex_name e) args m3) = Err x) \/
     (exists m', gets_to ieee (plain_host hs) (starts s t h d vs) m' /\ odd m') \/
     exists s' L' o r,
       run_by means ieee hs 2 (MRef h) s (vs ++ default_locals (fd_locals d)) [] (fd_expr d) s' L' o /\ result (length (ft_rets t)) o r /\
       match rt_invocate ieee (plain_host hs) n' h (ex_name e) args m3 with
       | (Ok ps, m4) => exists R, r = Some R /\ Forall2 answer R ps /\ m4 = mkmach s' [] [] []
       | (Err _, m4) => k_store m4 = s' /\ (r = None \/ exists R v, r = Some R /\ In v R /\ is_null v)
       end).
Proof.
  intros HM HO' HB HH HR H1 DO VM HL EL IM Hn EI H2 He HK HO HD HT HA HF HN s.
  destruct (export_function ieee _ sg n md L ext m m1 m2 m3 h e j d t ieee_converts HB HH (honest_history _ _ _ _ _ H1) DO VM HL EL IM Hn EI
    (honest_history _ _ _ _ _ H2) He HK HO HD HT) as (a & x & E1 & EA & NF & S3).
  assert (H3 : honest ieee (plain_host hs) sg machine_empty m3).
  { eapply honest_trans; [|exact H2]. eapply hon_module; eassumption. }
  destruct (args_from ieee _ _ HA) as (vs & EV). exists vs. split; [exact (args_stand _ _ _ HA HF EV)|].
  assert (LA : len (ft_args t) = len args) by (unfold len; rewrite (Forall2_len _ _ _ HA); reflexivity).
  pose proof (rt_call ieee (plain_host hs) sg n' h (ex_name e) args m3 x a t h d S3 E1 ltac:(rewrite EA; apply py_index_nth, NF) NF LA) as RT. rewrite EV in RT.
  pose proof (from_alls_types ieee _ _ _ EV ltac:(unfold len in LA; lia)) as TV. pose proof (from_alls_gives ieee _ _ (kinds_ok _ _ HA) _ EV) as WV.
  pose proof (from_alls_refs ieee _ _ _ HN _ EV) as RV.
  pose proof (honest_refs ieee ieee_converts _ HB sg HH HR m3 H3) as RM. pose proof (settled_eq _ _ S3) as E.
  pose proof (invocate_typed ieee ieee_converts _ HB HH (k_store m3) a t h d vs n' (se_ok _ _ S3) (se_typed _ _ S3) NF WV TV) as IT.
  split; [exact (no_stray ieee ieee_converts sg _ HB HH HR s a t h d vs (se_ok _ _ S3) (se_typed _ _ S3) (mr_store _ _ RM) NF WV TV RV)|].
  destruct (meant ieee ieee_converts hs HB HH s a t h d vs (se_ok _ _ S3) (se_typed _ _ S3) NF WV TV means odd HM HO' n') as [U|[U|U]].
  - left. split; [exact U|]. exact (cut_call ieee _ n' h (ex_name e) x a t h d args vs m3 E E1 EA NF EV U).
  - right. left. exact U.
  - right. right. destruct U as (s' & L' & o & r & U1 & U2 & U3). exists s', L', o, r. split; [eapply run_mono; [|exact U1]; cbv beta; intros ? ? ? ? ? ? ? ? ? [_ X]; exact X|]. split; [exact U2|].
    fold s in RT, IT, E. rewrite RT. unfold bind, lift. pose proof (settled_ok _ _ S3) as MO. rewrite E in MO.
    destruct (invocate ieee (plain_host hs) n' (Z.of_nat a) vs (mkmach s [] [] [])) as [[rs|y] m4] eqn:EIV.
    + destruct (safe_ok s _ _ _ _ _ (s_invocate s ieee (plain_host hs) HB n' (Z.of_nat a) vs WV) (inv_here _ MO) EIV) as [_ WR].
      destruct IT as (TR & _). pose proof (into_kinds ieee _ _ WR TR) as IK. destruct U3 as [-> ->].
      destruct (rmapl (into_all ieee) rs) as [ps|y] eqn:ER.
      * exists rs. split; [reflexivity|]. split; [exact (all_answers _ WR _ ER)|reflexivity].
      * split; [reflexivity|]. right. destruct IK as (_ & v & K1 & K2). exists rs, v. auto.
    + destruct U3 as [-> U3]. split; [exact U3|]. left. reflexivity.
Qed.
Lemma whole_call hs sg n n' md L ext m m1 m2 m3 h e j d t args :
  well_behaved (plain_host hs) -> host_typed sg (plain_host hs) -> host_refs sg (plain_host hs) ->
  honest ieee (plain_host hs) sg machine_empty m -> desc_ok md -> valid_module md -> len (s_func (k_store m)) + len (md_func md) < 2 ^ 31 ->
  load_module md m = (Ok L, m1) -> Forall2 (SpecInst.fits (k_store m1) md) (md_imps md) ext -> (2 <= n)%nat ->
  instance ieee (plain_host hs) n L ext m1 = (Ok h, m2) -> honest ieee (plain_host hs) sg m2 m3 ->
  In e (md_exps md) -> ex_kind e = 0 -> ex_desc e = len (imp_funcs md) + Z.of_nat j -> nth_error (md_func md) j = Some d -> item (md_type md) (fd_type d) t ->
  Forall2 of_kind (ft_args t) args -> Forall double_ok args -> numbers_ok (k_store m3) (ft_args t) args ->
  let s := k_store m3 in
  exists vs, arguments (ft_args t) args vs /\
    ((unfinished ieee (plain_host hs) n' (starts s t h d vs) /\ exists x, fst (rt_invocate ieee (plain_host hs) n' h (ex_name e) args m3) = Err x) \/
     meets_deviation ieee (plain_host hs) (starts s t h d vs) \/
     exists s' L' o r,
       run_by does ieee hs 2 (MRef h) s (vs ++ default_locals (fd_locals d)) [] (fd_expr d) s' L' o /\ result (length (ft_rets t)) o r /\
       match rt_invocate ieee (plain_host hs) n' h (ex_name e) args m3 with
       | (Ok ps, m4) => exists R, r = Some R /\ Forall2 answer R ps /\ m4 = mkmach s' [] [] []
       | (Err _, m4) => k_store m4 = s' /\ (r = None \/ exists R v, r = Some R /\ In v R /\ is_null v)
       end).
Proof.
  intros HB HH HR H1 DO VM HL EL IM Hn EI H2 He HK HO HD HT HA HF HN s.
  destruct (whole_call_by hs sg does (fun m => astray m \/ deviates m) n n' md L ext m m1 m2 m3 h e j d t args) as (vs & A & NS & X); try assumption.
  - intros. edestruct (model_means (sg := sg)) as [X|X]; try eassumption; [left; right; exact X|right; exact X].
  - tauto.
  - exists vs. split; [exact A|]. destruct X as [X|[(m' & G & [X|X])|X]]; [now left| |right; left; now exists m'|right; right; exact X].
    exfalso. apply NS, meets_astray. exists m'. now split.
Qed.
