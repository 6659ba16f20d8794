(* Instantiation of a validated module adds what the standard says and runs what it says (C108). *)
From Coq Require Import ZArith List Bool Lia ZifyBool ZifyNat.
From Verif Require Import StandardFacts StandardRunFacts ConverseFacts.
From Verif Require Import Py Arith Floatops Val Opcode Numeric Syntax Store Basic Machine Float
  SpecInt SpecNum SpecMachine SpecMem SpecRun SpecControl SpecInst SpecType SpecValid SpecConverse
  PyFacts ArithFacts ValFacts StepFacts LaneFacts NumFacts MemFacts BulkFacts WfFacts RunFacts ControlFacts CallFacts InstFacts InitFacts
  TypeOpFacts TypeBasicFacts TypeFacts TypeIeeeFacts ValidFacts HistoryFacts SpecRef RefFacts RefHistoryFacts SpecStandard SpecInstantiate.
Import ListNotations.
Open Scope Z_scope.

(* ---- constant expressions ---- *)
Section constants.
Context (sg : nat -> functype) (host : hostcode) (s : store) (Hs : store_typed sg s) (Ok_s : store_ok s)
  (md : moddesc) (aux : modinst) (fr : frame) (Hfr : fr_module fr = MVal aux) (Hloc : fr_locals fr = [])
  (HT : m_type aux = [])
  (HF : forall i t, nth_error (c_funcs (const_ctx md)) i = Some t -> exists a, nth_error (m_func aux) i = Some (Z.of_nat a) /\ Z.of_nat a < 2 ^ 31)
  (HG : Forall2 (glob_at s) (imp_globs md) (m_glob aux)).
Lemma const_does o args t v : In o const_ops -> inst_ok (IOp o args) -> typed_inst (const_ctx md) (IOp o args) [] [t] ->
  exec_basic ieee (MVal aux) o args (mkb s [] []) = (Ok tt, mkb s [] [v]) -> constant_value s (m_func aux) (m_glob aux) [IOp o args] v.
Proof.
  intros Ho HO HI EB.
  assert (D : (exists i x, o = O_ref_func /\ args = [imm i] /\ nth_error (c_funcs (const_ctx md)) i = Some x) \/
    typed_inst (glob_ctx md) (IOp o args) [] [t]).
  { inversion HI; subst; try (cbn [const_ops In] in Ho; repeat (destruct Ho as [Ho|Ho]; [discriminate Ho|]); contradiction).
    - right. destruct ins as [|x ins]; [eapply (t_pure _ o args []); eassumption|].
      exfalso. match goal with H : rev (_ :: _) = [] |- _ => cbn [rev] in H; destruct (rev ins); discriminate H end.
    - exfalso. cbn [const_ops In] in Ho. repeat (destruct Ho as [<-|Ho]; [discriminate|]); contradiction.
    - right. eapply t_global_get. eassumption.
    - right. apply t_ref_null. assumption.
    - left. eexists _, _. split; [reflexivity|]. split; [reflexivity|]. eassumption. }
  destruct D as [(i & x & -> & -> & Hx)|D].
  - destruct (HF i x Hx) as (a & Ha & Hb). rewrite misc_basic in EB by reflexivity. cbn [exec_misc] in EB.
    rewrite (bind_do (lift (arg_int [imm i] 0)) _ _ (Z.of_nat i) (mkb s [] []) eq_refl) in EB. unfold mod_addr in EB. rewrite bind_assoc in EB. rewrite (bind_do get_store _ (mkb s [] []) s (mkb s [] []) eq_refl) in EB.
    cbn [mod_of] in EB. unfold bind at 1, lift at 1 in EB. rewrite (py_index_nth _ _ _ Ha) in EB. unfold pushr, bind, lift in EB.
    rewrite (from_ref_ok T_func (Z.of_nat a)) in EB by (unfold srange; change (2 ^ (32 - 1)) with (2 ^ 31); lia).
    injection EB as <-. replace (mkval T_func _) with (ref_to T_func a); [apply cv_function, Ha|].
    unfold ref_to, num_val. rewrite Z.mod_small by lia. reflexivity.
  - set (lb := mklabel 0 0 0 KBlock [IOp o args] 0). set (m := mkmach s [] [lb] [fr]).
    assert (AB : about_to_run m (IOp o args) fr) by (split; [exists lb, []; split; reflexivity|exists []; reflexivity]).
    assert (NC : is_control o = false) by (cbn [const_ops In] in Ho; repeat (destruct Ho as [<-|Ho]; [reflexivity|]); contradiction).
    assert (IT : instance_typed (k_store m) (mod_of (k_store m) (fr_module fr)) (glob_ctx md)) by (rewrite Hfr; exact (aux_instance s md aux HT HF HG)).
    destruct (all_good (sg := sg) host m fr (glob_ctx md) o args [] [t] [] [] D NC HO AB eq_refl eq_refl (Forall_nil _) Ok_s Hs IT ltac:(rewrite Hloc; reflexivity)) as [X|X].
    { exfalso. inversion X; subst. cbn [const_ops In] in Ho. repeat (destruct Ho as [Ho|Ho]; [discriminate Ho|]). contradiction. }
    pose proof (step_basic ieee host m o args fr AB NC) as SB. cbn [k_store k_value m] in SB. rewrite Hfr, Hloc, EB in SB. cbn [b_value b_store b_locals] in SB.
    destruct X as [(s1 & L1 & V1 & E & X)|(e & V1 & E & X)]; rewrite E in SB; [|discriminate SB]. apply (f_equal snd) in SB. cbn [snd] in SB.
    destruct (same_machine m fr [] _ _ _ _ _ _ eq_refl SB) as (-> & -> & ->). rewrite Hfr, Hloc in X. cbn [k_store k_value m] in X.
    assert (Y : computes o args [] (Some v) \/ o = O_ref_func \/ o = O_global_get).
    { clear - Ho X.
      assert (G : forall L V0 s' L' R, does (MVal aux) o args s L V0 s' L' R -> V0 = [] -> R = Some [v] -> computes o args [] (Some v) \/ o = O_ref_func \/ o = O_global_get); [|exact (G _ _ _ _ _ X eq_refl eq_refl)].
      clear X. intros L V0 s' L' R X EV ER. destruct X; try discriminate ER; try discriminate EV; try (exfalso; cbn [const_ops In] in Ho; repeat (destruct Ho as [Ho|Ho]; [discriminate Ho|]); contradiction); try (right; auto; fail).
      - left. apply app_eq_nil in EV. destruct EV as [-> ->]. injection ER as ->. assumption. }
    destruct Y as [Y|[-> | ->]]; [apply cv_computed, Y| |].
    + exfalso. inversion D; subst; try discriminate. 
      match goal with H : nth_error (c_funcs (glob_ctx md)) ?i = _ |- _ => destruct i; discriminate H end.
    + inversion X; subst; try (exfalso; match goal with H : computes _ _ _ _ |- _ => inversion H; discriminate end); try discriminate.
      match goal with H : global_of _ _ _ _ _ |- _ => destruct H as [H1 H2]; eapply cv_global; [exact H1|exact H2] end.
Qed.
Lemma const_stands n e t v m' : (2 <= n)%nat -> code_ok e -> const_typed md e t -> const_expr ieee host n e (mkmach s [] [] [fr]) = (Ok v, m') ->
  m' = mkmach s [] [] [fr] /\ v_type v = t /\ constant_value s (m_func aux) (m_glob aux) e v.
Proof.
  intros Hn CO [(o & args & -> & Ho) HTy] E. apply typed_rest in HTy. destruct HTy as (A & B & R & EQ & HI & HR). symmetry in EQ. apply app_eq_nil in EQ. destruct EQ as [-> ->].
  apply typed_end in HR. rewrite app_nil_r in HR. subst B.
  destruct (const_basic sg ieee ieee_converts s Hs Ok_s md aux HT HF HG o args t Ho HI) as (v' & EB & Tv).
  apply Forall_cons_iff in CO. pose proof (const_does o args t v' Ho (proj1 CO) HI EB) as RV.
  enough (EV : const_expr ieee host n [IOp o args] (mkmach s [] [] [fr]) = (Ok v', mkmach s [] [] [fr])).
  { rewrite EV in E. injection E as <- <-. split; [reflexivity|]. split; [exact Tv|exact RV]. }
  unfold const_expr. change [IOp o args] with (code_of [(o, args)]).
  pose proof (run_straight ieee host [(o, args)] 1 n s [] fr ltac:(repeat constructor; apply const_straight, Ho)) as P.
  cbn [ops] in P. rewrite Hfr, Hloc in P. unfold bind in P. rewrite EB in P. cbn [ret b_value length Nat.eqb] in P. unfold ret in P. cbn [b_value length Nat.eqb] in P.
  replace (Nat.ltb 1 n) with true in P by (symmetry; apply PeanoNat.Nat.ltb_lt; lia). cbn [andb] in P.
  unfold bind. rewrite P. unfold popv, finish, set_value, relocal. cbn. clear - Hloc. destruct fr as [x1 x2 x3 x4 x5]; cbn in *; subst x2; reflexivity.
Qed.
Lemma consts_stand {A} n (f : A -> list inst) (ty : A -> valtype) l vs m' : (2 <= n)%nat -> Forall (fun x => code_ok (f x)) l -> Forall (fun x => const_typed md (f x) (ty x)) l ->
  mapl (fun x => const_expr ieee host n (f x)) l (mkmach s [] [] [fr]) = (Ok vs, m') ->
  m' = mkmach s [] [] [fr] /\ Forall2 (fun x v => v_type v = ty x /\ constant_value s (m_func aux) (m_glob aux) (f x) v) l vs.
Proof.
  intros Hn CO H. revert vs m' CO. induction H as [|x l Hx _ IH]; intros vs m' CO E; [injection E as <- <-; split; [reflexivity|constructor]|].
  apply Forall_cons_iff in CO. destruct CO as [C1 C2]. cbn [mapl] in E. nxt E m1 v. destruct (const_stands n (f x) (ty x) v m1 Hn C1 Hx E0) as (-> & Hv).
  nxt E m2 vs'. destruct (IH _ _ C2 E1) as [-> Hvs]. injection E as <- <-. split; [reflexivity|constructor; assumption].
Qed.
End constants.
Section head.
Context (sg : nat -> functype) (host : hostcode) (s : store) (Hs : store_typed sg s) (Ok_s : store_ok s)
  (md : moddesc) (ext : list extern) (VM : valid_module md) (DO : desc_ok md) (IM : Forall2 (fits s md) (md_imps md) ext)
  (MANY : len (s_func s) + len (md_func md) < 2 ^ 31).
Notation stands := (constant_value s (imported 0 ext ++ fresh (length (s_func s)) (length (md_func md))) (imported 3 ext)).
Lemma head_stands n globin elemin m' : (2 <= n)%nat ->
  inst_head ieee host n md (mkmi [] (aux_funcs md ext s) [] [] (imported 3 ext) [] [] []) (mkmach s [] [] []) = (Ok (globin, elemin), m') ->
  Forall2 (fun g v => v_type v = gt_type (gd_type g) /\ stands (gd_init g) v) (md_glob md) globin /\
  Forall2 (fun e vs => Forall2 stands (ed_init e) vs) (md_elem md) elemin.
Proof.
  intros Hn. set (aux := mkmi _ _ _ _ _ _ _ _). set (fr := mkframe (MVal aux) [] 1 0 0). intros E.
  assert (HF : forall i t, nth_error (c_funcs (const_ctx md)) i = Some t -> exists a, nth_error (m_func aux) i = Some (Z.of_nat a) /\ Z.of_nat a < 2 ^ 31).
  { intros i t H. destruct (Forall2_nth _ _ _ (aux_at sg s Hs md ext VM IM MANY) i t H) as (z & Hz & a & -> & Ha). exists a. split; [exact Hz|exact Ha]. }
  assert (HG : Forall2 (glob_at s) (imp_globs md) (m_glob aux)) by exact (proj2 (proj2 (proj2 (imports_at _ _ _ _ IM)))).
  assert (EF : m_func aux = imported 0 ext ++ fresh (length (s_func s)) (length (md_func md))) by (cbn [aux m_func]; unfold aux_funcs, len; rewrite range_fresh; reflexivity).
  unfold inst_head in E. fold aux in E. fold fr in E. rewrite (bind_do (push_frame fr) _ (mkmach s [] [] []) tt (mkmach s [] [] [fr]) eq_refl) in E.
  nxt E m1 g1. destruct (consts_stand sg host s Hs Ok_s md aux fr eq_refl eq_refl eq_refl HF HG n gd_init (fun g => gt_type (gd_type g)) (md_glob md) g1 m1 Hn) with (3 := E0) as [-> G1].
  { apply DO. }
  { eapply Forall_impl; [|exact (vm_glob _ VM)]. intros g [_ H]. exact H. }
  nxt E m2 e1.
  assert (G2 : m2 = mkmach s [] [] [fr] /\ Forall2 (fun e vs => Forall2 (constant_value s (m_func aux) (m_glob aux)) (ed_init e) vs) (md_elem md) e1).
  { pose proof (vm_elem _ VM) as HE. assert (DE : Forall (fun e => Forall code_ok (ed_init e)) (md_elem md)) by (eapply Forall_impl; [|apply DO]; cbv beta; tauto).
    clear E E0. revert e1 m2 E1 DE. induction HE as [|e l (_ & _ & H & _) _ IH]; intros e1 m2 E1 DE; [injection E1 as <- <-; split; [reflexivity|constructor]|].
    apply Forall_cons_iff in DE. destruct DE as [D1 D2]. cbn [mapl] in E1. nxt E1 m3 vs.
    destruct (consts_stand sg host s Hs Ok_s md aux fr eq_refl eq_refl eq_refl HF HG n (fun c => c) (fun _ => ed_type e) (ed_init e) _ _ Hn D1 H E0) as [-> G2].
    nxt E1 m4 vss. destruct (IH _ _ E2 D2) as [-> G3]. injection E1 as <- <-. split; [reflexivity|constructor; [|assumption]].
    eapply Forall2_imp; [|exact G2]. cbv beta. tauto. }
  destruct G2 as [-> G2]. nxt E m3 u. injection E as <- <- _. rewrite EF in G1, G2. split; assumption.
Qed.
End head.

(* ---- the objects added ---- *)
Lemma exports_of md mi : Forall (fun e => 0 <= ex_desc e) (md_exps md) -> Forall2 (export_of mi) (md_exps md) (m_exps mi) -> Forall2 (exported mi) (md_exps md) (m_exps mi).
Proof.
  generalize (md_exps md) (m_exps mi). intros l k VE V9. revert VE.
  induction V9 as [|e x es xs H _ IH]; intros VE; [constructor|]. inversion VE as [|? ? VE1 VE2]; subst. constructor; [|apply IH, VE2].
  destruct H as (X1 & X2 & _ & X4). split; [exact X1|]. split; [exact X2|]. split; [exact VE1|].
  unfold py_index in X4. destruct (Z.ltb_spec (ex_desc e) 0); [lia|]. destruct (Z.ltb_spec (ex_desc e) 0); [lia|].
  destruct (nth_error (space mi (ex_kind e)) (Z.to_nat (ex_desc e))); [|discriminate X4]. apply Ok_inj in X4. subst. reflexivity.
Qed.
Lemma new_table_eq t x : tab_new t = Ok x -> x = new_table t.
Proof.
  unfold tab_new, tab_grow. cbn [ti_type ti_size ti_elem]. intros H. rewrite !rbind_ok in H. destruct H as (u & _ & H). rewrite rbind_ok in H. destruct H as (v & _ & H).
  injection H as <-. reflexivity.
Qed.
Section added.
Context (L : loaded) (ext : list extern) (globin : list val) (elemin : list (list val)) (s s' : store) (h : nat) (mi : modinst)
  (fs : list funcinst) (ts : list tableinst) (ms : list meminst) (gs : list globalinst) (es : list eleminst)
  (AL : allocated L ext globin elemin s s' h mi fs ts ms gs es).
Notation md := (l_desc L).
Notation stands := (constant_value s (imported 0 ext ++ fresh (length (s_func s)) (length (md_func md))) (imported 3 ext)).
Lemma alloc_adds : valid_module md -> untouched s L ->
  Forall2 (fun g v => v_type v = gt_type (gd_type g) /\ stands (gd_init g) v) (md_glob md) globin ->
  Forall2 (fun e vs => Forall2 stands (ed_init e) vs) (md_elem md) elemin -> adds L ext s s' mi.
Proof.
  intros VM (ND & UN) HG HE. pose proof (al_func _ _ _ _ _ _ _ _ _ _ _ _ _ AL) as EF. rewrite <- EF in HG, HE.
  pose proof (Forall2_len _ _ _ UN) as LB. pose proof AL as [A1 A2 A3 A4 A5 A6 A7 A8 A9 A10 A11 A12 A13 A14 A15].
  constructor; try assumption.
  - rewrite LB. exact A9.
  - apply exports_of; [|exact A10]. eapply Forall_impl; [|exact (vm_exps _ VM)]. cbv beta. tauto.
  - exists fs, gs, es. split; [|split; [|split]].
    + rewrite A2. f_equal; f_equal; [exact (Forall2_map_eq new_table _ _ _ new_table_eq A12)|exact (Forall2_map_eq new_memory _ _ _ mem_new_blank A13)].
    + pose proof (vm_func _ VM) as VF. revert VF A11. rewrite <- A1. clear. generalize (md_func md) fs. intros l k VF H. revert VF. induction H as [|d f l k (t & Ht & ->) _ IH]; intros VF; constructor.
      * apply Forall_cons_iff in VF. destruct VF as [(t' & Ht' & _) _]. exists t. split; [|reflexivity].
        rewrite (proj2 (py_index_item _ _ _ (proj1 Ht')) Ht') in Ht. apply Ok_inj in Ht. subst t'. exact Ht'.
      * apply IH. apply Forall_cons_iff in VF. apply VF.
    + eapply (enum_inits _ (eq_sym LB) _ (fun d v x => x = mkglob v (gt_mut (gd_type d)))); [|exact HG|exact A14].
      intros a v x [H1 H2] ->. exists v. auto.
    + eapply (enum_inits _ (eq_sym LB) _ (fun d v x => x = mkelem (ed_type d) v)); [|exact HE|exact A15].
      intros a v x H ->. exists v. auto.
  - intros i d Hd. destruct (Forall2_nth _ _ _ UN i d Hd) as (b & Hb & Hbb). exists b. rewrite A2. cbn [s_data s_blob]. split.
    + rewrite nth_error_app2 by lia. rewrite <- Hb. f_equal. lia.
    + exact (nth_error_nth _ _ _ Hbb).
Qed.
End added.

(* ---- straight-line code by the standard keeps the segments it does not drop ---- *)
Lemma does_keeps mr o args s L V s' L' r a d : does mr o args s L V s' L' r ->
  (forall k, o = O_data_drop -> args = [idx k] -> nth_error (m_data (mod_of s mr)) k <> Some (Z.of_nat a)) -> segment s a d ->
  segment s' a d /\ s_inst s' = s_inst s.
Proof.
  intros D ND HS. destruct D; try (split; [exact HS|reflexivity]).
  match goal with H : data_of _ _ _ _ _, K : forall a' d', a' <> _ -> _ |- _ => split; [apply K; [|exact HS]|reflexivity]; intros ->; exact (ND _ eq_refl eq_refl (proj1 H)) end.
Qed.
Definition no_drop (mi : modinst) (a : nat) (i : inst) : Prop :=
  exists o args, i = IOp o args /\ is_control o = false /\
    forall k, o = O_data_drop -> args = [idx k] -> nth_error (m_data mi) k <> Some (Z.of_nat a).
Lemma one_control hs d mr s L V o args s' L' r : is_control o = false -> one_by does ieee hs d mr s L V (IOp o args) s' L' r ->
  (exists V', r = Done V' /\ does mr o args s L V s' L' (Some V')) \/ (r = Trap /\ does mr o args s L V s' L' None).
Proof. intros Hc H. inversion H; subst; try discriminate Hc; [left; eauto|right; eauto]. Qed.
Lemma run_keeps hs mi a d code : Forall (no_drop mi a) code -> forall n mr s L V s' L' o, mod_of s mr = mi ->
  run_by does ieee hs n mr s L V code s' L' o -> segment s a d -> segment s' a d /\ s_inst s' = s_inst s.
Proof.
  induction 1 as [|i code (o & args & -> & Hc & ND) _ IH]; intros n mr s L V s' L' r E H HS.
  - inversion H; subst. split; [exact HS|reflexivity].
  - assert (G : forall s1 L1 r1, one_by does ieee hs n mr s L V (IOp o args) s1 L1 r1 -> segment s1 a d /\ s_inst s1 = s_inst s).
    { intros s1 L1 r1 HO. apply (one_control _ _ _ _ _ _ _ _ _ _ _ Hc) in HO. destruct HO as [(V' & -> & HO)|[-> HO]]; (eapply does_keeps; [exact HO| |exact HS]); rewrite E; exact ND. }
    inversion H; subst.
    + match goal with H : one_by _ _ _ _ _ _ _ _ _ _ _ _ |- _ => destruct (G _ _ _ H) as [G1 G2] end.
      assert (EM : mod_of s1 mr = mod_of s mr) by (destruct mr; cbn [mod_of]; [reflexivity|rewrite G2; reflexivity]).
      match goal with H : run_by _ _ _ _ _ _ _ _ code _ _ _ |- _ => destruct (IH _ _ _ _ _ _ _ _ EM H G1) as [G3 G4] end.
      split; [exact G3|congruence].
    + match goal with H : one_by _ _ _ _ _ _ _ _ _ _ _ _ |- _ => exact (G _ _ _ H) end.
Qed.

(* ---- the code of instantiation ---- *)
Lemma no_stray_from F (CF : converts F) sg host (HB : well_behaved host) (HH : host_typed sg host) (HR : host_refs sg host) E m : running (sg := sg) E m ->
  machine_refs sg m -> ~ stray F host m.
Proof.
  intros RU M0 (m1 & fr & i & j & c & V & ta & tab & r & (k & G) & AB & EV & E1 & E2 & E3 & E4 & E5).
  pose proof (evaluate_typed F CF host HB HH _ k _ RU) as EVT. rewrite G in EVT. destruct EVT as [(_ & T1 & C & K) _].
  pose proof (f_evaluate sg F host HR k _ M0) as FE. rewrite G in FE.
  destruct AB as [(lb & LS & B1 & B2) (FS & B3)]. rewrite B1, B3 in K.
  destruct (kont_run _ _ _ _ _ _ _ K) as [(fr' & FS' & EF & Hi & _)|(fr' & FS' & i' & A & B & va & V' & EF & N' & HT' & _)].
  { rewrite Hi in B2. assert (length (lb_instr lb) < length (lb_instr lb))%nat by (apply nth_error_Some; congruence). lia. }
  injection EF as <- <-. rewrite B2 in N'. injection N' as <-.
  assert (TT : nth_error (c_tabls C) j = Some T_func).
  { inversion HT'; subst; try (cbn in *; discriminate).
    match goal with H : nth_error (c_tabls C) ?x = Some T_func, E : Z.of_nat ?x = Z.of_nat j |- _ => apply Nat2Z.inj in E; subst x; exact H
                  | H : nth_error (c_tabls C) j = Some T_func |- _ => exact H end. }
  destruct (kont_frame _ _ _ _ _ _ _ _ K) as (fr0 & FS0 & EF & FT). injection EF as <- <-.
  destruct (it_tabl _ _ _ (frame_instance _ _ _ FT) _ _ TT) as (ta' & tab' & D1 & D2 & D3).
  rewrite E1 in D1. injection D1 as D1. apply Nat2Z.inj in D1. subst ta'. rewrite E2 in D2. injection D2 as <-.
  destruct (nth_Forall _ _ _ _ (st_tabl _ T1) E2) as [_ T2]. pose proof (nth_Forall _ _ _ _ T2 E3) as T3. cbv beta in T3. rewrite D3 in T3.
  pose proof (nth_Forall _ _ _ _ (nth_Forall _ _ _ _ (sr_tabl _ _ (mr_store _ _ FE)) E2) E3) as R1. destruct (R1 T3) as [X|(x & Hx & X)]; [contradiction|].
  exact (E5 x Hx X).
Qed.
Section init.
Context (sg : nat -> functype) (hs : storehost).
Notation host := (plain_host hs).
Context (HB : well_behaved host) (HH : host_typed sg host) (L : loaded) (s s0 : store) (h : nat) (mi : modinst) (n : nat)
  (VM : valid_module (l_desc L)) (DO : desc_ok (l_desc L)) (L0 : later s s0) (S0 : same_types s s0)
  (Hmi : nth_error (s_inst s0) h = Some mi) (HI : instance_typed s0 mi (module_ctx (l_desc L) [] [])) (BL : blobs_ok s0 L).
Notation md := (l_desc L).
Notation ctx := (module_ctx md [] []).
Notation fr := (mkframe (MRef h) [] 0 0 0).
Notation good := (ValidFacts.good sg s0).
(* no stray references, from the start *)
Definition tidy (s1 : store) : Prop := host_refs sg host /\ store_refs sg s1.
Definition bad (s1 : store) (code : list inst) : Prop :=
  unfinished ieee host n (init_at s1 h code) \/ (stray ieee host (init_at s1 h code) /\ ~ tidy s1) \/ meets_deviation ieee host (init_at s1 h code).
Lemma init_running code s1 : good s1 -> code_ok code -> Forall flat code -> typed_seq ctx code [] [] -> running (sg := sg) (mkending [] fr) (init_at s1 h code).
Proof.
  intros G CO FL TS. pose proof (good_init sg L s s0 h mi L0 S0 Hmi HI s1 G) as (_ & _ & _ & mi1 & E1 & E2). destruct G as (G1 & G2 & G3 & G4). split; [|split; [exact G2|]].
  - constructor; cbn [init_at k_store k_value k_frame k_label]; [exact G1|constructor|repeat constructor|constructor; [exact CO|constructor]].
  - exists ctx. cbn [init_at k_store k_value k_frame k_label]. apply (k_init s1 (mkending [] fr) ctx _ fr [] [] []); cbn [lb_carry lb_value lb_index lb_instr skipn app en_types]; try assumption; try reflexivity; [|lia|apply outermost_self].
    exists h, mi1. split; [reflexivity|]. split; [exact E1|]. split; [exact E2|reflexivity].
Qed.
Lemma frame_refs s1 : store_refs sg s1 -> Forall (fun f => Forall (refers (length (s_func s1))) (fr_locals f) /\ names (length (s_func s1)) (mod_of s1 (fr_module f))) [fr].
Proof. intros R. constructor; [|constructor]. split; [constructor|]. cbn [fr_module]. apply names_of; [exact (sr_inst _ _ R)|discriminate]. Qed.
Lemma flat_outcome d mr code : Forall flat code -> forall s1 L1 V1 s2 L2 o, run_by does ieee hs d mr s1 L1 V1 code s2 L2 o ->
  (exists R, o = Done R) \/ o = Trap.
Proof.
  induction 1 as [|i code Hi _ IH]; intros s1 L1 V1 s2 L2 o H; inversion H; subst; [left; eauto|eapply IH; eassumption|].
  destruct i as [| | |o1 args]; try contradiction. destruct Hi as [Hi| ->].
  - match goal with H : one_by _ _ _ _ _ _ _ _ _ _ _ _ |- _ => apply (one_control _ _ _ _ _ _ _ _ _ _ _ Hi) in H; destruct H as [(V' & -> & _)|[-> _]] end; [left; eauto|right; reflexivity].
  - match goal with H : one_by _ _ _ _ _ _ _ _ _ _ _ _ |- _ => inversion H; subst end; [discriminate|discriminate|].
    match goal with H : called_by _ _ _ _ _ _ _ _ _ _ _ |- _ => inversion H; subst end; eauto.
    match goal with H : returns _ _ _ _ |- _ => inversion H; subst end; eauto.
Qed.
Lemma run_code code s1 : good s1 -> init_code L s1 code -> code_ok code -> Forall flat code -> typed_seq ctx code [] [] ->
  bad s1 code \/
  match run_expr ieee host n code 0 (mkmach s1 [] [] [fr]) with
  | (Ok _, m') => exists s2, m' = mkmach s2 [] [] [fr] /\ good s2 /\ (tidy s1 -> tidy s2) /\ run_by does ieee hs 1 (MRef h) s1 [] [] code s2 [] (Done [])
  | (Err _, m') => exists L', run_by does ieee hs 1 (MRef h) s1 [] [] code (k_store m') L' Trap
  end.
Proof.
  intros G IC CO FL TS. pose proof (run_init sg ieee ieee_converts host HB HH L s s0 h mi n L0 S0 Hmi HI code s1 G IC CO FL TS) as OC.
  pose proof (good_init sg L s s0 h mi L0 S0 Hmi HI s1 G) as (_ & _ & _ & mi1 & E1 & E2). destruct G as (G1 & G2 & G3 & G4).
  pose proof (init_running code s1 (conj G1 (conj G2 (conj G3 G4))) CO FL TS) as RUN.
  assert (TIDY : forall u m', run_expr ieee host n code 0 (mkmach s1 [] [] [fr]) = (Ok u, m') -> tidy s1 -> tidy (k_store m')).
  { intros u m' E [HR RF]. split; [exact HR|]. assert (M0 : machine_refs sg (mkmach s1 [] [] [fr])) by (constructor; cbn [k_store k_value k_frame]; [exact RF|constructor|apply frame_refs, RF]).
    pose proof (f_run_expr sg ieee host HR n code 0 _ M0) as X. rewrite E in X. exact (mr_store _ _ X). }
  set (lb := mklabel 1 1 0 KBlock code 0).
  assert (SD : sound (sg := sg) s1 ctx fr).
  { split; [exact G1|]. split; [exact G2|]. split; [|constructor]. exists h, mi1. split; [reflexivity|]. split; [exact E1|]. split; [exact E2|reflexivity]. }
  destruct (unfinished_dec ieee hs n (init_at s1 h code)) as [U|NU]; [left; left; exact U|].
  destruct (converse ieee ieee_converts hs HB HH does (fun m => astray m \/ deviates m)) with (n := n) (C := ctx) (is := code) (ts := @nil valtype) (outs := @nil valtype)
     (s := s1) (V := @nil val) (W := @nil val) (lb := lb) (LS := @nil label) (fr := fr) (FS := @nil frame) as [U|[U|(s2 & L2 & o & HRun & HO)]]; try assumption; try reflexivity.
  - intros. edestruct (model_means (sg := sg)) as [X|X]; try eassumption; [left; right; exact X|right; exact X].
  - tauto.
  - constructor.
  - split; [reflexivity|apply PeanoNat.Nat.le_0_l].
  - left. left. exact U.
  - left. right. destruct U as (m1 & R1 & [U|U]); [left|right; exists m1; split; assumption].
    assert (ST : stray ieee host (init_at s1 h code)) by (apply meets_astray; exists m1; split; assumption). split; [exact ST|]. intros [HR RF].
    apply (no_stray_from ieee ieee_converts sg host HB HH HR _ _ RUN) in ST; [exact ST|]. constructor; cbn [init_at k_store k_value k_frame]; [exact RF|constructor|apply frame_refs, RF].
  - assert (HD : run_by does ieee hs 1 (MRef h) s1 [] [] code s2 L2 o) by (eapply run_mono; [|exact HRun]; cbv beta; tauto).
    assert (HM : run ieee hs 1 (MRef h) s1 [] [] code s2 L2 o) by (eapply run_mono; [|exact HRun]; cbv beta; tauto).
    destruct (simulation ieee hs) as [Sim _]. specialize (Sim _ _ _ _ _ _ _ _ _ HM). unfold P_run in Sim.
    specialize (Sim [] lb [] fr [] (conj eq_refl (PeanoNat.Nat.le_0_l _)) (PeanoNat.Nat.le_0_l _) eq_refl eq_refl eq_refl).
    assert (FIN : forall k r m', evaluate ieee host k (init_at s1 h code) = (r, m') -> r <> Ok tt \/ k_label m' = [] -> evaluate ieee host n (init_at s1 h code) = (r, m')).
    { intros k r m' E H. rewrite <- E. assert (NK : ~ unfinished ieee host k (init_at s1 h code)) by (intros (m2 & X1 & X2); rewrite E in X1; injection X1 as -> ->; destruct H as [H|H]; contradiction).
      destruct (Compare_dec.le_lt_dec n k) as [G|G]; [symmetry; apply evaluate_finished; assumption|apply evaluate_finished; [lia|assumption]]. }
    right. rewrite run_expr_from in OC, TIDY |- *. change (mkmach s1 [] [mklabel 1 1 0 KBlock code 0] [fr]) with (init_at s1 h code) in OC, TIDY |- *. unfold bind at 1 in OC. unfold bind at 1 in TIDY. unfold bind at 1.
    destruct (flat_outcome _ _ _ FL _ _ _ _ _ _ HD) as [(R & ->)| ->].
    + destruct HO as [HO|(A1 & A2 & A3 & A4 & A5 & A6)]; [discriminate HO|]. cbn [fits c_locals ctx module_ctx] in A5, A6. destruct A6 as [A6 _]. apply map_eq_nil in A5, A6. subst L2 R.
      cbn [ends] in Sim.
      assert (X : reach ieee host (init_at s1 h code) (mkmach s2 [] [] [fr])).
      { eapply reach_trans; [exact Sim|]. apply reach_step; [discriminate|]. apply (step_end ieee hs s2 [] lb [] (relocal fr []) []). discriminate. }
      destruct X as [k X]. specialize (X O). rewrite PeanoNat.Nat.add_0_r in X. cbn [evaluate k_label] in X. rewrite (FIN k _ _ X (or_intror eq_refl)) in OC, TIDY |- *.
      cbn in OC, TIDY |- *. destruct OC as (s3 & E & OC). injection E as <-. exists s2. split; [reflexivity|]. split; [exact OC|]. split; [exact (TIDY _ _ eq_refl)|exact HD].
    + cbn [ends] in Sim. destruct Sim as (k & e & m' & E & <-). specialize (E O). rewrite PeanoNat.Nat.add_0_r in E.
      assert (NE : Err e <> Ok tt) by discriminate. pose proof (FIN k (Err e) m' E (or_introl NE)) as FE. rewrite FE. exists L2. exact HD.
Qed.
(* pieces of code one after the other *)
Definition phase (I : store -> Prop) (cs : list (list inst)) (s1 : store) (p : res unit * machine) : Prop :=
  (exists cs1 code cs2 s2, cs = cs1 ++ code :: cs2 /\ initialises hs h s1 cs1 s2 true /\ (tidy s1 -> tidy s2) /\ bad s2 code) \/
  match p with
  | (Ok _, m') => exists s2, m' = mkmach s2 [] [] [fr] /\ good s2 /\ (tidy s1 -> tidy s2) /\ I s2 /\ initialises hs h s1 cs s2 true
  | (Err _, m') => initialises hs h s1 cs (k_store m') false
  end.
Lemma initialises_app s1 cs1 s2 : initialises hs h s1 cs1 s2 true -> forall cs2 s3 b, initialises hs h s2 cs2 s3 b -> initialises hs h s1 (cs1 ++ cs2) s3 b.
Proof.
  intros H. remember true as t eqn:Et. induction H; intros cs2 sz b' H2; [exact H2| |discriminate Et]. eapply in_more; [eassumption|]. apply IHinitialises; assumption.
Qed.
Lemma initialises_stop s1 cs1 s2 : initialises hs h s1 cs1 s2 false -> forall cs2, initialises hs h s1 (cs1 ++ cs2) s2 false.
Proof.
  intros H. remember false as t eqn:Et. induction H; intros cs2; [discriminate Et| |eapply in_trap; eassumption]. eapply in_more; [eassumption|]. apply IHinitialises; assumption.
Qed.
Lemma phase_none (I : store -> Prop) s1 : good s1 -> I s1 -> phase I [] s1 (Ok tt, mkmach s1 [] [] [fr]).
Proof. intros G H. right. exists s1. split; [reflexivity|]. split; [exact G|]. split; [tauto|]. split; [exact H|constructor]. Qed.
Lemma phase_bind (I I' : store -> Prop) cs1 cs2 s1 (c1 c2 : M unit) : phase I cs1 s1 (c1 (mkmach s1 [] [] [fr])) ->
  (forall s2, good s2 -> I s2 -> phase I' cs2 s2 (c2 (mkmach s2 [] [] [fr]))) -> phase I' (cs1 ++ cs2) s1 ((c1 ;; c2) (mkmach s1 [] [] [fr])).
Proof.
  intros [(a & code & b & s2 & -> & H1 & HT & H2)|H] K.
  - left. exists a, code, (b ++ cs2), s2. split; [rewrite <- app_assoc; reflexivity|]. split; [assumption|split; assumption].
  - unfold bind. destruct (c1 (mkmach s1 [] [] [fr])) as [[u|e] m1].
    + destruct H as (s2 & -> & G & HT & HI' & H). destruct (K s2 G HI') as [(a & code & b & s3 & -> & H1 & HT1 & H2)|K'].
      * left. exists (cs1 ++ a), code, b, s3. split; [rewrite <- app_assoc; reflexivity|]. split; [exact (initialises_app _ _ _ H _ _ _ H1)|]. split; [tauto|exact H2].
      * right. destruct (c2 (mkmach s2 [] [] [fr])) as [[u2|e] m2]; [|exact (initialises_app _ _ _ H _ _ _ K')].
        destruct K' as (s3 & -> & G3 & HT3 & I3 & H3). exists s3. split; [reflexivity|]. split; [exact G3|]. split; [tauto|]. split; [exact I3|]. exact (initialises_app _ _ _ H _ _ _ H3).
    + right. exact (initialises_stop _ _ _ H _).
Qed.
Lemma phase_code (I : store -> Prop) code s1 : good s1 -> init_code L s1 code -> code_ok code -> Forall flat code -> typed_seq ctx code [] [] ->
  (forall s2, run_by does ieee hs 1 (MRef h) s1 [] [] code s2 [] (Done []) -> I s2) ->
  phase I [code] s1 (run_expr ieee host n code 0 (mkmach s1 [] [] [fr])).
Proof.
  intros G IC CO FL TS HI'. destruct (run_code code s1 G IC CO FL TS) as [B|R]; [left; exists [], code, [], s1; split; [reflexivity|]; split; [constructor|]; split; [tauto|exact B]|right].
  destruct (run_expr ieee host n code 0 (mkmach s1 [] [] [fr])) as [[u|e] m1].
  - destruct R as (s2 & -> & G2 & HT & R). exists s2. split; [reflexivity|]. split; [exact G2|]. split; [exact HT|]. split; [exact (HI' _ R)|]. eapply in_more; [exact R|constructor].
  - destruct R as (L' & R). eapply in_trap. exact R.
Qed.
Lemma phase_forl {A B} (f : A -> M unit) (g : B -> list (list inst)) (J : nat -> store -> Prop) l : forall l' k s1, length l = length l' ->
  (forall i x y s1, nth_error l i = Some x -> nth_error l' i = Some y -> good s1 -> J (k + i)%nat s1 -> phase (J (S (k + i))) (g y) s1 (f x (mkmach s1 [] [] [fr]))) ->
  good s1 -> J k s1 -> phase (J (k + length l)%nat) (flat_map g l') s1 (forl f l (mkmach s1 [] [] [fr])).
Proof.
  induction l as [|x l IH]; intros l' k s1 EL H G HJ; destruct l' as [|y l']; try discriminate EL.
  - apply phase_none; [exact G|]. cbn [length]. rewrite PeanoNat.Nat.add_0_r. exact HJ.
  - cbn [forl flat_map length]. apply (phase_bind (J (S k))).
    + specialize (H O x y s1 eq_refl eq_refl G). rewrite PeanoNat.Nat.add_0_r in H. exact (H HJ).
    + intros s2 G2 J2. replace (k + S (length l))%nat with (S k + length l)%nat by lia. apply IH; [injection EL as EL; exact EL| |exact G2|exact J2].
      intros i x' y' s3 Hx Hy. specialize (H (S i) x' y' s3 Hx Hy). replace (S k + i)%nat with (k + S i)%nat by lia. exact H.
Qed.
Lemma numbered_nth {A} (l : list A) i x : nth_error (numbered l) i = Some x -> fst x = i /\ nth_error l i = Some (snd x).
Proof.
  destruct x as [z y]. intros H. apply combine_nth_error in H. destruct H as [H1 H2]. split; [|exact H2]. cbn [fst].
  assert (i < length l)%nat by (apply nth_error_Some; cbn [snd] in H2; congruence).
  rewrite (nth_error_nth' _ 0%nat) in H1 by (rewrite seq_length; assumption). injection H1 as <-. rewrite seq_nth by assumption. reflexivity.
Qed.
(* the bytes of the segments from the [k]-th on *)
Context (D : nat) (MD : m_data mi = fresh D (length (md_data md))) (SDATA : forall j b, nth_error (Machine.l_blob L) j = Some b -> nth_error (s_data s0) (D + j) = Some b).
Definition intact (k : nat) (s1 : store) : Prop := forall j d, (k <= j)%nat -> nth_error (md_data md) j = Some d -> segment s1 (D + j) (dd_init d).
Lemma mod_h s1 : good s1 -> mod_of s1 (MRef h) = mi.
Proof. intros (_ & _ & G & _). cbn [mod_of]. apply nth_error_nth. destruct (lt_inst _ _ G h _ Hmi) as (x & E & <-). exact E. Qed.
Lemma keeps_intact k code s1 s2 : good s1 -> intact k s1 -> (forall j, (k <= j)%nat -> Forall (no_drop mi (D + j)) code) ->
  forall L2 o, run_by does ieee hs 1 (MRef h) s1 [] [] code s2 L2 o -> intact k s2.
Proof. intros G H ND L2 o R j d Hj Hd. exact (proj1 (run_keeps hs mi (D + j) (dd_init d) code (ND j Hj) _ _ _ _ _ _ _ _ (mod_h _ G) R (H j d Hj Hd))). Qed.
Lemma const_no_drop e a t rest : const_typed md e t -> Forall (no_drop mi a) rest -> Forall (no_drop mi a) (e ++ rest).
Proof.
  intros [(o & args & -> & Ho) _] H. constructor; [|exact H]. exists o, args. split; [reflexivity|]. split; [apply const_flat, Ho|]. intros k ->.
  exfalso. cbn [const_ops In] in Ho. repeat (destruct Ho as [Ho|Ho]; [discriminate Ho|]). contradiction.
Qed.
Lemma op_no_drop a o args : is_control o = false -> o <> O_data_drop -> no_drop mi a (IOp o args).
Proof. intros H1 H2. exists o, args. split; [reflexivity|]. split; [exact H1|]. intros k E. contradiction. Qed.
Lemma elem_phase s1 : good s1 -> intact 0 s1 -> phase (intact 0) (elem_inits md) s1 (elem_loop ieee host n (enum (md_elem md)) (mkmach s1 [] [] [fr])).
Proof.
  intros G I1. unfold elem_loop, elem_inits. apply (phase_forl _ _ (fun _ => intact 0) _ _ 0); [|clear s1 G I1|exact G|exact I1].
  { unfold enum, numbered, py_range, len. rewrite !combine_length, map_length, !seq_length, Nat2Z.id. reflexivity. }
  intros i [z e] [i' e'] s2 Hx Hy G I2. apply nth_range in Hx. apply numbered_nth in Hy. cbn [snd fst Nat.add] in *. destruct Hx as [-> Hj], Hy as [-> Hy]. rewrite Hj in Hy. injection Hy as <-.
  rewrite even_land. destruct (Z.even (ed_kind e)) eqn:EV; cbn [negb]; [|apply phase_none; assumption].
  destruct (nth_Forall _ _ _ _ (vm_elem _ VM) Hj) as (V1 & V2 & V3 & V4). destruct (V4 EV) as [V5 V6]. apply item_at in V6. destruct V6 as [V6 V7].
  apply phase_code; [exact G|exact (init_elem L s2 i e Hj EV)| | | |]; unfold elem_code.
  - apply Forall_app. split; [|repeat (constructor; [plain_op|]); constructor]. destruct DO as (_ & _ & _ & D4 & _). exact (proj1 (nth_Forall _ _ _ _ D4 Hj)).
  - apply const_code; [apply V5|]. repeat constructor; left; reflexivity.
  - apply (seq_const _ _ _ T_i32); [exact V5|]. apply seq_i32; [lia|]. apply seq_i32; [unfold len in *; lia|].
    assert (N : nth_error (c_elems ctx) i = Some (ed_type e)) by (cbn [module_ctx c_elems]; rewrite nth_error_map, Hj; reflexivity).
    apply (t_cons _ _ _ [T_i32; T_i32; T_i32] [] []).
    + rewrite V6. apply (t_table_init _ i (Z.to_nat (ed_tidx e)) (ed_type e)); [exact N|exact V7].
    + apply (t_cons _ _ _ [] [] []); [|constructor]. eapply (t_elem_drop _ i). exact N.
  - intros s3 R. eapply keeps_intact; [exact G|exact I2| |exact R]. intros j _. eapply const_no_drop; [exact V5|].
    repeat (constructor; [apply op_no_drop; [reflexivity|discriminate]|]). constructor.
Qed.
Lemma drop_phase s1 : good s1 -> intact 0 s1 -> phase (intact 0) (elem_drops md) s1 (drop_loop ieee host n (enum (md_elem md)) (mkmach s1 [] [] [fr])).
Proof.
  intros G I1. unfold drop_loop, elem_drops. apply (phase_forl _ _ (fun _ => intact 0) _ _ 0); [|clear s1 G I1|exact G|exact I1].
  { unfold enum, numbered, py_range, len. rewrite !combine_length, map_length, !seq_length, Nat2Z.id. reflexivity. }
  intros i [z e] [i' e'] s2 Hx Hy G I2. apply nth_range in Hx. apply numbered_nth in Hy. cbn [snd fst Nat.add] in *. destruct Hx as [-> Hj], Hy as [-> Hy]. rewrite Hj in Hy. injection Hy as <-.
  destruct (Z.eqb_spec (Z.land (ed_kind e) 3) 3) as [EV|EV]; cbn [negb]; [|apply phase_none; assumption].
  assert (OD : Z.even (ed_kind e) = false).
  { rewrite <- even_land. apply Z.eqb_neq. intros E. assert (X : Z.land (Z.land (ed_kind e) 3) 1 = 1) by (rewrite EV; reflexivity).
    rewrite <- Z.land_assoc in X. change (Z.land 3 1) with 1 in X. lia. }
  apply phase_code; [exact G|exact (init_drop L s2 i e Hj OD)| | | |].
  - repeat (constructor; [plain_op|]). constructor.
  - repeat constructor; left; reflexivity.
  - apply (t_cons _ _ _ [] [] []); [|constructor]. eapply (t_elem_drop _ i). cbn [module_ctx c_elems]. rewrite nth_error_map, Hj. reflexivity.
  - intros s3 R. eapply keeps_intact; [exact G|exact I2| |exact R]. intros j _. repeat (constructor; [apply op_no_drop; [reflexivity|discriminate]|]). constructor.
Qed.
Lemma data_phase s1 : good s1 -> intact 0 s1 ->
  phase (fun _ => True) (data_inits md) s1 (data_loop ieee host n (combine (py_range (len (md_data md))) (combine (md_data md) (Machine.l_blob L))) (mkmach s1 [] [] [fr])).
Proof.
  intros G I1. unfold data_loop, data_inits.
  replace (len (md_data md)) with (len (combine (md_data md) (Machine.l_blob L))) by (unfold len; rewrite combine_length, (proj1 BL); f_equal; apply PeanoNat.Nat.min_id).
  assert (EL : length (combine (md_data md) (Machine.l_blob L)) = length (md_data md)) by (rewrite combine_length, (proj1 BL); apply PeanoNat.Nat.min_id).
  assert (P : forall (I I' : store -> Prop) cs s1 p, (forall s, I s -> I' s) -> phase I cs s1 p -> phase I' cs s1 p).
  { intros I I' cs s2 p HI' [X|X]; [left; exact X|right]. destruct p as [[u|e] m1]; [|exact X]. destruct X as (s3 & X1 & X2 & X3 & X4 & X5). exists s3. auto 10. }
  eapply P; [|apply (phase_forl _ _ intact _ _ 0); [|clear s1 G I1|exact G|exact I1]]; [auto| |].
  { unfold enum, numbered, py_range, len. rewrite combine_length, map_length, !seq_length, Nat2Z.id, PeanoNat.Nat.min_id, EL, combine_length, seq_length, PeanoNat.Nat.min_id. reflexivity. }
  intros i [z [d b]] [i' d'] s2 Hx Hy G I2. apply nth_range in Hx. apply numbered_nth in Hy. cbn [snd fst Nat.add] in *. destruct Hx as [-> Hj], Hy as [-> Hy].
  apply combine_nth_error in Hj. destruct Hj as [Hj Hb]. rewrite Hj in Hy. injection Hy as <-. unfold active.
  assert (LESS : intact (S i) s2) by (intros j d' Hle; apply I2; lia).
  rewrite even_land. destruct (Z.even (dd_kind d)) eqn:EV; cbn [negb]; [|apply phase_none; assumption].
  destruct (nth_Forall _ _ _ _ (vm_data _ VM) Hj) as (V1 & V2). destruct (V2 EV) as [V3 V4].
  rewrite (bind_do mget _ (mkmach s2 [] [] [fr]) (mkmach s2 [] [] [fr]) (mkmach s2 [] [] [fr]) eq_refl). cbn [k_store].
  assert (SAME : nth b (s_blob s2) [] = dd_init d).
  { destruct (I2 i d (le_n _) Hj) as (b' & B1 & B2). pose proof (SDATA _ _ Hb) as X. destruct G as (_ & _ & G & _). destruct (lt_data _ _ G _ _ X) as (x & Y & <-).
    rewrite Y in B1. injection B1 as <-. exact B2. }
  rewrite SAME.
  assert (SZ : len (dd_init d) < 2 ^ 31).
  { rewrite <- SAME. destruct BL as (_ & _ & B3). destruct (nth_Forall _ _ _ _ B3 Hb) as (x & Hx & Hl). destruct G as (_ & _ & G3 & _). destruct (lt_blob _ _ G3 _ _ Hx) as (y & Hy & [-> | ->]).
    - rewrite (nth_error_nth _ _ _ Hy). exact Hl.
    - rewrite (nth_error_nth _ _ _ Hy). cbn. lia. }
  assert (IC : init_code L s2 (data_code (Z.of_nat i) (dd_offset d) (len (dd_init d)))) by (rewrite <- SAME; exact (init_data L s2 i d b Hj EV Hb)).
  apply phase_code; [exact G|exact IC| | | |]; unfold data_code.
  - apply Forall_app. split; [|repeat (constructor; [plain_op|]); constructor]. destruct DO as (_ & _ & _ & _ & D5). exact (proj1 (nth_Forall _ _ _ _ D5 Hj)).
  - apply const_code; [apply V3|]. repeat constructor; left; reflexivity.
  - assert (N : (i < c_datas ctx)%nat) by (cbn [module_ctx c_datas]; apply nth_error_Some; congruence).
    apply (seq_const _ _ _ T_i32); [exact V3|]. apply seq_i32; [lia|]. apply seq_i32; [unfold len in *; lia|].
    apply (t_cons _ _ _ [T_i32; T_i32; T_i32] [] []); [apply (t_memory_init _ i []); [exact V4|exact N]|].
    apply (t_cons _ _ _ [] [] []); [|constructor]. apply (t_data_drop _ i). exact N.
  - intros s3 R. eapply keeps_intact; [exact G|exact LESS| |exact R]. intros j Hle. eapply const_no_drop; [exact V3|].
    repeat (constructor; [apply op_no_drop; [reflexivity|discriminate]|]). constructor; [|constructor].
    exists O_data_drop, [AInt (Z.of_nat i)]. split; [reflexivity|]. split; [reflexivity|]. intros k _ E. injection E as E. apply Nat2Z.inj in E. subst k.
    rewrite MD. unfold fresh. rewrite nth_error_map. intros X. destruct (nth_error (seq D (length (md_data md))) i) eqn:EN; [|discriminate X].
    assert (i < length (md_data md))%nat by (apply nth_error_Some; congruence).
    rewrite (nth_error_nth' _ 0%nat) in EN by (rewrite seq_length; assumption). rewrite seq_nth in EN by assumption. injection EN as <-. injection X as X. lia.
Qed.
Lemma start_phase s1 : good s1 -> phase (fun _ => True) (start_inits md) s1 (start_it ieee host n (md_star md) (mkmach s1 [] [] [fr])).
Proof.
  intros G. unfold start_it, start_inits. destruct (md_star md >=? 0) eqn:E.
  2:{ replace (0 <=? md_star md) with false by lia. apply phase_none; [exact G|exact I]. }
  replace (0 <=? md_star md) with true by lia. destruct (vm_start _ VM) as [V|V]; [lia|]. apply item_at in V. destruct V as [V1 V2].
  apply phase_code; [exact G|apply init_start; lia| | | |auto].
  - repeat (constructor; [plain_op|]). constructor.
  - repeat constructor; right; reflexivity.
  - rewrite V1. apply (t_cons _ _ _ [] [] []); [|constructor]. exact (t_call ctx _ _ V2).
Qed.
Lemma init_all_phase s1 : good s1 -> intact 0 s1 ->
  (exists cs1 code cs2 s2, init_codes md = cs1 ++ code :: cs2 /\ initialises hs h s1 cs1 s2 true /\ (tidy s1 -> tidy s2) /\ bad s2 code) \/
  match init_all ieee host n L h (mkmach s1 [] [] []) with
  | (Ok _, m') => exists s2, m' = mkmach s2 [] [] [] /\ initialises hs h s1 (init_codes md) s2 true
  | (Err _, m') => initialises hs h s1 (init_codes md) (k_store m') false
  end.
Proof.
  intros G I1. unfold init_all. rewrite (bind_do (push_frame fr) _ (mkmach s1 [] [] []) tt (mkmach s1 [] [] [fr]) eq_refl).
  assert (P : phase (fun _ => True) (init_codes md) s1 ((elem_loop ieee host n (enum (md_elem md)) ;; drop_loop ieee host n (enum (md_elem md)) ;;
      data_loop ieee host n (combine (py_range (len (md_data md))) (combine (md_data md) (Machine.l_blob L))) ;; start_it ieee host n (md_star md)) (mkmach s1 [] [] [fr]))).
  { unfold init_codes. apply (phase_bind (intact 0)); [apply elem_phase; assumption|]. intros s2 G2 I2. apply (phase_bind (intact 0)); [apply drop_phase; assumption|].
    intros s3 G3 I3. apply (phase_bind (fun _ => True)); [apply data_phase; assumption|]. intros s4 G4 _. apply start_phase, G4. }
  destruct P as [P|P]; [left; exact P|right]. unfold bind in P |- *.
  destruct (elem_loop _ _ _ _ _) as [[u|e] m1]; [|exact P]. destruct (drop_loop _ _ _ _ _) as [[u1|e] m2]; [|exact P]. destruct (data_loop _ _ _ _ _) as [[u2|e] m3]; [|exact P].
  destruct (start_it _ _ _ _ _) as [[u3|e] m4]; [|exact P]. destruct P as (s2 & -> & _ & _ & _ & P). exists s2. split; [reflexivity|exact P].
Qed.
End init.

(* ---- instantiation as a whole ---- *)
Lemma untouched_blobs s L : valid_module (l_desc L) -> untouched s L -> blobs_ok s L.
Proof.
  intros VM [ND UN]. split; [symmetry; exact (Forall2_len _ _ _ UN)|]. split; [exact ND|]. pose proof (vm_data _ VM) as VD.
  revert VD. generalize (md_data (l_desc L)) (Machine.l_blob L) UN. clear. intros l k UN. induction UN as [|d b l k H _ IH]; intros VD; [constructor|].
  apply Forall_cons_iff in VD. destruct VD as [[V1 _] V2]. constructor; [exists (dd_init d); split; assumption|exact (IH V2)].
Qed.
Lemma instance_stands hs sg n L ext s : well_behaved (plain_host hs) -> host_typed sg (plain_host hs) -> store_ok s -> store_typed sg s ->
  desc_ok (l_desc L) -> valid_module (l_desc L) -> untouched s L -> Forall2 (fits s (l_desc L)) (md_imps (l_desc L)) ext ->
  len (s_func s) + len (md_func (l_desc L)) < 2 ^ 31 -> (2 <= n)%nat ->
  exists s0 mi, adds L ext s s0 mi /\
    ((exists cs1 code cs2 s1, init_codes (l_desc L) = cs1 ++ code :: cs2 /\ initialises hs (length (s_inst s)) s0 cs1 s1 true /\
       (unfinished ieee (plain_host hs) n (init_at s1 (length (s_inst s)) code) \/
        (stray ieee (plain_host hs) (init_at s1 (length (s_inst s)) code) /\ ~ tidy sg hs s) \/
        meets_deviation ieee (plain_host hs) (init_at s1 (length (s_inst s)) code))) \/
     match instance ieee (plain_host hs) n L ext (mkmach s [] [] []) with
     | (Ok h, m') => h = length (s_inst s) /\ exists s2, m' = mkmach s2 [] [] [] /\ initialises hs h s0 (init_codes (l_desc L)) s2 true
     | (Err _, m') => initialises hs (length (s_inst s)) s0 (init_codes (l_desc L)) (k_store m') false
     end).
Proof.
  set (host := plain_host hs). pose proof ieee_converts as CF. set (F := ieee).
  intros HB HH Ok_s Hs DO VM UN IM MANY Hn. pose proof (untouched_blobs _ _ VM UN) as BL. rewrite instance_phases. 
  pose proof (Forall2_len _ _ _ IM) as LE. destruct (fits_nonneg _ _ _ _ IM) as [NB NA].
  replace (len (md_imps (l_desc L)) =? len ext) with true by (symmetry; apply Z.eqb_eq; unfold len; congruence).
  rewrite (bind_do (assert true) _ (mkmach s [] [] []) tt (mkmach s [] [] []) eq_refl).
  destruct (checks_run (l_desc L) _ _ (mkmach s [] [] []) LE NB NA) as [[_ EC]|[NE _]]; [|contradiction].
  rewrite (bind_do (check_all (l_desc L) ext) _ _ _ _ EC). rewrite (bind_do mget _ (mkmach s [] [] []) (mkmach s [] [] []) (mkmach s [] [] []) eq_refl). cbv zeta. cbn [k_store].
  destruct (head_runs sg F CF host s Hs Ok_s (l_desc L) ext VM IM MANY n Hn) as (globin & elemin & EH & GI & EI). rewrite (bind_do _ _ _ _ _ EH). cbn [fst snd].
  destruct (head_stands sg host s Hs Ok_s (l_desc L) ext VM DO IM MANY n globin elemin _ Hn EH) as [SG SE].
  assert (M0 : machine_ok (mkmach s [] [] [])) by (constructor; cbn; [exact Ok_s|constructor|constructor|constructor]).
  destruct (safe_ok s _ _ _ _ _ (s_head s F host HB n (l_desc L) _ DO) (inv_here _ M0) EH) as [_ [WG WE]]. cbn [fst snd] in WG, WE.
  destruct (imports_at _ _ _ _ IM) as (I0 & I1 & I2 & I3). apply Forall2_len in I0, I1, I2, I3.
  destruct (allocate_runs L ext globin elemin (mkmach s [] [] [])) as (h & m1 & EA).
  - eapply Forall_impl; [|exact (vm_func _ VM)]. intros d (t & [H1 H2] & _). split; [exact H1|]. assert (Z.to_nat (fd_type d) < length (md_type (l_desc L)))%nat by (apply nth_error_Some; congruence). unfold len. lia.
  - eapply Forall_impl; [|exact (vm_tabl _ VM)]. intros t H. apply H.
  - exact (vm_mems _ VM).
  - apply range_Forall. intros i g Hg. cbn [fst snd]. split; [|exact (proj1 (nth_Forall _ _ _ _ (vm_glob _ VM) Hg))].
    destruct (Forall2_nth _ _ _ GI i g Hg) as (v & Hv & _). exists v. apply py_index_nth, Hv.
  - apply range_Forall. intros i e He. cbn [fst snd]. split; [|exact (proj1 (nth_Forall _ _ _ _ (vm_elem _ VM) He))].
    destruct (Forall2_nth _ _ _ EI i e He) as (v & Hv & _). exists v. apply py_index_nth, Hv.
  - assert (LF : length (flat_map (fun d => type_no (l_desc L) (fd_type d)) (md_func (l_desc L))) = length (md_func (l_desc L))).
    { pose proof (vm_func _ VM) as V. clear - V. induction V as [|d l (t & Ht & _) _ IH]; [reflexivity|]. cbn [flat_map]. rewrite app_length, IH. unfold type_no. rewrite (proj2 Ht). reflexivity. }
    eapply Forall_impl; [|exact (vm_exps _ VM)]. cbv beta. intros e [H1 H2]. split; [exact H1|]. cbn [module_ctx c_funcs c_tabls c_mems c_globs] in H2.
    unfold imp_funcs, imp_tabls, imp_mems, imp_globs, len in *. rewrite !app_length, !map_length, ?LF in H2. rewrite <- I0, <- I1, <- I2, <- I3.
    rewrite !Nat2Z.inj_add in H2. exact H2.
  - rewrite (bind_do _ _ _ _ _ EA). destruct (allocate_ok _ _ _ _ _ _ _ EA) as (s0 & mi & fs & ts & ms & gs & es & AL & ->). cbn [k_store] in AL.
    destruct (safe_ok s _ _ _ _ _ (s_allocate s L ext globin elemin DO WG WE) (inv_here _ M0) EA) as [[M1 L1] _]. cbn [set_store k_store] in M1, L1.
    pose proof (alloc_inst _ _ _ _ _ _ _ _ _ _ _ _ _ AL) as NI.
    pose proof (alloc_same _ _ _ _ _ _ _ _ _ _ _ _ _ AL) as SA.
    pose proof (alloc_instance _ _ _ _ _ _ _ _ _ _ _ _ _ AL VM IM GI EI (proj1 BL) [] []) as TI.
    pose proof (alloc_typed sg _ _ _ _ _ _ _ _ _ _ _ _ _ AL VM IM GI EI (proj1 BL) Hs MANY) as T0.
    unfold set_store. cbn [k_value k_label k_frame].
    rewrite (bind_do mget _ (mkmach s0 [] [] []) (mkmach s0 [] [] []) (mkmach s0 [] [] []) eq_refl). cbn [k_store].
    replace (Zs_eqb _ _) with true.
    2:{ symmetry. apply Zs_eqb_eq. rewrite (mod_of_ref _ _ _ NI). rewrite (al_func _ _ _ _ _ _ _ _ _ _ _ _ _ AL). unfold aux_funcs, len. rewrite range_fresh. reflexivity. }
    rewrite (bind_do (assert true) _ (mkmach s0 [] [] []) tt (mkmach s0 [] [] []) eq_refl).
    assert (B0 : blobs_ok s0 L) by (destruct AL; subst s0; exact BL).
    assert (EQH : h = length (s_inst s)) by exact (al_h _ _ _ _ _ _ _ _ _ _ _ _ _ AL). subst h.
    exists s0, mi. pose proof (alloc_adds _ _ _ _ _ _ _ _ _ _ _ _ _ AL VM UN SG SE) as AD. split; [exact AD|].
    assert (TD : tidy sg hs s -> tidy sg hs s0).
    { intros [HR RS]. split; [exact HR|]. destruct (head_refers sg F CF host _ Hs Ok_s _ ext VM IM MANY RS n _ _ _ Hn EH) as [RG RE].
      exact (allocated_refs sg _ _ _ _ _ _ _ _ _ _ _ _ _ AL RS IM RG RE). }
    assert (SD : forall j b, nth_error (Machine.l_blob L) j = Some b -> nth_error (s_data s0) (length (s_data s) + j) = Some b).
    { intros j b Hj. destruct (ad_store _ _ _ _ _ AD) as (a1 & a2 & a3 & -> & _). cbn [s_data]. rewrite nth_error_app2 by lia. rewrite <- Hj. f_equal. lia. }
    assert (IN : intact L (length (s_data s)) 0 s0) by (intros j d _ Hd; exact (ad_bytes _ _ _ _ _ AD j d Hd)).
    destruct (init_all_phase sg hs HB HH L s s0 (length (s_inst s)) mi n VM DO L1 SA NI TI B0 (length (s_data s)) (ad_datas _ _ _ _ _ AD) SD s0
      (conj (mo_store _ M1) (conj T0 (conj (later_refl _) (TypeBasicFacts.same_refl _)))) IN) as [(cs1 & code & cs2 & s1 & X1 & X2 & X3 & X4)|IO].
    + left. exists cs1, code, cs2, s1. split; [exact X1|]. split; [exact X2|]. destruct X4 as [X4|[[X4 X5]|X4]]; [left; exact X4| |right; right; exact X4].
      right. left. split; [exact X4|]. tauto.
    + right. fold host F in IO. unfold bind. destruct (init_all F host n L (length (s_inst s)) (mkmach s0 [] [] [])) as [[u|e] m2]; [|exact IO].
      destruct IO as (s2 & -> & IO). split; [reflexivity|]. exists s2. split; [reflexivity|exact IO].
Qed.
Lemma load_untouched md s : let L := mkloaded md (seq (length (s_blob s)) (length (md_data md))) in
  untouched (set_s_blob s (s_blob s ++ map dd_init (md_data md))) L.
Proof.
  cbn [Machine.l_blob l_desc]. split; [apply seq_NoDup|]. cbn [set_s_blob s_blob Machine.l_blob l_desc].
  assert (G : forall k l, Forall2 (fun d b => nth_error (k ++ map dd_init l) b = Some (dd_init d)) l (seq (length k) (length l))).
  { intros k l. revert k. induction l as [|d l IH]; intros k; [constructor|]. cbn [length seq map]. constructor; [rewrite nth_error_app2, PeanoNat.Nat.sub_diag by lia; reflexivity|].
    specialize (IH (k ++ [dd_init d])). rewrite app_length in IH. cbn [length] in IH. rewrite PeanoNat.Nat.add_1_r in IH. rewrite <- app_assoc in IH. exact IH. }
  apply G.
Qed.
Lemma instance_honest hs sg n md L ext m m1 : well_behaved (plain_host hs) -> host_typed sg (plain_host hs) ->
  host_refs sg (plain_host hs) -> honest ieee (plain_host hs) sg machine_empty m -> desc_ok md -> valid_module md ->
  load_module md m = (Ok L, m1) -> Forall2 (fits (k_store m1) md) (md_imps md) ext ->
  len (s_func (k_store m)) + len (md_func md) < 2 ^ 31 -> (2 <= n)%nat ->
  let s := k_store m1 in let h := length (s_inst s) in
  exists s0 mi, adds L ext s s0 mi /\
    ((exists cs1 code cs2 s1, init_codes md = cs1 ++ code :: cs2 /\ initialises hs h s0 cs1 s1 true /\
       (unfinished ieee (plain_host hs) n (init_at s1 h code) \/ meets_deviation ieee (plain_host hs) (init_at s1 h code))) \/
     match instance ieee (plain_host hs) n L ext m1 with
     | (Ok h', m') => h' = h /\ exists s2, m' = mkmach s2 [] [] [] /\ initialises hs h s0 (init_codes md) s2 true
     | (Err _, m') => initialises hs h s0 (init_codes md) (k_store m') false
     end).
Proof.
  intros HB HH HR H DO VM EL IM MANY Hn s h.
  destruct (history_settled ieee ieee_converts _ HB sg HH _ _ (honest_history _ _ _ _ _ H) (empty_settled sg)) as [HS _].
  pose proof (honest_refs ieee ieee_converts _ HB sg HH HR m H) as RM.
  destruct (load_settled sg md m L m1 HS DO VM EL) as (HS1 & _ & EM & _ & EF).
  pose proof (load_refs sg md m L m1 HS DO VM (mr_store _ _ RM) EL) as R1.
  assert (UN : untouched s L) by (unfold load_module in EL; injection EL as <- <-; apply load_untouched).
  subst md. rewrite <- EF in MANY.
  destruct (instance_stands hs sg n L ext s HB HH (se_ok _ _ HS1) (se_typed _ _ HS1) DO VM UN IM MANY Hn) as (s0 & mi & AD & [(cs1 & code & cs2 & s1 & X1 & X2 & X3)|X]);
    exists s0, mi; (split; [exact AD|]); [left|right].
  - exists cs1, code, cs2, s1. split; [exact X1|]. split; [exact X2|]. destruct X3 as [X3|[[_ X3]|X3]]; [left; exact X3| |right; exact X3].
    exfalso. apply X3. split; [exact HR|exact R1].
  - rewrite (settled_eq _ _ HS1). destruct (instance ieee (plain_host hs) n L ext (mkmach s [] [] [])) as [[h'|e] m'] eqn:E; fold s; rewrite E; [|exact X].
    destruct X as (-> & X). split; [reflexivity|exact X].
Qed.
