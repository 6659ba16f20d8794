(* References refer to functions that exist: instantiation, histories, and what this means for calls. *)
From Coq Require Import ZArith List Bool Lia ZifyBool ZifyNat.
From Verif Require Import Py Arith Floatops Val Opcode Numeric Syntax Store Basic Machine
  SpecInt SpecNum SpecMachine SpecMem SpecRun SpecControl SpecInst SpecType SpecValid SpecConverse
  PyFacts ArithFacts ValFacts StepFacts LaneFacts NumFacts MemFacts BulkFacts WfFacts RunFacts ControlFacts CallFacts InstFacts InitFacts
  TypeOpFacts TypeBasicFacts TypeFacts ValidFacts HistoryFacts SpecRef RefFacts.
Import ListNotations.
Open Scope Z_scope.

(* ---- call_indirect ---- *)
Section stray.
Context (F : fops) (CF : converts F) (sg : nat -> functype) (host : hostcode) (HB : well_behaved host) (HH : host_typed sg host) (HR : host_refs sg host).
Lemma no_stray s a t h code args : store_ok s -> store_typed sg s -> store_refs sg s -> nth_error (s_func s) a = Some (FWasm t h code) ->
  Forall val_wf args -> has_types args (ft_args t) -> Forall (refers (length (s_func s))) args -> ~ stray F host (starts s t h code args).
Proof.
  intros Ok_s Hs Rs N W HT RA (m1 & fr & i & j & c & V & ta & tab & r & (k & G) & AB & EV & E1 & E2 & E3 & E4 & E5).
  pose proof (starts_running s t h code args a Ok_s Hs N W HT) as RU.
  pose proof (evaluate_typed F CF host HB HH _ k _ RU) as EVT. rewrite G in EVT. destruct EVT as [(_ & T1 & C & K) _].
  assert (M0 : machine_refs sg (starts s t h code args)).
  { rewrite starts_eq. unfold first_frame. rewrite <- default_zero. constructor; cbn [k_store k_value k_frame]; [exact Rs|constructor|]. constructor; [|constructor; [|constructor]].
    - cbn [fr_locals fr_module]. split; [apply Forall_app; split; [exact RA|apply zero_locals_refs]|]. apply names_of; [exact (sr_inst _ _ Rs)|discriminate].
    - split; constructor. }
  pose proof (f_evaluate sg F host HR k _ M0) as FE. rewrite G in FE.
  destruct AB as [(lb & LS & B1 & B2) (FS & B3)]. rewrite B1, B3 in K.
  destruct (kont_run _ _ _ _ _ _ _ K) as [(fr' & FS' & EF & Hi & _)|(fr' & FS' & i' & A & B & va & V' & EF & N' & HT' & _)].
  { rewrite Hi in B2. assert (length (lb_instr lb) < length (lb_instr lb))%nat by (apply nth_error_Some; congruence). lia. }
  injection EF as <- <-. rewrite B2 in N'. injection N' as <-.
  assert (TT : nth_error (c_tabls C) j = Some T_func).
  { inversion HT'; subst; try (cbn in *; discriminate).
    match goal with H : nth_error (c_tabls C) ?x = Some T_func, E : Z.of_nat ?x = Z.of_nat j |- _ => apply Nat2Z.inj in E; subst x; exact H
                  | H : nth_error (c_tabls C) j = Some T_func |- _ => exact H end. }
  destruct (kont_frame _ _ _ _ _ _ _ _ K) as (fr0 & FS0 & EF & FT). injection EF as <- <-.
  destruct (it_tabl _ _ _ (frame_instance _ _ _ FT) _ _ TT) as (ta' & tab' & D1 & D2 & D3).
  rewrite E1 in D1. injection D1 as D1. apply Nat2Z.inj in D1. subst ta'. rewrite E2 in D2. injection D2 as <-.
  destruct (nth_Forall _ _ _ _ (st_tabl _ T1) E2) as [_ T2]. pose proof (nth_Forall _ _ _ _ T2 E3) as T3. cbv beta in T3. rewrite D3 in T3.
  pose proof (nth_Forall _ _ _ _ (nth_Forall _ _ _ _ (sr_tabl _ _ (mr_store _ _ FE)) E2) E3) as R1. destruct (R1 T3) as [X|(x & Hx & X)]; [contradiction|].
  exact (E5 x Hx X).
Qed.
End stray.

(* ---- initial values ---- *)
Section constants.
Context (sg : nat -> functype) (F : fops) (CF : converts F) (host : hostcode) (s : store) (Hs : store_typed sg s) (Ok_s : store_ok s)
  (md : moddesc) (aux : modinst) (fr : frame) (Hfr : fr_module fr = MVal aux) (Hloc : fr_locals fr = [])
  (HT : m_type aux = [])
  (HF : forall i t, nth_error (c_funcs (const_ctx md)) i = Some t -> exists a, nth_error (m_func aux) i = Some (Z.of_nat a) /\ Z.of_nat a < 2 ^ 31)
  (HG : Forall2 (glob_at s) (imp_globs md) (m_glob aux)) (k : nat) (Rs : srefs k s) (Ra : names k aux).
Lemma const_refers n e t v m' : (2 <= n)%nat -> const_typed md e t -> const_expr F host n e (mkmach s [] [] [fr]) = (Ok v, m') ->
  m' = mkmach s [] [] [fr] /\ refers k v.
Proof.
  intros Hn [(o & args & -> & Ho) HTy] E. apply typed_rest in HTy. destruct HTy as (A & B & R & EQ & HI & HR). symmetry in EQ. apply app_eq_nil in EQ. destruct EQ as [-> ->].
  apply typed_end in HR. rewrite app_nil_r in HR. subst B.
  destruct (const_basic sg F CF s Hs Ok_s md aux HT HF HG o args t Ho HI) as (v' & EB & Tv).
  assert (RV : refers k v').
  { pose proof (x_basic k s Rs (MVal aux) Ra F o args (mkb s [] []) (conj eq_refl (conj (Forall_nil _) (Forall_nil _)))) as X. rewrite EB in X.
    destruct X as (_ & _ & _ & _ & X). cbn [b_value] in X. inversion X; assumption. }
  enough (EV : const_expr F host n [IOp o args] (mkmach s [] [] [fr]) = (Ok v', mkmach s [] [] [fr])).
  { rewrite EV in E. injection E as <- <-. split; [reflexivity|exact RV]. }
  unfold const_expr. change [IOp o args] with (code_of [(o, args)]).
  pose proof (run_straight F host [(o, args)] 1 n s [] fr ltac:(repeat constructor; apply const_straight, Ho)) as P.
  cbn [ops] in P. rewrite Hfr, Hloc in P. unfold bind in P. rewrite EB in P. cbn [ret b_value length Nat.eqb] in P. unfold ret in P. cbn [b_value length Nat.eqb] in P.
  replace (Nat.ltb 1 n) with true in P by (symmetry; apply PeanoNat.Nat.ltb_lt; lia). cbn [andb] in P.
  unfold bind. rewrite P. unfold popv, finish, set_value, relocal. cbn. clear - Hloc. destruct fr as [x1 x2 x3 x4 x5]; cbn in *; subst x2; reflexivity.
Qed.
Lemma consts_refers {A} n (f : A -> list inst) (ty : A -> valtype) l vs m' : (2 <= n)%nat -> Forall (fun x => const_typed md (f x) (ty x)) l ->
  mapl (fun x => const_expr F host n (f x)) l (mkmach s [] [] [fr]) = (Ok vs, m') -> m' = mkmach s [] [] [fr] /\ Forall (refers k) vs.
Proof.
  intros Hn H. revert vs m'. induction H as [|x l Hx _ IH]; intros vs m' E; [injection E as <- <-; split; [reflexivity|constructor]|].
  cbn [mapl] in E. nxt E m1 v. destruct (const_refers n (f x) (ty x) v m1 Hn Hx E0) as [-> Hv].
  nxt E m2 vs'. destruct (IH _ _ E1) as [-> Hvs]. injection E as <- <-. split; [reflexivity|constructor; assumption].
Qed.
End constants.
Section head.
Context (sg : nat -> functype) (F : fops) (CF : converts F) (host : hostcode) (s : store) (Hs : store_typed sg s) (Ok_s : store_ok s)
  (md : moddesc) (ext : list extern) (VM : valid_module md) (IM : Forall2 (fits s md) (md_imps md) ext)
  (MANY : len (s_func s) + len (md_func md) < 2 ^ 31) (Rs : store_refs sg s).
Notation k := (length (s_func s) + length (md_func md))%nat.
Lemma new_names : Forall (fun a => 0 <= a < Z.of_nat k) (imported 0 ext ++ fresh (length (s_func s)) (length (md_func md))).
Proof.
  apply Forall_app. split.
  - pose proof (proj1 (imports_at _ _ _ _ IM)) as H. clear - H. induction H as [|t z l l' (a & f & -> & Hf & _) _ IH]; constructor; [|exact IH].
    assert (a < length (s_func s))%nat by (apply nth_error_Some; congruence). lia.
  - apply Forall_forall. intros z Hz. apply in_map_iff in Hz. destruct Hz as (a & <- & Ha). apply in_seq in Ha. lia.
Qed.
Lemma srefs_more n n' x : (n <= n')%nat -> srefs n x -> srefs n' x.
Proof.
  intros L [R1 R2 R3 R4]. constructor; eapply Forall_impl; try eassumption; cbv beta; intros y Hy.
  - eapply Forall_impl; [|exact Hy]. intros v. apply refers_more, L.
  - revert Hy. apply refers_more, L.
  - eapply Forall_impl; [|exact Hy]. intros v. apply refers_more, L.
  - revert Hy. apply names_more, L.
Qed.
Lemma head_refers n globin elemin m' : (2 <= n)%nat ->
  inst_head F host n md (mkmi [] (aux_funcs md ext s) [] [] (imported 3 ext) [] [] []) (mkmach s [] [] []) = (Ok (globin, elemin), m') ->
  Forall (refers k) globin /\ Forall (Forall (refers k)) elemin.
Proof.
  intros Hn. set (aux := mkmi _ _ _ _ _ _ _ _). set (fr := mkframe (MVal aux) [] 1 0 0). intros E.
  assert (HF : forall i t, nth_error (c_funcs (const_ctx md)) i = Some t -> exists a, nth_error (m_func aux) i = Some (Z.of_nat a) /\ Z.of_nat a < 2 ^ 31).
  { intros i t H. destruct (Forall2_nth _ _ _ (aux_at sg s Hs md ext VM IM MANY) i t H) as (z & Hz & a & -> & Ha). exists a. split; [exact Hz|exact Ha]. }
  assert (HG : Forall2 (glob_at s) (imp_globs md) (m_glob aux)) by exact (proj2 (proj2 (proj2 (imports_at _ _ _ _ IM)))).
  assert (RS : srefs k s) by (apply (srefs_more (length (s_func s))); [lia|apply (store_srefs sg), Rs]).
  assert (RA : names k aux).
  { unfold names. cbn [aux m_func]. unfold aux_funcs, len. rewrite range_fresh. exact new_names. }
  unfold inst_head in E. fold aux in E. fold fr in E. rewrite (bind_do (push_frame fr) _ (mkmach s [] [] []) tt (mkmach s [] [] [fr]) eq_refl) in E.
  nxt E m1 g1. destruct (consts_refers sg F CF host s Hs Ok_s md aux fr eq_refl eq_refl eq_refl HF HG k RS RA n gd_init (fun g => gt_type (gd_type g)) (md_glob md) g1 m1 Hn) with (2 := E0) as [-> G1].
  { eapply Forall_impl; [|exact (vm_glob _ VM)]. intros g [_ H]. exact H. }
  nxt E m2 e1.
  assert (G2 : m2 = mkmach s [] [] [fr] /\ Forall (Forall (refers k)) e1).
  { pose proof (vm_elem _ VM) as HE. clear E E0. revert e1 m2 E1. induction HE as [|e l (_ & _ & H & _) _ IH]; intros e1 m2 E1; [injection E1 as <- <-; split; [reflexivity|constructor]|].
    cbn [mapl] in E1. nxt E1 m3 vs.
    destruct (consts_refers sg F CF host s Hs Ok_s md aux fr eq_refl eq_refl eq_refl HF HG k RS RA n (fun c => c) (fun _ => ed_type e) (ed_init e) _ _ Hn H E0) as [-> G2].
    nxt E1 m4 vss. destruct (IH _ _ E2) as [-> G3]. injection E1 as <- <-. split; [reflexivity|constructor; assumption]. }
  destruct G2 as [-> G2]. nxt E m3 u. injection E as <- <- _. split; assumption.
Qed.
End head.

(* ---- allocation ---- *)
Lemma refers_map n n' l : (n <= n')%nat -> Forall (refers n) l -> Forall (refers n') l.
Proof. intros L H. eapply Forall_impl; [|exact H]. intros v. apply refers_more, L. Qed.
Lemma tab_new_refers n t x : tab_new t = Ok x -> Forall (refers n) (ti_elem x).
Proof.
  intros H. unfold tab_new, tab_grow in H. cbn [ti_type ti_elem ti_size] in H.
  repeat match type of H with (if ?c then _ else _) = _ => destruct c; try discriminate H | (let? _ := ?c in _) = _ => destruct c; try discriminate H; cbn [rbind] in H end.
  apply Ok_inj in H. subst x. cbn [ti_elem app]. apply Forall_forall. intros v Hv. apply repeat_spec in Hv. subst v. apply pt_zero.
Qed.
Lemma store_more sg s fs ts ms gs es ds is bs : store_refs sg s ->
  Forall (fun f => match f with FHost t hid => t = sg hid | FWasm _ _ _ => True end) fs ->
  let n := (length (s_func s) + length fs)%nat in
  Forall (fun x => Forall (refers n) (ti_elem x)) ts -> Forall (fun g => refers n (gi_data g)) gs ->
  Forall (fun e => Forall (refers n) (li_data e)) es -> Forall (names n) is ->
  store_refs sg (mkstore (s_func s ++ fs) (s_tabl s ++ ts) ms (s_glob s ++ gs) (s_elem s ++ es) ds (s_inst s ++ is) bs).
Proof.
  intros [R0 R1 R2 R3 R4] H0 n H1 H2 H3 H4. assert (L : (length (s_func s) <= n)%nat) by (unfold n; lia).
  constructor; cbn [s_func s_tabl s_glob s_elem s_inst]; rewrite ?app_length; fold n; apply Forall_app; split; try assumption; eapply Forall_impl; try eassumption; cbv beta; intros y Hy.
  - exact (refers_map _ _ _ L Hy).
  - exact (refers_more _ _ _ L Hy).
  - exact (refers_map _ _ _ L Hy).
  - exact (names_more _ _ _ L Hy).
Qed.
Lemma enum_forall {A V X} (Q : A -> V -> X -> Prop) (P : V -> Prop) (R : X -> Prop) (l : list (Z * A)) (vs : list V) xs :
  (forall a v x, P v -> Q a v x -> R x) -> Forall P vs -> Forall2 (fun '(i, d) x => exists v, py_index vs i = Ok v /\ Q d v x) l xs -> Forall R xs.
Proof.
  intros HR HP H. induction H as [|[i d] x l xs (v & E & HQ) _ IH]; constructor; [|exact IH]. apply (HR d v x); [|exact HQ].
  destruct (py_index_some _ _ _ E) as (a & N). exact (nth_Forall _ _ _ _ HP N).
Qed.
Lemma allocated_refs sg L ext globin elemin s s' h mi fs ts ms gs es : allocated L ext globin elemin s s' h mi fs ts ms gs es ->
  store_refs sg s -> Forall2 (fits s (l_desc L)) (md_imps (l_desc L)) ext ->
  let k := (length (s_func s) + length (md_func (l_desc L)))%nat in
  Forall (refers k) globin -> Forall (Forall (refers k)) elemin -> store_refs sg s'.
Proof.
  intros AL RS IM k HG HE. destruct AL. subst s'.
  assert (LF : length fs = length (md_func (l_desc L))) by (symmetry; exact (Forall2_len _ _ _ al_fs)).
  apply store_more; try exact RS; rewrite ?LF; fold k.
  - clear - al_fs. induction al_fs as [|d f l l' (t & _ & ->) _ IH]; constructor; [exact I|exact IH].
  - clear - al_ts. induction al_ts as [|d f l l' H _ IH]; constructor; [exact (tab_new_refers _ _ _ H)|exact IH].
  - eapply enum_forall; [|exact HG|exact al_gs]. cbv beta. intros a v x Hv ->. exact Hv.
  - eapply enum_forall; [|exact HE|exact al_es]. cbv beta. intros a v x Hv ->. exact Hv.
  - constructor; [|constructor]. unfold names. rewrite al_func. apply new_names, IM.
Qed.

(* ---- instantiation ---- *)
Section tail.
Context (sg : nat -> functype) (F : fops) (host : hostcode) (HR : host_refs sg host).
Lemma f_forl {A} (f : A -> M unit) l : (forall x, fine sg (f x)) -> fine sg (forl f l).
Proof. intros H. induction l as [|x l IH]; [intros m Hm; exact Hm|]. cbn [forl]. apply f_bind; [apply H|]. intros _. exact IH. Qed.
Lemma f_pushed {A} (c : M A) fr : fr_locals fr = [] -> (exists h, fr_module fr = MRef h) -> fine sg c -> fine sg (push_frame fr ;; c).
Proof.
  intros EL (h & EM) H. apply f_bind; [|intros _; exact H]. apply fine_calm. intros n. apply c_push_frame; [rewrite EL; constructor|rewrite EM; discriminate].
Qed.
Lemma f_run_expr n code a : fine sg (run_expr F host n code a).
Proof.
  unfold run_expr.
  repeat first [apply f_bind; [first [apply fine_calm; intros ?; first [eapply h_post; [|apply c_mget]; intros ? ? [? _]; auto|apply c_push_label|apply c_assert]|apply f_evaluate, HR]|intros ?]].
  all: try (apply fine_calm; intros ?; apply c_assert).
Qed.
Lemma f_init_all n L h : fine sg (init_all F host n L h).
Proof.
  unfold init_all. apply f_pushed; [reflexivity|eexists; reflexivity|].
  repeat first [apply f_bind; [|intros ?]].
  - apply f_forl. intros [i e]. destruct (negb _); [intros m Hm; exact Hm|apply f_run_expr].
  - apply f_forl. intros [i e]. destruct (negb _); [intros m Hm; exact Hm|apply f_run_expr].
  - apply f_forl. intros [i [e b]]. destruct (negb _); [intros m Hm; exact Hm|]. intros m Hm. exact (f_run_expr n _ _ m Hm).
  - unfold start_it. destruct (_ >=? _); [apply f_run_expr|intros m Hm; exact Hm].
  - apply fine_calm. intros j. apply c_pop_frame.
  - intros m Hm. exact Hm.
Qed.
End tail.

Section history.
Context (F : fops) (CF : converts F) (host : hostcode) (HB : well_behaved host) (sg : nat -> functype) (HH : host_typed sg host) (HR : host_refs sg host).
Lemma settled_refs m : settled sg m -> store_refs sg (k_store m) -> machine_refs sg m.
Proof. intros HS H. rewrite (settled_eq _ _ HS). constructor; cbn [k_store k_value k_frame]; [exact H|constructor|constructor]. Qed.
Lemma instance_refs n L ext m h m' : settled sg m -> store_refs sg (k_store m) -> valid_module (l_desc L) -> 
  Forall2 (fits (k_store m) (l_desc L)) (md_imps (l_desc L)) ext -> len (s_func (k_store m)) + len (md_func (l_desc L)) < 2 ^ 31 -> (2 <= n)%nat ->
  instance F host n L ext m = (Ok h, m') -> machine_refs sg m'.
Proof.
  intros HS RS VM IM MANY Hn E. destruct (instance_ok _ _ _ _ _ _ _ _ E) as (_ & _ & globin & elemin & m1 & m2 & E1 & E2 & _ & E3).
  rewrite (settled_eq _ _ HS) in E1. cbn [k_store] in E1.
  destruct (head_runs sg F CF host _ (se_typed _ _ HS) (se_ok _ _ HS) _ ext VM IM MANY n Hn) as (g & e & EH & _). rewrite EH in E1. injection E1 as <- <- <-.
  destruct (head_refers sg F CF host _ (se_typed _ _ HS) (se_ok _ _ HS) _ ext VM IM MANY RS n _ _ _ Hn EH) as [RG RE].
  destruct (allocate_ok _ _ _ _ _ _ _ E2) as (s' & mi & fs & ts & ms & gs & es & AL & ->). cbn [k_store] in AL.
  pose proof (allocated_refs sg _ _ _ _ _ _ _ _ _ _ _ _ _ AL RS IM RG RE) as R2.
  assert (M2 : machine_refs sg (set_store (mkmach (k_store m) [] [] []) s')) by (constructor; cbn [set_store k_store k_value k_frame]; [exact R2|constructor|constructor]).
  pose proof (f_init_all sg F host HR n L h _ M2) as X. rewrite E3 in X. exact X.
Qed.
Lemma load_refs md m L m' : settled sg m -> desc_ok md -> valid_module md -> store_refs sg (k_store m) -> load_module md m = (Ok L, m') -> store_refs sg (k_store m').
Proof.
  intros HS DO VM RS E. rewrite (settled_eq _ _ HS) in E. destruct (load_blobs md (k_store m)) as (P1 & P2 & _).
  { eapply Forall_impl; [|exact (vm_data _ VM)]. intros d H. apply H. }
  rewrite P1 in E. injection E as <- <-. destruct RS. constructor; assumption.
Qed.
Lemma honest_history m m' : honest F host sg m m' -> history F host sg m m'.
Proof.
  induction 1; [constructor|eapply his_host; eassumption|eapply his_table; eassumption|eapply his_memory; eassumption|eapply his_global; eassumption|
    eapply his_module; eassumption|eapply his_call; eassumption].
Qed.
Lemma alloc_refs {A} (c : store -> res Z * store) (g : Z -> A) m b m' :
  (let! a := on_store c in ret (g a)) m = (Ok b, m') -> (forall a s', c (k_store m) = (Ok a, s') -> store_refs sg s') -> store_refs sg (k_store m').
Proof.
  intros E HC. unfold bind, on_store in E. destruct (c (k_store m)) as [[a|e] s'] eqn:EC; [|discriminate E]. injection E as _ <-. exact (HC a s' eq_refl).
Qed.
Lemma call_refs n h nm args rs m m' : machine_refs sg m ->
  (forall e f, find_export (mod_of (k_store m) (MRef h)) nm = Ok e -> py_index (s_func (k_store m)) (Store.e_data e) = Ok f ->
     numbers_ok (k_store m) (ft_args (fi_type f)) args) ->
  rt_invocate F host n h nm args m = (Ok rs, m') -> machine_refs sg m'.
Proof.
  intros RM HN E. unfold rt_invocate in E. rewrite (bind_do mget _ m m m eq_refl) in E.
  nxt E m1 e. unfold lift in E0. injection E0 as E0 <-. nxt E m1 f. unfold lift in E1. injection E1 as E1 <-.
  nxt E m1 u. rewrite assert_run in E2. injection E2 as _ <-. nxt E m1 vs. unfold lift in E2. injection E2 as E2 <-.
  nxt E m1 rets. unfold lift in E. injection E as _ <-.
  pose proof (from_alls_refs F _ _ _ (HN _ _ E0 E1) _ E2) as RV.
  pose proof (f_invocate sg F host HR n (Store.e_data e) vs m RM RV) as X. rewrite E3 in X. apply X.
Qed.
Lemma history_refs m m' : honest F host sg m m' -> settled sg m -> store_refs sg (k_store m) -> store_refs sg (k_store m').
Proof.
  intros H HS RS. induction H; [exact RS|..].
  all: pose proof (proj1 (history_settled F CF host HB sg HH _ _ (honest_history _ _ H) HS)) as HS1.
  - eapply alloc_refs; [exact H1|]. intros a s' EC. injection EC as _ <-.
    pose proof (store_more sg _ [FHost (sg hid) hid] [] (s_mems (k_store m1)) [] [] (s_data (k_store m1)) [] (s_blob (k_store m1)) IHhonest ltac:(repeat constructor)
      ltac:(constructor) ltac:(constructor) ltac:(constructor) ltac:(constructor)) as X. rewrite !app_nil_r in X. exact X.
  - eapply alloc_refs; [exact H1|]. intros a s' EC. unfold alloc_table in EC. destruct (tab_new t) as [x|e] eqn:EN; [|discriminate EC]. injection EC as _ <-.
    pose proof (store_more sg _ [] [x] (s_mems (k_store m1)) [] [] (s_data (k_store m1)) [] (s_blob (k_store m1)) IHhonest ltac:(constructor)
      ltac:(constructor; [exact (tab_new_refers _ _ _ EN)|constructor]) ltac:(constructor) ltac:(constructor) ltac:(constructor)) as X. rewrite !app_nil_r in X. exact X.
  - eapply alloc_refs; [exact H0|]. intros a s' EC. unfold alloc_memory in EC. destruct (mem_new t) as [x|e]; [|discriminate EC]. injection EC as _ <-.
    destruct IHhonest. constructor; assumption.
  - eapply alloc_refs; [exact H2|]. intros a s' EC. unfold alloc_global in EC. destruct (_ || _); [|discriminate EC]. injection EC as _ <-.
    pose proof (store_more sg _ [] [] (s_mems (k_store m1)) [mkglob v (gt_mut t)] [] (s_data (k_store m1)) [] (s_blob (k_store m1)) IHhonest ltac:(constructor)
      ltac:(constructor) ltac:(constructor; [cbn [gi_data length]; rewrite PeanoNat.Nat.add_0_r; assumption|constructor]) ltac:(constructor) ltac:(constructor)) as X. rewrite !app_nil_r in X. exact X.
  - destruct (load_settled sg md m1 L m2 HS1 H0 H1 H3) as (HS2 & _ & <- & _ & EF). rewrite <- EF in H2.
    apply mr_store. exact (instance_refs n L ext m2 h m3 HS2 (load_refs _ _ _ _ HS1 H0 H1 IHhonest H3) H1 H4 H2 H5 H6).
  - apply mr_store. eapply call_refs; [apply settled_refs; eassumption|eassumption|eassumption].
Qed.
Lemma empty_refs : store_refs sg (k_store machine_empty).
Proof. constructor; constructor. Qed.
Lemma honest_refs m : honest F host sg machine_empty m -> machine_refs sg m.
Proof.
  intros H. apply settled_refs; [exact (proj1 (history_settled F CF host HB sg HH _ _ (honest_history _ _ H) (empty_settled sg)))|].
  exact (history_refs _ _ H (empty_settled sg) empty_refs).
Qed.
End history.
