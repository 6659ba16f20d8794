(* Runtimes that hold validated modules, and calls of their exported functions. *)
From Coq Require Import ZArith List Bool Lia ZifyBool ZifyNat.
From Verif Require Import Py Arith Floatops Val Opcode Numeric Syntax Store Basic Machine
  SpecInt SpecNum SpecMachine SpecMem SpecRun SpecControl SpecInst SpecType SpecValid
  PyFacts ArithFacts ValFacts StepFacts LaneFacts NumFacts MemFacts BulkFacts WfFacts RunFacts ControlFacts CallFacts InstFacts InitFacts
  TypeOpFacts TypeBasicFacts TypeFacts ValidFacts.
Import ListNotations.
Open Scope Z_scope.

(* ---- values across the API ---- *)
Lemma arg_from F t p : of_kind t p -> exists v, from_all F t p = Ok v.
Proof.
  assert (MK : forall (b : list Z) t, len b = 16 -> mk_val t b = Ok (mkval t b)).
  { intros b t0 H. unfold mk_val, py_assert. rewrite H. reflexivity. }
  destruct t, p; cbn [of_kind from_all]; try contradiction; intros H.
  - rewrite from_i32_ok by (unfold srange; change (2 ^ (32 - 1)) with (2 ^ 31); lia). eexists; reflexivity.
  - rewrite from_i64_ok by (unfold srange; change (2 ^ (64 - 1)) with (2 ^ 63); lia). eexists; reflexivity.
  - unfold from_f32. eexists. apply MK. rewrite len_app. unfold len. rewrite to_le_length. reflexivity.
  - unfold from_f64. eexists. apply MK. rewrite len_app. unfold len. rewrite to_le_length. reflexivity.
  - unfold from_v128. rewrite (proj1 H). cbn [py_assert rbind Z.eqb Pos.eqb]. eexists. apply MK. rewrite len_app, (proj1 H). reflexivity.
  - rewrite from_ref_ok by (unfold srange; change (2 ^ (32 - 1)) with (2 ^ 31); lia). eexists; reflexivity.
  - rewrite from_ref_ok by (unfold srange; change (2 ^ (32 - 1)) with (2 ^ 31); lia). eexists; reflexivity.
Qed.
Lemma args_from F ts args : Forall2 of_kind ts args -> exists vs, from_alls F ts args = Ok vs.
Proof.
  unfold from_alls. induction 1 as [|t p ts args H _ (vs & IH)]; [exists []; reflexivity|]. destruct (arg_from F t p H) as (v & Hv). exists (v :: vs).
  cbn [combine rmapl]. rewrite Hv. cbn [rbind]. rewrite IH. reflexivity.
Qed.
Lemma kinds_ok ts args : Forall2 of_kind ts args -> Forall pyval_ok args.
Proof. induction 1 as [|t p ts args H _ IH]; constructor; [|exact IH]. destruct t, p; cbn in *; try contradiction; try exact I; apply H. Qed.
Lemma signed_range w x : 0 < w -> 0 <= x < 2 ^ w -> - 2 ^ (w - 1) <= signed_of w x < 2 ^ (w - 1).
Proof. intros Hw Hx. assert (2 ^ w = 2 * 2 ^ (w - 1)) by (rewrite <- Z.pow_succ_r by lia; f_equal; lia). unfold signed_of. destruct (Z.ltb_spec x (2 ^ (w - 1))); lia. Qed.
Lemma into_kind F v : val_wf v -> match into_all F v with Ok p => of_kind (v_type v) p | Err e => e = EAssert /\ is_null v end.
Proof.
  intros W. assert (R32 : - 2 ^ 31 <= signed_of 32 (uval v mod 2 ^ 32) < 2 ^ 31).
  { apply (signed_range 32); [lia|apply Z.mod_pos_bound; lia]. }
  assert (R64 : - 2 ^ 63 <= signed_of 64 (uval v mod 2 ^ 64) < 2 ^ 63).
  { apply (signed_range 64); [lia|apply Z.mod_pos_bound; lia]. }
  assert (RR : forall t, v_type v = t -> is_ref t = true -> match rmap PInt (into_ref v) with Ok p => match p with PInt z => - 2 ^ 31 <= z < 2 ^ 31 | _ => False end | Err e => e = EAssert /\ is_null v end).
  { intros t E R. unfold into_ref. destruct W as [WL WB]. rewrite (py_index_in _ 4 0) by (unfold len; lia). cbn [rbind]. change (Z.to_nat 4) with 4%nat.
    destruct (Z.eqb_spec (nth 4 (v_data v) 0) 1) as [E1|E1]; cbn [py_assert rbind].
    - rewrite into_i32_ok by (split; assumption). cbn [rmap rbind]. exact R32.
    - cbn [rmap rbind]. split; [reflexivity|]. split; [rewrite E; exact R|exact E1]. }
  unfold into_all. destruct (v_type v) eqn:E.
  - rewrite into_i32_ok by exact W. exact R32.
  - rewrite into_i64_ok by exact W. exact R64.
  - rewrite into_f32_ok by exact W. exact I.
  - rewrite into_f64_ok by exact W. exact I.
  - rewrite into_v128_ok by exact W. cbn. destruct W as [WL WB]. split; [unfold len; lia|exact WB].
  - specialize (RR _ eq_refl eq_refl). destruct (rmap PInt (into_ref v)) as [[z|x|b|]|e]; exact RR.
  - specialize (RR _ eq_refl eq_refl). destruct (rmap PInt (into_ref v)) as [[z|x|b|]|e]; exact RR.
Qed.
Lemma into_kinds F ts vs : Forall val_wf vs -> has_types vs ts ->
  match rmapl (into_all F) vs with Ok ps => Forall2 of_kind ts ps | Err e => e = EAssert /\ exists v, In v vs /\ is_null v end.
Proof.
  intros W. revert ts. induction W as [|v vs Wv _ IH]; intros ts HT; unfold has_types in HT; cbn [map] in HT; subst ts; [constructor|].
  cbn [rmapl]. pose proof (into_kind F v Wv) as K. destruct (into_all F v) as [p|e]; cbn [rbind].
  - specialize (IH _ eq_refl). destruct (rmapl (into_all F) vs) as [ps|e]; cbn [rbind].
    + constructor; assumption.
    + destruct IH as (-> & x & Hx & Nx). split; [reflexivity|]. exists x. split; [right; exact Hx|exact Nx].
  - destruct K as [-> K]. split; [reflexivity|]. exists v. split; [left; reflexivity|exact K].
Qed.

(* ---- a runtime at rest ---- *)
Record settled (sg : nat -> functype) (m : machine) : Prop := mk_settled {
  se_value : k_value m = []; se_label : k_label m = []; se_frame : k_frame m = [];
  se_ok : store_ok (k_store m); se_typed : store_typed sg (k_store m)
}.
Lemma settled_eq sg m : settled sg m -> m = mkmach (k_store m) [] [] [].
Proof. intros [H1 H2 H3 _ _]. destruct m as [s V LS FS]. cbn in *. subst. reflexivity. Qed.
Lemma settled_ok sg m : settled sg m -> machine_ok m.
Proof. intros [H1 H2 H3 H4 _]. destruct m as [s V LS FS]. cbn in *. subst. constructor; cbn; [exact H4|constructor|constructor|constructor]. Qed.
Lemma py_index_some {A} (l : list A) z x : py_index l z = Ok x -> exists a, nth_error l a = Some x.
Proof.
  unfold py_index. intros H. set (k := if z <? 0 then z + len l else z) in *. exists (Z.to_nat k).
  destruct (k <? 0); [discriminate H|]. destruct (nth_error l (Z.to_nat k)); [|discriminate H]. apply Ok_inj in H. subst. reflexivity.
Qed.
Lemma invocate_same F host n z z' args m : py_index (s_func (k_store m)) z = py_index (s_func (k_store m)) z' ->
  invocate F host n z args m = invocate F host n z' args m.
Proof.
  intros H. unfold invocate. rewrite !(bind_do mget _ m m m eq_refl). unfold bind at 1. unfold lift at 1. rewrite H. reflexivity.
Qed.

Section calls.
Context (F : fops) (CF : converts F) (host : hostcode) (HB : well_behaved host) (sg : nat -> functype) (HH : host_typed sg host).
Lemma load_settled md m L m' : settled sg m -> desc_ok md -> valid_module md -> load_module md m = (Ok L, m') ->
  settled sg m' /\ same_types (k_store m) (k_store m') /\ l_desc L = md /\ blobs_ok (k_store m') L /\ s_func (k_store m') = s_func (k_store m).
Proof.
  intros HS DO VM E. pose proof (settled_ok _ _ HS) as MO.
  destruct (safe_ok (k_store m) _ _ _ _ _ (s_load (k_store m) md DO) (inv_here _ MO) E) as [[M1 _] _].
  rewrite (settled_eq _ _ HS) in E. destruct (load_blobs md (k_store m)) as (P1 & P2 & _).
  { eapply Forall_impl; [|exact (vm_data _ VM)]. intros d H. apply H. }
  rewrite P1 in E. injection E as <- <-. cbn [k_store l_desc set_s_blob s_func] in *.
  assert (SA : same_types (k_store m) (set_s_blob (k_store m) (s_blob (k_store m) ++ map dd_init (md_data md)))).
  { constructor; intros a x H; exists x; auto. }
  split; [|split; [exact SA|split; [reflexivity|split; [exact P2|reflexivity]]]].
  constructor; try reflexivity; [exact (mo_store _ M1)|].
  apply (store_keep (k_store m)); [exact (se_typed _ _ HS)|exact SA|reflexivity| |]; cbn [k_store]; apply HS.
Qed.
Lemma alloc_settled {A} (c : store -> res Z * store) (g : Z -> A) m b m' : settled sg m ->
  (let! a := on_store c in ret (g a)) m = (Ok b, m') ->
  (forall a s', c (k_store m) = (Ok a, s') -> store_ok s' /\ store_typed sg s' /\ same_types (k_store m) s') ->
  settled sg m' /\ same_types (k_store m) (k_store m').
Proof.
  intros HS E HC. unfold bind, on_store in E. destruct (c (k_store m)) as [[a|e] s'] eqn:EC; [|discriminate E]. injection E as _ <-.
  destruct (HC a s' eq_refl) as (H1 & H2 & H3). rewrite (settled_eq _ _ HS). unfold set_store. cbn [k_store k_value k_label k_frame]. split; [|exact H3].
  constructor; try reflexivity; assumption.
Qed.
Lemma kept_more {A} (R : A -> A -> Prop) (l k : list A) : (forall x, R x x) -> kept R l (l ++ k).
Proof. intros H a x Hx. exists x. split; [apply nth_app_l, Hx|apply H]. Qed.
Lemma host_settled hid m b m' : settled sg m -> len (s_func (k_store m)) < 2 ^ 31 - 1 -> rt_allocate_func_host (sg hid) hid m = (Ok b, m') ->
  settled sg m' /\ same_types (k_store m) (k_store m').
Proof.
  intros HS HL E. eapply alloc_settled; [exact HS|exact E|]. intros a s' EC. destruct (a_func_host _ _ _ _ _ (se_ok _ _ HS) EC) as [H1 _]. injection EC as _ <-.
  assert (SA : same_types (k_store m) (set_s_func (k_store m) (s_func (k_store m) ++ [FHost (sg hid) hid]))).
  { constructor; cbn [set_s_func s_func s_tabl s_mems s_glob s_elem s_data s_inst]; try apply kept_more; try (intros a' x H; exists x; auto); reflexivity. }
  split; [exact H1|]. split; [|exact SA]. destruct (se_typed _ _ HS) as [S1 S2 S3 S4]. constructor; cbn [set_s_func s_func s_tabl s_elem]; try assumption.
  - apply Forall_app. split; [eapply Forall_impl; [|exact S1]; intros f; apply func_later, SA|constructor; [reflexivity|constructor]].
  - rewrite len_app. cbn [len length]. unfold len in *. cbn. lia.
Qed.
Lemma table_settled t m b m' : settled sg m -> 0 <= l_n (tt_limits t) < 2 ^ 31 -> rt_allocate_table t m = (Ok b, m') ->
  settled sg m' /\ same_types (k_store m) (k_store m').
Proof.
  intros HS HL E. eapply alloc_settled; [exact HS|exact E|]. intros a s' EC. destruct (a_table _ _ _ _ (proj1 HL) (se_ok _ _ HS) EC) as [H1 _].
  unfold alloc_table in EC. destruct (tab_new t) as [x|e] eqn:EN; [|discriminate EC]. injection EC as _ <-.
  assert (SA : same_types (k_store m) (set_s_tabl (k_store m) (s_tabl (k_store m) ++ [x]))).
  { constructor; cbn [set_s_tabl s_func s_tabl s_mems s_glob s_elem s_data s_inst]; try apply kept_more; try (intros a' y H; exists y; auto); reflexivity. }
  split; [exact H1|]. split; [|exact SA]. apply (store_keep (k_store m)); [exact (se_typed _ _ HS)|exact SA|reflexivity| |exact (st_elem _ (se_typed _ _ HS))].
  cbn [set_s_tabl s_tabl]. apply Forall_app. split; [exact (st_tabl _ (se_typed _ _ HS))|]. constructor; [|constructor].
  split; [rewrite (proj2 (tab_new_facts _ _ EN)); lia|exact (tab_new_typed _ _ EN)].
Qed.
Lemma memory_settled t m b m' : settled sg m -> rt_allocate_memory t m = (Ok b, m') -> settled sg m' /\ same_types (k_store m) (k_store m').
Proof.
  intros HS E. eapply alloc_settled; [exact HS|exact E|]. intros a s' EC. destruct (a_memory _ _ _ _ (se_ok _ _ HS) EC) as [H1 _].
  unfold alloc_memory in EC. destruct (mem_new t) as [x|e]; [|discriminate EC]. injection EC as _ <-.
  assert (SA : same_types (k_store m) (set_s_mems (k_store m) (s_mems (k_store m) ++ [x]))).
  { constructor; cbn [set_s_mems s_func s_tabl s_mems s_glob s_elem s_data s_inst]; try apply kept_more; try (intros a' y H; exists y; auto); auto. }
  split; [exact H1|]. split; [|exact SA]. apply (store_keep (k_store m)); [exact (se_typed _ _ HS)|exact SA|reflexivity|exact (st_tabl _ (se_typed _ _ HS))|exact (st_elem _ (se_typed _ _ HS))].
Qed.
Lemma global_settled t v m b m' : settled sg m -> val_wf v -> rt_allocate_global t v m = (Ok b, m') -> settled sg m' /\ same_types (k_store m) (k_store m').
Proof.
  intros HS HV E. eapply alloc_settled; [exact HS|exact E|]. intros a s' EC. destruct (a_global _ _ _ _ _ HV (se_ok _ _ HS) EC) as [H1 _].
  unfold alloc_global in EC. destruct (_ || _); [|discriminate EC]. injection EC as _ <-.
  assert (SA : same_types (k_store m) (set_s_glob (k_store m) (s_glob (k_store m) ++ [mkglob v (gt_mut t)]))).
  { constructor; cbn [set_s_glob s_func s_tabl s_mems s_glob s_elem s_data s_inst]; try apply kept_more; try (intros a' y H; exists y; auto); auto. }
  split; [exact H1|]. split; [|exact SA]. apply (store_keep (k_store m)); [exact (se_typed _ _ HS)|exact SA|reflexivity|exact (st_tabl _ (se_typed _ _ HS))|exact (st_elem _ (se_typed _ _ HS))].
Qed.
(* a call through the interpreter's front door: its arguments are converted, the function runs, its results are converted *)
Lemma rt_call n h nm args m e a t hh code : settled sg m -> find_export (mod_of (k_store m) (MRef h)) nm = Ok e ->
  py_index (s_func (k_store m)) (Store.e_data e) = Ok (FWasm t hh code) -> nth_error (s_func (k_store m)) a = Some (FWasm t hh code) ->
  len (ft_args t) = len args ->
  rt_invocate F host n h nm args m =
  match from_alls F (ft_args t) args with
  | Ok vs => (let! rets := invocate F host n (Z.of_nat a) vs in lift (rmapl (into_all F) rets)) (mkmach (k_store m) [] [] [])
  | Err e => (Err e, m)
  end.
Proof.
  intros HS E1 E2 N HL. unfold rt_invocate. rewrite (bind_do mget _ m m m eq_refl). unfold bind at 1, lift at 1. rewrite E1. unfold bind at 1, lift at 1. rewrite E2.
  cbn [fi_type]. rewrite HL, Z.eqb_refl. rewrite (bind_do (assert true) _ m tt m eq_refl). unfold bind at 1, lift at 1. destruct (from_alls F (ft_args t) args) as [vs|x]; [|reflexivity].
  rewrite <- (settled_eq _ _ HS). apply bind_first. apply invocate_same. rewrite E2, (py_index_nth _ _ _ N). reflexivity.
Qed.
Lemma call_settled n h nm args rs m m' : settled sg m -> Forall pyval_ok args -> rt_invocate F host n h nm args m = (Ok rs, m') ->
  settled sg m' /\ same_types (k_store m) (k_store m').
Proof.
  intros HS HP E. pose proof E as E0. unfold rt_invocate in E0. rewrite (bind_do mget _ m m m eq_refl) in E0.
  nxt E0 m1 e. unfold lift in E1. injection E1 as E1 <-. nxt E0 m1 f. unfold lift in E2. injection E2 as E2 <-.
  nxt E0 m1 u. destruct u. rewrite assert_run in E3. injection E3 as E3 <-. apply assert_ok, Z.eqb_eq in E3. clear E0.
  destruct (py_index_some _ _ _ E2) as (a & N).
  destruct f as [t hh code|t hid].
  2:{ exfalso. unfold rt_invocate in E. rewrite (bind_do mget _ m m m eq_refl) in E. nxt E m1 e'. unfold lift in E0. injection E0 as E0 <-. replace e' with e in * by congruence.
      nxt E m1 f. unfold lift in E4. injection E4 as E4 <-. nxt E m1 u. rewrite assert_run in E5. injection E5 as _ <-. nxt E m1 vs. unfold lift in E5. injection E5 as _ <-.
      nxt E m1 rets. unfold invocate in E5. rewrite (bind_do mget _ m m m eq_refl) in E5. unfold bind, lift in E5. rewrite E2 in E5. discriminate E5. }
  cbn [fi_type] in E3. rewrite (rt_call n h nm args m e a t hh code HS E1 E2 N E3) in E.
  destruct (from_alls F (ft_args t) args) as [vs|x] eqn:EF; [|discriminate E]. nxt E m1 rets. unfold lift in E. injection E as E <-.
  pose proof (from_alls_types F _ _ _ EF ltac:(unfold len in E3; lia)) as HT. pose proof (from_alls_gives F _ _ HP _ EF) as HW.
  pose proof (invocate_typed F CF host HB HH (k_store m) a t hh code vs n (se_ok _ _ HS) (se_typed _ _ HS) N HW HT) as IT. rewrite E0 in IT.
  destruct IT as (_ & I1 & I2 & I3 & I4 & I5). split; [|exact I5].
  pose proof (settled_ok _ _ HS) as MO. rewrite (settled_eq _ _ HS) in MO.
  destruct (safe_ok (k_store m) _ _ _ _ _ (s_invocate (k_store m) F host HB n (Z.of_nat a) vs HW) (inv_here _ MO) E0) as [[M1 _] _].
  constructor; try assumption. exact (mo_store _ M1).
Qed.
Lemma module_settled m md L m2 n ext h m3 : settled sg m -> desc_ok md -> valid_module md -> len (s_func (k_store m)) + len (md_func md) < 2 ^ 31 ->
  load_module md m = (Ok L, m2) -> Forall2 (fits (k_store m2) md) (md_imps md) ext -> (2 <= n)%nat -> instance F host n L ext m2 = (Ok h, m3) ->
  settled sg m3 /\ same_types (k_store m) (k_store m3) /\
  exists mi, nth_error (s_inst (k_store m3)) h = Some mi /\ instance_typed (k_store m3) mi (module_ctx md [] []) /\
    instance_of L ext (k_store m2) (k_store m3) h mi /\ Forall2 (export_of mi) (md_exps md) (m_exps mi).
Proof.
  intros HS DO VM HL EL IM Hn E. destruct (load_settled md m L m2 HS DO VM EL) as (HS2 & SA & <- & BL & EF).
  pose proof E as E'. rewrite (settled_eq _ _ HS2) in E'. rewrite <- EF in HL.
  pose proof (instance_valid F host sg n L ext (k_store m2) CF HB HH (se_ok _ _ HS2) (se_typed _ _ HS2) DO VM BL IM HL Hn) as IV. rewrite E' in IV.
  destruct IV as (V1 & V2 & V3 & V4 & V5 & V6 & mi & V7 & V8 & V9).
  split; [constructor; assumption|]. split; [exact (TypeBasicFacts.same_trans _ _ _ SA V6)|].
  destruct (instance_spec F host n L ext m2 h m3 HB (settled_ok _ _ HS2) DO E) as (mi' & IO & _).
  assert (mi' = mi) as -> by (pose proof (proj1 (io_inst _ _ _ _ _ _ IO)); congruence).
  exists mi. auto.
Qed.
Lemma history_settled m m' : history F host sg m m' -> settled sg m -> settled sg m' /\ same_types (k_store m) (k_store m').
Proof.
  induction 1; intros HS; [split; [exact HS|apply TypeBasicFacts.same_refl]|..]; destruct (IHhistory HS) as [HS1 SA1].
  - destruct (host_settled _ _ _ _ HS1 H0 H1) as [H2 H3]. split; [exact H2|exact (TypeBasicFacts.same_trans _ _ _ SA1 H3)].
  - destruct (table_settled _ _ _ _ HS1 H0 H1) as [H2 H3]. split; [exact H2|exact (TypeBasicFacts.same_trans _ _ _ SA1 H3)].
  - destruct (memory_settled _ _ _ _ HS1 H0) as [H2 H3]. split; [exact H2|exact (TypeBasicFacts.same_trans _ _ _ SA1 H3)].
  - destruct (global_settled _ _ _ _ _ HS1 H0 H1) as [H2 H3]. split; [exact H2|exact (TypeBasicFacts.same_trans _ _ _ SA1 H3)].
  - destruct (module_settled _ _ _ _ _ _ _ _ HS1 H0 H1 H2 H3 H4 H5 H6) as (H7 & H8 & _). split; [exact H7|exact (TypeBasicFacts.same_trans _ _ _ SA1 H8)].
  - destruct (call_settled _ _ _ _ _ _ _ HS1 H0 H1) as [H2 H3]. split; [exact H2|exact (TypeBasicFacts.same_trans _ _ _ SA1 H3)].
Qed.
Lemma empty_settled : settled sg machine_empty.
Proof. constructor; try reflexivity; constructor; try constructor; reflexivity. Qed.
(* looking up an export by name *)
Lemma lookup mi es xs e : Forall2 (export_of mi) es xs -> NoDup (map ex_name es) -> In e es -> ex_kind e = 0 ->
  exists x, export_of mi e x /\ match filter (fun y => name_eqb (ei_name y) (ex_name e)) xs with [] => Err EIndex | y :: _ => Ok (ei_data y) end = Ok (ei_data x).
Proof.
  induction 1 as [|d x es xs H _ IH]; intros ND Hin HK; [contradiction|]. inversion ND; subst. cbn [filter].
  destruct H as (X1 & X2). destruct Hin as [->|Hin].
  - exists x. split; [split; assumption|]. rewrite X1. rewrite (proj2 (name_eqb_eq _ _) eq_refl). reflexivity.
  - destruct (name_eqb (ei_name x) (ex_name e)) eqn:EN.
    + exfalso. apply name_eqb_eq in EN. match goal with H : ~ In _ _ |- _ => apply H end. rewrite <- X1, EN. apply in_map, Hin.
    + apply IH; assumption.
Qed.
End calls.

Lemma export_called F host sg n n' md L ext m m1 m2 m3 h e t args : converts F -> well_behaved host -> host_typed sg host ->
  history F host sg machine_empty m -> desc_ok md -> valid_module md -> len (s_func (k_store m)) + len (md_func md) < 2 ^ 31 ->
  load_module md m = (Ok L, m1) -> Forall2 (fits (k_store m1) md) (md_imps md) ext -> (2 <= n)%nat ->
  instance F host n L ext m1 = (Ok h, m2) -> history F host sg m2 m3 ->
  In e (md_exps md) -> ex_kind e = 0 -> len (imp_funcs md) <= ex_desc e -> item (c_funcs (module_ctx md [] [])) (ex_desc e) t ->
  Forall2 of_kind (ft_args t) args ->
  exists a hh code vs, nth_error (s_func (k_store m3)) a = Some (FWasm t hh code) /\ from_alls F (ft_args t) args = Ok vs /\
  match rt_invocate F host n' h (ex_name e) args m3 with
  | (Ok rs, m4) => Forall2 of_kind (ft_rets t) rs /\ history F host sg m2 m4
  | (Err x, m4) => store_typed sg (k_store m4) /\ same_types (k_store m3) (k_store m4) /\
      ((exists m5 i fr, gets_to F host (starts (k_store m3) t hh code vs) m5 /\ about_to_run m5 i fr /\ inst_may_trap i = true /\ step F host m5 = (Err x, m4)) \/
       (exists m5, evaluate F host n' (starts (k_store m3) t hh code vs) = (Ok tt, m5) /\ k_label m5 <> []) \/
       (exists rs, invocate F host n' (Z.of_nat a) vs m3 = (Ok rs, m4) /\ x = EAssert /\ exists v, In v rs /\ is_null v))
  end.
Proof.
  intros CF HB HH H1 DO VM HL EL IM Hn EI H2 He HK HO HT HA.
  destruct (history_settled F CF host HB sg HH _ _ H1 (empty_settled sg)) as [S0 _].
  destruct (module_settled F CF host HB sg HH _ _ _ _ _ _ _ _ S0 DO VM HL EL IM Hn EI) as (S2 & _ & mi & V1 & V2 & V3 & V4).
  destruct (history_settled F CF host HB sg HH _ _ H2 S2) as [S3 SA].
  destruct (load_settled sg md m L m1 S0 DO VM EL) as (_ & _ & <- & _ & _).
  destruct (sa_inst _ _ SA _ _ V1) as (mi' & V5 & <-).
  destruct (lookup mi _ _ e V4 (vm_names _ VM) He HK) as (x & (X1 & X2 & X3 & X4) & X5).
  rewrite HK in X4. cbn [space Z.eqb] in X4.
  (* the function is one of the module's own *)
  destruct (io_func _ _ _ _ _ _ V3) as [F1 F2]. cbn [Z.eqb] in X4. unfold space in X4. cbn [Z.eqb] in X4.
  assert (FW : exists a hh code, Store.e_data (ei_data x) = Z.of_nat a /\ nth_error (s_func (k_store m3)) a = Some (FWasm t hh code)).
  { apply item_at in HT. destruct HT as [T1 T2]. destruct (it_func _ _ _ V2 _ _ T2) as (a & f & A1 & A2 & A3).
    rewrite T1, (py_index_nth _ _ _ A1) in X4. apply Ok_inj in X4.
    assert (LI : length (imp_funcs (l_desc L)) = length (imported 0 ext)) by exact (Forall2_len _ _ _ (proj1 (imports_at _ _ _ _ IM))).
    rewrite F1, nth_error_app2 in A1 by (unfold len in HO; lia).
    set (j := (Z.to_nat (ex_desc e) - length (imported 0 ext))%nat) in A1.
    assert (J : (j < length (md_func (l_desc L)))%nat) by (rewrite <- (fresh_len (length (s_func (k_store m1))) (length (md_func (l_desc L)))); apply nth_error_Some; congruence).
    rewrite nth_fresh in A1 by exact J. injection A1 as A1. apply Nat2Z.inj in A1.
    destruct (nth_error (md_func (l_desc L)) j) as [d|] eqn:ED; [|apply nth_error_None in ED; lia].
    destruct (F2 j d ED) as (f' & B1 & t' & _ & B2). rewrite A1, A2 in B1. injection B1 as <-. subst f. cbn [fi_type] in A3. subst t'.
    destruct (sa_func _ _ SA _ _ A2) as (f & C1 & <-). exists a, h, d. split; [symmetry; exact X4|exact C1]. }
  destruct FW as (a & hh & code & EA & NF). destruct (args_from F _ _ HA) as (vs & EV). exists a, hh, code, vs. split; [exact NF|]. split; [exact EV|].
  pose proof (settled_ok _ _ S3) as MO. 
  assert (E1 : find_export (mod_of (k_store m3) (MRef h)) (ex_name e) = Ok (ei_data x)) by (rewrite (mod_of_ref _ _ _ V5); exact X5).
  assert (LA : len (ft_args t) = len args) by (unfold len; rewrite (Forall2_len _ _ _ HA); reflexivity).
  pose proof (rt_call F host sg n' h (ex_name e) args m3 (ei_data x) a t hh code S3 E1 ltac:(rewrite EA; apply py_index_nth, NF) NF LA) as RT. rewrite EV in RT.
  pose proof (from_alls_types F _ _ _ EV ltac:(unfold len in LA; lia)) as TV. pose proof (from_alls_gives F _ _ (kinds_ok _ _ HA) _ EV) as WV.
  pose proof (invocate_typed F CF host HB HH (k_store m3) a t hh code vs n' (se_ok _ _ S3) (se_typed _ _ S3) NF WV TV) as IT.
  unfold bind in RT. rewrite <- (settled_eq _ _ S3) in RT, IT. destruct (invocate F host n' (Z.of_nat a) vs m3) as [[rs|y] m4] eqn:EIV.
  - destruct (safe_ok (k_store m3) _ _ _ _ _ (s_invocate (k_store m3) F host HB n' (Z.of_nat a) vs WV) (inv_here _ MO) EIV) as [_ WR].
    destruct IT as (TR & I1 & I2 & I3 & I4 & I5). pose proof (into_kinds F _ _ WR TR) as IK. unfold lift in RT. rewrite RT.
    destruct (rmapl (into_all F) rs) as [ps|y].
    + split; [exact IK|]. eapply his_call; [exact H2|exact (kinds_ok _ _ HA)|exact RT].
    + split; [exact I4|]. split; [exact I5|]. right. right. exists rs. destruct IK as [-> IK]. auto.
  - rewrite RT. destruct IT as (I4 & I5 & [I6|I6]); (split; [exact I4|]; split; [exact I5|]); [left; exact I6|right; left; exact I6].
Qed.
Lemma histories F host sg m m' : converts F -> well_behaved host -> host_typed sg host ->
  history F host sg machine_empty m -> history F host sg m m' ->
  k_value m' = [] /\ k_label m' = [] /\ k_frame m' = [] /\ store_ok (k_store m') /\ store_typed sg (k_store m') /\
  same_types (k_store m) (k_store m').
Proof.
  intros CF HB HH H1 H2. destruct (history_settled F CF host HB sg HH _ _ H1 (empty_settled sg)) as [S0 _].
  destruct (history_settled F CF host HB sg HH _ _ H2 S0) as [S1 SA]. destruct S1. do 5 (split; [assumption|]). exact SA.
Qed.
Lemma instance_exports F host sg n L ext s : converts F -> well_behaved host -> host_typed sg host -> store_ok s -> store_typed sg s ->
  desc_ok (l_desc L) -> valid_module (l_desc L) -> blobs_ok s L -> Forall2 (fits s (l_desc L)) (md_imps (l_desc L)) ext ->
  len (s_func s) + len (md_func (l_desc L)) < 2 ^ 31 -> (2 <= n)%nat ->
  match instance F host n L ext (mkmach s [] [] []) with
  | (Ok h, m') => k_value m' = [] /\ k_label m' = [] /\ k_frame m' = [] /\ store_ok (k_store m') /\
      store_typed sg (k_store m') /\ same_types s (k_store m') /\
      exists mi, nth_error (s_inst (k_store m')) h = Some mi /\ instance_typed (k_store m') mi (module_ctx (l_desc L) [] []) /\
        Forall2 (exported mi) (md_exps (l_desc L)) (m_exps mi)
  | (Err e, m') => store_typed sg (k_store m') /\ same_types s (k_store m') /\ init_stops F host sg n L s e m'
  end.
Proof.
  intros H1 H2 H3 H4 H5 H6 VM H8 H9 H10 H11. pose proof (instance_valid F host sg n L ext s H1 H2 H3 H4 H5 H6 VM H8 H9 H10 H11) as IV.
  destruct (instance F host n L ext (mkmach s [] [] [])) as [[h|e] m']; [|exact IV].
  destruct IV as (V1 & V2 & V3 & V4 & V5 & V6 & mi & V7 & V8 & V9). do 6 (split; [assumption|]). exists mi. do 2 (split; [assumption|]).
  pose proof (vm_exps _ VM) as VE. revert VE. generalize V9. generalize (md_exps (l_desc L)) (m_exps mi). clear.
  induction 1 as [|e x es xs H _ IH]; intros VE; [constructor|]. inversion VE as [|? ? VE1 VE2]; subst. constructor; [|apply IH, VE2].
  destruct H as (X1 & X2 & _ & X4). split; [exact X1|]. split; [exact X2|]. split; [apply VE1|].
  unfold py_index in X4. destruct VE1 as [VE1 _]. destruct (Z.ltb_spec (ex_desc e) 0); [lia|]. destruct (Z.ltb_spec (ex_desc e) 0); [lia|].
  destruct (nth_error (space mi (ex_kind e)) (Z.to_nat (ex_desc e))); [|discriminate X4]. apply Ok_inj in X4. subst. reflexivity.
Qed.
