(* Instantiation and whole histories leave everything outside a closed region alone. *)
From Coq Require Import ZArith List Bool Lia ZifyBool ZifyNat.
From Verif Require Import Py Arith Floatops Val Opcode Numeric Syntax Store Basic Machine
  SpecInt SpecNum SpecMachine SpecMem SpecRun SpecControl SpecInst SpecType SpecValid SpecRef SpecIsolate
  PyFacts ArithFacts ValFacts StepFacts LaneFacts NumFacts MemFacts BulkFacts WfFacts RunFacts ControlFacts CallFacts InstFacts InitFacts
  TypeOpFacts TypeBasicFacts TypeFacts ValidFacts HistoryFacts IsolateFacts IsolateRunFacts.
Import ListNotations.
Open Scope Z_scope.

(* ---- initial values ---- *)
Section constants.
Context (sg : nat -> functype) (F : fops) (CF : converts F) (host : hostcode) (s : store) (Hs : store_typed sg s) (Ok_s : store_ok s)
  (md : moddesc) (aux : modinst) (fr : frame) (Hfr : fr_module fr = MVal aux) (Hloc : fr_locals fr = [])
  (HT : m_type aux = [])
  (HF : forall i t, nth_error (c_funcs (const_ctx md)) i = Some t -> exists a, nth_error (m_func aux) i = Some (Z.of_nat a) /\ Z.of_nat a < 2 ^ 31)
  (HG : Forall2 (glob_at s) (imp_globs md) (m_glob aux)) (G : region) (HC : closed sg G s) (KA : knows G aux).
Notation pt := (inside G).
Lemma const_in n e t v m' : (2 <= n)%nat -> const_typed md e t -> const_expr F host n e (mkmach s [] [] [fr]) = (Ok v, m') ->
  m' = mkmach s [] [] [fr] /\ pt v.
Proof.
  intros Hn [(o & args & -> & Ho) HTy] E. apply typed_rest in HTy. destruct HTy as (A & B & R & EQ & HI & HR). symmetry in EQ. apply app_eq_nil in EQ. destruct EQ as [-> ->].
  apply typed_end in HR. rewrite app_nil_r in HR. subst B.
  destruct (const_basic sg F CF s Hs Ok_s md aux HT HF HG o args t Ho HI) as (v' & EB & Tv).
  assert (RV : pt v').
  { pose proof (IsolateFacts.x_basic sg G s HC (MVal aux) KA F o args (mkb s [] []) (conj eq_refl (conj (Forall_nil _) (Forall_nil _)))) as X. rewrite EB in X.
    destruct X as (_ & _ & _ & X). cbn [b_value] in X. inversion X; assumption. }
  enough (EV : const_expr F host n [IOp o args] (mkmach s [] [] [fr]) = (Ok v', mkmach s [] [] [fr])).
  { rewrite EV in E. injection E as <- <-. split; [reflexivity|exact RV]. }
  unfold const_expr. change [IOp o args] with (code_of [(o, args)]).
  pose proof (run_straight F host [(o, args)] 1 n s [] fr ltac:(repeat constructor; apply const_straight, Ho)) as P.
  cbn [ops] in P. rewrite Hfr, Hloc in P. unfold bind in P. rewrite EB in P. cbn [ret b_value length Nat.eqb] in P. unfold ret in P. cbn [b_value length Nat.eqb] in P.
  replace (Nat.ltb 1 n) with true in P by (symmetry; apply PeanoNat.Nat.ltb_lt; lia). cbn [andb] in P.
  unfold bind. rewrite P. unfold popv, finish, set_value, relocal. cbn. clear - Hloc. destruct fr as [x1 x2 x3 x4 x5]; cbn in *; subst x2; reflexivity.
Qed.
Lemma consts_in {A} n (f : A -> list inst) (ty : A -> valtype) l vs m' : (2 <= n)%nat -> Forall (fun x => const_typed md (f x) (ty x)) l ->
  mapl (fun x => const_expr F host n (f x)) l (mkmach s [] [] [fr]) = (Ok vs, m') -> m' = mkmach s [] [] [fr] /\ Forall pt vs.
Proof.
  intros Hn H. revert vs m'. induction H as [|x l Hx _ IH]; intros vs m' E; [injection E as <- <-; split; [reflexivity|constructor]|].
  cbn [mapl] in E. nxt E m1 v. destruct (const_in n (f x) (ty x) v m1 Hn Hx E0) as [-> Hv].
  nxt E m2 vs'. destruct (IH _ _ E1) as [-> Hvs]. injection E as <- <-. split; [reflexivity|constructor; assumption].
Qed.
End constants.
Lemma imported_in G ext : Forall (import_in G) ext ->
  Forall (among (g_func G)) (imported 0 ext) /\ Forall (among (g_tabl G)) (imported 1 ext) /\
  Forall (among (g_mems G)) (imported 2 ext) /\ Forall (among (g_glob G)) (imported 3 ext).
Proof.
  induction 1 as [|e l (H0 & H1 & H2 & H3) _ (I0 & I1 & I2 & I3)]; [repeat split; constructor|].
  cbn [imported]. repeat split; match goal with |- context [?x =? ?y] => destruct (Z.eqb_spec x y) end; auto.
Qed.
Lemma fresh_in (P : nat -> Prop) b n : (forall a, (b <= a < b + n)%nat -> P a) -> Forall (among P) (fresh b n).
Proof.
  intros H. apply Forall_forall. intros z Hz. apply in_map_iff in Hz. destruct Hz as (a & <- & Ha). apply in_seq in Ha. split; [lia|]. rewrite Nat2Z.id. apply H. lia.
Qed.
Section head.
Context (sg : nat -> functype) (F : fops) (CF : converts F) (host : hostcode) (s : store) (Hs : store_typed sg s) (Ok_s : store_ok s)
  (md : moddesc) (ext : list extern) (VM : valid_module md) (IM : Forall2 (fits s md) (md_imps md) ext)
  (MANY : len (s_func s) + len (md_func md) < 2 ^ 31) (G : region) (HC : closed sg G s) (IE : Forall (import_in G) ext)
  (NF : forall a, (length (s_func s) <= a < length (s_func s) + length (md_func md))%nat -> g_func G a).
Notation pt := (inside G).
Lemma head_in n globin elemin m' : (2 <= n)%nat ->
  inst_head F host n md (mkmi [] (aux_funcs md ext s) [] [] (imported 3 ext) [] [] []) (mkmach s [] [] []) = (Ok (globin, elemin), m') ->
  Forall pt globin /\ Forall (Forall pt) elemin.
Proof.
  intros Hn. set (aux := mkmi _ _ _ _ _ _ _ _). set (fr := mkframe (MVal aux) [] 1 0 0). intros E.
  assert (HF : forall i t, nth_error (c_funcs (const_ctx md)) i = Some t -> exists a, nth_error (m_func aux) i = Some (Z.of_nat a) /\ Z.of_nat a < 2 ^ 31).
  { intros i t H. destruct (Forall2_nth _ _ _ (aux_at sg s Hs md ext VM IM MANY) i t H) as (z & Hz & a & -> & Ha). exists a. split; [exact Hz|exact Ha]. }
  assert (HG : Forall2 (glob_at s) (imp_globs md) (m_glob aux)) by exact (proj2 (proj2 (proj2 (imports_at _ _ _ _ IM)))).
  destruct (imported_in _ _ IE) as (I0 & I1 & I2 & I3).
  assert (KA : knows G aux).
  { constructor; cbn [aux m_func m_tabl m_mems m_glob m_elem m_data]; try constructor; [|exact I3].
    unfold aux_funcs, len. rewrite range_fresh. apply Forall_app. split; [exact I0|apply fresh_in, NF]. }
  unfold inst_head in E. fold aux in E. fold fr in E. rewrite (bind_do (push_frame fr) _ (mkmach s [] [] []) tt (mkmach s [] [] [fr]) eq_refl) in E.
  nxt E m1 g1. destruct (consts_in sg F CF host s Hs Ok_s md aux fr eq_refl eq_refl eq_refl HF HG G HC KA n gd_init (fun g => gt_type (gd_type g)) (md_glob md) g1 m1 Hn) with (2 := E0) as [-> G1].
  { eapply Forall_impl; [|exact (vm_glob _ VM)]. intros g [_ H]. exact H. }
  nxt E m2 e1.
  assert (G2 : m2 = mkmach s [] [] [fr] /\ Forall (Forall pt) e1).
  { pose proof (vm_elem _ VM) as HE. clear E E0. revert e1 m2 E1. induction HE as [|e l (_ & _ & H & _) _ IH]; intros e1 m2 E1; [injection E1 as <- <-; split; [reflexivity|constructor]|].
    cbn [mapl] in E1. nxt E1 m3 vs.
    destruct (consts_in sg F CF host s Hs Ok_s md aux fr eq_refl eq_refl eq_refl HF HG G HC KA n (fun c => c) (fun _ => ed_type e) (ed_init e) _ _ Hn H E0) as [-> G2].
    nxt E1 m4 vss. destruct (IH _ _ E2) as [-> G3]. injection E1 as <- <-. split; [reflexivity|constructor; assumption]. }
  destruct G2 as [-> G2]. nxt E m3 u. injection E as <- <- _. split; assumption.
Qed.
End head.

(* ---- what later stores have ---- *)
Record longer (s s' : store) : Prop := mk_longer {
  lo_func : (length (s_func s) <= length (s_func s'))%nat; lo_tabl : (length (s_tabl s) <= length (s_tabl s'))%nat;
  lo_mems : (length (s_mems s) <= length (s_mems s'))%nat; lo_glob : (length (s_glob s) <= length (s_glob s'))%nat;
  lo_elem : (length (s_elem s) <= length (s_elem s'))%nat; lo_data : (length (s_data s) <= length (s_data s'))%nat;
  lo_blob : (length (s_blob s) <= length (s_blob s'))%nat; lo_inst : (length (s_inst s) <= length (s_inst s'))%nat
}.
Lemma kept_longer {A} (R : A -> A -> Prop) l l' : kept R l l' -> (length l <= length l')%nat.
Proof.
  intros H. destruct (PeanoNat.Nat.le_gt_cases (length l) (length l')) as [L|L]; [exact L|exfalso].
  destruct (nth_error l (length l')) as [x|] eqn:E; [|apply nth_error_None in E; lia]. destruct (H _ _ E) as (y & Hy & _).
  assert (length l' < length l')%nat by (apply nth_error_Some; congruence). lia.
Qed.
Lemma later_longer s s' : later s s' -> longer s s'.
Proof. intros []. constructor; eapply kept_longer; eassumption. Qed.
Lemma longer_trans s1 s2 s3 : longer s1 s2 -> longer s2 s3 -> longer s1 s3.
Proof. intros [] []. constructor; lia. Qed.
Lemma made_prefix G s1 s2 s3 : holds_made G s1 s3 -> longer s2 s3 -> holds_made G s1 s2.
Proof. intros [] []. unfold between in *. constructor; intros a Ha; unfold between in Ha; match goal with H : forall _, _ -> ?P _ |- ?P _ => apply H; lia end. Qed.
Lemma made_suffix G s1 s2 s3 : holds_made G s1 s3 -> longer s1 s2 -> holds_made G s2 s3.
Proof. intros [] []. unfold between in *. constructor; intros a Ha; unfold between in Ha; match goal with H : forall _, _ -> ?P _ |- ?P _ => apply H; lia end. Qed.
Lemma kept_out_trans G s1 s2 s3 : kept_outside G s1 s2 -> kept_outside G s2 s3 -> kept_outside G s1 s3.
Proof.
  intros [] []. constructor; intros; auto;
    match goal with H : forall a, ~ ?P a -> _ = nth_error (?f s2) a, H' : forall a, ~ ?P a -> _ = nth_error (?f s1) a, N : ~ ?P _ |- _ => rewrite (H _ N); apply H', N end.
Qed.
Lemma kept_out_refl G s : kept_outside G s s.
Proof. constructor; auto. Qed.
Lemma out_kept G s s' : same_outside G s s' -> kept_outside G s s'.
Proof. intros [H1 H2 H3]. constructor; auto; [rewrite H1|rewrite H2|rewrite H3]; auto. Qed.
Lemma nth_more {A} (P : nat -> Prop) (l k : list A) a : (forall b, between l (l ++ k) b -> P b) -> ~ P a -> nth_error (l ++ k) a = nth_error l a.
Proof.
  intros H N. destruct (PeanoNat.Nat.lt_ge_cases a (length l)) as [L|L]; [apply nth_error_app1, L|].
  destruct (PeanoNat.Nat.lt_ge_cases a (length (l ++ k))) as [L'|L']; [exfalso; apply N, H; split; assumption|].
  rewrite (proj2 (nth_error_None (l ++ k) a) L'). symmetry. apply nth_error_None, L.
Qed.
(* adding objects to a store *)
Lemma more_out G s fs ts ms gs es ds is bs :
  let s' := mkstore (s_func s ++ fs) (s_tabl s ++ ts) (s_mems s ++ ms) (s_glob s ++ gs) (s_elem s ++ es) (s_data s ++ ds) (s_inst s ++ is) (s_blob s ++ bs) in
  holds_made G s s' -> kept_outside G s s'.
Proof.
  intros s' []. constructor; cbn [s' s_func s_tabl s_mems s_glob s_elem s_data s_inst s_blob]; intros; try (apply nth_app_l; assumption);
    match goal with N : ~ ?P _ |- _ => apply (nth_more P); [assumption|exact N] end.
Qed.
Lemma more_longer s fs ts ms gs es ds is bs :
  longer s (mkstore (s_func s ++ fs) (s_tabl s ++ ts) (s_mems s ++ ms) (s_glob s ++ gs) (s_elem s ++ es) (s_data s ++ ds) (s_inst s ++ is) (s_blob s ++ bs)).
Proof. constructor; cbn [s_func s_tabl s_mems s_glob s_elem s_data s_inst s_blob]; rewrite app_length; lia. Qed.
Lemma nth_app {A} (P : A -> Prop) (l k : list A) a x : nth_error (l ++ k) a = Some x -> (forall y, nth_error l a = Some y -> P y) -> Forall P k -> P x.
Proof.
  intros H H1 H2. destruct (PeanoNat.Nat.lt_ge_cases a (length l)) as [L|L]; [rewrite nth_error_app1 in H by exact L; apply H1, H|].
  rewrite nth_error_app2 in H by exact L. exact (nth_Forall _ _ _ _ H2 H).
Qed.
Lemma more_closed sg G s fs ts ms gs es ds is bs : closed sg G s ->
  Forall (fun f => match f with FWasm _ h _ => g_inst G h | FHost t hid => g_host G hid /\ t = sg hid end) fs ->
  Forall (fun x => Forall (inside G) (ti_elem x)) ts -> Forall (fun g => inside G (gi_data g)) gs ->
  Forall (fun e => Forall (inside G) (li_data e)) es -> Forall (g_blob G) ds -> Forall (knows G) is ->
  closed sg G (mkstore (s_func s ++ fs) (s_tabl s ++ ts) (s_mems s ++ ms) (s_glob s ++ gs) (s_elem s ++ es) (s_data s ++ ds) (s_inst s ++ is) (s_blob s ++ bs)).
Proof.
  intros [C0 C1 C2 C3 C4 C5 C6] H1 H3 H4 H5 H6 H2. constructor; cbn [s_func s_tabl s_mems s_glob s_elem s_data s_inst s_blob]; [exact C0|..].
  - intros a f Ga N. exact (nth_app _ _ _ _ _ N (fun y => C1 a y Ga) H1).
  - intros a f Ga N. exact (nth_app _ _ _ _ _ N (fun y => C2 a y Ga) H2).
  - intros a f Ga N. exact (nth_app _ _ _ _ _ N (fun y => C3 a y Ga) H3).
  - intros a f Ga N. exact (nth_app _ _ _ _ _ N (fun y => C4 a y Ga) H4).
  - intros a f Ga N. exact (nth_app _ _ _ _ _ N (fun y => C5 a y Ga) H5).
  - intros a f Ga N. exact (nth_app _ _ _ _ _ N (fun y => C6 a y Ga) H6).
Qed.
Lemma tab_new_in G t x : tab_new t = Ok x -> Forall (inside G) (ti_elem x).
Proof.
  intros H. unfold tab_new, tab_grow in H. cbn [ti_type ti_elem ti_size] in H.
  repeat match type of H with (if ?c then _ else _) = _ => destruct c; try discriminate H | (let? _ := ?c in _) = _ => destruct c; try discriminate H; cbn [rbind] in H end.
  apply Ok_inj in H. subst x. cbn [ti_elem app]. apply Forall_forall. intros v Hv. apply repeat_spec in Hv. subst v. apply in_zero.
Qed.
Lemma enum_forall {A V X} (Q : A -> V -> X -> Prop) (P : V -> Prop) (R : X -> Prop) (l : list (Z * A)) (vs : list V) xs :
  (forall a v x, P v -> Q a v x -> R x) -> Forall P vs -> Forall2 (fun '(i, d) x => exists v, py_index vs i = Ok v /\ Q d v x) l xs -> Forall R xs.
Proof.
  intros HR HP H. induction H as [|[i d] x l xs (v & E & HQ) _ IH]; constructor; [|exact IH]. apply (HR d v x); [|exact HQ].
  destruct (py_index_some _ _ _ E) as (a & N). exact (nth_Forall _ _ _ _ HP N).
Qed.
Lemma allocated_in sg G L ext globin elemin s s' h mi fs ts ms gs es : InstFacts.allocated L ext globin elemin s s' h mi fs ts ms gs es ->
  closed sg G s -> holds_made G s s' -> Forall (import_in G) ext -> Forall (g_blob G) (l_blob L) ->
  Forall (inside G) globin -> Forall (Forall (inside G)) elemin ->
  closed sg G s' /\ kept_outside G s s' /\ g_inst G h /\ longer s s'.
Proof.
  intros AL HC HM IE HL HG HE. destruct AL.
  assert (E : s' = mkstore (s_func s ++ fs) (s_tabl s ++ ts) (s_mems s ++ ms) (s_glob s ++ gs) (s_elem s ++ es) (s_data s ++ l_blob L) (s_inst s ++ [mi]) (s_blob s ++ []))
    by (rewrite app_nil_r; exact al_store).
  clear al_store. subst s'. destruct (imported_in _ _ IE) as (I0 & I1 & I2 & I3).
  destruct HM as [M1 M2 M3 M4 M5 M6 M7 M8]. unfold between in *. cbn [s_func s_tabl s_mems s_glob s_elem s_data s_inst s_blob] in *. rewrite !app_length in *.
  assert (Gh : g_inst G h) by (subst h; apply M8; cbn; lia).
  pose proof (Forall2_len _ _ _ al_fs) as L1. pose proof (Forall2_len _ _ _ al_ts) as L2. pose proof (Forall2_len _ _ _ al_ms) as L3.
  pose proof (Forall2_len _ _ _ al_gs) as L4. pose proof (Forall2_len _ _ _ al_es) as L5. rewrite enum_len in L4. rewrite enum_len in L5.
  split; [|split; [apply more_out; constructor; unfold between; cbn [s_func s_tabl s_mems s_glob s_elem s_data s_inst s_blob]; rewrite !app_length; assumption|split; [exact Gh|apply more_longer]]].
  apply more_closed; [exact HC|..].
  - clear - al_fs Gh. induction al_fs as [|d f l l' (t & _ & ->) _ IH]; constructor; [exact Gh|exact IH].
  - clear - al_ts. induction al_ts as [|d f l l' H _ IH]; constructor; [exact (tab_new_in _ _ _ H)|exact IH].
  - eapply enum_forall; [|exact HG|exact al_gs]. cbv beta. intros a v x Hv ->. exact Hv.
  - eapply enum_forall; [|exact HE|exact al_es]. cbv beta. intros a v x Hv ->. exact Hv.
  - exact HL.
  - constructor; [|constructor]. constructor.
    + rewrite al_func. apply Forall_app. split; [exact I0|]. apply fresh_in. intros a Ha. apply M1. lia.
    + rewrite al_tabl. apply Forall_app. split; [exact I1|]. apply fresh_in. intros a Ha. apply M2. lia.
    + rewrite al_mems. apply Forall_app. split; [exact I2|]. apply fresh_in. intros a Ha. apply M3. lia.
    + rewrite al_glob. apply Forall_app. split; [exact I3|]. apply fresh_in. intros a Ha. apply M4. lia.
    + rewrite al_elem. apply fresh_in. intros a Ha. apply M5. lia.
    + rewrite al_data. apply fresh_in. intros a Ha. apply M6. lia.
Qed.

(* ---- the code of instantiation ---- *)
Section init.
Context (sg : nat -> functype) (F : fops) (CF : converts F) (host : hostcode) (HB : well_behaved host) (HH : host_typed sg host)
  (L : loaded) (s s0 : store) (h : nat) (mi : modinst) (n : nat)
  (VM : valid_module (l_desc L)) (DO : desc_ok (l_desc L)) (L0 : later s s0) (S0 : same_types s s0)
  (Hmi : nth_error (s_inst s0) h = Some mi) (HI : instance_typed s0 mi (module_ctx (l_desc L) [] []))
  (BL : blobs_ok s0 L) (G : region) (HC : closed sg G s0) (Gh : g_inst G h) (HG : host_inside sg G host).
Notation md := (l_desc L).
Notation ctx := (module_ctx md [] []).
Notation fr := (mkframe (MRef h) [] 0 0 0).
Definition fit (s1 : store) : Prop := good sg s0 s1 /\ store_in sg G s0 s1.
Definition leads (p : res unit * machine) : Prop :=
  match p with
  | (Ok _, m') => exists s2, m' = mkmach s2 [] [] [fr] /\ fit s2
  | (Err e, m') => True
  end.
Lemma run_init_in code s1 : fit s1 -> init_code L s1 code -> code_ok code -> Forall flat code -> typed_seq ctx code [] [] ->
  leads (run_expr F host n code 0 (mkmach s1 [] [] [fr])).
Proof.
  intros [GD SI] IC CO FL TS. pose proof (run_init sg F CF host HB HH L s s0 h mi n L0 S0 Hmi HI code s1 GD IC CO FL TS) as RI.
  pose proof (good_init sg L s s0 h mi L0 S0 Hmi HI s1 GD) as GI. destruct GD as (G1 & G2 & G3 & G4). rewrite run_expr_from in *. change (mkmach s1 [] [mklabel 1 1 0 KBlock code 0] [fr]) with (init_at s1 h code) in *.
  assert (HR : running (sg := sg) (mkending [] fr) (init_at s1 h code)).
  { split; [|split; [exact G2|]].
    - constructor; cbn [init_at k_store k_value k_frame k_label]; [exact G1|constructor|repeat constructor|constructor; [exact CO|constructor]].
    - exists ctx. cbn [init_at k_store k_value k_frame k_label]. apply (k_init s1 (mkending [] fr) ctx _ fr [] [] []); cbn [lb_carry lb_value lb_index lb_instr skipn app en_types]; try assumption; try reflexivity; [|lia|apply outermost_self].
      destruct GI as (_ & _ & _ & mi' & E1 & E2). exists h, mi'. split; [reflexivity|]. split; [exact E1|]. split; [exact E2|reflexivity]. }
  assert (MI : machine_in sg G s0 (init_at s1 h code)).
  { constructor; cbn [init_at k_store k_value k_frame]; [exact SI|constructor|]. constructor; [|constructor]. split; [constructor|].
    cbn [fr_module]. apply (closed_mod sg); [apply SI|exact Gh]. }
  pose proof (evaluate_in sg G s0 F host HG CF HB HH _ n _ HR MI) as EV.
  unfold bind at 1. unfold bind at 1 in RI. destruct (evaluate F host n (init_at s1 h code)) as [[u|e] m1]; [|exact I].
  unfold mget, bind, assert, lift, py_assert in *.
  destruct (Nat.eqb (length (k_frame m1)) 1); [|exact I]. destruct (Nat.eqb (length (k_label m1)) 0); [|exact I]. destruct (Nat.eqb (length (k_value m1)) 0); [|exact I].
  destruct RI as (s2 & -> & GD2). exists s2. split; [reflexivity|]. split; [exact GD2|apply (mi_store _ _ _ _ EV)].
Qed.
Lemma forl_leads {A} (f : A -> M unit) l : (forall x s1, In x l -> fit s1 -> leads (f x (mkmach s1 [] [] [fr]))) ->
  forall s1, fit s1 -> leads (forl f l (mkmach s1 [] [] [fr])).
Proof.
  induction l as [|x l IH]; intros H s1 G1; [exists s1; split; [reflexivity|exact G1]|]. cbn [forl]. unfold bind.
  pose proof (H x s1 (or_introl eq_refl) G1) as Hx. destruct (f x (mkmach s1 [] [] [fr])) as [[u|e] m1]; [|exact Hx].
  destruct Hx as (s2 & -> & G2). apply IH; [|exact G2]. intros y s3 Hy. apply H. right. exact Hy.
Qed.
Lemma elem_leads s1 : fit s1 -> leads (elem_loop F host n (enum (md_elem md)) (mkmach s1 [] [] [fr])).
Proof.
  apply forl_leads. intros [i e] s2 Hin G2. rewrite even_land. destruct (Z.even (ed_kind e)) eqn:EV; cbn [negb]; [|exists s2; split; [reflexivity|exact G2]].
  apply in_enum in Hin. destruct Hin as (j & -> & Hj). destruct (nth_Forall _ _ _ _ (vm_elem _ VM) Hj) as (V1 & V2 & V3 & V4). destruct (V4 EV) as [V5 V6]. apply item_at in V6. destruct V6 as [V6 V7].
  apply run_init_in; [exact G2|exact (init_elem L s2 j e Hj EV)| | |]; unfold elem_code.
  - apply Forall_app. split; [|repeat (constructor; [plain_op|]); constructor]. destruct DO as (_ & _ & _ & D4 & _). exact (proj1 (nth_Forall _ _ _ _ D4 Hj)).
  - apply const_code; [apply V5|]. repeat constructor; left; reflexivity.
  - apply (seq_const L _ _ T_i32); [exact V5|]. apply seq_i32; [lia|]. apply seq_i32; [unfold len in *; lia|].
    assert (N : nth_error (c_elems ctx) j = Some (ed_type e)) by (cbn [module_ctx c_elems]; rewrite nth_error_map, Hj; reflexivity).
    apply (t_cons _ _ _ [T_i32; T_i32; T_i32] [] []).
    + rewrite V6. apply (t_table_init _ j (Z.to_nat (ed_tidx e)) (ed_type e)); [exact N|exact V7].
    + apply (t_cons _ _ _ [] [] []); [|constructor]. eapply (t_elem_drop _ j). exact N.
Qed.
Lemma drop_leads s1 : fit s1 -> leads (drop_loop F host n (enum (md_elem md)) (mkmach s1 [] [] [fr])).
Proof.
  apply forl_leads. intros [i e] s2 Hin G2. destruct (Z.eqb_spec (Z.land (ed_kind e) 3) 3) as [EV|EV]; cbn [negb]; [|exists s2; split; [reflexivity|exact G2]].
  apply in_enum in Hin. destruct Hin as (j & -> & Hj).
  assert (OD : Z.even (ed_kind e) = false).
  { rewrite <- even_land. apply Z.eqb_neq. intros E. assert (X : Z.land (Z.land (ed_kind e) 3) 1 = 1) by (rewrite EV; reflexivity).
    rewrite <- Z.land_assoc in X. change (Z.land 3 1) with 1 in X. lia. }
  apply run_init_in; [exact G2|exact (init_drop L s2 j e Hj OD)| | |].
  - repeat (constructor; [plain_op|]). constructor.
  - repeat constructor; left; reflexivity.
  - apply (t_cons _ _ _ [] [] []); [|constructor]. eapply (t_elem_drop _ j). cbn [module_ctx c_elems]. rewrite nth_error_map, Hj. reflexivity.
Qed.
Lemma data_leads s1 : fit s1 -> leads (data_loop F host n (combine (py_range (len (md_data md))) (combine (md_data md) (l_blob L))) (mkmach s1 [] [] [fr])).
Proof.
  apply forl_leads. intros [i [d b]] s2 Hin G2. rewrite even_land. destruct (Z.even (dd_kind d)) eqn:EV; cbn [negb]; [|exists s2; split; [reflexivity|exact G2]].
  replace (len (md_data md)) with (len (combine (md_data md) (l_blob L))) in Hin by (unfold len; rewrite combine_length, (proj1 BL); f_equal; apply PeanoNat.Nat.min_id).
  apply in_enum in Hin. destruct Hin as (j & -> & Hj). apply combine_nth_error in Hj. destruct Hj as [Hj Hb].
  destruct (nth_Forall _ _ _ _ (vm_data _ VM) Hj) as (V1 & V2). destruct (V2 EV) as [V3 V4].
  rewrite (bind_do mget _ (mkmach s2 [] [] [fr]) (mkmach s2 [] [] [fr]) (mkmach s2 [] [] [fr]) eq_refl). cbn [k_store].
  assert (SZ : len (nth b (s_blob s2) []) < 2 ^ 31).
  { destruct BL as (_ & _ & B3). destruct (nth_Forall _ _ _ _ B3 Hb) as (x & Hx & Hl). destruct G2 as ((_ & _ & G3 & _) & _). destruct (lt_blob _ _ G3 _ _ Hx) as (y & Hy & [-> | ->]).
    - rewrite (nth_error_nth _ _ _ Hy). exact Hl.
    - rewrite (nth_error_nth _ _ _ Hy). cbn. lia. }
  apply run_init_in; [exact G2|exact (init_data L s2 j d b Hj EV Hb)| | |]; unfold data_code.
  - apply Forall_app. split; [|repeat (constructor; [plain_op|]); constructor]. destruct DO as (_ & _ & _ & _ & D5). exact (proj1 (nth_Forall _ _ _ _ D5 Hj)).
  - apply const_code; [apply V3|]. repeat constructor; left; reflexivity.
  - assert (N : (j < c_datas ctx)%nat) by (cbn [module_ctx c_datas]; apply nth_error_Some; congruence).
    apply (seq_const L _ _ T_i32); [exact V3|]. apply seq_i32; [lia|]. apply seq_i32; [unfold len in *; lia|].
    apply (t_cons _ _ _ [T_i32; T_i32; T_i32] [] []); [apply (t_memory_init _ j []); [exact V4|exact N]|].
    apply (t_cons _ _ _ [] [] []); [|constructor]. apply (t_data_drop _ j). exact N.
Qed.
Lemma start_leads s1 : fit s1 -> leads (start_it F host n (md_star md) (mkmach s1 [] [] [fr])).
Proof.
  intros G1. unfold start_it. destruct (md_star md >=? 0) eqn:E; [|exists s1; split; [reflexivity|exact G1]].
  destruct (vm_start _ VM) as [V|V]; [lia|]. apply item_at in V. destruct V as [V1 V2].
  apply run_init_in; [exact G1|apply init_start; lia| | |].
  - repeat (constructor; [plain_op|]). constructor.
  - repeat constructor; right; reflexivity.
  - rewrite V1. apply (t_cons _ _ _ [] [] []); [|constructor]. exact (t_call ctx _ _ V2).
Qed.
Lemma init_all_in s1 u m' : fit s1 -> init_all F host n L h (mkmach s1 [] [] []) = (Ok u, m') -> exists s2, m' = mkmach s2 [] [] [] /\ fit s2.
Proof.
  intros G1. unfold init_all. rewrite (bind_do (push_frame fr) _ (mkmach s1 [] [] []) tt (mkmach s1 [] [] [fr]) eq_refl).
  pose proof (elem_leads s1 G1) as H. unfold bind at 1. destruct (elem_loop _ _ _ _ _) as [[u0|e] m1]; [|discriminate]. destruct H as (s2 & -> & G2). clear G1 s1.
  pose proof (drop_leads s2 G2) as H. unfold bind at 1. destruct (drop_loop _ _ _ _ _) as [[u1|e] m1]; [|discriminate]. destruct H as (s3 & -> & G3). clear G2 s2.
  pose proof (data_leads s3 G3) as H. unfold bind at 1. destruct (data_loop _ _ _ _ _) as [[u2|e] m1]; [|discriminate]. destruct H as (s4 & -> & G4). clear G3 s3.
  pose proof (start_leads s4 G4) as H. unfold bind at 1. destruct (start_it _ _ _ _ _) as [[u3|e] m1]; [|discriminate]. destruct H as (s5 & -> & G5).
  rewrite (bind_do _ _ _ _ _ (pop_push s5 fr)). intros E. injection E as _ <-. exists s5. split; [reflexivity|exact G5].
Qed.
End init.

Section history.
Context (F : fops) (CF : converts F) (host : hostcode) (HB : well_behaved host) (sg : nat -> functype) (HH : host_typed sg host) (G : region) (HG : host_inside sg G host).
Lemma instance_in n L ext m h m' : settled sg m -> desc_ok (l_desc L) -> valid_module (l_desc L) -> blobs_ok (k_store m) L ->
  Forall2 (fits (k_store m) (l_desc L)) (md_imps (l_desc L)) ext -> len (s_func (k_store m)) + len (md_func (l_desc L)) < 2 ^ 31 -> (2 <= n)%nat ->
  closed sg G (k_store m) -> Forall (import_in G) ext -> Forall (g_blob G) (l_blob L) -> 
  instance F host n L ext m = (Ok h, m') -> longer (k_store m) (k_store m') /\
  (holds_made G (k_store m) (k_store m') -> closed sg G (k_store m') /\ kept_outside G (k_store m) (k_store m')).
Proof.
  intros HS DO VM BL IM MANY Hn HC IE GB E. destruct (instance_ok _ _ _ _ _ _ _ _ E) as (_ & _ & globin & elemin & m1 & m2 & E1 & E2 & _ & E3).
  rewrite (settled_eq _ _ HS) in E1. cbn [k_store] in E1. pose proof (se_typed _ _ HS) as Hs. pose proof (se_ok _ _ HS) as Ok_s. set (s := k_store m) in *.
  destruct (head_runs sg F CF host s Hs Ok_s _ ext VM IM MANY n Hn) as (g & e & EH & GI & EI). rewrite EH in E1. injection E1 as <- <- <-.
  assert (M0 : machine_ok (mkmach s [] [] [])) by (constructor; cbn; [exact Ok_s|constructor|constructor|constructor]).
  destruct (safe_ok s _ _ _ _ _ (s_head s F host HB n (l_desc L) _ DO) (inv_here _ M0) EH) as [_ [WG WE]]. cbn [fst snd] in WG, WE.
  destruct (safe_ok s _ _ _ _ _ (s_allocate s L ext _ _ DO WG WE) (inv_here _ M0) E2) as [[M1 L1] _].
  destruct (allocate_ok _ _ _ _ _ _ _ E2) as (s0 & mi & fs & ts & ms & gs & es & AL & ->). cbn [k_store set_store] in AL, M1, L1.
  pose proof (alloc_inst _ _ _ _ _ _ _ _ _ _ _ _ _ AL) as NI.
  pose proof (alloc_same _ _ _ _ _ _ _ _ _ _ _ _ _ AL) as SA.
  pose proof (alloc_instance _ _ _ _ _ _ _ _ _ _ _ _ _ AL VM IM GI EI (proj1 BL) [] []) as TI.
  pose proof (alloc_typed sg _ _ _ _ _ _ _ _ _ _ _ _ _ AL VM IM GI EI (proj1 BL) Hs MANY) as T0.
  assert (B0 : blobs_ok s0 L) by (destruct AL; subst s0; exact BL).
  assert (GD : good sg s0 s0) by exact (conj (mo_store _ M1) (conj T0 (conj (later_refl _) (TypeBasicFacts.same_refl _)))).
  unfold set_store in E3. cbn [k_value k_label k_frame] in E3.
  pose proof (init_all_outcome sg F CF host HB HH L s s0 h mi n VM DO L1 SA NI TI B0 s0 GD) as IO. rewrite E3 in IO. destruct IO as (s2 & -> & _ & _ & LT & _). cbn [k_store].
  split; [exact (longer_trans _ _ _ (later_longer _ _ L1) (later_longer _ _ LT))|]. intros HM.
  pose proof (made_prefix _ _ _ _ HM (later_longer _ _ LT)) as HM0.
  assert (NF : forall a, (length (s_func s) <= a < length (s_func s) + length (md_func (l_desc L)))%nat -> g_func G a).
  { intros a Ha. apply (hm_func _ _ _ HM0). destruct AL. subst s0. unfold between. cbn [s_func]. rewrite app_length, <- (Forall2_len _ _ _ al_fs). exact Ha. }
  destruct (head_in sg F CF host s Hs Ok_s _ ext VM IM MANY G HC IE NF n _ _ _ Hn EH) as [IG IL].
  destruct (allocated_in sg G _ _ _ _ _ _ _ _ _ _ _ _ _ AL HC HM0 IE GB IG IL) as (C0 & K0 & Gh & _).
  destruct (init_all_in sg F CF host HB HH L s s0 h mi n VM DO L1 SA NI TI B0 G Gh HG s0 tt _ (conj GD (conj C0 (out_refl _ _))) E3) as (s3 & Es & _ & C3 & O3).
  injection Es as <-. split; [exact C3|]. exact (kept_out_trans _ _ _ _ K0 (out_kept _ _ _ O3)).
Qed.
Lemma rt_call_in n h nm args rs m m' : settled sg m -> Forall pyval_ok args ->
  (forall e f, find_export (mod_of (k_store m) (MRef h)) nm = Ok e -> py_index (s_func (k_store m)) (Store.e_data e) = Ok f ->
     among (g_func G) (Store.e_data e) /\ numbers_in G (ft_args (fi_type f)) args) ->
  closed sg G (k_store m) ->
  rt_invocate F host n h nm args m = (Ok rs, m') -> store_in sg G (k_store m) (k_store m') /\ longer (k_store m) (k_store m').
Proof.
  intros HS HP HE HC E. pose proof E as E0. unfold rt_invocate in E0. rewrite (bind_do mget _ m m m eq_refl) in E0.
  nxt E0 m1 e. unfold lift in E1. injection E1 as E1 <-. nxt E0 m1 f. unfold lift in E2. injection E2 as E2 <-.
  nxt E0 m1 u. destruct u. rewrite assert_run in E3. injection E3 as E3 <-. apply assert_ok, Z.eqb_eq in E3. clear E0.
  destruct (HE _ _ E1 E2) as [[A0 A] NI]. pose proof (index_at _ _ _ A0 E2) as N.
  destruct f as [t hh code|t hid].
  2:{ exfalso. unfold rt_invocate in E. rewrite (bind_do mget _ m m m eq_refl) in E. nxt E m1 e'. unfold lift in E0. injection E0 as E0 <-. replace e' with e in * by congruence.
      nxt E m1 f. unfold lift in E4. injection E4 as E4 <-. nxt E m1 u. rewrite assert_run in E5. injection E5 as _ <-. nxt E m1 vs. unfold lift in E5. injection E5 as _ <-.
      nxt E m1 rets. unfold invocate in E5. rewrite (bind_do mget _ m m m eq_refl) in E5. unfold bind, lift in E5. rewrite E2 in E5. discriminate E5. }
  cbn [fi_type] in E3, NI. rewrite (rt_call F host sg n h nm args m e _ t hh code HS E1 E2 N E3) in E.
  destruct (from_alls F (ft_args t) args) as [vs|x] eqn:EF; [|discriminate E]. nxt E m1 rets. unfold lift in E. injection E as E <-.
  pose proof (from_alls_types F _ _ _ EF ltac:(unfold len in E3; lia)) as HT. pose proof (from_alls_gives F _ _ HP _ EF) as HW.
  pose proof (from_alls_in G F _ _ NI _ EF) as HI.
  pose proof (invocate_in sg G (k_store m) F host HG CF HB HH _ t hh code vs n (se_ok _ _ HS) (se_typed _ _ HS) HC A N HW HT HI) as IV. rewrite E0 in IV.
  split; [apply IV|]. pose proof (settled_ok _ _ HS) as MO. rewrite (settled_eq _ _ HS) in MO.
  destruct (safe_ok (k_store m) _ _ _ _ _ (s_invocate (k_store m) F host HB n (Z.of_nat (Z.to_nat (Store.e_data e))) vs HW) (inv_here _ MO) E0) as [[_ LT] _].
  apply later_longer, LT.
Qed.
Lemma uses_history m m' : uses_only F host sg G m m' -> history F host sg m m'.
Proof.
  induction 1; [constructor|eapply his_host; eassumption|eapply his_table; eassumption|eapply his_memory; eassumption|eapply his_global; eassumption|
    eapply his_module; eassumption|eapply his_call; eassumption].
Qed.
Lemma alloc_in {A} (c : store -> res Z * store) (g : Z -> A) m b m' (P : store -> Prop) :
  (let! a := on_store c in ret (g a)) m = (Ok b, m') -> (forall a s', c (k_store m) = (Ok a, s') -> P s') -> P (k_store m').
Proof.
  intros E HC. unfold bind, on_store in E. destruct (c (k_store m)) as [[a|e] s'] eqn:EC; [|discriminate E]. injection E as _ <-. exact (HC a s' eq_refl).
Qed.
Definition stays (s s' : store) : Prop := longer s s' /\ (closed sg G s -> holds_made G s s' -> closed sg G s' /\ kept_outside G s s').
Lemma stays_refl s : stays s s.
Proof. split; [constructor; apply le_n|]. intros H _. split; [exact H|apply kept_out_refl]. Qed.
Lemma stays_trans s1 s2 s3 : stays s1 s2 -> stays s2 s3 -> stays s1 s3.
Proof.
  intros [L1 H1] [L2 H2]. split; [exact (longer_trans _ _ _ L1 L2)|]. intros HC HM.
  destruct (H1 HC (made_prefix _ _ _ _ HM L2)) as [C1 K1]. destruct (H2 C1 (made_suffix _ _ _ _ HM L1)) as [C2 K2]. split; [exact C2|exact (kept_out_trans _ _ _ _ K1 K2)].
Qed.
Lemma stays_more s s' fs ts ms gs es ds is bs : 
  s' = mkstore (s_func s ++ fs) (s_tabl s ++ ts) (s_mems s ++ ms) (s_glob s ++ gs) (s_elem s ++ es) (s_data s ++ ds) (s_inst s ++ is) (s_blob s ++ bs) ->
  Forall (fun f => match f with FWasm _ h _ => g_inst G h | FHost t hid => g_host G hid /\ t = sg hid end) fs ->
  Forall (fun x => Forall (inside G) (ti_elem x)) ts -> Forall (fun g => inside G (gi_data g)) gs ->
  Forall (fun e => Forall (inside G) (li_data e)) es -> Forall (g_blob G) ds -> Forall (knows G) is -> stays s s'.
Proof.
  intros -> H1 H2 H3 H4 H5 H6. split; [apply more_longer|]. intros HC HM. split; [apply more_closed; assumption|apply more_out, HM].
Qed.
Lemma uses_stays m m' : uses_only F host sg G m m' -> settled sg m -> stays (k_store m) (k_store m').
Proof.
  intros H HS. induction H; [apply stays_refl|..].
  all: pose proof (proj1 (history_settled F CF host HB sg HH _ _ (uses_history _ _ H) HS)) as HS1; eapply stays_trans; [eassumption|].
  - eapply (alloc_in _ _ _ _ _ (stays (k_store m1))); [eassumption|]. intros a s' EC. injection EC as _ <-.
    apply (stays_more _ _ [FHost (sg hid) hid] [] [] [] [] [] [] []); try constructor; [|split; [assumption|reflexivity]|constructor].
    rewrite !app_nil_r. reflexivity.
  - eapply (alloc_in _ _ _ _ _ (stays (k_store m1))); [eassumption|]. intros a s' EC. unfold alloc_table in EC. destruct (tab_new t) as [x|e] eqn:EN; [|discriminate EC]. injection EC as _ <-.
    apply (stays_more _ _ [] [x] [] [] [] [] [] []); try constructor; [|exact (tab_new_in _ _ _ EN)|constructor].
    rewrite !app_nil_r. reflexivity.
  - eapply (alloc_in _ _ _ _ _ (stays (k_store m1))); [eassumption|]. intros a s' EC. unfold alloc_memory in EC. destruct (mem_new t) as [x|e]; [|discriminate EC]. injection EC as _ <-.
    apply (stays_more _ _ [] [] [x] [] [] [] [] []); try constructor. rewrite !app_nil_r. reflexivity.
  - eapply (alloc_in _ _ _ _ _ (stays (k_store m1))); [eassumption|]. intros a s' EC. unfold alloc_global in EC. destruct (_ || _); [|discriminate EC]. injection EC as _ <-.
    apply (stays_more _ _ [] [] [] [mkglob v (gt_mut t)] [] [] [] []); try constructor; [|assumption|constructor].
    rewrite !app_nil_r. reflexivity.
  - match goal with LM : load_module md m1 = (Ok L, m2), D : desc_ok md, V : valid_module md |- _ =>
      destruct (load_settled sg md m1 L m2 HS1 D V LM) as (HS2 & _ & <- & BL & EF) end.
    match goal with X : len (s_func (k_store m1)) + _ < _ |- _ => rewrite <- EF in X end.
    match goal with LM : load_module _ _ = _ |- _ => unfold load_module in LM; injection LM as EL <- end. cbn [set_store k_store] in *.
    set (s1 := set_s_blob (k_store m1) (s_blob (k_store m1) ++ map dd_init (md_data (l_desc L)))) in *.
    assert (ST : stays (k_store m1) s1).
    { apply (stays_more _ _ [] [] [] [] [] [] [] (map dd_init (md_data (l_desc L)))); try constructor. rewrite !app_nil_r. reflexivity. }
    destruct ST as [LG1 K1].
    assert (IN : forall HC : closed sg G s1, Forall (g_blob G) (l_blob L) -> longer s1 (k_store m3) /\
      (holds_made G s1 (k_store m3) -> closed sg G (k_store m3) /\ kept_outside G s1 (k_store m3))).
    { intros HC GB. eapply (instance_in n L ext _ h m3 HS2); eassumption. }
    assert (LG2 : longer s1 (k_store m3)).
    { match goal with X : instance _ _ _ _ _ _ = _ |- _ => rename X into EI end.
      destruct (safe_ok s1 _ _ _ _ _ (s_instance s1 F host HB n L ext ltac:(assumption)) (inv_here _ (settled_ok _ _ HS2)) EI) as [[_ LT] _]. apply later_longer, LT. }
    split; [exact (longer_trans _ _ _ LG1 LG2)|]. intros HC HM.
    destruct (K1 HC (made_prefix _ _ _ _ HM LG2)) as [C1 KO1].
    destruct (IN C1) as [_ X].
    { rewrite <- EL. cbn [l_blob]. apply Forall_forall. intros b Hb. apply in_seq in Hb. apply (hm_blob _ _ _ HM). pose proof (lo_blob _ _ LG2) as LB.
      unfold s1 in LB. cbn [set_s_blob s_blob] in LB. rewrite app_length, map_length in LB. rewrite <- EL in LB. cbn [l_desc] in LB. unfold between. lia. }
    destruct (X (made_suffix _ _ _ _ HM LG1)) as [C2 KO2]. split; [exact C2|exact (kept_out_trans _ _ _ _ KO1 KO2)].
  - match goal with E : rt_invocate _ _ _ _ _ _ _ = _ |- _ => rename E into EI end.
    split.
    + pose proof (settled_ok _ _ HS1) as MO.
      destruct (safe_ok (k_store m1) _ _ _ _ _ (s_rt_invocate (k_store m1) F host HB n h nm args ltac:(assumption)) (inv_here _ MO) EI) as [[_ LT] _]. apply later_longer, LT.
    + intros HC _. destruct (rt_call_in n h nm args rs m1 m2 HS1 ltac:(assumption) ltac:(assumption) HC EI) as [[C1 O1] _]. split; [exact C1|apply out_kept, O1].
Qed.
End history.

(* ---- a call that may raise ---- *)
Lemma rt_call_any F host sg G n h nm args r m m' : converts F -> well_behaved host -> host_typed sg host -> host_inside sg G host -> settled sg m -> Forall pyval_ok args ->
  (forall e f, find_export (mod_of (k_store m) (MRef h)) nm = Ok e -> py_index (s_func (k_store m)) (Store.e_data e) = Ok f ->
     among (g_func G) (Store.e_data e) /\ numbers_in G (ft_args (fi_type f)) args) ->
  closed sg G (k_store m) -> rt_invocate F host n h nm args m = (r, m') -> store_in sg G (k_store m) (k_store m').
Proof.
  intros CF HB HH HG HS HP HE HC E.
  assert (X0 : store_in sg G (k_store m) (k_store m)) by (split; [exact HC|apply out_refl]).
  destruct (find_export (mod_of (k_store m) (MRef h)) nm) as [e|x] eqn:E1.
  2:{ unfold rt_invocate in E. rewrite (bind_do mget _ m m m eq_refl) in E. unfold bind, lift in E. rewrite E1 in E. injection E as _ <-. exact X0. }
  destruct (py_index (s_func (k_store m)) (Store.e_data e)) as [f|x] eqn:E2.
  2:{ unfold rt_invocate in E. rewrite (bind_do mget _ m m m eq_refl) in E. unfold bind, lift in E. rewrite E1, E2 in E. injection E as _ <-. exact X0. }
  destruct (HE _ _ eq_refl E2) as [[A0 A] NI]. pose proof (index_at _ _ _ A0 E2) as N.
  destruct (Z.eqb_spec (len (ft_args (fi_type f))) (len args)) as [E3|E3].
  2:{ unfold rt_invocate in E. rewrite (bind_do mget _ m m m eq_refl) in E. unfold bind, lift, assert, lift, py_assert in E. rewrite E1, E2 in E. destruct (Z.eqb_spec (len (ft_args (fi_type f))) (len args)); [contradiction|]. injection E as _ <-. exact X0. }
  destruct f as [t hh code|t hid].
  - cbn [fi_type] in E3, NI. rewrite (rt_call F host sg n h nm args m e _ t hh code HS E1 E2 N E3) in E.
    destruct (from_alls F (ft_args t) args) as [vs|x] eqn:EF; [|injection E as _ <-; exact X0].
    pose proof (from_alls_types F _ _ _ EF ltac:(unfold len in E3; lia)) as HT. pose proof (from_alls_gives F _ _ HP _ EF) as HW.
    pose proof (from_alls_in G F _ _ NI _ EF) as HI.
    pose proof (invocate_in sg G (k_store m) F host HG CF HB HH _ t hh code vs n (se_ok _ _ HS) (se_typed _ _ HS) HC A N HW HT HI) as IV.
    unfold bind in E. destruct (invocate F host n (Z.of_nat (Z.to_nat (Store.e_data e))) vs (mkmach (k_store m) [] [] [])) as [[rs|x] m1].
    + unfold lift in E. injection E as _ <-. apply IV.
    + injection E as _ <-. exact IV.
  - unfold rt_invocate in E. rewrite (bind_do mget _ m m m eq_refl) in E. unfold bind at 1, lift at 1 in E. rewrite E1 in E. unfold bind at 1, lift at 1 in E. rewrite E2 in E.
    cbn [fi_type] in *. rewrite E3, Z.eqb_refl in E. rewrite (bind_do (assert true) _ m tt m eq_refl) in E. unfold bind at 1, lift at 1 in E.
    destruct (from_alls F (ft_args t) args) as [vs|x]; [|injection E as _ <-; exact X0].
    unfold invocate in E. unfold bind at 1 in E. rewrite (bind_do mget _ m m m eq_refl) in E. unfold bind, lift in E. rewrite E2 in E. injection E as _ <-. exact X0.
Qed.

Lemma in_right {A B} (R : A -> B -> Prop) l l' b : Forall2 R l l' -> In b l' -> exists a, In a l /\ R a b.
Proof. intros H. induction H as [|x y l l' Hxy _ IH]; intros []; [subst; exists x; split; [left; reflexivity|exact Hxy]|]. destruct (IH H) as (a & Ha & Hab). exists a. split; [right; exact Ha|exact Hab]. Qed.
(* ---- what a module without imports owns ---- *)
Section own.
Context (F : fops) (CF : converts F) (host : hostcode) (HB : well_behaved host) (sg : nat -> functype) (HH : host_typed sg host)
  (m : machine) (HS : settled sg m) (md : moddesc) (L : loaded) (m1 : machine) (n h : nat) (m2 : machine)
  (DO : desc_ok md) (VM : valid_module md) (NI : md_imps md = []) (MANY : len (s_func (k_store m)) + len (md_func md) < 2 ^ 31)
  (EL : load_module md m = (Ok L, m1)) (Hn : (2 <= n)%nat) (EI : instance F host n L [] m1 = (Ok h, m2)).
Notation s := (k_store m).
Notation s2 := (k_store m2).
Lemma own_fits : Forall2 (fits (k_store m1) md) (md_imps md) [].
Proof. rewrite NI. constructor. Qed.
Lemma own_uses G : uses_only F host sg G m m2.
Proof. eapply uo_module; try eassumption; [apply uo_nil|exact own_fits|constructor]. Qed.
Lemma own_settled : settled sg m2.
Proof. exact (proj1 (history_settled F CF host HB sg HH _ _ (uses_history F host sg (only_new s s2) _ _ (own_uses _)) HS)). Qed.
Lemma no_hosts : host_inside sg (only_new s s2) host.
Proof. intros hid args x r x' []. Qed.
Lemma own_closed : closed sg (only_new s s2) s2 /\ kept_outside (only_new s s2) s s2.
Proof.
  destruct (uses_stays F CF host HB sg HH (only_new s s2) no_hosts m m2 (own_uses _) HS) as [LG X]. apply X.
  - constructor; cbn [only_new g_func g_inst g_tabl g_glob g_elem g_data]; unfold between.
    + intros a [_ Ha]. pose proof (st_many _ (se_typed _ _ own_settled)) as M. unfold len in M. lia.
    + intros a f [Ha _] N. assert (a < length (s_func s))%nat by (apply nth_error_Some; congruence). lia.
    + intros a f [Ha _] N. assert (a < length (s_inst s))%nat by (apply nth_error_Some; congruence). lia.
    + intros a f [Ha _] N. assert (a < length (s_tabl s))%nat by (apply nth_error_Some; congruence). lia.
    + intros a f [Ha _] N. assert (a < length (s_glob s))%nat by (apply nth_error_Some; congruence). lia.
    + intros a f [Ha _] N. assert (a < length (s_elem s))%nat by (apply nth_error_Some; congruence). lia.
    + intros a f [Ha _] N. assert (a < length (s_data s))%nat by (apply nth_error_Some; congruence). lia.
  - constructor; intros a Ha; exact Ha.
Qed.
Lemma own_instance : exists mi, nth_error (s_inst s2) h = Some mi /\ knows (only_new s s2) mi /\
  Forall (fun x => e_kind (ei_data x) = 0 -> among (g_func (only_new s s2)) (Store.e_data (ei_data x))) (m_exps mi).
Proof.
  destruct (load_settled sg md m L m1 HS DO VM EL) as (HS1 & _ & EM & BL & EF). pose proof MANY as MANY'. rewrite <- EF, <- EM in MANY'.
  pose proof DO as DO'. pose proof VM as VM'. pose proof own_fits as FI. rewrite <- EM in DO', VM', FI.
  pose proof (instance_exports F host sg n L [] (k_store m1) CF HB HH (se_ok _ _ HS1) (se_typed _ _ HS1) DO' VM' BL FI MANY' Hn) as X.
  rewrite <- (settled_eq _ _ HS1), EI in X. destruct X as (_ & _ & _ & _ & _ & _ & mi & N & _ & EX). exists mi.
  assert (K : knows (only_new s s2) mi).
  { apply (cl_inst _ _ _ (proj1 own_closed) h); [|exact N]. cbn [only_new g_inst]. unfold between.
    destruct (instance_ok _ _ _ _ _ _ _ _ EI) as (_ & _ & globin & elemin & m3 & m4 & E1 & E2 & _ & _).
    assert (h < length (s_inst s2))%nat by (apply nth_error_Some; congruence). split; [|assumption].
    destruct (head_runs sg F CF host _ (se_typed _ _ HS1) (se_ok _ _ HS1) _ [] VM' FI MANY' n Hn) as (g & e & EH & _).
    rewrite (settled_eq _ _ HS1) in E1. cbn [k_store] in E1. rewrite EH in E1. injection E1 as <- <- <-.
    destruct (allocate_ok _ _ _ _ _ _ _ E2) as (s' & mi' & fs & ts & ms & gs & es & AL & _). destruct AL. cbn [k_store] in al_h. subst h.
    unfold load_module in EL. injection EL as _ <-. cbn [set_store k_store set_s_blob s_inst]. apply le_n. }
  split; [exact N|]. split; [exact K|]. apply Forall_forall. intros x Hx Ex.
  destruct (in_right _ _ _ _ EX Hx) as (e & _ & (_ & X2 & X3)). rewrite <- X2, Ex in X3. unfold space in X3. cbn [Z.eqb] in X3. destruct X3 as [_ X3].
  exact (nth_Forall _ _ _ _ (kn_func _ _ K) X3).
Qed.
(* the others cannot reach it *)
Lemma rest_closed : closed sg (all_of s) s -> closed sg (all_but s s2) s2.
Proof.
  intros [C0 C1 C2 C3 C4 C5 C6]. destruct own_closed as [_ KO]. destruct (uses_stays F CF host HB sg HH (only_new s s2) no_hosts m m2 (own_uses _) HS) as [LG _].
  assert (MS := st_many _ (se_typed _ _ own_settled)). unfold len in MS.
  assert (IN : forall v, inside (all_of s) v -> inside (all_but s s2) v).
  { intros v H E. destruct (H E) as [->|(a & Ha & ->)]; [left; reflexivity|right]. exists a. split; [|reflexivity]. cbn [all_but all_of g_func] in *. unfold between.
    pose proof (lo_func _ _ LG). split; lia. }
  assert (INS : forall l, Forall (inside (all_of s)) l -> Forall (inside (all_but s s2)) l) by (intros l H; eapply Forall_impl; [exact IN|exact H]).
  assert (AM : forall (P Q : nat -> Prop) l, (forall a, P a -> Q a) -> Forall (among P) l -> Forall (among Q) l).
  { intros P Q l H HF. eapply Forall_impl; [|exact HF]. intros z [Hz1 Hz2]. split; [exact Hz1|apply H, Hz2]. }
  assert (LT : forall {A} (l l' : list A) a x, ~ between l l' a -> nth_error l' a = Some x -> (a < length l)%nat).
  { intros A l l' a x H N. assert (a < length l')%nat by (apply nth_error_Some; congruence). unfold between in H. lia. }
  assert (OLD : forall {A} (l l' : list A) a x, (a < length l)%nat -> nth_error l' a = nth_error l a -> nth_error l' a = Some x -> nth_error l a = Some x) by congruence.
  assert (KEEP : forall {A} (l l' : list A) a x, (forall b y, nth_error l b = Some y -> nth_error l' b = Some y) -> (a < length l)%nat -> nth_error l' a = Some x -> nth_error l a = Some x).
  { intros A l l' a x H La N. destruct (nth_error l a) as [y|] eqn:E; [rewrite (H _ _ E) in N; congruence|]. apply nth_error_None in E. lia. }
  constructor; cbn [all_but g_func g_inst g_tabl g_glob g_elem g_data g_blob g_host].
  - intros a [_ H]. exact H.
  - intros a f [Ha _] N. pose proof (LT _ _ _ _ _ Ha N) as La. pose proof (KEEP _ _ _ _ _ (ko_func _ _ _ KO) La N) as N'.
    pose proof (C1 a f La N') as X. destruct f as [t hh c|t hid]; [|split; [exact I|apply X]]. cbn [all_of g_inst] in X. unfold between. lia.
  - intros a mi Ha N. pose proof (LT _ _ _ _ _ Ha N) as La. pose proof (KEEP _ _ _ _ _ (ko_inst _ _ _ KO) La N) as N'.
    destruct (C2 a mi La N') as [K1 K2 K3 K4 K5 K6]. pose proof (lo_func _ _ LG).
    constructor; (eapply AM; [|eassumption]); cbn [all_of all_but g_func g_inst g_tabl g_mems g_glob g_elem g_data g_blob]; unfold between; intros b Hb; try split; lia.
  - intros a x Ha N. pose proof (LT _ _ _ _ _ Ha N) as La. rewrite (ko_tabl _ _ _ KO) in N by (cbn [only_new g_tabl]; unfold between; lia). apply INS, (C3 a x La N).
  - intros a x Ha N. pose proof (LT _ _ _ _ _ Ha N) as La. rewrite (ko_glob _ _ _ KO) in N by (cbn [only_new g_glob]; unfold between; lia). apply IN, (C4 a x La N).
  - intros a x Ha N. pose proof (LT _ _ _ _ _ Ha N) as La. rewrite (ko_elem _ _ _ KO) in N by (cbn [only_new g_elem]; unfold between; lia). apply INS, (C5 a x La N).
  - intros a b Ha N. pose proof (LT _ _ _ _ _ Ha N) as La. pose proof (KEEP _ _ _ _ _ (ko_data _ _ _ KO) La N) as N'. pose proof (C6 a b La N') as X. cbn [all_of g_blob] in X. unfold between. lia.
Qed.
End own.
