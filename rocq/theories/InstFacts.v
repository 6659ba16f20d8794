(* Instantiation: import checks, allocation, exports. *)
From Coq Require Import ZArith List Bool Lia ZifyBool ZifyNat.
From Verif Require Import Py Arith Floatops Val Opcode Numeric Syntax Store Basic Machine
  SpecInt SpecNum SpecMachine SpecMem SpecRun SpecControl SpecInst
  PyFacts ArithFacts ValFacts StepFacts LaneFacts MemFacts BulkFacts WfFacts RunFacts ControlFacts.
Import ListNotations.
Open Scope Z_scope.

(* ---- imports ---- *)
Lemma py_index_item {A} (l : list A) z x : 0 <= z -> (py_index l z = Ok x <-> item l z x).
Proof.
  intros Hz. unfold item, py_index. destruct (Z.ltb_spec z 0); [lia|]. destruct (Z.ltb_spec z 0); [lia|].
  destruct (nth_error l (Z.to_nat z)); split; try (intros [_ E]); intros; try congruence. split; [exact Hz|congruence].
Qed.
Lemma suit_within size max l : limits_suit (mklim size max) l = true <-> within size max l.
Proof.
  unfold limits_suit, within. cbn [l_n l_m]. destruct (Z.geb_spec size (l_n l)), (Z.eqb_spec (l_m l) 0), (Z.eqb_spec max 0), (Z.leb_spec max (l_m l));
    cbn [andb orb negb]; split; intros; try lia; try discriminate; try (split; [lia|intros; split; lia]).
Qed.
Lemma assert_ok b : py_assert b = Ok tt <-> b = true.
Proof. destruct b; cbn; split; congruence. Qed.
Lemma rbind_ok {A B} (r : res A) (f : A -> res B) y : rbind r f = Ok y <-> exists x, r = Ok x /\ f x = Ok y.
Proof.
  destruct r as [a|e]; cbn; split.
  - intros H. exists a. split; [reflexivity|exact H].
  - intros (x & H1 & H2). congruence.
  - discriminate.
  - intros (x & H & _). discriminate H.
Qed.
Lemma import_fits s md a b : 0 <= e_data b -> (forall i, im_desc a = ImpFunc i -> 0 <= i) ->
  (check_import s md a b = Ok tt <-> fits s md a b).
Proof.
  intros Hb Ha. unfold check_import, fits. rewrite rbind_ok. unfold im_kind. destruct (im_desc a) as [i|t|l|t] eqn:D.
  - specialize (Ha i eq_refl). split.
    + intros (u & H1 & H2). apply assert_ok, Z.eqb_eq in H1 || (destruct u; apply assert_ok, Z.eqb_eq in H1).
      rewrite rbind_ok in H2. destruct H2 as (f & Hf & H2). rewrite rbind_ok in H2. destruct H2 as (t & Ht & H2).
      apply assert_ok, ft_eqb_eq in H2. apply py_index_item in Hf; [|exact Hb]. apply py_index_item in Ht; [|exact Ha].
      split; [lia|]. exists f. split; [exact Hf|]. rewrite H2. exact Ht.
    + intros (K & f & Hf & Ht). exists tt. split; [apply assert_ok, Z.eqb_eq; lia|].
      apply py_index_item in Hf; [|exact Hb]. apply py_index_item in Ht; [|exact Ha].
      rewrite Hf. cbn [rbind]. rewrite Ht. cbn [rbind]. apply assert_ok, ft_eqb_eq. reflexivity.
  - split.
    + intros (u & H1 & H2). destruct u. apply assert_ok, Z.eqb_eq in H1.
      rewrite rbind_ok in H2. destruct H2 as (x & Hx & H2). rewrite rbind_ok in H2. destruct H2 as ([] & Ht & H2).
      apply assert_ok, vt_eqb_eq in Ht. apply assert_ok, suit_within in H2. apply py_index_item in Hx; [|exact Hb].
      split; [lia|]. exists x. split; [exact Hx|]. split; [exact Ht|exact H2].
    + intros (K & x & Hx & Ht & W). exists tt. split; [apply assert_ok, Z.eqb_eq; lia|].
      apply py_index_item in Hx; [|exact Hb]. rewrite Hx. cbn [rbind]. apply rbind_ok. exists tt.
      split; [apply assert_ok, vt_eqb_eq, Ht|]. apply assert_ok, suit_within, W.
  - split.
    + intros (u & H1 & H2). destruct u. apply assert_ok, Z.eqb_eq in H1.
      rewrite rbind_ok in H2. destruct H2 as (x & Hx & H2). apply assert_ok, suit_within in H2. apply py_index_item in Hx; [|exact Hb].
      split; [lia|]. exists x. split; [exact Hx|exact H2].
    + intros (K & x & Hx & W). exists tt. split; [apply assert_ok, Z.eqb_eq; lia|].
      apply py_index_item in Hx; [|exact Hb]. rewrite Hx. cbn [rbind]. apply assert_ok, suit_within, W.
  - split.
    + intros (u & H1 & H2). destruct u. apply assert_ok, Z.eqb_eq in H1.
      rewrite rbind_ok in H2. destruct H2 as (x & Hx & H2). rewrite rbind_ok in H2. destruct H2 as ([] & Ht & H2).
      apply assert_ok, vt_eqb_eq in Ht. apply assert_ok, Z.eqb_eq in H2. apply py_index_item in Hx; [|exact Hb].
      split; [lia|]. exists x. split; [exact Hx|]. split; [exact Ht|exact H2].
    + intros (K & x & Hx & Ht & W). exists tt. split; [apply assert_ok, Z.eqb_eq; lia|].
      apply py_index_item in Hx; [|exact Hb]. rewrite Hx. cbn [rbind]. apply rbind_ok. exists tt.
      split; [apply assert_ok, vt_eqb_eq, Ht|]. apply assert_ok, Z.eqb_eq, W.
Qed.
Definition check_all (md : moddesc) (ext : list extern) : M unit :=
  forl (fun '(a, b) => let! m := mget in lift (check_import (k_store m) md a b)) (combine (md_imps md) ext).
(* checking changes nothing *)
Lemma checks_run md imps ext m :
  length imps = length ext -> Forall (fun b => 0 <= e_data b) ext -> Forall (fun a => forall i, im_desc a = ImpFunc i -> 0 <= i) imps ->
  let c := forl (fun '(a, b) => let! m := mget in lift (check_import (k_store m) md a b)) (combine imps ext) m in
  (Forall2 (fits (k_store m) md) imps ext /\ c = (Ok tt, m)) \/ (~ Forall2 (fits (k_store m) md) imps ext /\ exists e, c = (Err e, m)).
Proof.
  revert ext. induction imps as [|a imps IH]; intros [|b ext] HL Hb Ha; try discriminate HL.
  - left. split; [constructor|reflexivity].
  - apply Forall_cons_iff in Hb. apply Forall_cons_iff in Ha. destruct Hb as [Hb1 Hb], Ha as [Ha1 Ha]. injection HL as HL.
    pose proof (import_fits (k_store m) md a b Hb1 Ha1) as HF. cbn [combine forl].
    cbv zeta. unfold bind at 1. unfold bind at 1, mget. cbn. unfold lift.
    destruct (check_import (k_store m) md a b) as [[]|e].
    + destruct (IH ext HL Hb Ha) as [[H1 H2]|[H1 H2]]; [left|right]; (split; [|exact H2]).
      * constructor; [apply HF; reflexivity|exact H1].
      * intros H. inversion H; subst. contradiction.
    + right. split; [|exists e; reflexivity]. intros H. inversion H; subst. assert (X : Err e = Ok tt) by (apply HF; assumption). discriminate X.
Qed.
Lemma import_rejected F host n L ext m :
  Forall (fun b => 0 <= e_data b) ext -> Forall (fun a => forall i, im_desc a = ImpFunc i -> 0 <= i) (md_imps (l_desc L)) ->
  ~ Forall2 (fits (k_store m) (l_desc L)) (md_imps (l_desc L)) ext ->
  exists e, instance F host n L ext m = (Err e, m).
Proof.
  intros Hb Ha Hn. unfold instance. cbv zeta. unfold assert at 1. unfold bind at 1, lift, py_assert.
  destruct (Z.eqb_spec (len (md_imps (l_desc L))) (len ext)) as [HL|HL]; [|exists EAssert; reflexivity].
  assert (HL' : length (md_imps (l_desc L)) = length ext) by (unfold len in HL; lia).
  unfold bind at 1. destruct (checks_run (l_desc L) _ _ m HL' Hb Ha) as [[H _]|[_ [e H]]]; [contradiction|].
  unfold lift in H. rewrite H. exists e. reflexivity.
Qed.

(* ---- one kind of object after the other ---- *)
Lemma bind_ok {S A B} (c : ST S A) (f : A -> ST S B) s y s' :
  bind c f s = (Ok y, s') -> exists x s1, c s = (Ok x, s1) /\ f x s1 = (Ok y, s').
Proof. unfold bind. destruct (c s) as [[x|e] s1]; intros H; [exists x, s1; split; [reflexivity|exact H]|discriminate H]. Qed.
Lemma bind_do {S A B} (c : ST S A) (f : A -> ST S B) s x s1 : c s = (Ok x, s1) -> bind c f s = f x s1.
Proof. intros H. unfold bind. rewrite H. reflexivity. Qed.
Lemma bind_fail {S A B} (c : ST S A) (f : A -> ST S B) s e s1 : c s = (Err e, s1) -> bind c f s = (Err e, s1).
Proof. intros H. unfold bind. rewrite H. reflexivity. Qed.
Lemma fresh_len b n : length (fresh b n) = n.
Proof. unfold fresh. rewrite map_length, seq_length. reflexivity. Qed.
Lemma upd_upd {A} (l : list A) k x y : upd (upd l k x) k y = upd l k y.
Proof. revert k. induction l; intros [|k]; cbn; f_equal; auto. Qed.
Lemma upd_same {A} (l : list A) k x : nth_error l k = Some x -> upd l k x = l.
Proof. revert k. induction l; intros [|k] H; cbn in *; try discriminate; [congruence|f_equal; auto]. Qed.
Lemma nth_upd_same {A} (l : list A) k x y : nth_error l k = Some x -> nth_error (upd l k y) k = Some y.
Proof. revert k. induction l; intros [|k] H; cbn in *; try discriminate; [reflexivity|eauto]. Qed.
Lemma mod_of_ref s h mi : nth_error (s_inst s) h = Some mi -> mod_of s (MRef h) = mi.
Proof. intros H. cbn. now apply nth_error_nth. Qed.
Lemma fresh_S b n : fresh b (S n) = Z.of_nat b :: fresh (S b) n.
Proof. reflexivity. Qed.

Section loops.
Context {X Y : Type} (h : nat) (alloc : X -> store -> res Z * store) (lst : store -> list Y) (setl : store -> list Y -> store)
  (fld : modinst -> list Z) (setf : modinst -> list Z -> modinst) (R : modinst -> X -> Y -> Prop)
  (Hls : forall s l, lst (setl s l) = l) (Hss : forall s l k, setl (setl s l) k = setl s k) (Hsl : forall s, setl s (lst s) = s)
  (Hli : forall s i, lst (set_s_inst s i) = lst s) (His : forall s l, s_inst (setl s l) = s_inst s)
  (Hsi : forall s i l, setl (set_s_inst s i) l = set_s_inst (setl s l) i)
  (Hfs : forall m l, fld (setf m l) = l) (Hff : forall m l k, setf (setf m l) k = setf m k) (Hfl : forall m, setf m (fld m) = m)
  (HR : forall m l x y, R (setf m l) x y -> R m x y)
  (HA : forall x s a s' mi, nth_error (s_inst s) h = Some mi -> alloc x s = (Ok a, s') ->
     exists y, R mi x y /\ a = len (lst s) /\ s' = setl s (lst s ++ [y])).
Lemma alloc_loop l : forall m m' mi, nth_error (s_inst (k_store m)) h = Some mi ->
  forl (fun e => let! a := on_store (alloc e) in upd_inst h (fun i => setf i (fld i ++ [a]))) l m = (Ok tt, m') ->
  exists ys, Forall2 (R mi) l ys /\
    m' = set_store m (set_s_inst (setl (k_store m) (lst (k_store m) ++ ys))
           (upd (s_inst (k_store m)) h (setf mi (fld mi ++ fresh (length (lst (k_store m))) (length l))))).
Proof.
  induction l as [|x l IH]; intros m m' mi Hmi E.
  - injection E as <-. exists []. split; [constructor|]. cbn [length fresh]. unfold fresh. cbn [seq map]. rewrite !app_nil_r, Hsl, Hfl.
    rewrite (upd_same _ _ _ Hmi). destruct m as [[] ? ? ?]. reflexivity.
  - cbn [forl] in E. apply bind_ok in E. destruct E as ([] & m1 & E1 & E2). apply bind_ok in E1. destruct E1 as (a & m0 & E0 & E1).
    unfold on_store in E0. destruct (alloc x (k_store m)) as [[a'|e] s'] eqn:Ea; [|discriminate E0].
    injection E0 as <- <-. destruct (HA _ _ _ _ _ Hmi Ea) as (y & Hy & -> & ->).
    unfold upd_inst in E1. injection E1 as <-. cbn [k_store set_store] in E2.
    rewrite His, (nth_error_nth _ _ modinst_empty Hmi) in E2.
    match type of E2 with forl _ _ ?mm = _ => destruct (IH mm m' _ (nth_upd_same _ _ _ _ Hmi) E2) as (ys & Hys & ->) end. exists (y :: ys). split.
    + constructor; [exact Hy|]. clear -Hys HR. induction Hys as [|u v p q E _ IHq]; constructor; [exact (HR _ _ _ _ E)|exact IHq].
    + cbn [k_store set_store]. unfold set_store. cbn [k_store k_value k_label k_frame]. f_equal.
      rewrite Hli, Hls, Hsi, Hss. unfold set_s_inst at 1 3. cbn [s_func s_tabl s_mems s_glob s_elem s_data s_inst s_blob].
      rewrite !Hff, Hfs, <- !app_assoc. cbn [app length]. rewrite fresh_S, app_length. cbn [length].
      replace (length (lst (k_store m)) + 1)%nat with (S (length (lst (k_store m)))) by lia.
      change (s_inst (set_s_inst ?s ?i)) with i. rewrite upd_upd. unfold len. reflexivity.
Qed.
Context (T : modinst -> X -> Prop) (HT1 : forall mi l x, T mi x -> T (setf mi l) x)
  (HT2 : forall x s mi, nth_error (s_inst s) h = Some mi -> T mi x -> exists a s', alloc x s = (Ok a, s')).
Lemma alloc_total l : forall m mi, nth_error (s_inst (k_store m)) h = Some mi -> Forall (T mi) l ->
  exists m', forl (fun e => let! a := on_store (alloc e) in upd_inst h (fun i => setf i (fld i ++ [a]))) l m = (Ok tt, m').
Proof.
  induction l as [|x l IH]; intros m mi Hmi HF; [exists m; reflexivity|]. apply Forall_cons_iff in HF. destruct HF as [Hx HF].
  destruct (HT2 x (k_store m) mi Hmi Hx) as (a & s' & Ea). destruct (HA _ _ _ _ _ Hmi Ea) as (y & _ & -> & ->).
  cbn [forl]. unfold bind at 1 2. unfold on_store. rewrite Ea. unfold upd_inst. cbn [k_store set_store].
  rewrite (mod_of_ref _ _ mi) by (rewrite His; exact Hmi). rewrite His.
  eapply (IH _ (setf mi (fld mi ++ [len (lst (k_store m))]))).
  - cbn [k_store set_store]. exact (nth_upd_same _ _ _ _ Hmi).
  - eapply Forall_impl; [|exact HF]. intros z. apply HT1.
Qed.
End loops.

(* the exports *)
Definition export_of (mi : modinst) (e : exportdesc) (x : exportinst) : Prop :=
  ei_name x = ex_name e /\ e_kind (ei_data x) = ex_kind e /\ 0 <= ex_kind e <= 3 /\
  py_index (space mi (ex_kind e)) (ex_desc e) = Ok (e_data (ei_data x)).
Lemma export_loop h l : forall m m' mi, nth_error (s_inst (k_store m)) h = Some mi ->
  forl (fun e =>
    let! m := mget in
    let mi := mod_of (k_store m) (MRef h) in
    let! a := lift (if ex_kind e =? 0 then py_index (m_func mi) (ex_desc e)
                    else if ex_kind e =? 1 then py_index (m_tabl mi) (ex_desc e)
                    else if ex_kind e =? 2 then py_index (m_mems mi) (ex_desc e)
                    else if ex_kind e =? 3 then py_index (m_glob mi) (ex_desc e)
                    else Err EAssert) in
    upd_inst h (fun i => set_m_exps i (m_exps i ++ [mkei (ex_name e) (mkext (ex_kind e) a)]))) l m = (Ok tt, m') ->
  exists ys, Forall2 (export_of mi) l ys /\
    m' = set_store m (set_s_inst (k_store m) (upd (s_inst (k_store m)) h (set_m_exps mi (m_exps mi ++ ys)))).
Proof.
  induction l as [|x l IH]; intros m m' mi Hmi E.
  - injection E as <-. exists []. split; [constructor|]. rewrite app_nil_r. replace (set_m_exps mi (m_exps mi)) with mi by (destruct mi; reflexivity).
    rewrite (upd_same _ _ _ Hmi). destruct m as [[] ? ? ?]. reflexivity.
  - cbn [forl] in E. apply bind_ok in E. destruct E as ([] & m1 & E1 & E2). apply bind_ok in E1. destruct E1 as (m0 & m2 & E0 & E1).
    injection E0 as <- <-. cbv zeta in E1. rewrite (mod_of_ref _ _ _ Hmi) in E1. apply bind_ok in E1. destruct E1 as (a & m0 & E0 & E1).
    unfold lift in E0. injection E0 as E0 <-. unfold upd_inst in E1. injection E1 as <-. cbn [k_store set_store] in E2.
    rewrite (nth_error_nth _ _ modinst_empty Hmi) in E2.
    match type of E2 with forl _ _ ?mm = _ => destruct (IH mm m' _ (nth_upd_same _ _ _ _ Hmi) E2) as (ys & Hys & ->) end.
    exists (mkei (ex_name x) (mkext (ex_kind x) a) :: ys). split.
    + constructor; [|clear -Hys; induction Hys as [|u v p q E _ IHq]; constructor; [exact E|exact IHq]].
      unfold export_of, space. cbn [ei_name ei_data e_kind e_data].
      destruct (Z.eqb_spec (ex_kind x) 0); [repeat split; [lia|lia|exact E0]|].
      destruct (Z.eqb_spec (ex_kind x) 1); [repeat split; [lia|lia|exact E0]|].
      destruct (Z.eqb_spec (ex_kind x) 2); [repeat split; [lia|lia|exact E0]|].
      destruct (Z.eqb_spec (ex_kind x) 3); [repeat split; [lia|lia|exact E0]|discriminate E0].
    + unfold set_store. cbn [k_store k_value k_label k_frame]. f_equal. unfold set_s_inst.
      cbn [s_func s_tabl s_mems s_glob s_elem s_data s_inst s_blob]. rewrite upd_upd. f_equal. f_equal.
      unfold set_m_exps. cbn [m_type m_func m_tabl m_mems m_glob m_elem m_data m_exps]. rewrite <- app_assoc. reflexivity.
Qed.

(* what a successful allocate does *)
Lemma ext_imported k ext : ext_of_kind k ext = imported k ext.
Proof. unfold ext_of_kind. induction ext as [|e r IH]; [reflexivity|]. cbn. destruct (e_kind e =? k); cbn; rewrite IH; reflexivity. Qed.
Lemma forl_ext {S A} (f g : A -> ST S unit) l : (forall x s, f x s = g x s) -> forall s, forl f l s = forl g l s.
Proof.
  intros H. induction l as [|x l IH]; intros s; [reflexivity|]. cbn. unfold bind. rewrite H. destruct (g x s) as [[]]; [apply IH|reflexivity].
Qed.
Record allocated (L : loaded) (ext : list extern) (globin : list val) (elemin : list (list val)) (s s' : store) (h : nat)
    (mi : modinst) (fs : list funcinst) (ts : list tableinst) (ms : list meminst) (gs : list globalinst) (es : list eleminst) : Prop := mk_allocated {
  al_h : h = length (s_inst s);
  al_store : s' = mkstore (s_func s ++ fs) (s_tabl s ++ ts) (s_mems s ++ ms) (s_glob s ++ gs) (s_elem s ++ es) (s_data s ++ l_blob L)
                    (s_inst s ++ [mi]) (s_blob s);
  al_type : m_type mi = md_type (l_desc L);
  al_func : m_func mi = imported 0 ext ++ fresh (length (s_func s)) (length (md_func (l_desc L)));
  al_tabl : m_tabl mi = imported 1 ext ++ fresh (length (s_tabl s)) (length (md_tabl (l_desc L)));
  al_mems : m_mems mi = imported 2 ext ++ fresh (length (s_mems s)) (length (md_mems (l_desc L)));
  al_glob : m_glob mi = imported 3 ext ++ fresh (length (s_glob s)) (length (md_glob (l_desc L)));
  al_elem : m_elem mi = fresh (length (s_elem s)) (length (md_elem (l_desc L)));
  al_data : m_data mi = fresh (length (s_data s)) (length (l_blob L));
  al_exps : Forall2 (export_of mi) (md_exps (l_desc L)) (m_exps mi);
  al_fs : Forall2 (fun d f => exists t, py_index (md_type (l_desc L)) (fd_type d) = Ok t /\ f = FWasm t h d) (md_func (l_desc L)) fs;
  al_ts : Forall2 (fun t x => tab_new t = Ok x) (md_tabl (l_desc L)) ts;
  al_ms : Forall2 (fun t x => mem_new t = Ok x) (md_mems (l_desc L)) ms;
  al_gs : Forall2 (fun '(i, d) x => exists v, py_index globin i = Ok v /\ x = mkglob v (gt_mut (gd_type d)))
            (combine (py_range (len (md_glob (l_desc L)))) (md_glob (l_desc L))) gs;
  al_es : Forall2 (fun '(i, d) x => exists v, py_index elemin i = Ok v /\ x = mkelem (ed_type d) v)
            (combine (py_range (len (md_elem (l_desc L)))) (md_elem (l_desc L))) es
}.
Lemma upd_last {A} (l : list A) x y : upd (l ++ [x]) (length l) y = l ++ [y].
Proof. induction l; cbn; congruence. Qed.
Lemma upd_end {A} (l : list A) k x y : k = length l -> upd (l ++ [x]) k y = l ++ [y].
Proof. intros ->. apply upd_last. Qed.
Lemma nth_last {A} (l : list A) x : nth_error (l ++ [x]) (length l) = Some x.
Proof. rewrite nth_error_app2, PeanoNat.Nat.sub_diag by lia. reflexivity. Qed.
Lemma py_range_len n : length (py_range (Z.of_nat n)) = n.
Proof. unfold py_range. rewrite map_length, seq_length. lia. Qed.
Lemma enum_len {A} (l : list A) : length (combine (py_range (len l)) l) = length l.
Proof. rewrite combine_length. unfold len. rewrite py_range_len. lia. Qed.
Ltac nxt E mm a := apply bind_ok in E; let E' := fresh E in destruct E as (a & mm & E' & E).
Lemma allocate_ok L ext globin elemin m h m' :
  allocate L ext globin elemin m = (Ok h, m') ->
  exists s' mi fs ts ms gs es, allocated L ext globin elemin (k_store m) s' h mi fs ts ms gs es /\ m' = set_store m s'.
Proof.
  intros E. unfold allocate in E. nxt E m1 x. injection E0 as <- <-. cbv zeta in E.
  rewrite !ext_imported in E. set (s := k_store m) in *. set (h0 := length (s_inst s)) in *.
  nxt E m2 u. injection E0 as _ <-.
  set (mi0 := mkmi _ _ _ _ _ _ _ _) in E.
  nxt E m3 u1. destruct u1.
  unshelve epose proof (alloc_loop (Y := funcinst) h0 (alloc_func_wasm h0) s_func set_s_func m_func set_m_func
    (fun mi d f => exists t, py_index (m_type mi) (fd_type d) = Ok t /\ f = FWasm t h0 d) _ _ _ _ _ _ _ _ _ _ _ (md_func (l_desc L)) _ _ mi0 _ E0) as P1;
    try (intros; reflexivity); try (intros []; intros; reflexivity); try (intros; assumption).
  { intros d st a st' mi Hmi. unfold alloc_func_wasm. rewrite (mod_of_ref _ _ _ Hmi). destruct (py_index _ _) as [t|]; [|discriminate].
    intros H. injection H as <- <-. eexists. split; [exists t; split; reflexivity|split; reflexivity]. }
  { apply nth_last. }
  destruct P1 as (fs & Hfs & ->). clear E0. cbn [k_store set_store set_s_inst set_s_func s_func s_tabl s_mems s_glob s_elem s_data s_inst s_blob] in E, Hfs. rewrite (upd_end (s_inst s) h0 _ _ eq_refl) in E.
  set (mi1 := set_m_func mi0 _) in E.
  nxt E m4 u1. destruct u1.
  unshelve epose proof (alloc_loop (Y := tableinst) h0 alloc_table s_tabl set_s_tabl m_tabl set_m_tabl
    (fun mi d f => tab_new d = Ok f) _ _ _ _ _ _ _ _ _ _ _ (md_tabl (l_desc L)) _ _ mi1 _ E0) as P1;
    try (intros; reflexivity); try (intros []; intros; reflexivity); try (intros; assumption).
  { intros d st a st' mi Hmi. unfold alloc_table. destruct (tab_new d) as [t|]; [|discriminate].
    intros H. injection H as <- <-. eexists. split; [reflexivity|split; reflexivity]. }
  { apply nth_last. }
  destruct P1 as (ts & Hts & ->). clear E0. cbn [k_store set_store set_s_inst set_s_tabl s_func s_tabl s_mems s_glob s_elem s_data s_inst s_blob] in E, Hts. rewrite (upd_end (s_inst s) h0 _ _ eq_refl) in E.
  set (mi2 := set_m_tabl mi1 _) in E.
  nxt E m5 u1. destruct u1.
  unshelve epose proof (alloc_loop (Y := meminst) h0 alloc_memory s_mems set_s_mems m_mems set_m_mems
    (fun mi d f => mem_new d = Ok f) _ _ _ _ _ _ _ _ _ _ _ (md_mems (l_desc L)) _ _ mi2 _ E0) as P1;
    try (intros; reflexivity); try (intros []; intros; reflexivity); try (intros; assumption).
  { intros d st a st' mi Hmi. unfold alloc_memory. destruct (mem_new d) as [t|]; [|discriminate].
    intros H. injection H as <- <-. eexists. split; [reflexivity|split; reflexivity]. }
  { apply nth_last. }
  destruct P1 as (ms & Hms & ->). clear E0. cbn [k_store set_store set_s_inst set_s_mems s_func s_tabl s_mems s_glob s_elem s_data s_inst s_blob] in E, Hms. rewrite (upd_end (s_inst s) h0 _ _ eq_refl) in E.
  set (mi3 := set_m_mems mi2 _) in E.
  nxt E m6 u1. destruct u1.
  rewrite (forl_ext _ (fun e => let! a := on_store (fun st => match py_index globin (fst e) with Ok v => alloc_global (gd_type (snd e)) v st | Err x => (Err x, st) end) in
      upd_inst h0 (fun i => set_m_glob i (m_glob i ++ [a])))) in E0.
  2:{ intros [i e] st. unfold bind, lift, on_store. cbn [fst snd]. destruct (py_index globin i); [reflexivity|]. destruct st; reflexivity. }
  unshelve epose proof (alloc_loop (Y := globalinst) h0 _ s_glob set_s_glob m_glob set_m_glob
    (fun mi '(i, d) x => exists v, py_index globin i = Ok v /\ x = mkglob v (gt_mut (gd_type d))) _ _ _ _ _ _ _ _ _ _ _ _ _ _ mi3 _ E0) as P1;
    try (intros; reflexivity); try (intros []; intros; reflexivity); try (intros; assumption).
  { intros [i d] st a st' mi Hmi. cbn [fst snd]. destruct (py_index globin i) as [v|]; [|discriminate]. unfold alloc_global. destruct (_ || _); [|discriminate].
    intros H. injection H as <- <-. eexists. split; [exists v; split; reflexivity|split; reflexivity]. }
  { apply nth_last. }
  destruct P1 as (gs & Hgs & ->). clear E0. cbn [k_store set_store set_s_inst set_s_glob s_func s_tabl s_mems s_glob s_elem s_data s_inst s_blob] in E, Hgs. rewrite (upd_end (s_inst s) h0 _ _ eq_refl) in E.
  set (mi4 := set_m_glob mi3 _) in E.
  nxt E m7 u1. destruct u1.
  rewrite (forl_ext _ (fun e => let! a := on_store (fun st => match py_index elemin (fst e) with Ok v => alloc_elem (ed_type (snd e)) v st | Err x => (Err x, st) end) in
      upd_inst h0 (fun i => set_m_elem i (m_elem i ++ [a])))) in E0.
  2:{ intros [i e] st. unfold bind, lift, on_store. cbn [fst snd]. destruct (py_index elemin i); [reflexivity|]. destruct st; reflexivity. }
  unshelve epose proof (alloc_loop (Y := eleminst) h0 _ s_elem set_s_elem m_elem set_m_elem
    (fun mi '(i, d) x => exists v, py_index elemin i = Ok v /\ x = mkelem (ed_type d) v) _ _ _ _ _ _ _ _ _ _ _ _ _ _ mi4 _ E0) as P1;
    try (intros; reflexivity); try (intros []; intros; reflexivity); try (intros; assumption).
  { intros [i d] st a st' mi Hmi. cbn [fst snd]. destruct (py_index elemin i) as [v|]; [|discriminate]. unfold alloc_elem. destruct (is_ref _); [|discriminate].
    intros H. injection H as <- <-. eexists. split; [exists v; split; reflexivity|split; reflexivity]. }
  { apply nth_last. }
  destruct P1 as (es & Hes & ->). clear E0. cbn [k_store set_store set_s_inst set_s_elem s_func s_tabl s_mems s_glob s_elem s_data s_inst s_blob] in E, Hes. rewrite (upd_end (s_inst s) h0 _ _ eq_refl) in E.
  set (mi5 := set_m_elem mi4 _) in E.
  nxt E m8 u1. destruct u1.
  unshelve epose proof (alloc_loop (Y := nat) h0 alloc_data s_data set_s_data m_data set_m_data
    (fun mi b x => x = b) _ _ _ _ _ _ _ _ _ _ _ _ _ _ mi5 _ E0) as P1;
    try (intros; reflexivity); try (intros []; intros; reflexivity); try (intros; assumption).
  { intros b st a st' mi Hmi H. injection H as <- <-. eexists. split; [reflexivity|split; reflexivity]. }
  { apply nth_last. }
  destruct P1 as (ds & Hds & ->). clear E0. cbn [k_store set_store set_s_inst set_s_data s_func s_tabl s_mems s_glob s_elem s_data s_inst s_blob] in E. rewrite (upd_end (s_inst s) h0 _ _ eq_refl) in E.
  assert (ds = l_blob L) as -> by (clear -Hds; induction Hds; congruence). clear Hds.
  set (mi6 := set_m_data mi5 _) in E.
  nxt E m9 u1. destruct u1. injection E as <- <-.
  apply (export_loop h0 _ _ _ mi6) in E0; [|apply nth_last]. destruct E0 as (xs & Hxs & ->).
  cbn [k_store set_store set_s_inst set_s_data s_func s_tabl s_mems s_glob s_elem s_data s_inst s_blob]. rewrite (upd_end (s_inst s) h0 _ _ eq_refl).
  eexists _, (set_m_exps mi6 (m_exps mi6 ++ xs)), fs, ts, ms, gs, es. split; [|reflexivity].
  constructor; try reflexivity; try assumption.
  - cbn -[fresh imported]. rewrite enum_len. reflexivity.
  - cbn -[fresh imported]. rewrite enum_len. reflexivity.
Qed.

(* a module without globals and element segments whose indices and limits are in order is allocated *)
Lemma tab_new_total t : sound_limits (tt_limits t) -> exists x, tab_new t = Ok x.
Proof.
  intros [H1 H2]. unfold tab_new, tab_grow. cbn [ti_type ti_size ti_elem]. destruct (Z.eqb_spec (l_m (tt_limits t)) 0).
  - cbn [rbind]. destruct (tt_type t); eexists; reflexivity.
  - replace (0 + l_n (tt_limits t) <=? l_m (tt_limits t)) with true by (symmetry; apply Z.leb_le; lia). cbn [rbind py_assert]. destruct (tt_type t); eexists; reflexivity.
Qed.
Lemma mem_new_total t : sound_limits t /\ l_n t <= 65536 -> exists x, mem_new t = Ok x.
Proof.
  intros [[H1 H2] H3]. unfold mem_new, mem_grow. cbn [mi_type mi_size mi_data].
  assert (E : (if l_m t =? 0 then Ok tt else py_assert (0 + l_n t <=? l_m t)) = Ok tt).
  { destruct (Z.eqb_spec (l_m t) 0); [reflexivity|]. apply assert_ok, Z.leb_le. lia. }
  rewrite E. cbn [rbind]. replace (0 + l_n t <=? 65536) with true by (symmetry; apply Z.leb_le; lia). cbn [rbind py_assert].
  destruct (Z.ltb_spec (l_n t) 0); [lia|]. eexists. reflexivity.
Qed.
Definition allocatable (L : loaded) (ext : list extern) : Prop := simple_module (l_desc L) ext.
Lemma index_ok {A} (l : list A) z : 0 <= z < len l -> exists x, py_index l z = Ok x.
Proof.
  intros H. destruct (nth_error l (Z.to_nat z)) as [x|] eqn:E.
  - exists x. apply py_index_item; [lia|]. split; [lia|exact E].
  - apply nth_error_None in E. unfold len in H. lia.
Qed.
Lemma export_total h l : forall m mi, nth_error (s_inst (k_store m)) h = Some mi ->
  Forall (fun e => 0 <= ex_kind e <= 3 /\ exists a, py_index (space mi (ex_kind e)) (ex_desc e) = Ok a) l ->
  exists m', forl (fun e =>
    let! m := mget in
    let mi := mod_of (k_store m) (MRef h) in
    let! a := lift (if ex_kind e =? 0 then py_index (m_func mi) (ex_desc e)
                    else if ex_kind e =? 1 then py_index (m_tabl mi) (ex_desc e)
                    else if ex_kind e =? 2 then py_index (m_mems mi) (ex_desc e)
                    else if ex_kind e =? 3 then py_index (m_glob mi) (ex_desc e)
                    else Err EAssert) in
    upd_inst h (fun i => set_m_exps i (m_exps i ++ [mkei (ex_name e) (mkext (ex_kind e) a)]))) l m = (Ok tt, m').
Proof.
  induction l as [|x l IH]; intros m mi Hmi HF; [exists m; reflexivity|]. apply Forall_cons_iff in HF. destruct HF as [(K & a & Ha) HF].
  cbn [forl]. unfold bind at 1 2. unfold mget. cbv zeta. rewrite (mod_of_ref _ _ _ Hmi).
  unfold bind at 1, lift. unfold space in Ha.
  assert (E : (if ex_kind x =? 0 then py_index (m_func mi) (ex_desc x) else if ex_kind x =? 1 then py_index (m_tabl mi) (ex_desc x)
     else if ex_kind x =? 2 then py_index (m_mems mi) (ex_desc x) else if ex_kind x =? 3 then py_index (m_glob mi) (ex_desc x) else Err EAssert) = Ok a).
  { destruct (Z.eqb_spec (ex_kind x) 0); [exact Ha|]. destruct (Z.eqb_spec (ex_kind x) 1); [exact Ha|].
    destruct (Z.eqb_spec (ex_kind x) 2); [exact Ha|]. destruct (Z.eqb_spec (ex_kind x) 3); [exact Ha|lia]. }
  rewrite E. unfold upd_inst. rewrite (mod_of_ref _ _ _ Hmi).
  eapply (IH _ (set_m_exps mi (m_exps mi ++ [mkei (ex_name x) (mkext (ex_kind x) a)]))).
  - cbn [k_store set_store]. exact (nth_upd_same _ _ _ _ Hmi).
  - eapply Forall_impl; [|exact HF]. intros z Hz. exact Hz.
Qed.
Lemma allocate_total L ext m : allocatable L ext -> exists h m', allocate L ext [] [] m = (Ok h, m').
Proof.
  intros (A1 & A2 & A3 & A4 & A5 & A6). pose proof (Forall_impl _ (fun t H => tab_new_total t H) A2) as A2'. pose proof (Forall_impl _ (fun t H => mem_new_total t H) A3) as A3'. clear A2 A3. rename A2' into A2, A3' into A3. unfold allocate. rewrite A4, A5. rewrite (bind_do mget _ m m m eq_refl).
  rewrite !ext_imported. set (s := k_store m) in *. set (h0 := length (s_inst s)) in *.
  set (mi0 := mkmi _ _ _ _ _ _ _ _). unfold mput at 1. unfold bind at 1.
  set (m1 := set_store m _). assert (N1 : nth_error (s_inst (k_store m1)) h0 = Some mi0) by apply nth_last.
  (* functions *)
  assert (R1 : forall x st a st' mi, nth_error (s_inst st) h0 = Some mi -> alloc_func_wasm h0 x st = (Ok a, st') ->
    exists y, (fun mi d f => exists t, py_index (m_type mi) (fd_type d) = Ok t /\ f = FWasm t h0 d) mi x y /\ a = len (s_func st) /\ st' = set_s_func st (s_func st ++ [y])).
  { intros d st a st' mi Hmi. unfold alloc_func_wasm. rewrite (mod_of_ref _ _ _ Hmi). destruct (py_index _ _) as [t|]; [|discriminate].
    intros H. injection H as <- <-. eexists. split; [exists t; split; reflexivity|split; reflexivity]. }
  assert (T1 : exists m', forl (fun e => let! a := on_store (alloc_func_wasm h0 e) in upd_inst h0 (fun i => set_m_func i (m_func i ++ [a]))) (md_func (l_desc L)) m1 = (Ok tt, m')).
  { eapply (alloc_total h0 (alloc_func_wasm h0) s_func set_s_func m_func set_m_func _ ltac:(reflexivity) R1 (fun mi d => 0 <= fd_type d < len (m_type mi))); try exact N1.
    - intros mi l x H. exact H.
    - intros x st mi Hmi H. unfold alloc_func_wasm. rewrite (mod_of_ref _ _ _ Hmi). destruct (index_ok _ _ H) as [t ->]. eexists _, _. reflexivity.
    - exact A1. }
  destruct T1 as (m2 & T1). rewrite (bind_do _ _ _ _ _ T1).
  unshelve epose proof (alloc_loop (Y := funcinst) h0 _ s_func set_s_func m_func set_m_func _ _ _ _ _ _ _ _ _ _ _ R1 _ _ _ mi0 N1 T1) as P;
    try (intros; reflexivity); try (intros []; intros; reflexivity); try (intros; assumption).
  destruct P as (fs & _ & ->). clear T1.
  match goal with |- context [bind _ _ ?mm] => set (m2 := mm) end.
  set (mi1 := set_m_func mi0 (m_func mi0 ++ fresh (length (s_func (k_store m1))) (length (md_func (l_desc L))))) in m2.
  assert (N2 : nth_error (s_inst (k_store m2)) h0 = Some mi1) by exact (nth_upd_same _ _ _ _ N1). clearbody m2. clear R1.
  (* tables *)
  assert (R1 : forall x st a st' mi, nth_error (s_inst st) h0 = Some mi -> alloc_table x st = (Ok a, st') ->
    exists y, (fun mi d f => tab_new d = Ok f) mi x y /\ a = len (s_tabl st) /\ st' = set_s_tabl st (s_tabl st ++ [y])).
  { intros d st a st' mi Hmi. unfold alloc_table. destruct (tab_new d) as [t|]; [|discriminate].
    intros H. injection H as <- <-. eexists. split; [reflexivity|split; reflexivity]. }
  assert (T1 : exists m', forl (fun e => let! a := on_store (alloc_table e) in upd_inst h0 (fun i => set_m_tabl i (m_tabl i ++ [a]))) (md_tabl (l_desc L)) m2 = (Ok tt, m')).
  { eapply (alloc_total h0 alloc_table s_tabl set_s_tabl m_tabl set_m_tabl _ ltac:(reflexivity) R1 (fun mi t => exists x, tab_new t = Ok x)); try exact N2.
    - intros mi l x H. exact H.
    - intros x st mi Hmi [y H]. unfold alloc_table. rewrite H. eexists _, _. reflexivity.
    - exact A2. }
  destruct T1 as (m3 & T1). rewrite (bind_do _ _ _ _ _ T1).
  unshelve epose proof (alloc_loop (Y := tableinst) h0 _ s_tabl set_s_tabl m_tabl set_m_tabl _ _ _ _ _ _ _ _ _ _ _ R1 _ _ _ mi1 N2 T1) as P;
    try (intros; reflexivity); try (intros []; intros; reflexivity); try (intros; assumption).
  destruct P as (ts & _ & ->). clear T1.
  match goal with |- context [bind _ _ ?mm] => set (m3 := mm) end.
  set (mi2 := set_m_tabl mi1 (m_tabl mi1 ++ fresh (length (s_tabl (k_store m2))) (length (md_tabl (l_desc L))))) in m3.
  assert (N3 : nth_error (s_inst (k_store m3)) h0 = Some mi2) by exact (nth_upd_same _ _ _ _ N2). clearbody m3. clear R1.
  (* memories *)
  assert (R1 : forall x st a st' mi, nth_error (s_inst st) h0 = Some mi -> alloc_memory x st = (Ok a, st') ->
    exists y, (fun mi d f => mem_new d = Ok f) mi x y /\ a = len (s_mems st) /\ st' = set_s_mems st (s_mems st ++ [y])).
  { intros d st a st' mi Hmi. unfold alloc_memory. destruct (mem_new d) as [t|]; [|discriminate].
    intros H. injection H as <- <-. eexists. split; [reflexivity|split; reflexivity]. }
  assert (T1 : exists m', forl (fun e => let! a := on_store (alloc_memory e) in upd_inst h0 (fun i => set_m_mems i (m_mems i ++ [a]))) (md_mems (l_desc L)) m3 = (Ok tt, m')).
  { eapply (alloc_total h0 alloc_memory s_mems set_s_mems m_mems set_m_mems _ ltac:(reflexivity) R1 (fun mi t => exists x, mem_new t = Ok x)); try exact N3.
    - intros mi l x H. exact H.
    - intros x st mi Hmi [y H]. unfold alloc_memory. rewrite H. eexists _, _. reflexivity.
    - exact A3. }
  destruct T1 as (m4 & T1). rewrite (bind_do _ _ _ _ _ T1).
  unshelve epose proof (alloc_loop (Y := meminst) h0 _ s_mems set_s_mems m_mems set_m_mems _ _ _ _ _ _ _ _ _ _ _ R1 _ _ _ mi2 N3 T1) as P;
    try (intros; reflexivity); try (intros []; intros; reflexivity); try (intros; assumption).
  destruct P as (ms & _ & ->). clear T1.
  match goal with |- context [bind _ _ ?mm] => set (m4 := mm) end.
  set (mi3 := set_m_mems mi2 (m_mems mi2 ++ fresh (length (s_mems (k_store m3))) (length (md_mems (l_desc L))))) in m4.
  assert (N4 : nth_error (s_inst (k_store m4)) h0 = Some mi3) by exact (nth_upd_same _ _ _ _ N3). clearbody m4. clear R1.
  change (combine (py_range (len (@nil globaldesc))) (@nil globaldesc)) with (@nil (Z * globaldesc)).
  change (combine (py_range (len (@nil elemdesc))) (@nil elemdesc)) with (@nil (Z * elemdesc)). cbn [forl].
  rewrite (bind_do (ret tt) _ m4 tt m4 eq_refl), (bind_do (ret tt) _ m4 tt m4 eq_refl).
  (* data *)
  assert (R1 : forall x st a st' mi, nth_error (s_inst st) h0 = Some mi -> alloc_data x st = (Ok a, st') ->
    exists y, (fun mi (b x : nat) => x = b) mi x y /\ a = len (s_data st) /\ st' = set_s_data st (s_data st ++ [y])).
  { intros b st a st' mi Hmi H. injection H as <- <-. eexists. split; [reflexivity|split; reflexivity]. }
  assert (T1 : exists m', forl (fun e => let! a := on_store (alloc_data e) in upd_inst h0 (fun i => set_m_data i (m_data i ++ [a]))) (l_blob L) m4 = (Ok tt, m')).
  { eapply (alloc_total h0 alloc_data s_data set_s_data m_data set_m_data _ ltac:(reflexivity) R1 (fun mi b => True)); try exact N4.
    - intros mi l x H. exact H.
    - intros x st mi Hmi _. eexists _, _. reflexivity.
    - apply Forall_forall. intros; exact I. }
  destruct T1 as (m5 & T1). rewrite (bind_do _ _ _ _ _ T1).
  unshelve epose proof (alloc_loop (Y := nat) h0 _ s_data set_s_data m_data set_m_data _ _ _ _ _ _ _ _ _ _ _ R1 _ _ _ mi3 N4 T1) as P;
    try (intros; reflexivity); try (intros []; intros; reflexivity); try (intros; assumption).
  destruct P as (ds & _ & ->). clear T1.
  match goal with |- context [bind _ _ ?mm] => set (m5 := mm) end.
  set (mi4 := set_m_data mi3 (m_data mi3 ++ fresh (length (s_data (k_store m4))) (length (l_blob L)))) in m5.
  assert (N5 : nth_error (s_inst (k_store m5)) h0 = Some mi4) by exact (nth_upd_same _ _ _ _ N4). clearbody m5. clear R1.
  destruct (export_total h0 (md_exps (l_desc L)) m5 mi4 N5) as (m6 & T1).
  { eapply Forall_impl; [|exact A6]. cbv beta. intros e He.
    assert (L0 : forall b n, len (fresh b n) = Z.of_nat n) by (intros; unfold len; rewrite fresh_len; reflexivity).
    split; [lia|]. apply index_ok. unfold space. unfold mi4, mi3, mi2, mi1, mi0.
    destruct He as [[-> He]|[[-> He]|[[-> He]|[-> He]]]]; cbn [Z.eqb Pos.eqb set_m_func set_m_tabl set_m_mems set_m_data m_func m_tabl m_mems m_glob]; [rewrite len_app, L0; exact He..|exact He]. }
  rewrite (bind_do _ _ _ _ _ T1). exists h0, m6. reflexivity.
Qed.

(* ---- the phases of instantiation ---- *)
Definition aux_funcs (md : moddesc) (ext : list extern) (s : store) : list Z :=
  imported 0 ext ++ map (fun i => len (s_func s) + i) (py_range (len (md_func md))).
Definition inst_head (F : fops) (host : hostcode) (n : nat) (md : moddesc) (aux : modinst) : M (list val * list (list val)) :=
  push_frame (mkframe (MVal aux) [] 1 0 0) ;;
  let! globin := mapl (fun e => const_expr F host n (gd_init e)) (md_glob md) in
  let! elemin := mapl (fun e => mapl (fun f => const_expr F host n f) (ed_init e)) (md_elem md) in
  pop_frame ;; ret (globin, elemin).
Definition elem_loop (F : fops) (host : hostcode) (n : nat) (l : list (Z * elemdesc)) : M unit :=
  forl (fun '(i, e) => if negb (Z.land (ed_kind e) 1 =? 0) then ret tt else run_expr F host n (elem_code i e) 0) l.
Definition drop_loop (F : fops) (host : hostcode) (n : nat) (l : list (Z * elemdesc)) : M unit :=
  forl (fun '(i, e) => if negb (Z.land (ed_kind e) 3 =? 3) then ret tt else run_expr F host n [IOp O_elem_drop [AInt i]] 0) l.
Definition data_loop (F : fops) (host : hostcode) (n : nat) (l : list (Z * (datadesc * nat))) : M unit :=
  forl (fun '(i, (e, b)) => if negb (Z.land (dd_kind e) 1 =? 0) then ret tt
                       else let! m := mget in
                            run_expr F host n (data_code i (dd_offset e) (len (nth b (s_blob (k_store m)) []))) 0) l.
Definition start_it (F : fops) (host : hostcode) (n : nat) (i : Z) : M unit :=
  if i >=? 0 then run_expr F host n [IOp O_call [AInt i]] 0 else ret tt.
Definition enum {A} (l : list A) : list (Z * A) := combine (py_range (len l)) l.
Definition init_all (F : fops) (host : hostcode) (n : nat) (L : loaded) (h : nat) : M unit :=
  push_frame (mkframe (MRef h) [] 0 0 0) ;;
  elem_loop F host n (enum (md_elem (l_desc L))) ;;
  drop_loop F host n (enum (md_elem (l_desc L))) ;;
  data_loop F host n (combine (py_range (len (md_data (l_desc L)))) (combine (md_data (l_desc L)) (l_blob L))) ;;
  start_it F host n (md_star (l_desc L)) ;;
  pop_frame ;; ret tt.

Lemma bind_assoc {S A B C} (c : ST S A) (f : A -> ST S B) (g : B -> ST S C) s : bind (bind c f) g s = bind c (fun x => bind (f x) g) s.
Proof. unfold bind. destruct (c s) as [[]]; reflexivity. Qed.
Lemma bind_cong {S A B} (c : ST S A) (f g : A -> ST S B) s : (forall x s', f x s' = g x s') -> bind c f s = bind c g s.
Proof. intros H. unfold bind. destruct (c s) as [[]]; [apply H|reflexivity]. Qed.
Lemma Zs_eqb_eq a b : Zs_eqb a b = true <-> a = b.
Proof.
  revert b. induction a as [|x a IH]; intros [|y b]; cbn; split; try congruence.
  - intros H. apply andb_true_iff in H. destruct H as [H1 H2]. apply Z.eqb_eq in H1. apply IH in H2. congruence.
  - intros H. injection H as -> ->. rewrite Z.eqb_refl. now apply IH.
Qed.
(* instance, phase by phase *)
Lemma instance_phases F host n L ext m :
  instance F host n L ext m =
  (assert (len (md_imps (l_desc L)) =? len ext) ;;
   check_all (l_desc L) ext ;;
   let! m := mget in
   let aux := aux_funcs (l_desc L) ext (k_store m) in
   let! ge := inst_head F host n (l_desc L) (mkmi [] aux [] [] (imported 3 ext) [] [] []) in
   let! h := allocate L ext (fst ge) (snd ge) in
   let! m := mget in
   assert (Zs_eqb (m_func (mod_of (k_store m) (MRef h))) aux) ;;
   init_all F host n L h ;;
   ret h) m.
Proof.
  unfold instance. cbv zeta. apply bind_cong. intros _ m1. apply bind_cong. intros _ m2. apply bind_cong. intros m3 m4.
  unfold inst_head. rewrite !ext_imported. rewrite !bind_assoc. apply bind_cong. intros _ m5. rewrite !bind_assoc. apply bind_cong. intros globin m6.
  rewrite !bind_assoc. apply bind_cong. intros elemin m7. rewrite !bind_assoc. apply bind_cong. intros _ m8. rewrite (bind_do (ret (globin, elemin)) _ m8 (globin, elemin) m8 eq_refl). cbn [fst snd].
  apply bind_cong. intros h m9. apply bind_cong. intros m10 m11. apply bind_cong. intros _ m12. unfold init_all.
  rewrite !bind_assoc. apply bind_cong. intros _ m13. rewrite !bind_assoc. apply bind_cong. intros _ m14. rewrite !bind_assoc. apply bind_cong. intros _ m15.
  rewrite !bind_assoc. apply bind_cong. intros _ m16. rewrite !bind_assoc. apply bind_cong. intros _ m17. rewrite !bind_assoc. apply bind_cong. intros _ m18. reflexivity.
Qed.
Lemma assert_run {S} b (s : S) : assert b s = (py_assert b, s).
Proof. reflexivity. Qed.
Lemma instance_ok F host n L ext m h m' :
  instance F host n L ext m = (Ok h, m') ->
  length (md_imps (l_desc L)) = length ext /\ check_all (l_desc L) ext m = (Ok tt, m) /\
  exists globin elemin m1 m2,
    inst_head F host n (l_desc L) (mkmi [] (aux_funcs (l_desc L) ext (k_store m)) [] [] (imported 3 ext) [] [] []) m = (Ok (globin, elemin), m1) /\
    allocate L ext globin elemin m1 = (Ok h, m2) /\
    m_func (mod_of (k_store m2) (MRef h)) = aux_funcs (l_desc L) ext (k_store m) /\
    init_all F host n L h m2 = (Ok tt, m').
Proof.
  intros E. rewrite instance_phases in E. nxt E m1 u. rewrite assert_run in E0. injection E0 as E0 <-. destruct u. apply assert_ok, Z.eqb_eq in E0.
  split; [unfold len in E0; lia|]. nxt E m1 u. destruct u.
  assert (m1 = m) as ->.
  { clear -E1. unfold check_all in E1. revert E1. generalize (combine (md_imps (l_desc L)) ext) as l. induction l as [|[a b] l IH]; intros E; [injection E as <-; reflexivity|].
    cbn [forl] in E. nxt E m2 u. destruct u. nxt E0 m3 u. injection E1 as <- <-. unfold lift in E0. injection E0 as E0 <-. apply IH, E. }
  split; [exact E1|]. nxt E m1 u. injection E2 as <- <-. cbv zeta in E. nxt E m1 gel. nxt E m2 h'. nxt E m3 u. injection E4 as <- <-.
  nxt E m3 u. rewrite assert_run in E4. injection E4 as E4 <-. destruct u. apply assert_ok, Zs_eqb_eq in E4. nxt E m3 u. destruct u. injection E as <- <-.
  destruct gel as [globin elemin]. exists globin, elemin, m1, m2. repeat split; assumption.
Qed.

Ltac plain_op := apply plain_ok;
  [let b := fresh in let Hb := fresh in intros b Hb; cbn [In] in Hb; repeat (destruct Hb as [Hb|Hb]; [discriminate Hb|]); exact Hb
  |let Ha := fresh in intros [Ha|[Ha|[Ha|Ha]]]; apply Ha; reflexivity].
Section phases.
Context (s0 : store) (F : fops) (host : hostcode) (Hh : well_behaved host).
Lemma s_head n md aux : desc_ok md -> safe s0 (inst_head F host n md aux) (fun ge => Forall val_wf (fst ge) /\ Forall (Forall val_wf) (snd ge)).
Proof.
  intros D. pose proof D as (D1 & D2 & D3 & D4 & D5). unfold inst_head.
  eapply s_bind; [apply s_push_frame; constructor|]. intros _ _.
  eapply s_bind. { apply s_mapl. intros e Hin. apply s_const_expr; [exact Hh|]. rewrite Forall_forall in D3. apply D3, Hin. } intros globin Hg.
  eapply s_bind. { apply s_mapl. intros e Hin. apply s_mapl. intros f Hf. apply s_const_expr; [exact Hh|].
    rewrite Forall_forall in D4. destruct (D4 e Hin) as [_ De]. rewrite Forall_forall in De. apply De, Hf. } intros elemin He.
  eapply s_bind; [apply s_pop_frame|]. intros _ _. apply s_ret. split; assumption.
Qed.
Lemma s_init_all n L h : desc_ok (l_desc L) -> safe s0 (init_all F host n L h) any.
Proof.
  intros D. pose proof D as (D1 & D2 & D3 & D4 & D5). unfold init_all, elem_loop, drop_loop, data_loop, start_it, enum.
  eapply s_bind; [apply s_push_frame; constructor|]. intros _ _.
  eapply s_bind. { apply s_forl. intros [i e] Hin. destruct (negb _); [apply s_ret, I|]. apply s_run_expr; [exact Hh|]. unfold elem_code.
    apply Forall_app. split; [|repeat (constructor; [plain_op|]); constructor].
    apply in_combine_r in Hin. rewrite Forall_forall in D4. apply (D4 e Hin). } intros _ _.
  eapply s_bind. { apply s_forl. intros [i e] Hin. destruct (negb _); [apply s_ret, I|]. apply s_run_expr; [exact Hh|].
    repeat (constructor; [plain_op|]). constructor. } intros _ _.
  eapply s_bind. { apply s_forl. intros [i [e b]] Hin. destruct (negb _); [apply s_ret, I|]. eapply s_bind; [apply s_mget|]. intros m0 _. apply s_run_expr; [exact Hh|]. unfold data_code.
    apply Forall_app. split; [|repeat (constructor; [plain_op|]); constructor].
    apply in_combine_r, in_combine_l in Hin. rewrite Forall_forall in D5. apply (D5 e Hin). } intros _ _.
  eapply (s_bind _ _ (fun _ => True)). { destruct (_ >=? 0); [|apply (s_ret s0 tt (fun _ => True)), I]. apply s_run_expr; [exact Hh|]. repeat (constructor; [plain_op|]). constructor. } intros _ _.
  eapply s_bind; [apply s_pop_frame|]. intros _ _. apply s_ret, I.
Qed.
End phases.
Lemma safe_ok {A} s0 (c : M A) Q m a m' : safe s0 c Q -> inv s0 m -> c m = (Ok a, m') -> inv s0 m' /\ Q a.
Proof. intros H Hm E. specialize (H m Hm). rewrite E in H. exact H. Qed.

(* ---- index spaces and exports ---- *)
Lemma Forall2_nth {A B} (R : A -> B -> Prop) l k : Forall2 R l k -> forall i x, nth_error l i = Some x -> exists y, nth_error k i = Some y /\ R x y.
Proof. induction 1 as [|x y l k H _ IH]; intros [|i] z E; cbn in E; try discriminate; [|apply IH, E]. injection E as <-. exists y. split; [reflexivity|exact H]. Qed.
Lemma Forall2_weak {A B} (R R' : A -> B -> Prop) l k : (forall x y, R x y -> R' x y) -> Forall2 R l k -> Forall2 R' l k.
Proof. intros H. induction 1; constructor; auto. Qed.
Lemma placed_later {A X} (P : A -> X -> Prop) (Q : X -> X -> Prop) (P' : A -> X -> Prop) ds l k l' :
  Forall2 P ds k -> kept Q (l ++ k) l' -> (forall d x x', P d x -> Q x x' -> P' d x') -> placed P' ds (length l) l'.
Proof.
  intros H K W i d Hi. destruct (Forall2_nth _ _ _ H i d Hi) as (x & Hx & Px).
  destruct (K (length l + i)%nat x) as (x' & Hx' & Qx). { rewrite nth_error_app2 by lia. rewrite <- Hx. f_equal. lia. }
  exists x'. split; [exact Hx'|]. exact (W _ _ _ Px Qx).
Qed.
Lemma Forall2_enum {A B} (R : A -> B -> Prop) l k :
  Forall2 (fun '(i, d) x => R d x) (combine (py_range (len l)) l) k -> Forall2 R l k.
Proof.
  unfold py_range, len. rewrite Nat2Z.id. generalize 0%nat as b. revert k. induction l as [|d l IH]; intros k b H; inversion H; subst; constructor; [assumption|].
  eapply IH. eassumption.
Qed.
Lemma tab_new_facts t x : tab_new t = Ok x -> ti_type x = t /\ ti_size x = l_n (tt_limits t).
Proof.
  unfold tab_new, tab_grow. cbn [ti_type ti_size ti_elem]. intros H. rewrite !rbind_ok in H. destruct H as (u & _ & H). rewrite rbind_ok in H. destruct H as (v & _ & H).
  injection H as <-. split; reflexivity.
Qed.
Lemma mem_new_facts t x : mem_new t = Ok x -> x = mkmem t (zeros (l_n t * 64 * 1024)) (l_n t).
Proof.
  unfold mem_new, mem_grow. cbn [mi_type mi_size mi_data]. intros H. rewrite rbind_ok in H. destruct H as (u & _ & H). rewrite rbind_ok in H. destruct H as (v & _ & H).
  rewrite rbind_ok in H. destruct H as (w & _ & H). apply Ok_inj in H. subst x. reflexivity.
Qed.
Lemma range_fresh b n : map (fun i => Z.of_nat b + i) (py_range (Z.of_nat n)) = fresh b n.
Proof.
  unfold py_range, fresh. rewrite Nat2Z.id, map_map. replace (seq b n) with (map (fun i => (b + i)%nat) (seq 0 n)).
  - rewrite map_map. apply map_ext. intros; lia.
  - induction b as [|b IH] in n |- *; [apply map_id|]. rewrite <- seq_shift, <- IH, map_map. reflexivity.
Qed.
Lemma fresh_inj a b n : fresh a (S n) = fresh b (S n) -> a = b.
Proof. rewrite !fresh_S. intros H. injection H as H _. lia. Qed.
Lemma inv_here m : machine_ok m -> inv (k_store m) m.
Proof. intros H. split; [exact H|apply later_refl]. Qed.
Lemma instance_spec F host n L ext m h m' :
  well_behaved host -> machine_ok m -> desc_ok (l_desc L) -> instance F host n L ext m = (Ok h, m') ->
  exists mi, instance_of L ext (k_store m) (k_store m') h mi /\
    Forall2 (export_of mi) (md_exps (l_desc L)) (m_exps mi).
Proof.
  intros Hh Hm D E. apply instance_ok in E. destruct E as (HL & _ & globin & elemin & m1 & m2 & E1 & E2 & E3 & E4).
  destruct (safe_ok _ _ _ _ _ _ (s_head (k_store m) F host Hh n _ _ D) (inv_here m Hm) E1) as [I1 [Hg He]]. cbn [fst snd] in Hg, He.
  destruct (safe_ok _ _ _ _ _ _ (s_allocate (k_store m1) L ext globin elemin D Hg He) (inv_here m1 (proj1 I1)) E2) as [I2 _].
  destruct (safe_ok _ _ _ _ _ _ (s_init_all (k_store m2) F host Hh n L h D) (inv_here m2 (proj1 I2)) E4) as [I3 _].
  apply allocate_ok in E2. destruct E2 as (s' & mi & fs & ts & ms & gs & es & [] & ->). cbn [k_store set_store] in *. subst s'.
  destruct I1 as [_ L1], I3 as [_ L3]. pose proof (kept_len _ _ _ (lt_inst _ _ L1)) as N1.
  pose proof L3 as L3'. destruct L3' as [Kf Kd Ki Km Kt Kg Ke Kb]. cbn [s_func s_tabl s_mems s_glob s_elem s_data s_inst s_blob] in *.
  exists mi. split; [|exact al_exps0]. constructor.
  - subst h. destruct (Ki (length (s_inst (k_store m1))) mi (nth_last _ _)) as (mi' & N & <-). split; [exact N|lia].
  - exact al_type0.
  - assert (B : m_func mi = imported 0 ext ++ fresh (length (s_func (k_store m))) (length (md_func (l_desc L)))).
    { rewrite mod_of_ref with (mi := mi) in E3 by (cbn [s_inst]; subst h; apply nth_last). rewrite E3. unfold aux_funcs, len. rewrite range_fresh. reflexivity. }
    split; [exact B|]. pose proof B as B'. rewrite al_func0 in B'. apply app_inv_head in B'.
    destruct (md_func (l_desc L)) as [|fd0 fr] eqn:EF; [intros [|i] d Hi; discriminate Hi|]. cbn [length] in B'. apply fresh_inj in B'. rewrite <- B', <- EF in *.
    eapply placed_later; [exact al_fs0|exact Kf|]. cbv beta. intros d x x' (t & Ht & ->) <-. exists t. split; [|reflexivity].
    intros H0. apply py_index_item; assumption.
  - exists (length (s_tabl (k_store m1))). split; [eapply kept_len, lt_tabl, L1|]. split; [exact al_tabl0|].
    eapply placed_later; [exact al_ts0|exact Kt|]. cbv beta. intros d x x' Hx (Q1 & Q2 & _). apply tab_new_facts in Hx. destruct Hx. split; [congruence|lia].
  - exists (length (s_mems (k_store m1))). split; [eapply kept_len, lt_mems, L1|]. split; [exact al_mems0|].
    eapply placed_later; [exact al_ms0|exact Km|]. cbv beta. intros d x x' Hx (Q1 & Q2 & _). apply mem_new_facts in Hx. subst x. cbn [mi_type mi_size] in *. split; [congruence|lia].
  - exists (length (s_glob (k_store m1))). split; [eapply kept_len, lt_glob, L1|]. split; [exact al_glob0|].
    eapply placed_later; [|exact Kg|].
    + apply (Forall2_enum (fun d x => gi_mut x = gt_mut (gd_type d))). eapply Forall2_weak; [|exact al_gs0]. intros [i d] x (v & _ & ->). reflexivity.
    + cbv beta. intros d x x' Hx (Q1 & _). congruence.
  - exists (length (s_elem (k_store m1))). split; [eapply kept_len, lt_elem, L1|]. split; [exact al_elem0|].
    eapply placed_later; [|exact Ke|].
    + apply (Forall2_enum (fun d x => li_type x = ed_type d)). eapply Forall2_weak; [|exact al_es0]. intros [i d] x (v & _ & ->). reflexivity.
    + cbv beta. intros d x x' Hx [->| ->]; [exact Hx|exact Hx].
  - exists (length (s_data (k_store m1))). split; [eapply kept_len, lt_data, L1|]. split; [exact al_data0|].
    eapply (placed_later eq eq); [|exact Kd|congruence]. clear. induction (l_blob L); constructor; auto.
Qed.

(* ---- which function Runtime.invocate runs ---- *)
Lemma name_eqb_eq a b : name_eqb a b = true <-> a = b.
Proof.
  revert b. induction a as [|x a IH]; intros [|y b]; cbn; split; try congruence.
  - intros H. apply andb_true_iff in H. destruct H as [H1 H2]. apply Z.eqb_eq in H1. apply IH in H2. congruence.
  - intros H. injection H as -> ->. rewrite Z.eqb_refl. now apply IH.
Qed.
Lemma invocate_rejects F host n h nm args m mi :
  nth_error (s_inst (k_store m)) h = Some mi -> Forall (fun x => 0 <= e_data (ei_data x)) (m_exps mi) ->
  (forall x f, In x (m_exps mi) -> ei_name x = nm -> item (s_func (k_store m)) (e_data (ei_data x)) f -> length args <> length (ft_args (fi_type f))) ->
  exists e, rt_invocate F host n h nm args m = (Err e, m).
Proof.
  intros Hi Hp H. unfold rt_invocate. rewrite (bind_do mget _ m m m eq_refl). rewrite (mod_of_ref _ _ _ Hi). unfold find_export.
  destruct (filter _ _) as [|x r] eqn:E; [exists EIndex; reflexivity|].
  assert (Hx : In x (m_exps mi) /\ name_eqb (ei_name x) nm = true) by (apply (filter_In (fun e => name_eqb (ei_name e) nm)); rewrite E; left; reflexivity). destruct Hx as [Hin Hn].
  apply name_eqb_eq in Hn. rewrite (bind_do _ _ _ (ei_data x) m) by reflexivity.
  destruct (py_index (s_func (k_store m)) (e_data (ei_data x))) as [f|e] eqn:Ef; [|exists e; apply bind_fail; reflexivity].
  rewrite (bind_do _ _ _ f m) by reflexivity. rewrite Forall_forall in Hp. apply py_index_item in Ef; [|apply Hp, Hin].
  specialize (H x f Hin Hn Ef). exists EAssert. apply bind_fail. rewrite assert_run. f_equal.
  destruct (Z.eqb_spec (len (ft_args (fi_type f))) (len args)) as [K|K]; [exfalso; apply H; unfold len in K; lia|reflexivity].
Qed.
(* ---- allocation only adds ---- *)
Lemma allocate_extends L ext globin elemin m h m' : allocate L ext globin elemin m = (Ok h, m') -> extends (k_store m) (k_store m').
Proof.
  intros E. destruct (allocate_ok _ _ _ _ _ _ _ E) as (s2 & mi & fs & ts & ms & gs & es & A & ->). destruct A as [A1 A2 _ _ _ _ _ _ _ _ _ _ _ _ _]. rewrite A2.
  cbn [k_store set_store]. split; cbn [s_func s_tabl s_mems s_glob s_elem s_data s_inst s_blob]; try (eexists; reflexivity); reflexivity.
Qed.
