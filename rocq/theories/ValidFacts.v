(* Instantiating validated modules. *)
From Coq Require Import ZArith List Bool Lia ZifyBool ZifyNat.
From Verif Require Import Py Arith Floatops Val Opcode Numeric Syntax Store Basic Machine
  SpecInt SpecNum SpecMachine SpecMem SpecRun SpecControl SpecInst SpecType SpecValid
  PyFacts ArithFacts ValFacts StepFacts LaneFacts NumFacts MemFacts BulkFacts WfFacts RunFacts ControlFacts CallFacts InstFacts InitFacts
  TypeOpFacts TypeBasicFacts TypeFacts.
Import ListNotations.
Open Scope Z_scope.

(* ---- allocation succeeds ---- *)
Lemma bind_first {S A B} (c c' : ST S A) (f : A -> ST S B) s : c s = c' s -> bind c f s = bind c' f s.
Proof. intros H. unfold bind. rewrite H. reflexivity. Qed.
Lemma allocate_runs L ext globin elemin m :
  Forall (fun d => 0 <= fd_type d < len (md_type (l_desc L))) (md_func (l_desc L)) ->
  Forall (fun t => sound_limits (tt_limits t)) (md_tabl (l_desc L)) ->
  Forall (fun t => sound_limits t /\ l_n t <= 65536) (md_mems (l_desc L)) ->
  Forall (fun e : Z * globaldesc => (exists v, py_index globin (fst e) = Ok v) /\ (gt_mut (gd_type (snd e)) = 0 \/ gt_mut (gd_type (snd e)) = 1))
    (combine (py_range (len (md_glob (l_desc L)))) (md_glob (l_desc L))) ->
  Forall (fun e : Z * elemdesc => (exists v, py_index elemin (fst e) = Ok v) /\ is_ref (ed_type (snd e)) = true)
    (combine (py_range (len (md_elem (l_desc L)))) (md_elem (l_desc L))) ->
  Forall (fun e => 0 <= ex_desc e /\
                   ((ex_kind e = 0 /\ ex_desc e < len (imported 0 ext) + len (md_func (l_desc L))) \/
                    (ex_kind e = 1 /\ ex_desc e < len (imported 1 ext) + len (md_tabl (l_desc L))) \/
                    (ex_kind e = 2 /\ ex_desc e < len (imported 2 ext) + len (md_mems (l_desc L))) \/
                    (ex_kind e = 3 /\ ex_desc e < len (imported 3 ext) + len (md_glob (l_desc L))))) (md_exps (l_desc L)) ->
  exists h m', allocate L ext globin elemin m = (Ok h, m').
Proof.
  intros A1 A2 A3 A4 A5 A6. pose proof (Forall_impl _ (fun t H => tab_new_total t H) A2) as A2'. pose proof (Forall_impl _ (fun t H => mem_new_total t H) A3) as A3'. clear A2 A3. rename A2' into A2, A3' into A3. unfold allocate. rewrite (bind_do mget _ m m m eq_refl).
  rewrite !ext_imported. set (s := k_store m) in *. set (h0 := length (s_inst s)) in *.
  set (mi0 := mkmi _ _ _ _ _ _ _ _). unfold mput at 1. unfold bind at 1.
  set (m1 := set_store m _). assert (N1 : nth_error (s_inst (k_store m1)) h0 = Some mi0) by apply nth_last.
  (* functions *)
  assert (R1 : forall x st a st' mi, nth_error (s_inst st) h0 = Some mi -> alloc_func_wasm h0 x st = (Ok a, st') ->
    exists y, (fun mi d f => exists t, py_index (m_type mi) (fd_type d) = Ok t /\ f = FWasm t h0 d) mi x y /\ a = len (s_func st) /\ st' = set_s_func st (s_func st ++ [y])).
  { intros d st a st' mi Hmi. unfold alloc_func_wasm. rewrite (mod_of_ref _ _ _ Hmi). destruct (py_index _ _) as [t|]; [|discriminate].
    intros H. injection H as <- <-. eexists. split; [exists t; split; reflexivity|split; reflexivity]. }
  assert (T1 : exists m', forl (fun e => let! a := on_store (alloc_func_wasm h0 e) in upd_inst h0 (fun i => set_m_func i (m_func i ++ [a]))) (md_func (l_desc L)) m1 = (Ok tt, m')).
  { eapply (alloc_total h0 (alloc_func_wasm h0) s_func set_s_func m_func set_m_func _ ltac:(reflexivity) R1 (fun mi d => 0 <= fd_type d < len (m_type mi))); try exact N1.
    - intros mi l x H. exact H.
    - intros x st mi Hmi H. unfold alloc_func_wasm. rewrite (mod_of_ref _ _ _ Hmi). destruct (index_ok _ _ H) as [t ->]. eexists _, _. reflexivity.
    - exact A1. }
  destruct T1 as (m2 & T1). rewrite (bind_do _ _ _ _ _ T1).
  unshelve epose proof (alloc_loop (Y := funcinst) h0 _ s_func set_s_func m_func set_m_func _ _ _ _ _ _ _ _ _ _ _ R1 _ _ _ mi0 N1 T1) as P;
    try (intros; reflexivity); try (intros []; intros; reflexivity); try (intros; assumption).
  destruct P as (fs & _ & ->). clear T1.
  match goal with |- context [bind _ _ ?mm] => set (m2 := mm) end.
  set (mi1 := set_m_func mi0 (m_func mi0 ++ fresh (length (s_func (k_store m1))) (length (md_func (l_desc L))))) in m2.
  assert (N2 : nth_error (s_inst (k_store m2)) h0 = Some mi1) by exact (nth_upd_same _ _ _ _ N1). clearbody m2. clear R1.
  (* tables *)
  assert (R1 : forall x st a st' mi, nth_error (s_inst st) h0 = Some mi -> alloc_table x st = (Ok a, st') ->
    exists y, (fun mi d f => tab_new d = Ok f) mi x y /\ a = len (s_tabl st) /\ st' = set_s_tabl st (s_tabl st ++ [y])).
  { intros d st a st' mi Hmi. unfold alloc_table. destruct (tab_new d) as [t|]; [|discriminate].
    intros H. injection H as <- <-. eexists. split; [reflexivity|split; reflexivity]. }
  assert (T1 : exists m', forl (fun e => let! a := on_store (alloc_table e) in upd_inst h0 (fun i => set_m_tabl i (m_tabl i ++ [a]))) (md_tabl (l_desc L)) m2 = (Ok tt, m')).
  { eapply (alloc_total h0 alloc_table s_tabl set_s_tabl m_tabl set_m_tabl _ ltac:(reflexivity) R1 (fun mi t => exists x, tab_new t = Ok x)); try exact N2.
    - intros mi l x H. exact H.
    - intros x st mi Hmi [y H]. unfold alloc_table. rewrite H. eexists _, _. reflexivity.
    - exact A2. }
  destruct T1 as (m3 & T1). rewrite (bind_do _ _ _ _ _ T1).
  unshelve epose proof (alloc_loop (Y := tableinst) h0 _ s_tabl set_s_tabl m_tabl set_m_tabl _ _ _ _ _ _ _ _ _ _ _ R1 _ _ _ mi1 N2 T1) as P;
    try (intros; reflexivity); try (intros []; intros; reflexivity); try (intros; assumption).
  destruct P as (ts & _ & ->). clear T1.
  match goal with |- context [bind _ _ ?mm] => set (m3 := mm) end.
  set (mi2 := set_m_tabl mi1 (m_tabl mi1 ++ fresh (length (s_tabl (k_store m2))) (length (md_tabl (l_desc L))))) in m3.
  assert (N3 : nth_error (s_inst (k_store m3)) h0 = Some mi2) by exact (nth_upd_same _ _ _ _ N2). clearbody m3. clear R1.
  (* memories *)
  assert (R1 : forall x st a st' mi, nth_error (s_inst st) h0 = Some mi -> alloc_memory x st = (Ok a, st') ->
    exists y, (fun mi d f => mem_new d = Ok f) mi x y /\ a = len (s_mems st) /\ st' = set_s_mems st (s_mems st ++ [y])).
  { intros d st a st' mi Hmi. unfold alloc_memory. destruct (mem_new d) as [t|]; [|discriminate].
    intros H. injection H as <- <-. eexists. split; [reflexivity|split; reflexivity]. }
  assert (T1 : exists m', forl (fun e => let! a := on_store (alloc_memory e) in upd_inst h0 (fun i => set_m_mems i (m_mems i ++ [a]))) (md_mems (l_desc L)) m3 = (Ok tt, m')).
  { eapply (alloc_total h0 alloc_memory s_mems set_s_mems m_mems set_m_mems _ ltac:(reflexivity) R1 (fun mi t => exists x, mem_new t = Ok x)); try exact N3.
    - intros mi l x H. exact H.
    - intros x st mi Hmi [y H]. unfold alloc_memory. rewrite H. eexists _, _. reflexivity.
    - exact A3. }
  destruct T1 as (m4 & T1). rewrite (bind_do _ _ _ _ _ T1).
  unshelve epose proof (alloc_loop (Y := meminst) h0 _ s_mems set_s_mems m_mems set_m_mems _ _ _ _ _ _ _ _ _ _ _ R1 _ _ _ mi2 N3 T1) as P;
    try (intros; reflexivity); try (intros []; intros; reflexivity); try (intros; assumption).
  destruct P as (ms & _ & ->). clear T1.
  match goal with |- context [bind _ _ ?mm] => set (m4 := mm) end.
  set (mi3 := set_m_mems mi2 (m_mems mi2 ++ fresh (length (s_mems (k_store m3))) (length (md_mems (l_desc L))))) in m4.
  assert (N4 : nth_error (s_inst (k_store m4)) h0 = Some mi3) by exact (nth_upd_same _ _ _ _ N3). clearbody m4. clear R1.
  (* globals *)
  rewrite (bind_first _ (forl (fun e => let! a := on_store (fun st => match py_index globin (fst e) with Ok v => alloc_global (gd_type (snd e)) v st | Err x => (Err x, st) end) in
      upd_inst h0 (fun i => set_m_glob i (m_glob i ++ [a]))) (combine (py_range (len (md_glob (l_desc L)))) (md_glob (l_desc L))))).
  2:{ apply forl_ext. intros [i e] st. unfold bind, lift, on_store. cbn [fst snd]. destruct (py_index globin i); [reflexivity|]. destruct st; reflexivity. }
  set (ag := fun (e : Z * globaldesc) (st : store) => match py_index globin (fst e) with Ok v => alloc_global (gd_type (snd e)) v st | Err x => (Err x, st) end).
  assert (R1 : forall x st a st' mi, nth_error (s_inst st) h0 = Some mi -> ag x st = (Ok a, st') ->
    exists y, (fun (mi : modinst) '(i, d) x => exists v, py_index globin i = Ok v /\ x = mkglob v (gt_mut (gd_type d))) mi x y /\ a = len (s_glob st) /\ st' = set_s_glob st (s_glob st ++ [y])).
  { intros [i d] st a st' mi Hmi. unfold ag. cbn [fst snd]. destruct (py_index globin i) as [v|]; [|discriminate]. unfold alloc_global. destruct (_ || _); [|discriminate].
    intros H. injection H as <- <-. eexists. split; [exists v; split; reflexivity|split; reflexivity]. }
  assert (T1 : exists m', forl (fun e => let! a := on_store (ag e) in upd_inst h0 (fun i => set_m_glob i (m_glob i ++ [a]))) (combine (py_range (len (md_glob (l_desc L)))) (md_glob (l_desc L))) m4 = (Ok tt, m')).
  { eapply (alloc_total h0 ag s_glob set_s_glob m_glob set_m_glob _ ltac:(reflexivity) R1
      (fun mi e => (exists v, py_index globin (fst e) = Ok v) /\ (gt_mut (gd_type (snd e)) = 0 \/ gt_mut (gd_type (snd e)) = 1))); try exact N4.
    - intros mi l x H. exact H.
    - intros [i d] st mi Hmi [[v Hv] Hm]. unfold ag. cbn [fst snd] in *. rewrite Hv. unfold alloc_global. destruct Hm as [-> | ->]; eexists _, _; reflexivity.
    - exact A4. }
  destruct T1 as (m4' & T1). rewrite (bind_do _ _ _ _ _ T1).
  unshelve epose proof (alloc_loop (Y := globalinst) h0 _ s_glob set_s_glob m_glob set_m_glob _ _ _ _ _ _ _ _ _ _ _ R1 _ _ _ mi3 N4 T1) as P;
    try (intros; reflexivity); try (intros []; intros; reflexivity); try (intros; assumption).
  destruct P as (gs & _ & ->). clear T1.
  match goal with |- context [bind _ _ ?mm] => set (m4' := mm) end.
  set (mi3' := set_m_glob mi3 (m_glob mi3 ++ fresh (length (s_glob (k_store m4))) (length (combine (py_range (len (md_glob (l_desc L)))) (md_glob (l_desc L)))))) in m4'.
  assert (N4' : nth_error (s_inst (k_store m4')) h0 = Some mi3') by exact (nth_upd_same _ _ _ _ N4). clearbody m4'. clear R1. clear ag.
  (* element segments *)
  rewrite (bind_first _ (forl (fun e => let! a := on_store (fun st => match py_index elemin (fst e) with Ok v => alloc_elem (ed_type (snd e)) v st | Err x => (Err x, st) end) in
      upd_inst h0 (fun i => set_m_elem i (m_elem i ++ [a]))) (combine (py_range (len (md_elem (l_desc L)))) (md_elem (l_desc L))))).
  2:{ apply forl_ext. intros [i e] st. unfold bind, lift, on_store. cbn [fst snd]. destruct (py_index elemin i); [reflexivity|]. destruct st; reflexivity. }
  set (ag := fun (e : Z * elemdesc) (st : store) => match py_index elemin (fst e) with Ok v => alloc_elem (ed_type (snd e)) v st | Err x => (Err x, st) end).
  assert (R1 : forall x st a st' mi, nth_error (s_inst st) h0 = Some mi -> ag x st = (Ok a, st') ->
    exists y, (fun (mi : modinst) '(i, d) x => exists v, py_index elemin i = Ok v /\ x = mkelem (ed_type d) v) mi x y /\ a = len (s_elem st) /\ st' = set_s_elem st (s_elem st ++ [y])).
  { intros [i d] st a st' mi Hmi. unfold ag. cbn [fst snd]. destruct (py_index elemin i) as [v|]; [|discriminate]. unfold alloc_elem. destruct (is_ref _); [|discriminate].
    intros H. injection H as <- <-. eexists. split; [exists v; split; reflexivity|split; reflexivity]. }
  assert (T1 : exists m', forl (fun e => let! a := on_store (ag e) in upd_inst h0 (fun i => set_m_elem i (m_elem i ++ [a]))) (combine (py_range (len (md_elem (l_desc L)))) (md_elem (l_desc L))) m4' = (Ok tt, m')).
  { eapply (alloc_total h0 ag s_elem set_s_elem m_elem set_m_elem _ ltac:(reflexivity) R1
      (fun mi e => (exists v, py_index elemin (fst e) = Ok v) /\ is_ref (ed_type (snd e)) = true)); try exact N4'.
    - intros mi l x H. exact H.
    - intros [i d] st mi Hmi [[v Hv] Hm]. unfold ag. cbn [fst snd] in *. rewrite Hv. unfold alloc_elem. rewrite Hm; eexists _, _; reflexivity.
    - exact A5. }
  destruct T1 as (m4'' & T1). rewrite (bind_do _ _ _ _ _ T1).
  unshelve epose proof (alloc_loop (Y := eleminst) h0 _ s_elem set_s_elem m_elem set_m_elem _ _ _ _ _ _ _ _ _ _ _ R1 _ _ _ mi3' N4' T1) as P;
    try (intros; reflexivity); try (intros []; intros; reflexivity); try (intros; assumption).
  destruct P as (es & _ & ->). clear T1.
  match goal with |- context [bind _ _ ?mm] => set (m4'' := mm) end.
  set (mi3'' := set_m_elem mi3' (m_elem mi3' ++ fresh (length (s_elem (k_store m4'))) (length (combine (py_range (len (md_elem (l_desc L)))) (md_elem (l_desc L)))))) in m4''.
  assert (N4'' : nth_error (s_inst (k_store m4'')) h0 = Some mi3'') by exact (nth_upd_same _ _ _ _ N4'). clearbody m4''. clear R1. clear ag.
  (* data *)
  assert (R1 : forall x st a st' mi, nth_error (s_inst st) h0 = Some mi -> alloc_data x st = (Ok a, st') ->
    exists y, (fun mi (b x : nat) => x = b) mi x y /\ a = len (s_data st) /\ st' = set_s_data st (s_data st ++ [y])).
  { intros b st a st' mi Hmi H. injection H as <- <-. eexists. split; [reflexivity|split; reflexivity]. }
  assert (T1 : exists m', forl (fun e => let! a := on_store (alloc_data e) in upd_inst h0 (fun i => set_m_data i (m_data i ++ [a]))) (l_blob L) m4'' = (Ok tt, m')).
  { eapply (alloc_total h0 alloc_data s_data set_s_data m_data set_m_data _ ltac:(reflexivity) R1 (fun mi b => True)); try exact N4''.
    - intros mi l x H. exact H.
    - intros x st mi Hmi _. eexists _, _. reflexivity.
    - apply Forall_forall. intros; exact I. }
  destruct T1 as (m5 & T1). rewrite (bind_do _ _ _ _ _ T1).
  unshelve epose proof (alloc_loop (Y := nat) h0 _ s_data set_s_data m_data set_m_data _ _ _ _ _ _ _ _ _ _ _ R1 _ _ _ mi3'' N4'' T1) as P;
    try (intros; reflexivity); try (intros []; intros; reflexivity); try (intros; assumption).
  destruct P as (ds & _ & ->). clear T1.
  match goal with |- context [bind _ _ ?mm] => set (m5 := mm) end.
  set (mi4 := set_m_data mi3'' (m_data mi3'' ++ fresh (length (s_data (k_store m4''))) (length (l_blob L)))) in m5.
  assert (N5 : nth_error (s_inst (k_store m5)) h0 = Some mi4) by exact (nth_upd_same _ _ _ _ N4''). clearbody m5. clear R1.
  destruct (export_total h0 (md_exps (l_desc L)) m5 mi4 N5) as (m6 & T1).
  { eapply Forall_impl; [|exact A6]. cbv beta. intros e [Hx He].
    assert (L0 : forall b n, len (fresh b n) = Z.of_nat n) by (intros; unfold len; rewrite fresh_len; reflexivity).
    split; [lia|]. apply index_ok. unfold space. unfold mi4, mi3'', mi3', mi3, mi2, mi1, mi0.
    destruct He as [[-> He]|[[-> He]|[[-> He]|[-> He]]]]; cbn [Z.eqb Pos.eqb set_m_func set_m_tabl set_m_mems set_m_glob set_m_elem set_m_data m_func m_tabl m_mems m_glob]; rewrite len_app, L0, ?enum_len; unfold len in *; lia. }
  rewrite (bind_do _ _ _ _ _ T1). exists h0, m6. reflexivity.
Qed.


(* ---- imports ---- *)
Definition func_at (s : store) (t : functype) (z : Z) : Prop := exists a f, z = Z.of_nat a /\ nth_error (s_func s) a = Some f /\ fi_type f = t.
Definition tabl_at (s : store) (t : valtype) (z : Z) : Prop := exists a x, z = Z.of_nat a /\ nth_error (s_tabl s) a = Some x /\ tt_type (ti_type x) = t.
Definition mem_at {X} (s : store) (_ : X) (z : Z) : Prop := exists a x, z = Z.of_nat a /\ nth_error (s_mems s) a = Some x.
Definition glob_at (s : store) (t : valtype * Z) (z : Z) : Prop :=
  exists a g, z = Z.of_nat a /\ nth_error (s_glob s) a = Some g /\ v_type (gi_data g) = fst t /\ gi_mut g = snd t.
Lemma item_at {A} (l : list A) z x : item l z x -> z = Z.of_nat (Z.to_nat z) /\ nth_error l (Z.to_nat z) = Some x.
Proof. intros [H1 H2]. split; [lia|exact H2]. Qed.
Lemma imports_at s md imps ext : Forall2 (fits s md) imps ext ->
  Forall2 (func_at s) (flat_map (fun a => match im_desc a with ImpFunc i => type_no md i | _ => [] end) imps) (imported 0 ext) /\
  Forall2 (tabl_at s) (flat_map (fun a => match im_desc a with ImpTable t => [tt_type t] | _ => [] end) imps) (imported 1 ext) /\
  Forall2 (mem_at s) (flat_map (fun a => match im_desc a with ImpMem l => [l] | _ => [] end) imps) (imported 2 ext) /\
  Forall2 (glob_at s) (flat_map (fun a => match im_desc a with ImpGlobal t => [(gt_type t, gt_mut t)] | _ => [] end) imps) (imported 3 ext).
Proof.
  induction 1 as [|a b imps ext H _ IH]; [repeat split; constructor|]. destruct IH as (I0 & I1 & I2 & I3). unfold fits in H. cbn [flat_map imported].
  destruct (im_desc a) as [i|t|l|t].
  - destruct H as (-> & f & Hf & Ht). apply item_at in Hf, Ht. cbn [Z.eqb Pos.eqb app]. unfold type_no. rewrite (proj2 Ht). cbn [app].
    split; [|auto]. constructor; [|exact I0]. exists (Z.to_nat (Store.e_data b)), f. split; [apply Hf|]. split; [apply Hf|reflexivity].
  - destruct H as (-> & x & Hx & Ht & _). apply item_at in Hx. cbn [Z.eqb Pos.eqb app]. split; [exact I0|]. split; [|auto].
    constructor; [|exact I1]. exists (Z.to_nat (Store.e_data b)), x. split; [apply Hx|]. split; [apply Hx|exact Ht].
  - destruct H as (-> & x & Hx & _). apply item_at in Hx. cbn [Z.eqb Pos.eqb app]. split; [exact I0|]. split; [exact I1|]. split; [|exact I3].
    constructor; [|exact I2]. exists (Z.to_nat (Store.e_data b)), x. exact Hx.
  - destruct H as (-> & x & Hx & Ht). apply item_at in Hx. cbn [Z.eqb Pos.eqb app]. split; [exact I0|]. split; [exact I1|]. split; [exact I2|].
    constructor; [|exact I3]. exists (Z.to_nat (Store.e_data b)), x. split; [apply Hx|]. split; [apply Hx|exact Ht].
Qed.
Lemma Forall2_len {A B} (R : A -> B -> Prop) l k : Forall2 R l k -> length l = length k.
Proof. induction 1; cbn; congruence. Qed.
Lemma Forall2_imp {A B} (R R' : A -> B -> Prop) l k : (forall x y, R x y -> R' x y) -> Forall2 R l k -> Forall2 R' l k.
Proof. intros H. induction 1; constructor; auto. Qed.

(* ---- constant expressions ---- *)
Section constants.
Context (sg : nat -> functype) (F : fops) (CF : converts F) (host : hostcode) (s : store) (Hs : store_typed sg s) (Ok_s : store_ok s)
  (md : moddesc) (aux : modinst) (fr : frame) (Hfr : fr_module fr = MVal aux) (Hloc : fr_locals fr = [])
  (HT : m_type aux = [])
  (HF : forall i t, nth_error (c_funcs (const_ctx md)) i = Some t -> exists a, nth_error (m_func aux) i = Some (Z.of_nat a) /\ Z.of_nat a < 2 ^ 31)
  (HG : Forall2 (glob_at s) (imp_globs md) (m_glob aux)).

Definition glob_ctx : tctx := mkctx [] [] [] 0 (imp_globs md) [] 0 [] [] [].
Lemma aux_instance : instance_typed s (mod_of s (MVal aux)) glob_ctx.
Proof.
  constructor; cbn [mod_of glob_ctx c_types c_funcs c_tabls c_mems c_globs c_elems c_datas].
  - exact HT.
  - intros [|i] t H; discriminate H.
  - intros [|i] t H; discriminate H.
  - intros i H. lia.
  - intros i t mut H. destruct (Forall2_nth _ _ _ HG i _ H) as (z & Hz & a & g & -> & Hg & H1 & H2). exists a, g. auto.
  - intros [|i] t H; discriminate H.
  - intros i H. lia.
Qed.
Lemma const_basic o args t : In o const_ops -> typed_inst (const_ctx md) (IOp o args) [] [t] ->
  exists v, exec_basic F (MVal aux) o args (mkb s [] []) = (Ok tt, mkb s [] [v]) /\ v_type v = t.
Proof.
  intros Ho HI.
  assert (NT : may_trap o = false) by (cbn [const_ops In] in Ho; repeat (destruct Ho as [<-|Ho]; [reflexivity|]); contradiction).
  assert (NC : is_control o = false) by (cbn [const_ops In] in Ho; repeat (destruct Ho as [<-|Ho]; [reflexivity|]); contradiction).
  assert (D : (exists i x, o = O_ref_func /\ args = [imm i] /\ nth_error (c_funcs (const_ctx md)) i = Some x /\ t = T_func) \/
    typed_inst glob_ctx (IOp o args) [] [t]).
  { inversion HI; subst; try (cbn [const_ops In] in Ho; repeat (destruct Ho as [Ho|Ho]; [discriminate Ho|]); contradiction).
    - right. destruct ins as [|x ins]; [eapply (t_pure _ o args []); eassumption|].
      exfalso. match goal with H : rev (_ :: _) = [] |- _ => cbn [rev] in H; destruct (rev ins); discriminate H end.
    - exfalso. cbn [const_ops In] in Ho. repeat (destruct Ho as [<-|Ho]; [discriminate|]); contradiction.
    - right. eapply t_global_get. eassumption.
    - right. apply t_ref_null. assumption.
    - left. eexists _, _. split; [reflexivity|]. split; [reflexivity|]. split; [eassumption|reflexivity]. }
  destruct D as [(i & x & -> & -> & Hx & ->)|D].
  - destruct (HF i x Hx) as (a & Ha & Hb). rewrite misc_basic by reflexivity. cbn [exec_misc].
    rewrite (bind_do (lift (arg_int [imm i] 0)) _ _ (Z.of_nat i) (mkb s [] []) eq_refl). unfold mod_addr. rewrite bind_assoc. rewrite (bind_do get_store _ (mkb s [] []) s (mkb s [] []) eq_refl).
    cbn [mod_of]. unfold bind at 1, lift at 1. rewrite (py_index_nth _ _ _ Ha). unfold pushr, bind, lift.
    rewrite (from_ref_ok T_func (Z.of_nat a)) by (unfold srange; change (2 ^ (32 - 1)) with (2 ^ 31); lia). eexists. split; reflexivity.
  - pose proof (t_basic F CF s Hs Ok_s (MVal aux) glob_ctx aux_instance [] eq_refl [] o args [] [t] [] D NC eq_refl (Forall_nil _)) as E.
    unfold ends in E. cbn [app] in E. destruct (exec_basic F (MVal aux) o args (mkb s [] [])) as [[[]|e] b] eqn:EB; [|destruct E as [E _]; congruence].
    destruct (const_op_run F _ _ _ _ _ Ho EB) as (v & ->). destruct E as (vs & Ev & Tv & _). cbn [b_value b_store b_locals app] in *. rewrite app_nil_r in Ev. subst vs.
    exists v. split; [reflexivity|]. injection Tv as Tv. exact Tv.
Qed.
Lemma const_value n e t : (2 <= n)%nat -> const_typed md e t ->
  exists v, const_expr F host n e (mkmach s [] [] [fr]) = (Ok v, mkmach s [] [] [fr]) /\ v_type v = t.
Proof.
  intros Hn [(o & args & -> & Ho) HTy]. apply typed_rest in HTy. destruct HTy as (A & B & R & E & HI & HR). symmetry in E. apply app_eq_nil in E. destruct E as [-> ->].
  apply typed_end in HR. rewrite app_nil_r in HR. subst B.
  destruct (const_basic o args t Ho HI) as (v & EB & Tv). exists v. split; [|exact Tv].
  unfold const_expr. change [IOp o args] with (code_of [(o, args)]).
  pose proof (run_straight F host [(o, args)] 1 n s [] fr ltac:(repeat constructor; apply const_straight, Ho)) as P.
  cbn [ops] in P. rewrite Hfr, Hloc in P. unfold bind in P. rewrite EB in P. cbn [ret b_value length Nat.eqb] in P. unfold ret in P. cbn [b_value length Nat.eqb] in P.
  replace (Nat.ltb 1 n) with true in P by (symmetry; apply PeanoNat.Nat.ltb_lt; lia). cbn [andb] in P.
  unfold bind. rewrite P. unfold popv, finish, set_value, relocal. cbn. clear - Hloc. destruct fr as [x1 x2 x3 x4 x5]; cbn in *; subst x2; reflexivity.
Qed.
Lemma const_values {A} n (f : A -> list inst) (ty : A -> valtype) l : (2 <= n)%nat -> Forall (fun x => const_typed md (f x) (ty x)) l ->
  exists vs, mapl (fun x => const_expr F host n (f x)) l (mkmach s [] [] [fr]) = (Ok vs, mkmach s [] [] [fr]) /\
    Forall2 (fun x v => v_type v = ty x) l vs.
Proof.
  intros Hn. induction 1 as [|x l Hx _ (vs & E & IH)]; [exists []; split; [reflexivity|constructor]|].
  destruct (const_value n (f x) (ty x) Hn Hx) as (v & Ev & Tv). exists (v :: vs). split; [|constructor; assumption].
  cbn [mapl]. rewrite (bind_do _ _ _ _ _ Ev), (bind_do _ _ _ _ _ E). reflexivity.
Qed.
End constants.

(* ---- the instance and the store after allocation ---- *)
Lemma Forall2_fresh {A B} (R : A -> Z -> Prop) (l : list A) (base : nat) (k : list B) :
  length l = length k -> (forall i x y, nth_error l i = Some x -> nth_error k i = Some y -> R x (Z.of_nat (base + i))) -> Forall2 R l (fresh base (length k)).
Proof.
  revert base k. induction l as [|x l IH]; intros base [|y k] HL H; try discriminate HL; [constructor|]. cbn [length]. rewrite fresh_S. constructor.
  - specialize (H 0%nat x y eq_refl eq_refl). rewrite PeanoNat.Nat.add_0_r in H. exact H.
  - apply IH; [injection HL as HL; exact HL|]. intros i u v Hu Hv. replace (S base + i)%nat with (base + S i)%nat by lia. exact (H (S i) u v Hu Hv).
Qed.
Lemma own_at {A Y} (P : A -> Y -> Prop) (Q : A -> Z -> Prop) ds (l k : list Y) : Forall2 P ds k ->
  (forall d y a, P d y -> nth_error (l ++ k) a = Some y -> Q d (Z.of_nat a)) -> Forall2 Q ds (fresh (length l) (length ds)).
Proof.
  intros H HQ. rewrite (Forall2_len _ _ _ H). apply Forall2_fresh; [exact (Forall2_len _ _ _ H)|].
  intros i d y Hd Hy. destruct (Forall2_nth _ _ _ H i d Hd) as (y' & Hy' & Hp). replace y' with y in * by congruence.
  apply (HQ d y); [exact Hp|]. rewrite nth_error_app2 by lia. rewrite <- Hy. f_equal. lia.
Qed.
Lemma Forall2_map_l {A A' B} (g : A -> A') (R : A' -> B -> Prop) l k : Forall2 (fun x y => R (g x) y) l k -> Forall2 R (map g l) k.
Proof. induction 1; cbn; constructor; auto. Qed.
Lemma flat_one {A B} (g : A -> list B) (h : A -> B) l : Forall (fun x => g x = [h x]) l -> flat_map g l = map h l.
Proof. induction 1 as [|x l H _ IH]; [reflexivity|]. cbn. rewrite H, IH. reflexivity. Qed.
Lemma nth_app_l {A} (l k : list A) i x : nth_error l i = Some x -> nth_error (l ++ k) i = Some x.
Proof. intros H. rewrite nth_error_app1; [exact H|]. apply nth_error_Some. congruence. Qed.

Section allocation.
Context (sg : nat -> functype) (L : loaded) (ext : list extern) (globin : list val) (elemin : list (list val)) (s s' : store) (h : nat) (mi : modinst)
  (fs : list funcinst) (ts : list tableinst) (ms : list meminst) (gs : list globalinst) (es : list eleminst)
  (AL : allocated L ext globin elemin s s' h mi fs ts ms gs es)
  (VM : valid_module (l_desc L)) (IM : Forall2 (fits s (l_desc L)) (md_imps (l_desc L)) ext)
  (GI : Forall2 (fun g v => v_type v = gt_type (gd_type g)) (md_glob (l_desc L)) globin)
  (EI : Forall2 (fun e vs => Forall (fun v => v_type v = ed_type e) vs) (md_elem (l_desc L)) elemin)
  (LB : length (l_blob L) = length (md_data (l_desc L)))
  (Hs : store_typed sg s) (MANY : len (s_func s) + len (md_func (l_desc L)) < 2 ^ 31).
Notation md := (l_desc L).

Lemma alloc_same : same_types s s'.
Proof.
  destruct AL. subst s'.
  assert (K : forall A (R : A -> A -> Prop) (l k : list A), (forall x, R x x) -> kept R l (l ++ k)).
  { intros A R l k HR a x Hx. exists x. split; [apply nth_app_l, Hx|apply HR]. }
  constructor; cbn [s_func s_inst s_data s_mems s_tabl s_glob s_elem]; apply K; auto.
Qed.

Lemma enum_inits {A V X} (P : A -> V -> Prop) (Q : A -> V -> X -> Prop) (R : A -> X -> Prop) (l : list A) (vs : list V) (xs : list X) :
  (forall a v x, P a v -> Q a v x -> R a x) -> Forall2 P l vs ->
  Forall2 (fun '(i, d) x => exists v, py_index vs i = Ok v /\ Q d v x) (combine (py_range (len l)) l) xs -> Forall2 R l xs.
Proof.
  intros HR HP H. unfold py_range, len in H. rewrite Nat2Z.id in H.
  assert (G : forall l (pre : list V) ws xs', Forall2 P l ws -> vs = pre ++ ws ->
    Forall2 (fun '(i, d) x => exists v, py_index vs i = Ok v /\ Q d v x) (combine (map Z.of_nat (seq (length pre) (length l))) l) xs' ->
    Forall2 R l xs').
  { induction l0 as [|g l0 IH]; intros pre ws xs' HV E HG; inversion HG; subst; [constructor|]. inversion HV; subst.
    match goal with H : exists v, _ |- _ => destruct H as (v & Hv & HQ) end. rewrite py_index_nonneg in Hv by lia. rewrite Nat2Z.id in Hv.
    rewrite nth_error_app2, PeanoNat.Nat.sub_diag in Hv by lia. apply Ok_inj in Hv. subst v.
    constructor; [eapply HR; eassumption|].
    match goal with HT : Forall2 _ (combine _ l0) _, HW : Forall2 _ l0 ?vs', HP' : P g ?y |- _ => apply (IH (pre ++ [y]) vs'); [exact HW|rewrite <- app_assoc; reflexivity|] end.
    rewrite app_length. cbn [length]. rewrite PeanoNat.Nat.add_1_r. assumption. }
  apply (G _ [] vs); [exact HP|reflexivity|exact H].
Qed.
Lemma enum_glob : Forall2 (fun g x => v_type (gi_data x) = gt_type (gd_type g) /\ gi_mut x = gt_mut (gd_type g)) (md_glob md) gs.
Proof.
  apply (enum_inits _ (fun d v x => x = mkglob v (gt_mut (gd_type d))) _ _ _ _) with (2 := GI); [|exact (al_gs _ _ _ _ _ _ _ _ _ _ _ _ _ AL)].
  intros a v x Hv ->. split; [exact Hv|reflexivity].
Qed.
Lemma enum_elem : Forall2 (fun d x => li_type x = ed_type d /\ Forall (fun v => v_type v = li_type x) (li_data x)) (md_elem md) es.
Proof.
  apply (enum_inits _ (fun d v x => x = mkelem (ed_type d) v) _ _ _ _) with (2 := EI); [|exact (al_es _ _ _ _ _ _ _ _ _ _ _ _ _ AL)].
  intros a v x Hv ->. split; [reflexivity|exact Hv].
Qed.
Lemma tab_new_typed t x : tab_new t = Ok x -> Forall (fun v => v_type v = tt_type (ti_type x)) (ti_elem x).
Proof.
  intros H. pose proof (proj1 (tab_new_facts _ _ H)) as HT. unfold tab_new, tab_grow in H. cbn [ti_type ti_elem ti_size] in H.
  repeat match type of H with (if ?c then _ else _) = _ => destruct c; try discriminate H | (let? _ := ?c in _) = _ => destruct c; try discriminate H; cbn [rbind] in H end.
  apply Ok_inj in H. subst x. cbn [ti_type ti_elem] in *. apply Forall_forall. intros v Hv. cbn [app] in Hv. apply repeat_spec in Hv. subst v. reflexivity.
Qed.
Lemma at_funcs : Forall2 (func_at s') (c_funcs (module_ctx md [] [])) (m_func mi).
Proof.
  rewrite (al_func _ _ _ _ _ _ _ _ _ _ _ _ _ AL). cbn [module_ctx c_funcs]. apply Forall2_app.
  - eapply Forall2_imp; [|exact (proj1 (imports_at _ _ _ _ IM))]. intros t z (a & f & -> & Hf & Ht). exists a, f. split; [reflexivity|]. split; [|exact Ht].
    destruct AL. subst s'. apply nth_app_l, Hf.
  - assert (E : Forall (fun d => exists t, type_no md (fd_type d) = [t] /\ py_index (md_type md) (fd_type d) = Ok t) (md_func md)).
    { eapply Forall_impl; [|exact (vm_func _ VM)]. cbv beta. intros d (t & Ht & _). exists t. split; [unfold type_no; rewrite (proj2 Ht); reflexivity|]. apply py_index_item; [apply Ht|exact Ht]. }
    pose proof (al_fs _ _ _ _ _ _ _ _ _ _ _ _ _ AL) as HF. 
    assert (G : Forall2 (fun d f => type_no md (fd_type d) = [fi_type f]) (md_func md) fs).
    { clear - E HF. revert E. induction HF as [|d f l k Hf _ IH]; intros E; constructor; inversion E; subst; [|auto].
      destruct Hf as (t & Ht & ->). match goal with H : exists t, _ |- _ => destruct H as (t' & -> & Ht') end. cbn [fi_type]. congruence. }
    assert (A : Forall2 (fun d z => exists t, type_no md (fd_type d) = [t] /\ func_at s' t z) (md_func md) (fresh (length (s_func s)) (length (md_func md)))).
    { apply (own_at _ _ _ _ _ G). intros d f a Hd Ha. exists (fi_type f). split; [exact Hd|]. exists a, f. split; [reflexivity|]. split; [|reflexivity]. destruct AL. subst s'. exact Ha. }
    clear - A. revert A. generalize (fresh (length (s_func s)) (length (md_func md))). induction 1 as [|d z l k (t & Ht & Hz) _ IH]; [constructor|]. cbn [flat_map]. rewrite Ht. constructor; assumption.
Qed.
Lemma at_tabls : Forall2 (tabl_at s') (c_tabls (module_ctx md [] [])) (m_tabl mi).
Proof.
  rewrite (al_tabl _ _ _ _ _ _ _ _ _ _ _ _ _ AL). cbn [module_ctx c_tabls]. apply Forall2_app.
  - eapply Forall2_imp; [|exact (proj1 (proj2 (imports_at _ _ _ _ IM)))]. intros t z (a & f & -> & Hf & Ht). exists a, f. split; [reflexivity|]. split; [|exact Ht].
    destruct AL. subst s'. apply nth_app_l, Hf.
  - apply Forall2_map_l. apply (own_at _ _ _ _ _ (al_ts _ _ _ _ _ _ _ _ _ _ _ _ _ AL)). intros d x a Hd Ha. exists a, x. split; [reflexivity|].
    split; [destruct AL; subst s'; exact Ha|]. rewrite (proj1 (tab_new_facts _ _ Hd)). reflexivity.
Qed.
Lemma at_mems : Forall2 (mem_at s') (imp_mems md ++ md_mems md) (m_mems mi).
Proof.
  rewrite (al_mems _ _ _ _ _ _ _ _ _ _ _ _ _ AL). apply Forall2_app.
  - eapply Forall2_imp; [|exact (proj1 (proj2 (proj2 (imports_at _ _ _ _ IM))))]. intros t z (a & f & -> & Hf). exists a, f. split; [reflexivity|].
    destruct AL. subst s'. apply nth_app_l, Hf.
  - apply (own_at _ _ _ _ _ (al_ms _ _ _ _ _ _ _ _ _ _ _ _ _ AL)). intros d x a Hd Ha. exists a, x. split; [reflexivity|]. destruct AL; subst s'; exact Ha.
Qed.
Lemma at_globs : Forall2 (glob_at s') (c_globs (module_ctx md [] [])) (m_glob mi).
Proof.
  rewrite (al_glob _ _ _ _ _ _ _ _ _ _ _ _ _ AL). cbn [module_ctx c_globs]. apply Forall2_app.
  - eapply Forall2_imp; [|exact (proj2 (proj2 (proj2 (imports_at _ _ _ _ IM))))]. intros t z (a & f & -> & Hf & Ht). exists a, f. split; [reflexivity|]. split; [|exact Ht].
    destruct AL. subst s'. apply nth_app_l, Hf.
  - apply Forall2_map_l. apply (own_at _ _ _ _ _ enum_glob). intros d x a Hd Ha. exists a, x. split; [reflexivity|]. split; [destruct AL; subst s'; exact Ha|exact Hd].
Qed.
Lemma alloc_instance locals ret : instance_typed s' mi (module_ctx md locals ret).
Proof.
  constructor.
  - exact (al_type _ _ _ _ _ _ _ _ _ _ _ _ _ AL).
  - intros i t H. destruct (Forall2_nth _ _ _ at_funcs i t H) as (z & Hz & a & f & -> & Hf). exists a, f. auto.
  - intros i t H. destruct (Forall2_nth _ _ _ at_tabls i t H) as (z & Hz & a & f & -> & Hf). exists a, f. auto.
  - intros i H. cbn [module_ctx c_mems] in H. rewrite <- app_length in H. destruct (nth_error (imp_mems md ++ md_mems md) i) as [x|] eqn:E; [|exfalso; apply nth_error_None in E; exact (PeanoNat.Nat.lt_irrefl _ (PeanoNat.Nat.lt_le_trans _ _ _ H E))].
    destruct (Forall2_nth _ _ _ at_mems i x E) as (z & Hz & a & f & -> & Hf). exists a, f. auto.
  - intros i t mut H. destruct (Forall2_nth _ _ _ at_globs i _ H) as (z & Hz & a & f & -> & Hf & Hg). exists a, f. auto.
  - intros i t H. cbn [module_ctx c_elems] in H. rewrite nth_error_map in H. destruct (nth_error (md_elem md) i) as [d|] eqn:E; [|discriminate H]. injection H as <-.
    destruct (Forall2_nth _ _ _ enum_elem i d E) as (x & Hx & Ht & _). exists (length (s_elem s) + i)%nat, x.
    split; [rewrite (al_elem _ _ _ _ _ _ _ _ _ _ _ _ _ AL); apply nth_fresh, nth_error_Some; congruence|]. split; [|exact Ht].
    destruct AL. subst s'. cbn [s_elem]. rewrite nth_error_app2 by lia. rewrite <- Hx. f_equal. lia.
  - intros i H. cbn [module_ctx c_datas] in H. rewrite <- LB in H. destruct (nth_error (l_blob L) i) as [b|] eqn:E; [|apply nth_error_None in E; lia].
    exists (length (s_data s) + i)%nat, b. split; [rewrite (al_data _ _ _ _ _ _ _ _ _ _ _ _ _ AL); apply nth_fresh, H|].
    destruct AL. subst s'. cbn [s_data]. rewrite nth_error_app2 by lia. rewrite <- E. f_equal. lia.
Qed.
Lemma alloc_inst : nth_error (s_inst s') h = Some mi.
Proof. destruct AL. subst h s'. apply nth_last. Qed.
Lemma alloc_typed : store_typed sg s'.
Proof.
  pose proof alloc_same as SA. destruct Hs as [S1 S2 S3 S4]. constructor.
  - assert (E : s_func s' = s_func s ++ fs) by (destruct AL; subst s'; reflexivity). rewrite E. apply Forall_app. split.
    + eapply Forall_impl; [|exact S1]. intros f Hf. exact (func_later _ _ _ SA Hf).
    + pose proof (al_fs _ _ _ _ _ _ _ _ _ _ _ _ _ AL) as HF. pose proof (vm_func _ VM) as HV. pose proof alloc_inst as NI. pose proof alloc_instance as TI. clear E. revert HV HF. generalize (md_func md) fs. intros l0 k0 HV HF. revert HV. induction HF as [|d f l k (t & Ht & ->) _ IH]; intros HV; constructor.
      * inversion HV; subst. match goal with H : exists t, _ |- _ => destruct H as (t' & Ht' & HT) end. 
        pose proof (proj2 (py_index_item _ _ _ (proj1 Ht')) Ht') as E'. rewrite Ht in E'. apply Ok_inj in E'. subst t'.
        exists mi, (module_ctx md (ft_args t ++ declared (fd_locals d)) (ft_rets t)). split; [exact NI|]. split; [apply TI|].
        split; [reflexivity|]. split; [reflexivity|]. split; [reflexivity|exact HT].
      * apply IH. inversion HV; assumption.
  - assert (E : s_func s' = s_func s ++ fs) by (destruct AL; subst s'; reflexivity). rewrite E, len_app.
    pose proof (Forall2_len _ _ _ (al_fs _ _ _ _ _ _ _ _ _ _ _ _ _ AL)) as E2. unfold len in *. lia.
  - assert (E : s_tabl s' = s_tabl s ++ ts) by (destruct AL; subst s'; reflexivity). rewrite E. apply Forall_app. split; [exact S3|].
    pose proof (al_ts _ _ _ _ _ _ _ _ _ _ _ _ _ AL) as HF. pose proof (vm_tabl _ VM) as HV. revert HV HF. clear E. generalize (md_tabl md) ts. intros l0 k0 HV HF. revert HV. induction HF as [|d f l k Ht _ IH]; intros HV; constructor.
    + inversion HV; subst. split; [rewrite (proj2 (tab_new_facts _ _ Ht)); tauto|exact (tab_new_typed _ _ Ht)].
    + apply IH. inversion HV; assumption.
  - assert (E : s_elem s' = s_elem s ++ es) by (destruct AL; subst s'; reflexivity). rewrite E. apply Forall_app. split; [exact S4|].
    pose proof enum_elem as HF. revert HF. clear. generalize (md_elem md) es. intros l0 k0 HF. induction HF as [|d x l k [_ Hx] _ IH]; constructor; assumption.
Qed.
End allocation.

(* ---- before allocation: the initial values ---- *)
Section head.
Context (sg : nat -> functype) (F : fops) (CF : converts F) (host : hostcode) (s : store) (Hs : store_typed sg s) (Ok_s : store_ok s)
  (md : moddesc) (ext : list extern) (VM : valid_module md) (IM : Forall2 (fits s md) (md_imps md) ext)
  (MANY : len (s_func s) + len (md_func md) < 2 ^ 31).
Lemma aux_at : Forall2 (fun _ z => exists a, z = Z.of_nat a /\ Z.of_nat a < 2 ^ 31) (c_funcs (const_ctx md)) (aux_funcs md ext s).
Proof.
  unfold aux_funcs. unfold len at 1 2. rewrite range_fresh. cbn [const_ctx c_funcs module_ctx]. apply Forall2_app.
  - eapply Forall2_imp; [|exact (proj1 (imports_at _ _ _ _ IM))]. intros t z (a & f & -> & Hf & _). exists a. split; [reflexivity|].
    assert (a < length (s_func s))%nat by (apply nth_error_Some; congruence). pose proof (st_many s Hs). unfold len in *. lia.
  - assert (E : Forall2 (fun d z => exists t, type_no md (fd_type d) = [t] /\ exists a, z = Z.of_nat a /\ Z.of_nat a < 2 ^ 31) (md_func md) (fresh (length (s_func s)) (length (md_func md)))).
    { apply (Forall2_fresh _ (md_func md) (length (s_func s)) (md_func md) eq_refl). intros i d d' Hd _. destruct (nth_Forall _ _ _ _ (vm_func _ VM) Hd) as (t & Ht & _). exists t.
      split; [unfold type_no; rewrite (proj2 Ht); reflexivity|]. eexists. split; [reflexivity|]. assert (i < length (md_func md))%nat by (apply nth_error_Some; congruence). unfold len in MANY. lia. }
    revert E. generalize (fresh (length (s_func s)) (length (md_func md))). generalize (md_func md). induction 1 as [|d z l0 k0 (t & Ht & Hz) _ IH]; [constructor|]. cbn [flat_map]. rewrite Ht. constructor; assumption.
Qed.
Lemma head_runs n : (2 <= n)%nat ->
  exists globin elemin, inst_head F host n md (mkmi [] (aux_funcs md ext s) [] [] (imported 3 ext) [] [] []) (mkmach s [] [] []) = (Ok (globin, elemin), mkmach s [] [] []) /\
    Forall2 (fun g v => v_type v = gt_type (gd_type g)) (md_glob md) globin /\
    Forall2 (fun e vs => Forall (fun v => v_type v = ed_type e) vs) (md_elem md) elemin.
Proof.
  intros Hn. set (aux := mkmi _ _ _ _ _ _ _ _). set (fr := mkframe (MVal aux) [] 1 0 0).
  assert (HF : forall i t, nth_error (c_funcs (const_ctx md)) i = Some t -> exists a, nth_error (m_func aux) i = Some (Z.of_nat a) /\ Z.of_nat a < 2 ^ 31).
  { intros i t H. destruct (Forall2_nth _ _ _ aux_at i t H) as (z & Hz & a & -> & Ha). exists a. split; [exact Hz|exact Ha]. }
  assert (HG : Forall2 (glob_at s) (imp_globs md) (m_glob aux)) by exact (proj2 (proj2 (proj2 (imports_at _ _ _ _ IM)))).
  destruct (const_values sg F CF host s Hs Ok_s md aux fr eq_refl eq_refl eq_refl HF HG n gd_init (fun g => gt_type (gd_type g)) (md_glob md) Hn) as (globin & E1 & T1).
  { eapply Forall_impl; [|exact (vm_glob _ VM)]. intros g [_ H]. exact H. }
  assert (E2 : exists elemin, mapl (fun e => mapl (fun f => const_expr F host n f) (ed_init e)) (md_elem md) (mkmach s [] [] [fr]) = (Ok elemin, mkmach s [] [] [fr]) /\
    Forall2 (fun e vs => Forall (fun v => v_type v = ed_type e) vs) (md_elem md) elemin).
  { pose proof (vm_elem _ VM) as HE. revert HE. generalize (md_elem md). induction 1 as [|e l (_ & _ & H & _) _ (vss & IH1 & IH2)]; [exists []; split; [reflexivity|constructor]|].
    destruct (const_values sg F CF host s Hs Ok_s md aux fr eq_refl eq_refl eq_refl HF HG n (fun c => c) (fun _ => ed_type e) (ed_init e) Hn H) as (vs & E2 & T2).
    exists (vs :: vss). cbn [mapl]. rewrite (bind_do _ _ _ _ _ E2), (bind_do _ _ _ _ _ IH1). split; [reflexivity|]. constructor; [|exact IH2].
    clear - T2. induction T2; constructor; assumption. }
  destruct E2 as (elemin & E2 & T2). exists globin, elemin. split; [|split; assumption].
  unfold inst_head. rewrite (bind_do (push_frame fr) _ (mkmach s [] [] []) tt (mkmach s [] [] [fr]) eq_refl). rewrite (bind_do _ _ _ _ _ E1), (bind_do _ _ _ _ _ E2).
  rewrite (bind_do _ _ _ _ _ (pop_push s fr)). reflexivity.
Qed.
End head.

(* ---- after allocation: the code of instantiation ---- *)
Section init.
Context (sg : nat -> functype) (F : fops) (CF : converts F) (host : hostcode) (HB : well_behaved host) (HH : host_typed sg host)
  (L : loaded) (s s0 : store) (h : nat) (mi : modinst) (n : nat)
  (VM : valid_module (l_desc L)) (DO : desc_ok (l_desc L)) (L0 : later s s0) (S0 : same_types s s0)
  (Hmi : nth_error (s_inst s0) h = Some mi) (HI : instance_typed s0 mi (module_ctx (l_desc L) [] []))
  (BL : blobs_ok s0 L).
Notation md := (l_desc L).
Notation ctx := (module_ctx md [] []).
Notation fr := (mkframe (MRef h) [] 0 0 0).
Definition good (s1 : store) : Prop := store_ok s1 /\ store_typed sg s1 /\ later s0 s1 /\ same_types s0 s1.
Definition outcome (p : res unit * machine) : Prop :=
  match p with
  | (Ok _, m') => exists s2, m' = mkmach s2 [] [] [fr] /\ good s2
  | (Err e, m') => store_typed sg (k_store m') /\ same_types s0 (k_store m') /\ init_stops F host sg n L s e m'
  end.
Lemma good_init s1 : good s1 -> initialising sg L s h s1.
Proof.
  intros (H1 & H2 & H3 & H4). split; [exact (later_trans _ _ _ L0 H3)|]. split; [exact H2|]. split; [exact (TypeBasicFacts.same_trans _ _ _ S0 H4)|].
  destruct (sa_inst _ _ H4 _ _ Hmi) as (x & E & <-). exists mi. split; [exact E|]. exact (instance_later _ _ _ _ H4 HI).
Qed.
Lemma run_init code s1 : good s1 -> init_code L s1 code -> code_ok code -> Forall flat code -> typed_seq ctx code [] [] ->
  outcome (run_expr F host n code 0 (mkmach s1 [] [] [fr])).
Proof.
  intros G IC CO FL TS. pose proof (good_init s1 G) as GI. destruct G as (G1 & G2 & G3 & G4). rewrite run_expr_from. change (mkmach s1 [] [mklabel 1 1 0 KBlock code 0] [fr]) with (init_at s1 h code).
  assert (HR : running (sg := sg) (mkending [] fr) (init_at s1 h code)).
  { split; [|split; [exact G2|]].
    - constructor; cbn [init_at k_store k_value k_frame k_label]; [exact G1|constructor|repeat constructor|constructor; [exact CO|constructor]].
    - exists ctx. cbn [init_at k_store k_value k_frame k_label]. apply (k_init s1 (mkending [] fr) ctx _ fr [] [] []); cbn [lb_carry lb_value lb_index lb_instr skipn app en_types]; try assumption; try reflexivity; [|lia|apply outermost_self].
      destruct GI as (_ & _ & _ & mi' & E1 & E2). exists h, mi'. split; [reflexivity|]. split; [exact E1|]. split; [exact E2|reflexivity]. }
  pose proof (evaluate_typed F CF host HB HH _ n _ HR) as EV. 
  pose proof (s_evaluate s0 F host HB n (init_at s1 h code)) as SE.
  unfold bind at 1. destruct (evaluate F host n (init_at s1 h code)) as [[u|e] m1] eqn:EE.
  2:{ destruct EV as (E1 & E2 & m2 & i & fr' & E3 & E4 & E5 & E6). split; [exact E1|]. split; [exact (TypeBasicFacts.same_trans _ _ _ G4 E2)|]. eapply stops_trap; eassumption. }
  destruct EV as [(M1 & T1 & C & K) S1]. cbn [init_at k_store] in S1.
  destruct (k_label m1) as [|lb LS] eqn:EL.
  - destruct (kont_done _ _ _ _ _ K) as (TV & fr' & EF & L' & -> & TL). cbn [en_types en_frame fr_locals map] in *. apply map_eq_nil in TV, TL. subst L'.
    destruct m1 as [s2 V LS FS]. cbn [k_store k_value k_frame k_label] in *. subst V LS FS. exists s2. split; [reflexivity|].
    split; [exact (mo_store _ M1)|]. split; [exact T1|]. split; [|exact (TypeBasicFacts.same_trans _ _ _ G4 S1)].
    apply (SE (conj (proj1 HR) G3)).
  - destruct u.
    assert (ST : init_stops F host sg n L s EAssert m1) by (eapply stops_limit; try eassumption; congruence).
    unfold mget, bind, assert, lift, py_assert. rewrite EL. cbn [length Nat.eqb]. destruct (Nat.eqb (length (k_frame m1)) 1); (split; [exact T1|]; split; [exact (TypeBasicFacts.same_trans _ _ _ G4 S1)|exact ST]).
Qed.
(* the code is typed *)
Lemma const_weaken o args t : In o const_ops -> typed_inst (const_ctx md) (IOp o args) [] [t] -> typed_inst ctx (IOp o args) [] [t].
Proof.
  intros Ho H. inversion H; subst; try (cbn [const_ops In] in Ho; repeat (destruct Ho as [Ho|Ho]; [discriminate Ho|]); contradiction).
  - destruct ins as [|x ins]; [eapply (t_pure _ o args []); eassumption|].
    exfalso. match goal with H : rev (_ :: _) = [] |- _ => cbn [rev] in H; destruct (rev ins); discriminate H end.
  - exfalso. cbn [const_ops In] in Ho. repeat (destruct Ho as [<-|Ho]; [discriminate|]); contradiction.
  - eapply t_global_get. cbn [module_ctx c_globs]. apply nth_app_l. eassumption.
  - apply t_ref_null. assumption.
  - eapply t_ref_func. eassumption.
Qed.
Lemma const_flat o : In o const_ops -> is_control o = false.
Proof. intros Ho. cbn [const_ops In] in Ho. repeat (destruct Ho as [<-|Ho]; [reflexivity|]). contradiction. Qed.
Lemma seq_const e rest t T out : const_typed md e t -> typed_seq ctx rest (t :: T) out -> typed_seq ctx (e ++ rest) T out.
Proof.
  intros [(o & args & -> & Ho) HT] HR. apply typed_rest in HT. destruct HT as (A & B & R & E & HI' & HE). symmetry in E. apply app_eq_nil in E. destruct E as [-> ->].
  apply typed_end in HE. rewrite app_nil_r in HE. subst B. cbn [app]. apply (t_cons _ _ _ [] [t] T); [apply const_weaken; assumption|exact HR].
Qed.
Lemma seq_i32 c rest T out : 0 <= c < 2 ^ 31 -> typed_seq ctx rest (T_i32 :: T) out -> typed_seq ctx (IOp O_i32_const [AInt c] :: rest) T out.
Proof.
  intros Hc HR. apply (t_cons _ _ _ [] [T_i32] T); [|exact HR]. apply (t_pure _ O_i32_const _ []); [reflexivity|]. exists c. split; [reflexivity|].
  unfold srange. change (2 ^ (32 - 1)) with (2 ^ 31). lia.
Qed.
Lemma const_code e rest : constant e -> Forall flat rest -> Forall flat (e ++ rest).
Proof. intros (o & args & -> & Ho) H. constructor; [left; apply const_flat, Ho|exact H]. Qed.

Lemma forl_outcome {A} (f : A -> M unit) l : (forall x s1, In x l -> good s1 -> outcome (f x (mkmach s1 [] [] [fr]))) ->
  forall s1, good s1 -> outcome (forl f l (mkmach s1 [] [] [fr])).
Proof.
  induction l as [|x l IH]; intros H s1 G; [exists s1; split; [reflexivity|exact G]|]. cbn [forl]. unfold bind.
  pose proof (H x s1 (or_introl eq_refl) G) as Hx. destruct (f x (mkmach s1 [] [] [fr])) as [[u|e] m1]; [|exact Hx].
  destruct Hx as (s2 & -> & G2). apply IH; [|exact G2]. intros y s3 Hy. apply H. right. exact Hy.
Qed.
Lemma elem_loop_outcome s1 : good s1 -> outcome (elem_loop F host n (enum (md_elem md)) (mkmach s1 [] [] [fr])).
Proof.
  apply forl_outcome. intros [i e] s2 Hin G. rewrite even_land. destruct (Z.even (ed_kind e)) eqn:EV; cbn [negb]; [|exists s2; split; [reflexivity|exact G]].
  apply in_enum in Hin. destruct Hin as (j & -> & Hj). destruct (nth_Forall _ _ _ _ (vm_elem _ VM) Hj) as (V1 & V2 & V3 & V4). destruct (V4 EV) as [V5 V6]. apply item_at in V6. destruct V6 as [V6 V7].
  apply run_init; [exact G|exact (init_elem L s2 j e Hj EV)| | |]; unfold elem_code.
  - apply Forall_app. split; [|repeat (constructor; [plain_op|]); constructor]. destruct DO as (_ & _ & _ & D4 & _). exact (proj1 (nth_Forall _ _ _ _ D4 Hj)).
  - apply const_code; [apply V5|]. repeat constructor; left; reflexivity.
  - apply (seq_const _ _ T_i32); [exact V5|]. apply seq_i32; [lia|]. apply seq_i32; [unfold len in *; lia|].
    assert (N : nth_error (c_elems ctx) j = Some (ed_type e)) by (cbn [module_ctx c_elems]; rewrite nth_error_map, Hj; reflexivity).
    apply (t_cons _ _ _ [T_i32; T_i32; T_i32] [] []).
    + rewrite V6. apply (t_table_init _ j (Z.to_nat (ed_tidx e)) (ed_type e)); [exact N|exact V7].
    + apply (t_cons _ _ _ [] [] []); [|constructor]. eapply (t_elem_drop _ j). exact N.
Qed.
Lemma drop_loop_outcome s1 : good s1 -> outcome (drop_loop F host n (enum (md_elem md)) (mkmach s1 [] [] [fr])).
Proof.
  apply forl_outcome. intros [i e] s2 Hin G. destruct (Z.eqb_spec (Z.land (ed_kind e) 3) 3) as [EV|EV]; cbn [negb]; [|exists s2; split; [reflexivity|exact G]].
  apply in_enum in Hin. destruct Hin as (j & -> & Hj).
  assert (OD : Z.even (ed_kind e) = false).
  { rewrite <- even_land. apply Z.eqb_neq. intros E. assert (X : Z.land (Z.land (ed_kind e) 3) 1 = 1) by (rewrite EV; reflexivity).
    rewrite <- Z.land_assoc in X. change (Z.land 3 1) with 1 in X. lia. }
  apply run_init; [exact G|exact (init_drop L s2 j e Hj OD)| | |].
  - repeat (constructor; [plain_op|]). constructor.
  - repeat constructor; left; reflexivity.
  - apply (t_cons _ _ _ [] [] []); [|constructor]. eapply (t_elem_drop _ j). cbn [module_ctx c_elems]. rewrite nth_error_map, Hj. reflexivity.
Qed.
Lemma data_loop_outcome s1 : good s1 -> outcome (data_loop F host n (combine (py_range (len (md_data md))) (combine (md_data md) (l_blob L))) (mkmach s1 [] [] [fr])).
Proof.
  apply forl_outcome. intros [i [d b]] s2 Hin G. rewrite even_land. destruct (Z.even (dd_kind d)) eqn:EV; cbn [negb]; [|exists s2; split; [reflexivity|exact G]].
  replace (len (md_data md)) with (len (combine (md_data md) (l_blob L))) in Hin by (unfold len; rewrite combine_length, (proj1 BL); f_equal; apply PeanoNat.Nat.min_id).
  apply in_enum in Hin. destruct Hin as (j & -> & Hj). apply combine_nth_error in Hj. destruct Hj as [Hj Hb].
  destruct (nth_Forall _ _ _ _ (vm_data _ VM) Hj) as (V1 & V2). destruct (V2 EV) as [V3 V4].
  rewrite (bind_do mget _ (mkmach s2 [] [] [fr]) (mkmach s2 [] [] [fr]) (mkmach s2 [] [] [fr]) eq_refl). cbn [k_store].
  assert (SZ : len (nth b (s_blob s2) []) < 2 ^ 31).
  { destruct BL as (_ & _ & B3). destruct (nth_Forall _ _ _ _ B3 Hb) as (x & Hx & Hl). destruct G as (_ & _ & G3 & _). destruct (lt_blob _ _ G3 _ _ Hx) as (y & Hy & [-> | ->]).
    - rewrite (nth_error_nth _ _ _ Hy). exact Hl.
    - rewrite (nth_error_nth _ _ _ Hy). cbn. lia. }
  apply run_init; [exact G|exact (init_data L s2 j d b Hj EV Hb)| | |]; unfold data_code.
  - apply Forall_app. split; [|repeat (constructor; [plain_op|]); constructor]. destruct DO as (_ & _ & _ & _ & D5). exact (proj1 (nth_Forall _ _ _ _ D5 Hj)).
  - apply const_code; [apply V3|]. repeat constructor; left; reflexivity.
  - assert (N : (j < c_datas ctx)%nat) by (cbn [module_ctx c_datas]; apply nth_error_Some; congruence).
    apply (seq_const _ _ T_i32); [exact V3|]. apply seq_i32; [lia|]. apply seq_i32; [unfold len in *; lia|].
    apply (t_cons _ _ _ [T_i32; T_i32; T_i32] [] []); [apply (t_memory_init _ j []); [exact V4|exact N]|].
    apply (t_cons _ _ _ [] [] []); [|constructor]. apply (t_data_drop _ j). exact N.
Qed.
Lemma start_outcome s1 : good s1 -> outcome (start_it F host n (md_star md) (mkmach s1 [] [] [fr])).
Proof.
  intros G. unfold start_it. destruct (md_star md >=? 0) eqn:E; [|exists s1; split; [reflexivity|exact G]].
  destruct (vm_start _ VM) as [V|V]; [lia|]. apply item_at in V. destruct V as [V1 V2].
  apply run_init; [exact G|apply init_start; lia| | |].
  - repeat (constructor; [plain_op|]). constructor.
  - repeat constructor; right; reflexivity.
  - rewrite V1. apply (t_cons _ _ _ [] [] []); [|constructor]. exact (t_call ctx _ _ V2).
Qed.
Lemma init_all_outcome s1 : good s1 ->
  match init_all F host n L h (mkmach s1 [] [] []) with
  | (Ok _, m') => exists s2, m' = mkmach s2 [] [] [] /\ good s2
  | (Err e, m') => store_typed sg (k_store m') /\ same_types s0 (k_store m') /\ init_stops F host sg n L s e m'
  end.
Proof.
  intros G. unfold init_all. rewrite (bind_do (push_frame fr) _ (mkmach s1 [] [] []) tt (mkmach s1 [] [] [fr]) eq_refl).
  pose proof (elem_loop_outcome s1 G) as H. unfold bind at 1. destruct (elem_loop _ _ _ _ _) as [[u|e] m1]; [|exact H]. destruct H as (s2 & -> & G2). clear G s1.
  pose proof (drop_loop_outcome s2 G2) as H. unfold bind at 1. destruct (drop_loop _ _ _ _ _) as [[u1|e] m1]; [|exact H]. destruct H as (s3 & -> & G3). clear G2 s2.
  pose proof (data_loop_outcome s3 G3) as H. unfold bind at 1. destruct (data_loop _ _ _ _ _) as [[u2|e] m1]; [|exact H]. destruct H as (s4 & -> & G4). clear G3 s3.
  pose proof (start_outcome s4 G4) as H. unfold bind at 1. destruct (start_it _ _ _ _ _) as [[u3|e] m1]; [|exact H]. destruct H as (s5 & -> & G5).
  rewrite (bind_do _ _ _ _ _ (pop_push s5 fr)). exists s5. split; [reflexivity|exact G5].
Qed.
End init.

Lemma fits_nonneg s md imps ext : Forall2 (fits s md) imps ext ->
  Forall (fun b => 0 <= Store.e_data b) ext /\ Forall (fun a => forall i, im_desc a = ImpFunc i -> 0 <= i) imps.
Proof.
  induction 1 as [|a b imps ext H _ [I1 I2]]; [split; constructor|]. unfold fits in H. split; constructor; try assumption.
  - destruct (im_desc a); destruct H as (_ & x & [H _] & _); exact H.
  - intros i E. rewrite E in H. destruct H as (_ & x & _ & H & _). exact H.
Qed.
Lemma nth_range {A} (l : list A) i x : nth_error (combine (py_range (len l)) l) i = Some x -> fst x = Z.of_nat i /\ nth_error l i = Some (snd x).
Proof.
  destruct x as [z y]. intros H. apply combine_nth_error in H. destruct H as [H1 H2]. split; [|exact H2]. cbn [fst].
  unfold py_range, len in H1. rewrite Nat2Z.id, nth_error_map in H1. destruct (nth_error (seq 0 (length l)) i) eqn:E; [|discriminate H1]. injection H1 as <-.
  assert (i < length l)%nat by (apply nth_error_Some; cbn [snd] in H2; congruence).
  rewrite (nth_error_nth' _ 0%nat) in E by (rewrite seq_length; assumption). injection E as <-. rewrite seq_nth by assumption. reflexivity.
Qed.
Lemma range_Forall {A} (P : Z * A -> Prop) (l : list A) : (forall i x, nth_error l i = Some x -> P (Z.of_nat i, x)) -> Forall P (combine (py_range (len l)) l).
Proof. intros H. apply Forall_forall. intros [z x] Hin. apply in_enum in Hin. destruct Hin as (j & -> & Hj). apply H, Hj. Qed.

Lemma instance_valid F host sg n L ext s : converts F -> well_behaved host -> host_typed sg host -> store_ok s -> store_typed sg s ->
  desc_ok (l_desc L) -> valid_module (l_desc L) -> blobs_ok s L -> Forall2 (fits s (l_desc L)) (md_imps (l_desc L)) ext ->
  len (s_func s) + len (md_func (l_desc L)) < 2 ^ 31 -> (2 <= n)%nat ->
  match instance F host n L ext (mkmach s [] [] []) with
  | (Ok h, m') => k_value m' = [] /\ k_label m' = [] /\ k_frame m' = [] /\ store_ok (k_store m') /\
      store_typed sg (k_store m') /\ same_types s (k_store m') /\
      exists mi, nth_error (s_inst (k_store m')) h = Some mi /\ instance_typed (k_store m') mi (module_ctx (l_desc L) [] []) /\
        Forall2 (export_of mi) (md_exps (l_desc L)) (m_exps mi)
  | (Err e, m') => store_typed sg (k_store m') /\ same_types s (k_store m') /\ init_stops F host sg n L s e m'
  end.
Proof.
  intros CF HB HH Ok_s Hs DO VM BL IM MANY Hn. rewrite instance_phases. 
  pose proof (Forall2_len _ _ _ IM) as LE. destruct (fits_nonneg _ _ _ _ IM) as [NB NA].
  replace (len (md_imps (l_desc L)) =? len ext) with true by (symmetry; apply Z.eqb_eq; unfold len; congruence).
  rewrite (bind_do (assert true) _ (mkmach s [] [] []) tt (mkmach s [] [] []) eq_refl).
  destruct (checks_run (l_desc L) _ _ (mkmach s [] [] []) LE NB NA) as [[_ EC]|[NE _]]; [|contradiction].
  rewrite (bind_do (check_all (l_desc L) ext) _ _ _ _ EC). rewrite (bind_do mget _ (mkmach s [] [] []) (mkmach s [] [] []) (mkmach s [] [] []) eq_refl). cbv zeta. cbn [k_store].
  destruct (head_runs sg F CF host s Hs Ok_s (l_desc L) ext VM IM MANY n Hn) as (globin & elemin & EH & GI & EI). rewrite (bind_do _ _ _ _ _ EH). cbn [fst snd].
  assert (M0 : machine_ok (mkmach s [] [] [])) by (constructor; cbn; [exact Ok_s|constructor|constructor|constructor]).
  destruct (safe_ok s _ _ _ _ _ (s_head s F host HB n (l_desc L) _ DO) (inv_here _ M0) EH) as [_ [WG WE]]. cbn [fst snd] in WG, WE.
  destruct (imports_at _ _ _ _ IM) as (I0 & I1 & I2 & I3). apply Forall2_len in I0, I1, I2, I3.
  destruct (allocate_runs L ext globin elemin (mkmach s [] [] [])) as (h & m1 & EA).
  - eapply Forall_impl; [|exact (vm_func _ VM)]. intros d (t & [H1 H2] & _). split; [exact H1|]. assert (Z.to_nat (fd_type d) < length (md_type (l_desc L)))%nat by (apply nth_error_Some; congruence). unfold len. lia.
  - eapply Forall_impl; [|exact (vm_tabl _ VM)]. intros t H. apply H.
  - exact (vm_mems _ VM).
  - apply range_Forall. intros i g Hg. cbn [fst snd]. split; [|exact (proj1 (nth_Forall _ _ _ _ (vm_glob _ VM) Hg))].
    destruct (Forall2_nth _ _ _ GI i g Hg) as (v & Hv & _). exists v. apply py_index_nth, Hv.
  - apply range_Forall. intros i e He. cbn [fst snd]. split; [|exact (proj1 (nth_Forall _ _ _ _ (vm_elem _ VM) He))].
    destruct (Forall2_nth _ _ _ EI i e He) as (v & Hv & _). exists v. apply py_index_nth, Hv.
  - assert (LF : length (flat_map (fun d => type_no (l_desc L) (fd_type d)) (md_func (l_desc L))) = length (md_func (l_desc L))).
    { pose proof (vm_func _ VM) as V. clear - V. induction V as [|d l (t & Ht & _) _ IH]; [reflexivity|]. cbn [flat_map]. rewrite app_length, IH. unfold type_no. rewrite (proj2 Ht). reflexivity. }
    eapply Forall_impl; [|exact (vm_exps _ VM)]. cbv beta. intros e [H1 H2]. split; [exact H1|]. cbn [module_ctx c_funcs c_tabls c_mems c_globs] in H2.
    unfold imp_funcs, imp_tabls, imp_mems, imp_globs, len in *. rewrite !app_length, !map_length, ?LF in H2. rewrite <- I0, <- I1, <- I2, <- I3.
    rewrite !Nat2Z.inj_add in H2. exact H2.
  - rewrite (bind_do _ _ _ _ _ EA). destruct (allocate_ok _ _ _ _ _ _ _ EA) as (s0 & mi & fs & ts & ms & gs & es & AL & ->). cbn [k_store] in AL.
    destruct (safe_ok s _ _ _ _ _ (s_allocate s L ext globin elemin DO WG WE) (inv_here _ M0) EA) as [[M1 L1] _]. cbn [set_store k_store] in M1, L1.
    pose proof (alloc_inst _ _ _ _ _ _ _ _ _ _ _ _ _ AL) as NI.
    pose proof (alloc_same _ _ _ _ _ _ _ _ _ _ _ _ _ AL) as SA.
    pose proof (alloc_instance _ _ _ _ _ _ _ _ _ _ _ _ _ AL VM IM GI EI (proj1 BL) [] []) as TI.
    pose proof (alloc_typed sg _ _ _ _ _ _ _ _ _ _ _ _ _ AL VM IM GI EI (proj1 BL) Hs MANY) as T0.
    unfold set_store. cbn [k_value k_label k_frame].
    rewrite (bind_do mget _ (mkmach s0 [] [] []) (mkmach s0 [] [] []) (mkmach s0 [] [] []) eq_refl). cbn [k_store].
    replace (Zs_eqb _ _) with true.
    2:{ symmetry. apply Zs_eqb_eq. rewrite (mod_of_ref _ _ _ NI). rewrite (al_func _ _ _ _ _ _ _ _ _ _ _ _ _ AL). unfold aux_funcs, len. rewrite range_fresh. reflexivity. }
    rewrite (bind_do (assert true) _ (mkmach s0 [] [] []) tt (mkmach s0 [] [] []) eq_refl).
    assert (B0 : blobs_ok s0 L) by (destruct AL; subst s0; exact BL).
    pose proof (init_all_outcome sg F CF host HB HH L s s0 h mi n VM DO L1 SA NI TI B0 s0 (conj (mo_store _ M1) (conj T0 (conj (later_refl _) (TypeBasicFacts.same_refl _))))) as IO.
    unfold bind. destruct (init_all F host n L h (mkmach s0 [] [] [])) as [[u|e] m2].
    + destruct IO as (s2 & -> & G1 & G2 & G3 & G4). cbn [ret k_value k_label k_frame k_store]. split; [reflexivity|]. split; [reflexivity|]. split; [reflexivity|]. split; [exact G1|]. split; [exact G2|].
      split; [exact (TypeBasicFacts.same_trans _ _ _ SA G4)|]. destruct (sa_inst _ _ G4 _ _ NI) as (x & E & <-). exists mi. split; [exact E|]. split; [exact (instance_later _ _ _ _ G4 TI)|].
      exact (al_exps _ _ _ _ _ _ _ _ _ _ _ _ _ AL).
    + destruct IO as (G1 & G2 & G3). split; [exact G1|]. split; [exact (TypeBasicFacts.same_trans _ _ _ SA G2)|exact G3].
Qed.
