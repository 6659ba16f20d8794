(* Instantiation and Runtime.invocate. Specification: SpecInst.v (with SpecRun.v for machines and modules in order). *)
From Coq Require Import ZArith List Bool Lia ZifyBool ZifyNat.
From Verif Require Import Py Arith Floatops Val Opcode Numeric Syntax Store Basic Machine
  SpecInt SpecNum SpecMachine SpecMem SpecRun SpecInst PyFacts RunFacts InstFacts InitFacts.
Import ListNotations.
Open Scope Z_scope.

(* C42: a module whose imports are not all given what they ask for is refused, and nothing has changed. *)
Theorem C42_rejected : forall F host n L ext m,
  plain_imports (l_desc L) ext -> ~ Forall2 (fits (k_store m) (l_desc L)) (md_imps (l_desc L)) ext ->
  exists e, instance F host n L ext m = (Err e, m).
Proof. intros F host n L ext m [H1 H2]. exact (import_rejected F host n L ext m H1 H2). Qed.
Print Assumptions C42_rejected.
(* The check refuses nothing else: modules with nothing to run at instantiation are accepted if the imports fit. *)
Theorem C42_accepted : forall F host n L ext m,
  plain_imports (l_desc L) ext -> simple_module (l_desc L) ext ->
  Forall2 (fits (k_store m) (l_desc L)) (md_imps (l_desc L)) ext ->
  Forall (fun d => active d = false) (md_data (l_desc L)) -> md_star (l_desc L) < 0 ->
  exists h m', instance F host n L ext m = (Ok h, m').
Proof. intros F host n L ext m H1 H2 H3 H4 H5. exact (inst_accept F host n L ext m H2 H1 H3 H4 H5). Qed.
Print Assumptions C42_accepted.

(* C43: imports first, then the module's own objects under unused addresses; see SpecInst.instance_of. *)
Theorem C43_index_spaces : forall F host n L ext m h m',
  well_behaved host -> machine_ok m -> desc_ok (l_desc L) -> instance F host n L ext m = (Ok h, m') ->
  exists mi, instance_of L ext (k_store m) (k_store m') h mi.
Proof. intros F host n L ext m h m' H1 H2 H3 H4. destruct (instance_spec F host n L ext m h m' H1 H2 H3 H4) as (mi & H & _). exists mi. exact H. Qed.
Print Assumptions C43_index_spaces.
(* Allocation adds to the store and changes nothing that was there. *)
Theorem C43_allocation_adds : forall L ext globin elemin m h m',
  allocate L ext globin elemin m = (Ok h, m') -> extends (k_store m) (k_store m').
Proof. exact allocate_extends. Qed.
Print Assumptions C43_allocation_adds.
(* So does instantiation, if no segment is to be copied or dropped and there is no start function. *)
Theorem C43_instantiation_adds : forall F host n L ext s h m', constants (l_desc L) ->
  Forall (fun e => Z.land (ed_kind e) 1 <> 0 /\ Z.land (ed_kind e) 3 <> 3) (md_elem (l_desc L)) ->
  Forall (fun d => active d = false) (md_data (l_desc L)) -> md_star (l_desc L) < 0 ->
  instance F host n L ext (mkmach s [] [] []) = (Ok h, m') -> extends s (k_store m').
Proof. exact inst_extends. Qed.
Print Assumptions C43_instantiation_adds.

(* C44: the exports are those of the module, in order, with the address their index has in the instance. *)
Theorem C44_exports : forall F host n L ext m h m',
  well_behaved host -> machine_ok m -> desc_ok (l_desc L) -> instance F host n L ext m = (Ok h, m') ->
  exists mi, nth_error (s_inst (k_store m')) h = Some mi /\ length (m_exps mi) = length (md_exps (l_desc L)) /\
    forall i e, nth_error (md_exps (l_desc L)) i = Some e -> exists x, nth_error (m_exps mi) i = Some x /\
      ei_name x = ex_name e /\ e_kind (ei_data x) = ex_kind e /\ 0 <= ex_kind e <= 3 /\
      (0 <= ex_desc e -> item (space mi (ex_kind e)) (ex_desc e) (e_data (ei_data x))).
Proof.
  intros F host n L ext m h m' H1 H2 H3 H4. destruct (instance_spec F host n L ext m h m' H1 H2 H3 H4) as (mi & Hi & Hx).
  exists mi. split; [apply (io_inst _ _ _ _ _ _ Hi)|]. split; [clear -Hx; induction Hx; cbn; congruence|].
  intros i e He. destruct (Forall2_nth _ _ _ Hx i e He) as (x & Hn & X1 & X2 & X3 & X4). exists x.
  split; [assumption|]. split; [assumption|]. split; [assumption|]. split; [assumption|]. intros Hd. apply py_index_item; assumption.
Qed.
Print Assumptions C44_exports.

(* C45: if instantiation succeeds then the memory is the imported or new one with the active segments written to it in
   order, every one of them fitting, and the bytearrays of the active segments are empty. Here [a] is the address of the
   memory and [mem] what is there before the segments are written. *)
Theorem C45_active_data : forall F host n L ext s h m',
  well_behaved host -> store_ok s -> desc_ok (l_desc L) -> constants (l_desc L) -> md_star (l_desc L) < 0 -> blobs_ok s L ->
  (5 < n)%nat -> instance F host n L ext (mkmach s [] [] []) = (Ok h, m') ->
  exists mi, nth_error (s_inst (k_store m')) h = Some mi /\
    forall a mem, nth_error (m_mems mi) 0 = Some (Z.of_nat a) ->
      nth_error (s_mems s ++ map new_memory (md_mems (l_desc L))) a = Some mem ->
      (forall e, In e (md_data (l_desc L)) -> active e = true -> exists c, offset_of (global_value (k_store m') mi) (dd_offset e) = Some c) ->
      exists d', write_all (segments (global_value (k_store m') mi) (s_blob s) (combine (md_data (l_desc L)) (l_blob L))) (mi_data mem) = Some d' /\
        s_mems (k_store m') = upd (s_mems s ++ map new_memory (md_mems (l_desc L))) a (mkmem (mi_type mem) d' (mi_size mem)) /\
        emptied (combine (md_data (l_desc L)) (l_blob L)) (s_blob s) (s_blob (k_store m')).
Proof.
  intros F host n L ext s h m' H1 H2 H3 H4 H5 H6 H7 H8. destruct (inst_data F host n L ext s h m' H1 H2 H3 H4 H5 H6 H7 H8) as (mi & P1 & _ & _ & _ & P2).
  exists mi. split; [exact P1|exact P2].
Qed.
Print Assumptions C45_active_data.
(* For modules without globals, element segments and start function: instantiation succeeds if and only if every active
   segment fits. *)
Theorem C45_fits_or_raises : forall F host n L ext s a mem,
  simple_module (l_desc L) ext -> plain_imports (l_desc L) ext -> Forall2 (fits s (l_desc L)) (md_imps (l_desc L)) ext ->
  store_ok s -> md_star (l_desc L) < 0 -> blobs_ok s L -> (5 < n)%nat ->
  nth_error (imported 2 ext ++ fresh (length (s_mems s)) (length (md_mems (l_desc L)))) 0 = Some (Z.of_nat a) ->
  nth_error (s_mems s ++ map new_memory (md_mems (l_desc L))) a = Some mem ->
  (forall e, In e (md_data (l_desc L)) -> active e = true -> exists c, offset_of (imported_value s ext) (dd_offset e) = Some c) ->
  match write_all (segments (imported_value s ext) (s_blob s) (combine (md_data (l_desc L)) (l_blob L))) (mi_data mem) with
  | Some d' => exists s', instance F host n L ext (mkmach s [] [] []) = (Ok (length (s_inst s)), mkmach s' [] [] []) /\
      s_mems s' = upd (s_mems s ++ map new_memory (md_mems (l_desc L))) a (mkmem (mi_type mem) d' (mi_size mem)) /\
      s_glob s' = s_glob s /\ emptied (combine (md_data (l_desc L)) (l_blob L)) (s_blob s) (s_blob s') /\
      length (s_inst s') = S (length (s_inst s))
  | None => exists e m', instance F host n L ext (mkmach s [] [] []) = (Err e, m')
  end.
Proof. intros F host n L ext s a mem H1 [H2 H3] H4 H5 H6 H7 H8 H9 H10 H11. exact (inst_exact F host n L ext s a mem H1 H2 H3 H4 (so_glob _ H5) H6 H7 H8 H9 H10 H11). Qed.
Print Assumptions C45_fits_or_raises.

(* C46 (part): what instantiation writes to the memory of a module that was just loaded depends on the module alone,
   not on what happened before. Missing: this holds for the first instantiation after loading only, see below. *)
Theorem C46_fresh_copy_partial : forall F host n md mt ext s L m1 h m',
  well_behaved host -> store_ok s -> desc_ok md -> constants md -> md_star md < 0 -> (5 < n)%nat ->
  Forall (fun d => len (dd_init d) < 2 ^ 31) (md_data md) ->
  (forall e, In e (md_data md) -> active e = true -> exists c, offset_of (fun _ => None) (dd_offset e) = Some c) ->
  imported 2 ext = [] -> md_mems md = [mt] ->
  load_module md (mkmach s [] [] []) = (Ok L, m1) -> instance F host n L ext m1 = (Ok h, m') ->
  exists x, nth_error (s_mems (k_store m')) (length (s_mems s)) = Some x /\
    write_all (own_segments md) (repeat 0 (Z.to_nat (65536 * l_n mt))) = Some (mi_data x).
Proof. exact fresh_copy. Qed.
Print Assumptions C46_fresh_copy_partial.

(* A module with one page of memory and one active segment, the byte 7 at address 5. *)
Definition ex_data : moddesc := mkmd [] [] [] [mklim 1 0] [] [] [mkdd 0 0 [IOp O_i32_const [AInt 5]] [7]] (-1) [] [].
Lemma ex_data_ok : desc_ok ex_data /\ constants ex_data /\ simple_module ex_data [] /\ plain_imports ex_data [].
Proof.
  split; [|split; [|split]].
  - repeat constructor; unfold not; cbn; intros; intuition (try discriminate); subst; try discriminate.
  - split; [constructor|]. split; [constructor|]. split; [constructor|]. constructor; [|constructor]. intros _. exists O_i32_const, [AInt 5]. split; [reflexivity|left; reflexivity].
  - split; [constructor|]. split; [constructor|]. split; [|split; [reflexivity|split; [reflexivity|constructor]]]. constructor; [|constructor]. cbn. unfold sound_limits. cbn. lia.
  - split; constructor.
Qed.
Lemma write_at (d : list Z) c v : 0 <= c < len d -> exists d', write_all [(c, [v])] d = Some d' /\ nth_error d' (Z.to_nat c) = Some v.
Proof.
  intros H. cbn [write_all]. change (len [v]) with 1. destruct (Z.leb_spec (c + 1) (len d)); [|lia]. eexists. split; [reflexivity|].
  unfold len in *. rewrite nth_error_app2 by (rewrite firstn_length; lia). rewrite firstn_length, PeanoNat.Nat.min_l by lia. rewrite PeanoNat.Nat.sub_diag. reflexivity.
Qed.
Lemma write_far (d : list Z) c v : len d <= c -> write_all [(c, [v])] d = None.
Proof. intros H. cbn [write_all]. change (len [v]) with 1. destruct (Z.leb_spec (c + 1) (len d)); [lia|reflexivity]. Qed.
Lemma blank_len n : 0 <= n -> len (repeat 0 (Z.to_nat n)) = n.
Proof. intros H. unfold len. rewrite repeat_length. lia. Qed.
Lemma blank_at n k : (k < n)%nat -> nth_error (repeat 0 n) k = Some 0.
Proof. revert k. induction n as [|n IH]; intros [|k] H; try lia; [reflexivity|]. cbn. apply IH. lia. Qed.
(* Once it is loaded, instantiate it two times: byte 5 of the first instance's memory is 7, of the second's 0, because
   dropping the segment after the first instantiation empties the bytearray of the module description. *)
Theorem C46_twice_refuted : forall F host, exists md L m0 h1 m1 h2 m2 x1 x2,
  desc_ok md /\ load_module md machine_empty = (Ok L, m0) /\
  instance F host 6 L [] m0 = (Ok h1, m1) /\ instance F host 6 L [] m1 = (Ok h2, m2) /\
  nth_error (s_mems (k_store m2)) 0 = Some x1 /\ nth_error (s_mems (k_store m2)) 1 = Some x2 /\
  nth_error (mi_data x1) 5 = Some 7 /\ nth_error (mi_data x2) 5 = Some 0.
Proof.
  intros F host. destruct ex_data_ok as (D1 & D2 & D3 & D4).
  set (s0 := set_s_blob (k_store machine_empty) [[7]]). set (L := mkloaded ex_data [0%nat]).
  assert (OK0 : store_ok s0) by (split; repeat constructor; lia).
  assert (B0 : blobs_ok s0 L).
  { split; [reflexivity|]. split; [repeat constructor; intros []|]. constructor; [|constructor]. exists [7]. split; [reflexivity|]. cbn. lia. }
  assert (Ho : forall s e, In e (md_data ex_data) -> active e = true -> exists c, offset_of (imported_value s []) (dd_offset e) = Some c).
  { intros s e [<-|[]] _. exists 5. reflexivity. }
  pose proof (C45_fits_or_raises F host 6 L [] s0 0 (new_memory (mklim 1 0)) D3 D4 ltac:(constructor) OK0 ltac:(reflexivity) B0 ltac:(lia) eq_refl eq_refl (Ho s0)) as P.
  change (segments (imported_value s0 []) (s_blob s0) (combine (md_data (l_desc L)) (l_blob L))) with [(5, [7])] in P.
  destruct (write_at (mi_data (new_memory (mklim 1 0))) 5 7) as (d1 & W1 & W2).
  { cbn [new_memory mi_data l_n]. rewrite blank_len; lia. }
  rewrite W1 in P. destruct P as (s1 & E1 & M1 & G1 & Em1 & I1).
  assert (Hb : s_blob s1 = [[]]).
  { assert (K : forall k, nth_error (s_blob s1) k = nth_error [[]] k).
    { intros k. rewrite Em1. cbn [L l_desc l_blob ex_data md_data combine existsb active]. change (active _) with true. cbn [andb orb].
      destruct k as [|k]; [reflexivity|]. cbn. destruct k; reflexivity. }
    destruct (s_blob s1) as [|y [|z r]]; [specialize (K 0%nat); discriminate K|specialize (K 0%nat); cbn in K; congruence|specialize (K 1%nat); discriminate K]. }
  assert (B1 : blobs_ok s1 L).
  { split; [reflexivity|]. split; [repeat constructor; intros []|]. constructor; [|constructor]. exists []. rewrite Hb. split; [reflexivity|]. cbn. lia. }
  assert (Hm1 : s_mems s1 = [mkmem (mklim 1 0) d1 1]) by exact M1.
  pose proof (inst_exact F host 6 L [] s1 1 (new_memory (mklim 1 0)) D3 (proj1 D4) (proj2 D4) ltac:(constructor) ltac:(rewrite G1; constructor) ltac:(reflexivity) B1 ltac:(lia)) as P.
  rewrite Hm1, Hb in P. specialize (P eq_refl eq_refl (Ho s1)).
  change (segments (imported_value s1 []) [[]] (combine (md_data (l_desc L)) (l_blob L))) with [(5, @nil Z)] in P.
  assert (W3 : write_all [(5, @nil Z)] (mi_data (new_memory (mklim 1 0))) = Some (repeat 0 (Z.to_nat 65536))).
  { cbn [write_all new_memory mi_data l_n]. change (65536 * 1) with 65536. change (len (@nil Z)) with 0. rewrite blank_len by lia. destruct (Z.leb_spec (5 + 0) 65536); [|lia].
    rewrite app_nil_l, Z.add_0_r, firstn_skipn. reflexivity. }
  rewrite W3 in P. destruct P as (s2 & E2 & M2 & _).
  exists ex_data, L, (mkmach s0 [] [] []), (length (s_inst s0)), (mkmach s1 [] [] []), (length (s_inst s1)), (mkmach s2 [] [] []).
  exists (mkmem (mklim 1 0) d1 1), (mkmem (mklim 1 0) (repeat 0 (Z.to_nat 65536)) 1).
  split; [exact D1|]. split; [reflexivity|]. split; [exact E1|]. split; [exact E2|]. cbn [k_store]. rewrite M2.
  split; [reflexivity|]. split; [reflexivity|]. split; [exact W2|]. cbn [mi_data]. apply blank_at. lia.
Qed.
Print Assumptions C46_twice_refuted.

(* C25: "no other segment is affected" is false between two instances of a loaded module: a module with one passive
   segment, the byte 7, instantiated twice. Dropping the segment in the first instance empties that of the second. *)
Theorem C25_drop_refuted : forall F host, exists md L m0 m1 m2 a1 a2 b bs,
  desc_ok md /\ load_module md machine_empty = (Ok L, m0) /\
  instance F host 6 L [] m0 = (Ok 0%nat, m1) /\ instance F host 6 L [] m1 = (Ok 1%nat, m2) /\
  m_data (mod_of (k_store m2) (MRef 0)) = [a1] /\ m_data (mod_of (k_store m2) (MRef 1)) = [a2] /\ a1 <> a2 /\
  item (s_data (k_store m2)) a2 b /\ nth_error (s_blob (k_store m2)) b = Some [7] /\
  exec_basic F (MRef 0) O_data_drop [AInt 0] (mkb (k_store m2) [] []) = (Ok tt, bs) /\
  item (s_data (b_store bs)) a2 b /\ nth_error (s_blob (b_store bs)) b = Some [].
Proof.
  intros F host. exists (mkmd [] [] [] [] [] [] [mkdd 1 0 [] [7]] (-1) [] []). do 3 eexists. eexists _, 0, 1, 0%nat. eexists.
  split; [repeat constructor; lia|]. split; [reflexivity|]. split; [vm_compute; reflexivity|]. split; [vm_compute; reflexivity|]. split; [reflexivity|]. split; [reflexivity|]. split; [discriminate|].
  split; [split; [lia|reflexivity]|]. split; [reflexivity|]. split; [vm_compute; reflexivity|]. split; [split; [lia|reflexivity]|]. reflexivity.
Qed.
Print Assumptions C25_drop_refuted.

(* C47 (part): Runtime.invocate raises and changes nothing if the name is not exported or the function found under the
   name takes another number of arguments. Missing: the kind of the export is not looked at, see below. *)
Theorem C47_invocate_checked_partial : forall F host n h nm args m mi,
  nth_error (s_inst (k_store m)) h = Some mi -> Forall (fun x => 0 <= e_data (ei_data x)) (m_exps mi) ->
  (forall x f, In x (m_exps mi) -> ei_name x = nm -> item (s_func (k_store m)) (e_data (ei_data x)) f ->
     length args <> length (ft_args (fi_type f))) ->
  exists e, rt_invocate F host n h nm args m = (Err e, m).
Proof. exact invocate_rejects. Qed.
Print Assumptions C47_invocate_checked_partial.
(* A module with a function returning 42, which is not exported, and a global exported under the name "g": invoking "g"
   runs the function, as both have address 0. *)
Theorem C47_kind_refuted : forall F host, exists md L m0 m1 m2 mi x,
  desc_ok md /\ load_module md machine_empty = (Ok L, m0) /\ instance F host 6 L [] m0 = (Ok 0%nat, m1) /\
  nth_error (s_inst (k_store m1)) 0 = Some mi /\ m_exps mi = [x] /\ ei_name x = [103] /\ e_kind (ei_data x) = 3 /\
  rt_invocate F host 6 0 [103] [] m1 = (Ok [PInt 42], m2).
Proof.
  intros F host. exists (mkmd [mkft [] [T_i32]] [mkfd 0 [] [IOp O_i32_const [AInt 42]]] [] []
    [mkgd (mkgt T_i32 0) [IOp O_i32_const [AInt 5]]] [] [] (-1) [] [mkexp [103] 3 0]).
  do 6 eexists. split; [repeat constructor; unfold not; cbn; intros; intuition (try discriminate); subst; try discriminate|].
  split; [reflexivity|]. split; [vm_compute; reflexivity|]. split; [reflexivity|]. split; [reflexivity|]. split; [reflexivity|]. split; [reflexivity|]. vm_compute. reflexivity.
Qed.
Print Assumptions C47_kind_refuted.

(* A module with one imported and one own function, a table and a memory, all exported; a host function of the right and
   one of a wrong type; what becomes of instantiation. *)
Definition ex_module : moddesc := mkmd [mkft [T_i32] []; mkft [] [T_i32]] [mkfd 1 [] [IOp O_i32_const [AInt 3]]]
  [mktt T_func (mklim 2 0)] [mklim 0 4] [] [] [mkdd 1 0 [] [7]] (-1) [mkimp [101] [102] (ImpFunc 0)]
  [mkexp [97] 0 1; mkexp [98] 0 0; mkexp [99] 1 0; mkexp [100] 2 0].
Definition ex_start : machine := snd (rt_allocate_func_host (mkft [T_i32] []) 0 (snd (rt_allocate_func_host (mkft [] []) 0
  (snd (load_module ex_module machine_empty))))).
Definition ex_loaded : loaded := mkloaded ex_module [0%nat].
Example C42_accepted_used : forall F host n, exists h m', instance F host n ex_loaded [mkext 0 1] ex_start = (Ok h, m').
Proof.
  intros F host n. apply C42_accepted.
  - split; [repeat constructor; cbn; lia|]. constructor; [|constructor]. intros i E. injection E as <-. lia.
  - unfold simple_module, sound_limits. cbn [l_desc ex_loaded ex_module md_type md_func md_tabl md_mems md_glob md_elem md_exps].
    split; [repeat constructor; cbn; lia|]. split; [repeat constructor; cbn; lia|]. split; [repeat constructor; cbn; lia|]. split; [reflexivity|]. split; [reflexivity|].
    constructor; [left; cbn; lia|]. constructor; [left; cbn; lia|]. constructor; [right; left; cbn; lia|]. constructor; [right; right; left; cbn; lia|constructor].
  - constructor; [|constructor]. split; [reflexivity|]. eexists. split; [split; [cbn; lia|reflexivity]|]. split; [lia|reflexivity].
  - repeat constructor.
  - reflexivity.
Qed.
Example C42_rejected_used : forall F host n, exists e, instance F host n ex_loaded [mkext 0 0] ex_start = (Err e, ex_start).
Proof.
  intros F host n. apply C42_rejected.
  - split; [repeat constructor; cbn; lia|]. constructor; [|constructor]. intros i E. injection E as <-. lia.
  - intros H. inversion H as [|? ? ? ? H1 _]; subst. destruct H1 as (_ & f & [_ H1] & [_ H2]). cbn in H1. injection H1 as <-. discriminate H2.
Qed.
Lemma ex_module_ok : desc_ok ex_module.
Proof. repeat constructor; unfold not; cbn; intros; intuition (try discriminate); subst; try discriminate. Qed.
Lemma ex_start_ok : machine_ok ex_start.
Proof. split; [split; repeat constructor; lia|constructor..]. Qed.
Definition host0 : hostcode := fun _ _ m => (Ok [], m).
Lemma host0_ok : well_behaved host0.
Proof. apply (idle_host []). constructor. Qed.
Example C43_used : forall F n h m', instance F host0 n ex_loaded [mkext 0 1] ex_start = (Ok h, m') ->
  exists mi, instance_of ex_loaded [mkext 0 1] (k_store ex_start) (k_store m') h mi /\ m_func mi = [1; 2] /\ extends (k_store ex_start) (k_store m').
Proof.
  intros F n h m' E. destruct (C43_index_spaces F host0 n ex_loaded _ ex_start h m' host0_ok ex_start_ok ex_module_ok E) as (mi & Hi). exists mi.
  split; [exact Hi|]. split; [exact (proj1 (io_func _ _ _ _ _ _ Hi))|].
  apply (C43_instantiation_adds F host0 n ex_loaded [mkext 0 1] (k_store ex_start) h m'); [|constructor|repeat constructor|reflexivity|exact E].
  split; [constructor|]. split; [constructor|]. split; [constructor|]. constructor; [discriminate|constructor].
Qed.
Example C44_used : forall F n h m', instance F host0 n ex_loaded [mkext 0 1] ex_start = (Ok h, m') ->
  exists mi x, nth_error (s_inst (k_store m')) h = Some mi /\ nth_error (m_exps mi) 0 = Some x /\ ei_name x = [97] /\ item (m_func mi) 1 (e_data (ei_data x)).
Proof.
  intros F n h m' E. destruct (C44_exports F host0 n ex_loaded _ ex_start h m' host0_ok ex_start_ok ex_module_ok E) as (mi & Hi & _ & Hx).
  destruct (Hx 0%nat _ eq_refl) as (x & X1 & X2 & X3 & X4 & X5). exists mi, x. split; [exact Hi|]. split; [exact X1|]. split; [exact X2|]. apply X5. cbn. lia.
Qed.
(* C45 and C46 on the module [ex_data]: its memory has the byte 7 at address 5; with the segment at 65536 it is refused. *)
Definition ex_far : moddesc := mkmd [] [] [] [mklim 1 0] [] [] [mkdd 0 0 [IOp O_i32_const [AInt 65536]] [7]] (-1) [] [].
Example C45_used : forall F host, exists e m', instance F host 6 (mkloaded ex_far [0%nat]) [] (mkmach (set_s_blob (k_store machine_empty) [[7]]) [] [] []) = (Err e, m').
Proof.
  intros F host. set (L := mkloaded ex_far [0%nat]). set (s0 := set_s_blob (k_store machine_empty) [[7]]).
  pose proof (C45_fits_or_raises F host 6 L [] s0 0 (new_memory (mklim 1 0))) as P.
  change (segments (imported_value s0 []) (s_blob s0) (combine (md_data (l_desc L)) (l_blob L))) with [(65536, [7])] in P.
  rewrite (write_far (mi_data (new_memory (mklim 1 0))) 65536 7) in P by (cbn [new_memory mi_data l_n]; rewrite blank_len; lia). apply P; clear P.
  - split; [constructor|]. split; [constructor|]. split; [|split; [reflexivity|split; [reflexivity|constructor]]]. constructor; [|constructor]. cbn. unfold sound_limits. cbn. lia.
  - split; constructor.
  - constructor.
  - split; repeat constructor; lia.
  - reflexivity.
  - split; [reflexivity|]. split; [repeat constructor; intros []|]. constructor; [|constructor]. exists [7]. split; [reflexivity|]. cbn. lia.
  - lia.
  - reflexivity.
  - reflexivity.
  - intros e [<-|[]] _. exists 65536. reflexivity.
Qed.
Example C46_used : forall F s L m1 h m', store_ok s -> load_module ex_data (mkmach s [] [] []) = (Ok L, m1) -> instance F host0 6 L [] m1 = (Ok h, m') ->
  exists x, nth_error (s_mems (k_store m')) (length (s_mems s)) = Some x /\ nth_error (mi_data x) 5 = Some 7.
Proof.
  intros F s L m1 h m' Hs E1 E2. destruct ex_data_ok as (D1 & D2 & _).
  destruct (C46_fresh_copy_partial F host0 6 ex_data (mklim 1 0) [] s L m1 h m') as (x & X1 & X2); try assumption; try reflexivity; try lia.
  - exact host0_ok.
  - repeat constructor; cbn; lia.
  - intros e [<-|[]] _. exists 5. reflexivity.
  - exists x. split; [exact X1|]. destruct (write_at (repeat 0 (Z.to_nat (65536 * 1))) 5 7) as (d & W1 & W2); [rewrite blank_len; lia|].
    change (own_segments ex_data) with [(5, [7])] in X2. cbn [l_n] in X2. rewrite W1 in X2. injection X2 as <-. exact W2.
Qed.
Example C47_used : forall F host n, exists m1, instance F host n ex_loaded [mkext 0 1] ex_start = (Ok 0%nat, m1) /\
  exists e, rt_invocate F host n 0 [97] [PInt 1] m1 = (Err e, m1).
Proof.
  intros F host n. eexists. split; [vm_compute; reflexivity|].
  eapply C47_invocate_checked_partial; [reflexivity|repeat constructor; cbn; lia|].
  intros x f Hin Hn [_ Hf]. cbn [m_exps In] in Hin. destruct Hin as [<-|[<-|[<-|[<-|[]]]]]; try discriminate Hn.
  cbn in Hf. apply (f_equal (fun o => match o with Some f => length (ft_args (fi_type f)) | None => 0%nat end)) in Hf. cbn in Hf. rewrite <- Hf. discriminate.
Qed.
