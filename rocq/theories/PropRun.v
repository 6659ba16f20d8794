(* What holds over any number of calls of the interpreter, whatever the programs do. Specification: SpecRun.v. A
   [session] is any sequence of calls of the interpreter's entry points with any modules, arguments and step counts, each
   successful or not; [well_behaved] is what is asked of the host functions. *)
From Coq Require Import ZArith List Bool Lia.
From Verif Require Import Py Arith Floatops Val Opcode Numeric Syntax Store Basic Machine SpecInt SpecNum SpecMachine SpecMem
  SpecRun RunFacts.
Import ListNotations.
Open Scope Z_scope.

(* C21: in every state that a session reaches, every memory has 65536 bytes per page and no more pages than its non-zero
   maximum; as the session goes on the memory stays where it is, keeps its declared type and never gets smaller. *)
Theorem C21_memory_size : forall F host m1 m2 a x,
  well_behaved host -> session F host machine_empty m1 -> session F host m1 m2 ->
  nth_error (s_mems (k_store m1)) a = Some x ->
  len (mi_data x) = 65536 * mi_size x /\ mi_size x <= 65536 /\ (l_m (mi_type x) <> 0 -> mi_size x <= l_m (mi_type x)) /\
  exists x', nth_error (s_mems (k_store m2)) a = Some x' /\
    mi_type x' = mi_type x /\ mi_size x <= mi_size x' /\
    (forall i, i < len (mi_data x) -> i < len (mi_data x')).
Proof. exact run_memory. Qed.
Print Assumptions C21_memory_size.
(* The same from any machine that is in order, not only those reached from the empty one. *)
Theorem C21_memory_size_any : forall F host m1 m2 a x,
  well_behaved host -> machine_ok m1 -> session F host m1 m2 ->
  nth_error (s_mems (k_store m1)) a = Some x ->
  exists x', nth_error (s_mems (k_store m2)) a = Some x' /\
    mi_type x' = mi_type x /\ mi_size x <= mi_size x' /\ len (mi_data x') = 65536 * mi_size x' /\
    (l_m (mi_type x) <> 0 -> mi_size x' <= l_m (mi_type x)).
Proof. exact run_memory_any. Qed.
Print Assumptions C21_memory_size_any.

(* C26: an immutable global keeps its value, and every global its mutability; the global index [i] of the instance [h]
   keeps denoting the same global. *)
Theorem C26_immutable_globals : forall F host m1 m2 a g,
  well_behaved host -> machine_ok m1 -> session F host m1 m2 ->
  nth_error (s_glob (k_store m1)) a = Some g ->
  exists g', nth_error (s_glob (k_store m2)) a = Some g' /\ gi_mut g' = gi_mut g /\ (gi_mut g <> 1 -> gi_data g' = gi_data g).
Proof. exact run_global. Qed.
Print Assumptions C26_immutable_globals.
Theorem C26_index_is_stable : forall F host m1 m2 h mi i a,
  well_behaved host -> machine_ok m1 -> session F host m1 m2 ->
  nth_error (s_inst (k_store m1)) h = Some mi -> nth_error (m_glob mi) i = Some a ->
  exists mi', nth_error (s_inst (k_store m2)) h = Some mi' /\ nth_error (m_glob mi') i = Some a.
Proof. exact run_global_index. Qed.
Print Assumptions C26_index_is_stable.

(* C36: nothing is removed or reordered; functions and instances do not change at all, tables and memories keep their
   types (element type and limits), segments keep their type. *)
Theorem C36_store_is_stable : forall F host m1 m2,
  well_behaved host -> machine_ok m1 -> session F host m1 m2 ->
  let s := k_store m1 in let s' := k_store m2 in
  (forall a x, nth_error (s_func s) a = Some x -> nth_error (s_func s') a = Some x) /\
  (forall a x, nth_error (s_inst s) a = Some x -> nth_error (s_inst s') a = Some x) /\
  (forall a x, nth_error (s_data s) a = Some x -> nth_error (s_data s') a = Some x) /\
  (forall a x, nth_error (s_tabl s) a = Some x -> exists x', nth_error (s_tabl s') a = Some x' /\ ti_type x' = ti_type x) /\
  (forall a x, nth_error (s_mems s) a = Some x -> exists x', nth_error (s_mems s') a = Some x' /\ mi_type x' = mi_type x) /\
  (forall a x, nth_error (s_glob s) a = Some x -> exists x', nth_error (s_glob s') a = Some x' /\ gi_mut x' = gi_mut x) /\
  (forall a x, nth_error (s_elem s) a = Some x -> exists x', nth_error (s_elem s') a = Some x' /\ li_type x' = li_type x).
Proof. exact run_stable. Qed.
Print Assumptions C36_store_is_stable.

(* C25: a segment holds what it was made with or nothing; once dropped it stays so. *)
Theorem C25_stays_dropped : forall F host m1 m2 a e,
  well_behaved host -> machine_ok m1 -> session F host m1 m2 ->
  nth_error (s_elem (k_store m1)) a = Some e ->
  exists e', nth_error (s_elem (k_store m2)) a = Some e' /\ (li_data e' = li_data e \/ li_data e' = []) /\
    (li_data e = [] -> li_data e' = []).
Proof. exact run_elem. Qed.
Print Assumptions C25_stays_dropped.
Theorem C25_data_stays_dropped : forall F host m1 m2 a b d,
  well_behaved host -> machine_ok m1 -> session F host m1 m2 ->
  nth_error (s_data (k_store m1)) a = Some b -> nth_error (s_blob (k_store m1)) b = Some d ->
  exists d', nth_error (s_data (k_store m2)) a = Some b /\ nth_error (s_blob (k_store m2)) b = Some d' /\
    (d' = d \/ d' = []) /\ (d = [] -> d' = []).
Proof. exact run_data. Qed.
Print Assumptions C25_data_stays_dropped.

(* C72: every value the interpreter holds anywhere consists of 16 bytes, and every table is as long as its size says
   and no longer than its non-zero maximum; tables never get smaller. *)
Theorem C72_values_in_order : forall F host m,
  well_behaved host -> session F host machine_empty m ->
  Forall val_wf (k_value m) /\
  (forall fr, In fr (k_frame m) -> Forall val_wf (fr_locals fr)) /\
  (forall g, In g (s_glob (k_store m)) -> val_wf (gi_data g)) /\
  (forall t, In t (s_tabl (k_store m)) -> Forall val_wf (ti_elem t)) /\
  (forall e, In e (s_elem (k_store m)) -> Forall val_wf (li_data e)).
Proof. exact run_values. Qed.
Print Assumptions C72_values_in_order.
Theorem C72_table_size : forall F host m1 m2 a x,
  well_behaved host -> session F host machine_empty m1 -> session F host m1 m2 ->
  nth_error (s_tabl (k_store m1)) a = Some x ->
  len (ti_elem x) = ti_size x /\ (l_m (tt_limits (ti_type x)) <> 0 -> ti_size x <= l_m (tt_limits (ti_type x))) /\
  exists x', nth_error (s_tabl (k_store m2)) a = Some x' /\ ti_type x' = ti_type x /\ len (ti_elem x) <= len (ti_elem x').
Proof. exact run_table. Qed.
Print Assumptions C72_table_size.

(* A host with one function that writes a byte to the first memory and calls the first function of the store. *)
Definition ex_host (F : fops) : hostcode := fun hid args m =>
  match mem_put_u8 (nth 0 (s_mems (k_store m)) (mkmem (mklim 0 0) [] 0)) 0 7 with
  | Err e => (Err e, m)
  | Ok x => let m := set_store m (set_s_mems (k_store m) (upd (s_mems (k_store m)) 0 x)) in
            let (r, m) := invocate F (fun _ _ m => (Ok [], m)) 100 0 [] m in (rmap (fun _ => []) r, m)
  end.
Lemma ex_host_well_behaved F : well_behaved (ex_host F).
Proof. apply (writing_host F 7); [lia|apply (idle_host []); constructor]. Qed.

(* A module with a table of one entry, a memory, a mutable and an immutable global, a passive element segment, and an
   exported function that sets the global, drops the segment, grows the table by two and calls the host. *)
Definition ex_desc : moddesc := mkmd [mkft [] []]
  [mkfd 0 [] [IOp O_i32_const [AInt 9]; IOp O_global_set [AInt 0]; IOp O_elem_drop [AInt 0];
              IOp O_ref_null [AInt 0x70]; IOp O_i32_const [AInt 2]; IOp O_table_grow [AInt 0]; IOp O_drop [];
              IOp O_call [AInt 0]]]
  [mktt T_func (mklim 1 3)] [mklim 0 2]
  [mkgd (mkgt T_i32 1) [IOp O_i32_const [AInt 4]]; mkgd (mkgt T_i32 0) [IOp O_i32_const [AInt 5]]]
  [mked 1 T_func 0 [] [[IOp O_ref_func [AInt 1]]]] [] (-1)
  [mkimp [101] [102] (ImpFunc 0)] [mkexp [109] 0 1].
Lemma ex_desc_ok : desc_ok ex_desc.
Proof. repeat constructor; unfold not; cbn; intros; intuition (try discriminate); subst; try discriminate. Qed.
Lemma ses_step F host m m1 m2 : session F host m m1 -> call F host m1 m2 -> session F host m m2.
Proof. exact (ses_call F host m m1 m2). Qed.
(* Allocate the host function, load and instantiate the module, then invoke its function (it ends with an IndexError
   because the memory has no bytes for the host to write to) and allocate another memory. *)
Definition ex_m1 (F : fops) : machine :=
  let m := snd (rt_allocate_func_host (mkft [] []) 3 machine_empty) in
  let m := snd (load_module ex_desc m) in
  snd (instance F (ex_host F) 100 (mkloaded ex_desc []) [mkext 0 0] m).
Definition ex_m2 (F : fops) : machine :=
  snd (rt_allocate_memory (mklim 0 0) (snd (rt_invocate F (ex_host F) 100 0 [109] [] (ex_m1 F)))).
Example C21_C26_C36_C25_C72_example F :
  well_behaved (ex_host F) /\ session F (ex_host F) machine_empty (ex_m1 F) /\ session F (ex_host F) (ex_m1 F) (ex_m2 F) /\
  fst (rt_invocate F (ex_host F) 100 0 [109] [] (ex_m1 F)) = Err EIndex /\
  s_glob (k_store (ex_m1 F)) = [mkglob (num_val T_i32 4) 1; mkglob (num_val T_i32 5) 0] /\
  s_glob (k_store (ex_m2 F)) = [mkglob (num_val T_i32 9) 1; mkglob (num_val T_i32 5) 0] /\
  s_elem (k_store (ex_m1 F)) = [mkelem T_func [num_val T_func (1 + 2 ^ 32)]] /\
  s_elem (k_store (ex_m2 F)) = [mkelem T_func []] /\
  map ti_size (s_tabl (k_store (ex_m1 F))) = [1] /\ map ti_size (s_tabl (k_store (ex_m2 F))) = [3] /\
  s_mems (k_store (ex_m1 F)) = [mkmem (mklim 0 2) [] 0] /\
  s_mems (k_store (ex_m2 F)) = [mkmem (mklim 0 2) [] 0; mkmem (mklim 0 0) [] 0].
Proof.
  split; [apply ex_host_well_behaved|]. split.
  { unfold ex_m1. eapply ses_step; [eapply ses_step; [eapply ses_step; [apply ses_nil|]|]|].
    - apply call_func_host. - apply call_load, ex_desc_ok. - apply call_instance, ex_desc_ok. }
  split. { unfold ex_m2. eapply ses_step; [eapply ses_step; [apply ses_nil|]|]. - apply call_rt_invocate. constructor. - apply call_memory. }
  repeat split; vm_compute; reflexivity.
Qed.
