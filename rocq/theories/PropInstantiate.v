(* C108: instantiating a validated module does what the WebAssembly standard prescribes. *)
From Coq Require Import ZArith List Bool Lia.
From Verif Require Import Py Arith Floatops Val Opcode Numeric Syntax Store Basic Machine
  SpecInt SpecNum SpecMachine SpecMem SpecRun SpecControl SpecType SpecConverse Float StepFacts PropControl TypeFacts TypeIeeeFacts CallFacts PropType ConverseFacts PropConverse
  SpecInst SpecValid SpecRef HistoryFacts PropValid RefFacts RefHistoryFacts NumFacts PropRef SpecStandard StandardFacts StandardRunFacts SpecInstantiate InstantiateFacts.
Import ListNotations.
Open Scope Z_scope.

(* C108, part 1. [s] is any typed store, [L] a validated module whose segments have their bytes, [ext] imports that fit.
   Instantiation adds the objects of the module and runs its initialisation codes by the standard; it returns when all
   of them end and raises when one traps, with the store they leave - or one of them, [code], hits the limit of [n]
   turns, a stray reference (C105) or a known deviation (C107), those before it having ended. *)
Theorem C108_instantiates hs sg n L ext s : well_behaved (plain_host hs) -> host_typed sg (plain_host hs) ->
  store_ok s -> store_typed sg s -> desc_ok (l_desc L) -> valid_module (l_desc L) -> untouched s L ->
  Forall2 (fits s (l_desc L)) (md_imps (l_desc L)) ext -> len (s_func s) + len (md_func (l_desc L)) < 2 ^ 31 -> (2 <= n)%nat ->
  let h := length (s_inst s) in
  exists s0 mi, adds L ext s s0 mi /\
    ((exists cs1 code cs2 s1, init_codes (l_desc L) = cs1 ++ code :: cs2 /\ initialises hs h s0 cs1 s1 true /\
       (unfinished ieee (plain_host hs) n (init_at s1 h code) \/ stray ieee (plain_host hs) (init_at s1 h code) \/
        meets_deviation ieee (plain_host hs) (init_at s1 h code))) \/
     match instance ieee (plain_host hs) n L ext (mkmach s [] [] []) with
     | (Ok h', m') => h' = h /\ exists s2, m' = mkmach s2 [] [] [] /\ initialises hs h s0 (init_codes (l_desc L)) s2 true
     | (Err _, m') => initialises hs h s0 (init_codes (l_desc L)) (k_store m') false
     end).
Proof.
  intros H1 H2 H3 H4 H5 H6 H7 H8 H9 H10 h.
  destruct (instance_stands hs sg n L ext s H1 H2 H3 H4 H5 H6 H7 H8 H9 H10) as (s0 & mi & AD & [(cs1 & code & cs2 & s1 & X1 & X2 & X3)|X]);
    exists s0, mi; (split; [exact AD|]); [left|right].
  - exists cs1, code, cs2, s1. split; [exact X1|]. split; [exact X2|]. tauto.
  - destruct (instance ieee (plain_host hs) n L ext (mkmach s [] [] [])) as [[h'|e] m']; [|exact X]. destruct X as (-> & X). split; [reflexivity|exact X].
Qed.
Print Assumptions C108_instantiates.

(* C108, part 2. A module that is loaded and instantiated after an honest history (C106): its segments have their bytes,
   and there are no stray references. *)
Theorem C108_honest_instantiates hs sg n md L ext m m1 : well_behaved (plain_host hs) -> host_typed sg (plain_host hs) ->
  host_refs sg (plain_host hs) -> honest ieee (plain_host hs) sg machine_empty m -> desc_ok md -> valid_module md ->
  load_module md m = (Ok L, m1) -> Forall2 (fits (k_store m1) md) (md_imps md) ext ->
  len (s_func (k_store m)) + len (md_func md) < 2 ^ 31 -> (2 <= n)%nat ->
  let s := k_store m1 in let h := length (s_inst s) in
  exists s0 mi, adds L ext s s0 mi /\
    ((exists cs1 code cs2 s1, init_codes md = cs1 ++ code :: cs2 /\ initialises hs h s0 cs1 s1 true /\
       (unfinished ieee (plain_host hs) n (init_at s1 h code) \/ meets_deviation ieee (plain_host hs) (init_at s1 h code))) \/
     match instance ieee (plain_host hs) n L ext m1 with
     | (Ok h', m') => h' = h /\ exists s2, m' = mkmach s2 [] [] [] /\ initialises hs h s0 (init_codes md) s2 true
     | (Err _, m') => initialises hs h s0 (init_codes md) (k_store m') false
     end).
Proof. exact (instance_honest hs sg n md L ext m m1). Qed.
Print Assumptions C108_honest_instantiates.

(* The module of C103: the objects added, and the run of its three initialisation codes, to the store that instantiation
   in fact leaves; the table has its segment, and the start function has set the global to 42. *)
Definition ex_added : store :=
  let s := k_store ex_read in
  mkstore (s_func s ++ map (fun d => FWasm (nth (Z.to_nat (fd_type d)) (md_type ex_whole) ex_ii) 0 d) (md_func ex_whole))
    [mktab (mktt T_func (mklim 3 0)) [null_ref T_func; null_ref T_func; null_ref T_func] 3] [mkmem (mklim 0 1) [] 0]
    [mkglob (num_val T_i32 41) 1] [mkelem T_func [ref_to T_func 0]] [0%nat]
    [mkmi (md_type ex_whole) [0; 1; 2; 3] [0] [0] [0] [0] [0]
      [mkei [104] (mkext 0 0); mkei [100] (mkext 0 1); mkei [103] (mkext 0 3); mkei [116] (mkext 1 0)]] [[]].
Ltac number := vm_compute; reflexivity.
Ltac straightly := eapply run_cons; [eapply one_op; [reflexivity|]|].
Ltac const z := straightly; [eapply (d_computes _ _ _ _ _ [] _ (num_val T_i32 z)); apply c_i32_const; reflexivity|].
Lemma ex_overwritten_refl {A} (l : list A) a : overwritten l l a [].
Proof. split; [reflexivity|]. intros i. replace ((a <=? Z.of_nat i) && (Z.of_nat i <? a + len [])) with false; [reflexivity|]. unfold len. cbn [length]. lia. Qed.
Example C108_example : adds ex_whole_loaded [mkext 0 0] (k_store ex_read) ex_added (nth 0 (s_inst ex_added) modinst_empty) /\
  length (init_codes ex_whole) = 3%nat /\ initialises ex_shost 0 ex_added (init_codes ex_whole) (k_store ex_ready) true /\
  map gi_data (s_glob ex_added) = [num_val T_i32 41] /\ map gi_data (s_glob (k_store ex_ready)) = [num_val T_i32 42] /\
  map ti_elem (s_tabl (k_store ex_ready)) = [[null_ref T_func; ref_to T_func 0; null_ref T_func]].
Proof.
  split; [|split; [reflexivity|split; [|split; [reflexivity|split; vm_compute; reflexivity]]]].
  - constructor; try reflexivity.
    + repeat (constructor; [split; [reflexivity|split; [reflexivity|split; [cbn; lia|reflexivity]]]|]). constructor.
    + exists (map (fun d => FWasm (nth (Z.to_nat (fd_type d)) (md_type ex_whole) ex_ii) 0 d) (md_func ex_whole)), [mkglob (num_val T_i32 41) 1], [mkelem T_func [ref_to T_func 0]].
      split; [reflexivity|]. split; [|split].
      * repeat (constructor; [eexists; split; [split; [cbn; lia|reflexivity]|reflexivity]|]). constructor.
      * constructor; [|constructor]. exists (num_val T_i32 41). split; [apply cv_computed, c_i32_const; reflexivity|]. split; reflexivity.
      * constructor; [|constructor]. exists [ref_to T_func 0]. split; [|reflexivity]. constructor; [|constructor]. apply (cv_function _ _ _ 0 0). reflexivity.
    + intros [|i] d H; [injection H as <-|destruct i; discriminate H]. exists 0%nat. split; reflexivity.
  - cbv [init_codes elem_inits elem_drops data_inits start_inits numbered]. cbn [ex_whole md_elem md_data md_star flat_map combine seq length ed_kind dd_kind active Z.even Z.land Z.eqb app ed_offset ed_init ed_tidx dd_offset dd_init Z.leb Z.compare].
    eapply in_more; [|eapply in_more; [|eapply in_more; [|apply in_all]]].
    + const 1. const 0. const 1.
      straightly; [eapply (d_table_init _ 0 0) with (a := 0%nat) (b := 0%nat); [split; reflexivity|split; reflexivity|vm_compute; discriminate|vm_compute; discriminate|]|].
      { instantiate (1 := [null_ref T_func; ref_to T_func 0; null_ref T_func]). split; [reflexivity|]. intros [|[|[|i]]]; try reflexivity.
        rewrite (proj2 (nth_error_None _ _)) by (cbn; lia). destruct (_ && _) eqn:E; [|destruct i; reflexivity]. exfalso. vm_compute len in E. change (low 32 (num_val T_i32 1)) with 1 in E. lia. }
      straightly; [eapply (d_elem_drop _ 0) with (a := 0%nat); [split; reflexivity|instantiate (1 := [mkelem T_func []]); reflexivity|]|apply run_nil].
      intros [|b] Hb; [contradiction|]. destruct b; reflexivity.
    + const 0. const 0. const 0.
      straightly; [eapply (d_memory_init _ 0) with (a := 0%nat) (e := 0%nat); [split; reflexivity|split; [reflexivity|exists 0%nat; split; reflexivity]|vm_compute; discriminate|vm_compute; discriminate|apply ex_overwritten_refl]|].
      straightly; [eapply (d_data_drop _ 0) with (a := 0%nat) (D := [[]]); [split; [reflexivity|exists 0%nat; split; reflexivity]|exists 0%nat; split; reflexivity|]|apply run_nil].
      intros a' d' _ H. exact H.
    + eapply run_cons; [|apply run_nil]. eapply (one_call does ieee ex_shost 1 (MRef 0) _ [] [] 2 2); [reflexivity|].
      eapply (call_wasm does ieee ex_shost 1 _ [] [] [] 2); [reflexivity|reflexivity|lia| |apply (rt_done _ _ []); reflexivity]. cbn [fd_expr fd_locals app].
      straightly; [eapply (d_global_get _ 0) with (a := 0%nat); split; reflexivity|]. const 1.
      straightly; [eapply (d_computes _ _ _ _ _ [_; _] _ (num_val T_i32 42)); eapply c_binop; [reflexivity|reflexivity|number]|].
      straightly; [eapply (d_global_set _ 0) with (a := 0%nat); split; reflexivity|]. match goal with |- run_by _ _ _ _ _ ?a _ _ [] ?b _ _ => replace b with a by (vm_compute; reflexivity) end. apply run_nil.
Qed.
