(* What the WebAssembly standard (2.0, section 4.5.4) says instantiation does: the objects that are added to the store, and
   the code that is then run. Nothing here refers to the interpreter; runs are those of SpecControl.v with the meanings of
   SpecStandard.v. *)
From Coq Require Import ZArith List Bool.
From Verif Require Import Py Floatops Val Opcode Numeric Syntax Store Machine Float SpecNum SpecMachine SpecMem SpecControl SpecRun SpecInst SpecType
  SpecConverse SpecValid SpecStandard.
Import ListNotations.
Open Scope Z_scope.

(* The value of a constant expression, [funcs] being the addresses of the module's functions and [globs] those of its
   imported globals. *)
Inductive constant_value (s : store) (funcs globs : list Z) : list inst -> val -> Prop :=
| cv_computed o args v : computes o args [] (Some v) -> constant_value s funcs globs [IOp o args] v
| cv_function i a : nth_error funcs i = Some (Z.of_nat a) -> constant_value s funcs globs [IOp O_ref_func [idx i]] (ref_to T_func a)
| cv_global i a g : nth_error globs i = Some (Z.of_nat a) -> nth_error (s_glob s) a = Some g ->
    constant_value s funcs globs [IOp O_global_get [idx i]] (gi_data g).

(* a table as it is made: null references *)
Definition new_table (t : tabletype) : tableinst :=
  mktab t (repeat (null_ref (tt_type t)) (Z.to_nat (l_n (tt_limits t)))) (l_n (tt_limits t)).

(* [s'] is [s] with the objects of module [L] added, [mi] being the new module instance; imports come first in every
   index space. *)
Record adds (L : loaded) (ext : list extern) (s s' : store) (mi : modinst) : Prop := mk_adds {
  ad_types : m_type mi = md_type (l_desc L);
  ad_funcs : m_func mi = imported 0 ext ++ fresh (length (s_func s)) (length (md_func (l_desc L)));
  ad_tables : m_tabl mi = imported 1 ext ++ fresh (length (s_tabl s)) (length (md_tabl (l_desc L)));
  ad_mems : m_mems mi = imported 2 ext ++ fresh (length (s_mems s)) (length (md_mems (l_desc L)));
  ad_globals : m_glob mi = imported 3 ext ++ fresh (length (s_glob s)) (length (md_glob (l_desc L)));
  ad_elems : m_elem mi = fresh (length (s_elem s)) (length (md_elem (l_desc L)));
  ad_datas : m_data mi = fresh (length (s_data s)) (length (md_data (l_desc L)));
  ad_exports : Forall2 (exported mi) (md_exps (l_desc L)) (m_exps mi);
  ad_store : exists fs gs es,
    s' = mkstore (s_func s ++ fs) (s_tabl s ++ map new_table (md_tabl (l_desc L))) (s_mems s ++ map new_memory (md_mems (l_desc L)))
           (s_glob s ++ gs) (s_elem s ++ es) (s_data s ++ l_blob L) (s_inst s ++ [mi]) (s_blob s) /\
    Forall2 (fun d f => exists t, item (md_type (l_desc L)) (fd_type d) t /\ f = FWasm t (length (s_inst s)) d) (md_func (l_desc L)) fs /\
    Forall2 (fun d g => exists v, constant_value s (m_func mi) (imported 3 ext) (gd_init d) v /\
               v_type v = gt_type (gd_type d) /\ g = mkglob v (gt_mut (gd_type d))) (md_glob (l_desc L)) gs /\
    Forall2 (fun d x => exists vs, Forall2 (constant_value s (m_func mi) (imported 3 ext)) (ed_init d) vs /\ x = mkelem (ed_type d) vs)
      (md_elem (l_desc L)) es;
  (* every data segment has its bytes *)
  ad_bytes : forall i d, nth_error (md_data (l_desc L)) i = Some d -> segment s' (length (s_data s) + i) (dd_init d)
}.

(* The code that is run in the new instance, piece by piece. *)
Definition numbered {A} (l : list A) : list (nat * A) := combine (seq 0 (length l)) l.
Definition elem_inits (md : moddesc) : list (list inst) :=
  flat_map (fun '(i, e) => if Z.even (ed_kind e) then
    [ed_offset e ++ [IOp O_i32_const [AInt 0]; IOp O_i32_const [AInt (len (ed_init e))];
                     IOp O_table_init [idx i; AInt (ed_tidx e)]; IOp O_elem_drop [idx i]]] else []) (numbered (md_elem md)).
Definition elem_drops (md : moddesc) : list (list inst) :=
  flat_map (fun '(i, e) => if Z.land (ed_kind e) 3 =? 3 then [[IOp O_elem_drop [idx i]]] else []) (numbered (md_elem md)).
Definition data_inits (md : moddesc) : list (list inst) :=
  flat_map (fun '(i, d) => if active d then
    [dd_offset d ++ [IOp O_i32_const [AInt 0]; IOp O_i32_const [AInt (len (dd_init d))];
                     IOp O_memory_init [idx i]; IOp O_data_drop [idx i]]] else []) (numbered (md_data md)).
Definition start_inits (md : moddesc) : list (list inst) :=
  if 0 <=? md_star md then [[IOp O_call [AInt (md_star md)]]] else [].
Definition init_codes (md : moddesc) : list (list inst) := elem_inits md ++ elem_drops md ++ data_inits md ++ start_inits md.

(* Running pieces of code one after the other in instance [h]: all end, or one traps. *)
Inductive initialises (hs : storehost) (h : nat) : store -> list (list inst) -> store -> bool -> Prop :=
| in_all s : initialises hs h s [] s true
| in_more s code s1 codes s2 b : run_by does ieee hs 1 (MRef h) s [] [] code s1 [] (Done []) -> initialises hs h s1 codes s2 b ->
    initialises hs h s (code :: codes) s2 b
| in_trap s code s1 L1 codes : run_by does ieee hs 1 (MRef h) s [] [] code s1 L1 Trap -> initialises hs h s (code :: codes) s1 false.

(* the bytes of the segments of a module that has just been loaded: all there, each segment with its own *)
Definition untouched (s : store) (L : loaded) : Prop :=
  NoDup (l_blob L) /\ Forall2 (fun d b => nth_error (s_blob s) b = Some (dd_init d)) (md_data (l_desc L)) (l_blob L).
