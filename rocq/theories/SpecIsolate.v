(* What belongs to a group of instances, and what it means that nothing else is touched. *)
From Coq Require Import ZArith List Bool.
From Verif Require Import Py Floatops Val Opcode Numeric Syntax Store Basic Machine SpecMachine SpecControl SpecRun SpecInst SpecType SpecValid.
Import ListNotations.
Open Scope Z_scope.

(* A part of the store: the addresses of its functions, tables, memories, globals, element and data segments, the
   bytearrays behind the data segments, module instances, and the host functions it may call. *)
Record region : Type := mkregion {
  g_func : nat -> Prop; g_tabl : nat -> Prop; g_mems : nat -> Prop; g_glob : nat -> Prop;
  g_elem : nat -> Prop; g_data : nat -> Prop; g_blob : nat -> Prop; g_inst : nat -> Prop; g_host : nat -> Prop
}.
(* an address that is in the set [P] *)
Definition among (P : nat -> Prop) (a : Z) : Prop := 0 <= a /\ P (Z.to_nat a).
(* a value that, if it is a function reference, is null or refers to a function of the region *)
Definition inside (G : region) (v : val) : Prop :=
  v_type v = T_func -> v = null_ref T_func \/ exists a, g_func G a /\ v = ref_to T_func a.
(* a module instance that knows only objects of the region *)
Record knows (G : region) (mi : modinst) : Prop := mk_knows {
  kn_func : Forall (among (g_func G)) (m_func mi);
  kn_tabl : Forall (among (g_tabl G)) (m_tabl mi);
  kn_mems : Forall (among (g_mems G)) (m_mems mi);
  kn_glob : Forall (among (g_glob G)) (m_glob mi);
  kn_elem : Forall (among (g_elem G)) (m_elem mi);
  kn_data : Forall (among (g_data G)) (m_data mi)
}.
(* The region is closed: whatever its functions, instances, tables, globals and segments refer to is in the region. It
   may also contain addresses at which nothing has been put yet; references have room for 2^31 functions. *)
Record closed (sg : nat -> functype) (G : region) (s : store) : Prop := mk_closed {
  cl_some : forall a, g_func G a -> Z.of_nat a < 2 ^ 31;
  cl_func : forall a f, g_func G a -> nth_error (s_func s) a = Some f ->
    match f with FWasm _ h _ => g_inst G h | FHost t hid => g_host G hid /\ t = sg hid end;
  cl_inst : forall h mi, g_inst G h -> nth_error (s_inst s) h = Some mi -> knows G mi;
  cl_tabl : forall a x, g_tabl G a -> nth_error (s_tabl s) a = Some x -> Forall (inside G) (ti_elem x);
  cl_glob : forall a x, g_glob G a -> nth_error (s_glob s) a = Some x -> inside G (gi_data x);
  cl_elem : forall a x, g_elem G a -> nth_error (s_elem s) a = Some x -> Forall (inside G) (li_data x);
  cl_data : forall a b, g_data G a -> nth_error (s_data s) a = Some b -> g_blob G b
}.
(* The two stores differ at most in the contents of the tables, memories, globals, element segments and bytearrays of
   the region. *)
Record same_outside (G : region) (s s' : store) : Prop := mk_same_outside {
  so_funcs : s_func s' = s_func s;
  so_insts : s_inst s' = s_inst s;
  so_datas : s_data s' = s_data s;
  so_tabls : forall a, ~ g_tabl G a -> nth_error (s_tabl s') a = nth_error (s_tabl s) a;
  so_memss : forall a, ~ g_mems G a -> nth_error (s_mems s') a = nth_error (s_mems s) a;
  so_globs : forall a, ~ g_glob G a -> nth_error (s_glob s') a = nth_error (s_glob s) a;
  so_elems : forall a, ~ g_elem G a -> nth_error (s_elem s') a = nth_error (s_elem s) a;
  so_blobs : forall a, ~ g_blob G a -> nth_error (s_blob s') a = nth_error (s_blob s) a
}.
(* Python values that, where function references are expected, are numbers of functions of the region *)
Definition numbers_in (G : region) (ts : list valtype) (ps : list pyval) : Prop :=
  forall i z, nth_error ts i = Some T_func -> nth_error ps i = Some (PInt z) -> among (g_func G) z.
(* The code that is running belongs to an instance that knows only objects of the region. *)
Definition called_inside (G : region) (m : machine) : Prop :=
  forall fr fs, k_frame m = fr :: fs -> knows G (mod_of (k_store m) (fr_module fr)).
(* The host functions of the region, called from the region, work on the region only, and leave the stacks alone unless
   they raise. *)
Definition host_inside (sg : nat -> functype) (G : region) (host : hostcode) : Prop :=
  forall hid args m r m', g_host G hid -> closed sg G (k_store m) -> called_inside G m -> host hid args m = (r, m') ->
    closed sg G (k_store m') /\ same_outside G (k_store m) (k_store m') /\
    forall l, r = Ok l -> numbers_in G (ft_rets (sg hid)) l /\ k_value m' = k_value m /\ k_label m' = k_label m /\ k_frame m' = k_frame m.

(* the addresses of the objects that one list has and a shorter one has not *)
Definition between {A} (l l' : list A) (a : nat) : Prop := (length l <= a < length l')%nat.
(* The region contains everything that was made between the two stores. *)
Record holds_made (G : region) (s s' : store) : Prop := mk_holds_made {
  hm_func : forall a, between (s_func s) (s_func s') a -> g_func G a;
  hm_tabl : forall a, between (s_tabl s) (s_tabl s') a -> g_tabl G a;
  hm_mems : forall a, between (s_mems s) (s_mems s') a -> g_mems G a;
  hm_glob : forall a, between (s_glob s) (s_glob s') a -> g_glob G a;
  hm_elem : forall a, between (s_elem s) (s_elem s') a -> g_elem G a;
  hm_data : forall a, between (s_data s) (s_data s') a -> g_data G a;
  hm_blob : forall a, between (s_blob s) (s_blob s') a -> g_blob G a;
  hm_inst : forall a, between (s_inst s) (s_inst s') a -> g_inst G a
}.
(* Later objects may have been added; functions, instances and the links of data segments are as they were, and so are
   the contents of all objects outside the region. *)
Record kept_outside (G : region) (s s' : store) : Prop := mk_kept_outside {
  ko_func : forall a f, nth_error (s_func s) a = Some f -> nth_error (s_func s') a = Some f;
  ko_inst : forall a f, nth_error (s_inst s) a = Some f -> nth_error (s_inst s') a = Some f;
  ko_data : forall a f, nth_error (s_data s) a = Some f -> nth_error (s_data s') a = Some f;
  ko_tabl : forall a, ~ g_tabl G a -> nth_error (s_tabl s') a = nth_error (s_tabl s) a;
  ko_mems : forall a, ~ g_mems G a -> nth_error (s_mems s') a = nth_error (s_mems s) a;
  ko_glob : forall a, ~ g_glob G a -> nth_error (s_glob s') a = nth_error (s_glob s) a;
  ko_elem : forall a, ~ g_elem G a -> nth_error (s_elem s') a = nth_error (s_elem s) a;
  ko_blob : forall a, ~ g_blob G a -> nth_error (s_blob s') a = nth_error (s_blob s) a
}.
(* an import that is in the region *)
Definition import_in (G : region) (e : extern) : Prop :=
  (e_kind e = 0 -> among (g_func G) (e_data e)) /\ (e_kind e = 1 -> among (g_tabl G) (e_data e)) /\
  (e_kind e = 2 -> among (g_mems G) (e_data e)) /\ (e_kind e = 3 -> among (g_glob G) (e_data e)).
(* A history (SpecValid.v) of a program that is given only the region: host functions of the region, new tables,
   memories and globals, validated modules instantiated with imports from the region, calls of exported functions of
   the region with arguments that refer only to the region; everything returned. *)
Inductive uses_only (F : fops) (host : hostcode) (sg : nat -> functype) (G : region) (m : machine) : machine -> Prop :=
| uo_nil : uses_only F host sg G m m
| uo_host m1 hid b m2 : uses_only F host sg G m m1 -> len (s_func (k_store m1)) < 2 ^ 31 - 1 -> g_host G hid ->
    rt_allocate_func_host (sg hid) hid m1 = (Ok b, m2) -> uses_only F host sg G m m2
| uo_table m1 t b m2 : uses_only F host sg G m m1 -> 0 <= l_n (tt_limits t) < 2 ^ 31 ->
    rt_allocate_table t m1 = (Ok b, m2) -> uses_only F host sg G m m2
| uo_memory m1 t b m2 : uses_only F host sg G m m1 -> rt_allocate_memory t m1 = (Ok b, m2) -> uses_only F host sg G m m2
| uo_global m1 t v b m2 : uses_only F host sg G m m1 -> val_wf v -> inside G v ->
    rt_allocate_global t v m1 = (Ok b, m2) -> uses_only F host sg G m m2
| uo_module m1 md L m2 n ext h m3 : uses_only F host sg G m m1 -> desc_ok md -> valid_module md ->
    len (s_func (k_store m1)) + len (md_func md) < 2 ^ 31 -> load_module md m1 = (Ok L, m2) ->
    Forall2 (fits (k_store m2) md) (md_imps md) ext -> Forall (import_in G) ext -> (2 <= n)%nat ->
    instance F host n L ext m2 = (Ok h, m3) -> uses_only F host sg G m m3
| uo_call m1 n h nm args rs m2 : uses_only F host sg G m m1 -> Forall pyval_ok args ->
    (forall e f, find_export (mod_of (k_store m1) (MRef h)) nm = Ok e -> py_index (s_func (k_store m1)) (e_data e) = Ok f ->
       among (g_func G) (e_data e) /\ numbers_in G (ft_args (fi_type f)) args) ->
    rt_invocate F host n h nm args m1 = (Ok rs, m2) -> uses_only F host sg G m m2.
(* Everything but what was made between the two stores. *)
Definition all_but (s s' : store) : region :=
  mkregion (fun a => ~ between (s_func s) (s_func s') a /\ Z.of_nat a < 2 ^ 31) (fun a => ~ between (s_tabl s) (s_tabl s') a)
    (fun a => ~ between (s_mems s) (s_mems s') a) (fun a => ~ between (s_glob s) (s_glob s') a)
    (fun a => ~ between (s_elem s) (s_elem s') a) (fun a => ~ between (s_data s) (s_data s') a)
    (fun a => ~ between (s_blob s) (s_blob s') a) (fun a => ~ between (s_inst s) (s_inst s') a) (fun _ => True).
(* What was made between the two stores; it may not call host functions. *)
Definition only_new (s s' : store) : region :=
  mkregion (between (s_func s) (s_func s')) (between (s_tabl s) (s_tabl s')) (between (s_mems s) (s_mems s'))
    (between (s_glob s) (s_glob s')) (between (s_elem s) (s_elem s')) (between (s_data s) (s_data s'))
    (between (s_blob s) (s_blob s')) (between (s_inst s) (s_inst s')) (fun _ => False).
(* Everything that a store has. *)
Definition all_of (s : store) : region :=
  mkregion (fun a => (a < length (s_func s))%nat) (fun a => (a < length (s_tabl s))%nat) (fun a => (a < length (s_mems s))%nat)
    (fun a => (a < length (s_glob s))%nat) (fun a => (a < length (s_elem s))%nat) (fun a => (a < length (s_data s))%nat)
    (fun a => (a < length (s_blob s))%nat) (fun a => (a < length (s_inst s))%nat) (fun _ => True).
