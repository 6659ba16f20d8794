(* References to functions that exist. *)
From Coq Require Import ZArith List Bool.
From Verif Require Import Py Floatops Val Opcode Numeric Syntax Store Basic Machine SpecMachine SpecControl SpecRun SpecInst SpecType SpecValid.
Import ListNotations.
Open Scope Z_scope.

(* a value that, if it is a function reference, is null or refers to one of the first [n] functions of the store *)
Definition refers (n : nat) (v : val) : Prop :=
  v_type v = T_func -> v = null_ref T_func \/ exists a, (a < n)%nat /\ v = ref_to T_func a.
(* the functions of a module instance are among the first [n] of the store *)
Definition names (n : nat) (mi : modinst) : Prop := Forall (fun a => 0 <= a < Z.of_nat n) (m_func mi).
(* All references of a store refer to its functions; host function [hid] is registered under the type [sg hid]. *)
Record store_refs (sg : nat -> functype) (s : store) : Prop := mk_store_refs {
  sr_host : Forall (fun f => match f with FHost t hid => t = sg hid | FWasm _ _ _ => True end) (s_func s);
  sr_tabl : Forall (fun x => Forall (refers (length (s_func s))) (ti_elem x)) (s_tabl s);
  sr_glob : Forall (fun g => refers (length (s_func s)) (gi_data g)) (s_glob s);
  sr_elem : Forall (fun e => Forall (refers (length (s_func s))) (li_data e)) (s_elem s);
  sr_inst : Forall (names (length (s_func s))) (s_inst s)
}.
(* So do those on the stacks of a machine, and the modules its frames belong to. *)
Record machine_refs (sg : nat -> functype) (m : machine) : Prop := mk_machine_refs {
  mr_store : store_refs sg (k_store m);
  mr_value : Forall (refers (length (s_func (k_store m)))) (k_value m);
  mr_frame : Forall (fun fr => Forall (refers (length (s_func (k_store m)))) (fr_locals fr) /\
    names (length (s_func (k_store m))) (mod_of (k_store m) (fr_module fr))) (k_frame m)
}.
(* the Python values [ps], taken as values of the types [ts], hold only numbers of functions of [s] where references to
   functions are expected *)
Definition numbers_ok (s : store) (ts : list valtype) (ps : list pyval) : Prop :=
  forall i z, nth_error ts i = Some T_func -> nth_error ps i = Some (PInt z) -> 0 <= z < len (s_func s).
(* A host function that does not make up references. *)
Definition host_refs (sg : nat -> functype) (host : hostcode) : Prop :=
  forall hid args m r m', machine_refs sg m -> host hid args m = (r, m') ->
    machine_refs sg m' /\ forall l, r = Ok l -> numbers_ok (k_store m') (ft_rets (sg hid)) l.

(* A history (SpecValid.v) in which the program using pywasm does not make up references either: initial values of
   globals and arguments of calls refer to existing functions, imports are at existing addresses. *)
Inductive honest (F : fops) (host : hostcode) (sg : nat -> functype) (m : machine) : machine -> Prop :=
| hon_nil : honest F host sg m m
| hon_host m1 hid b m2 : honest F host sg m m1 -> len (s_func (k_store m1)) < 2 ^ 31 - 1 ->
    rt_allocate_func_host (sg hid) hid m1 = (Ok b, m2) -> honest F host sg m m2
| hon_table m1 t b m2 : honest F host sg m m1 -> 0 <= l_n (tt_limits t) < 2 ^ 31 ->
    rt_allocate_table t m1 = (Ok b, m2) -> honest F host sg m m2
| hon_memory m1 t b m2 : honest F host sg m m1 -> rt_allocate_memory t m1 = (Ok b, m2) -> honest F host sg m m2
| hon_global m1 t v b m2 : honest F host sg m m1 -> val_wf v -> refers (length (s_func (k_store m1))) v ->
    rt_allocate_global t v m1 = (Ok b, m2) -> honest F host sg m m2
| hon_module m1 md L m2 n ext h m3 : honest F host sg m m1 -> desc_ok md -> valid_module md ->
    len (s_func (k_store m1)) + len (md_func md) < 2 ^ 31 -> load_module md m1 = (Ok L, m2) ->
    Forall2 (fits (k_store m2) md) (md_imps md) ext -> (2 <= n)%nat -> instance F host n L ext m2 = (Ok h, m3) -> honest F host sg m m3
| hon_call m1 n h nm args rs m2 : honest F host sg m m1 -> Forall pyval_ok args ->
    (forall e f, find_export (mod_of (k_store m1) (MRef h)) nm = Ok e -> py_index (s_func (k_store m1)) (Store.e_data e) = Ok f ->
       numbers_ok (k_store m1) (ft_args (fi_type f)) args) ->
    rt_invocate F host n h nm args m1 = (Ok rs, m2) -> honest F host sg m m2.
