(* Two stores that are the same as far as a group of instances can see. *)
From Coq Require Import ZArith List.
From Verif Require Import Py Floatops Val Opcode Numeric Syntax Store Basic Machine SpecRun SpecInst SpecIsolate.
Import ListNotations.
Open Scope Z_scope.

(* The two stores have the same objects at the addresses of the region. *)
Record agrees (G : region) (s s' : store) : Prop := mk_agrees {
  ag_func : forall a, g_func G a -> nth_error (s_func s') a = nth_error (s_func s) a;
  ag_inst : forall a, g_inst G a -> nth_error (s_inst s') a = nth_error (s_inst s) a;
  ag_tabl : forall a, g_tabl G a -> nth_error (s_tabl s') a = nth_error (s_tabl s) a;
  ag_mems : forall a, g_mems G a -> nth_error (s_mems s') a = nth_error (s_mems s) a;
  ag_glob : forall a, g_glob G a -> nth_error (s_glob s') a = nth_error (s_glob s) a;
  ag_elem : forall a, g_elem G a -> nth_error (s_elem s') a = nth_error (s_elem s) a;
  ag_data : forall a, g_data G a -> nth_error (s_data s') a = nth_error (s_data s) a;
  ag_blob : forall a, g_blob G a -> nth_error (s_blob s') a = nth_error (s_blob s) a
}.
(* The same instance is running in both machines. *)
Definition same_running (m m' : machine) : Prop :=
  forall fr fs, k_frame m = fr :: fs -> mod_of (k_store m') (fr_module fr) = mod_of (k_store m) (fr_module fr).
(* The host functions of the region, called from the region, do and return the same in machines that differ only outside
   the region. *)
Definition host_agrees (sg : nat -> functype) (G : region) (host : hostcode) : Prop :=
  forall hid args m m', g_host G hid -> closed sg G (k_store m) -> closed sg G (k_store m') -> agrees G (k_store m) (k_store m') ->
    k_value m' = k_value m -> k_label m' = k_label m -> k_frame m' = k_frame m -> called_inside G m -> same_running m m' ->
    fst (host hid args m') = fst (host hid args m) /\ agrees G (k_store (snd (host hid args m))) (k_store (snd (host hid args m'))).

(* a call of an exported function: the limit of turns, the name, the arguments and what it returned *)
Record call : Set := mkcall { ca_turns : nat; ca_name : name; ca_args : list pyval; ca_rets : list pyval }.
(* Calls of exported functions of the instance [h], one after the other, that all return. *)
Inductive calls (F : fops) (host : hostcode) (h : nat) (m : machine) : list call -> machine -> Prop :=
| cs_nil : calls F host h m [] m
| cs_call l m1 c m2 : calls F host h m l m1 -> rt_invocate F host (ca_turns c) h (ca_name c) (ca_args c) m1 = (Ok (ca_rets c), m2) -> calls F host h m (l ++ [c]) m2.
(* The same, and in between a program that is given only the region does anything (SpecIsolate.v). *)
Inductive amid (F : fops) (host : hostcode) (sg : nat -> functype) (G : region) (h : nat) (m : machine) : list call -> machine -> Prop :=
| am_nil : amid F host sg G h m [] m
| am_call l m1 c m2 : amid F host sg G h m l m1 -> rt_invocate F host (ca_turns c) h (ca_name c) (ca_args c) m1 = (Ok (ca_rets c), m2) -> amid F host sg G h m (l ++ [c]) m2
| am_other l m1 m2 : amid F host sg G h m l m1 -> uses_only F host sg G m1 m2 -> amid F host sg G h m l m2.
(* The name is that of a function the instance exports, and the arguments refer only to functions of the region. *)
Definition callable (G : region) (s : store) (h : nat) (nm : name) (args : list pyval) : Prop :=
  exists e f, find_export (mod_of s (MRef h)) nm = Ok e /\ e_kind e = 0 /\ item (s_func s) (Store.e_data e) f /\
    Forall pyval_ok args /\ numbers_in G (ft_args (fi_type f)) args.
