(* Which memory a WASI function works on, and worlds that are the same for it. *)
From Coq Require Import ZArith List.
From Verif Require Import Py Floatops Val Syntax Store Basic Machine Os Wasi WasiRun SpecIsolate SpecAgree SpecWasi SpecWasiRun.
Import ListNotations.
Open Scope Z_scope.

(* [a] is the address of memory 0 of the instance whose code is running. *)
Definition own_memory (m : machine) (a : nat) : Prop :=
  exists fr fs, k_frame m = fr :: fs /\ nth_error (m_mems (mod_of (k_store m) (fr_module fr))) 0 = Some (Z.of_nat a).
(* The addresses of the memories of that instance are numbers of objects (they are never negative). *)
Definition natural_memories (m : machine) : Prop :=
  forall fr fs, k_frame m = fr :: fs -> Forall (fun z => 0 <= z) (m_mems (mod_of (k_store m) (fr_module fr))).
(* The same WASI object, the same requests and replies so far, the same contents of the in-memory streams. *)
Definition same_outer (w w' : world) : Prop := w_self w' = w_self w /\ w_log w' = w_log w /\ w_pipes w' = w_pipes w.
(* The running instance has the same own memory, with the same contents. *)
Definition same_own (m m' : machine) : Prop :=
  (forall a, own_memory m' a <-> own_memory m a) /\
  forall a, own_memory m a -> nth_error (s_mems (k_store m')) a = nth_error (s_mems (k_store m)) a.
