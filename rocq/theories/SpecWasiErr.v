(* What a WASI function that fails is to leave as it was. *)
From Coq Require Import ZArith List Bool.
From Verif Require Import Py Floatops Val Syntax Store Machine Os Wasi.

(* memory and the rest of the store, the descriptor table, and the streams are as they were *)
Definition unmoved (w w' : world) : Prop :=
  k_store (w_mach w') = k_store (w_mach w) /\ w_self w' = w_self w /\ w_pipes w' = w_pipes w.
