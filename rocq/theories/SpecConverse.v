(* Words needed to say that the interpreter's runs are structured runs, and nothing else. *)
From Coq Require Import ZArith List Bool.
From Verif Require Import Py Floatops Val Opcode Numeric Syntax Store Basic Machine SpecMachine SpecControl SpecType.
Import ListNotations.
Open Scope Z_scope.

Section words.
Context (F : fops) (host : hostcode).
(* after [n] turns there is still code to run *)
Definition unfinished (n : nat) (m : machine) : Prop := exists m', evaluate F host n m = (Ok tt, m') /\ k_label m' <> [].
(* The machine comes to a call_indirect whose table entry is neither null nor a reference to a function of the store. *)
Definition stray (m : machine) : Prop :=
  exists m1 fr i j c V ta tab r, gets_to F host m m1 /\
    about_to_run m1 (IOp O_call_indirect [AInt (Z.of_nat i); AInt (Z.of_nat j)]) fr /\ k_value m1 = c :: V /\
    nth_error (m_tabl (mod_of (k_store m1) (fr_module fr))) j = Some (Z.of_nat ta) /\
    nth_error (s_tabl (k_store m1)) ta = Some tab /\
    nth_error (ti_elem tab) (Z.to_nat (low 32 c)) = Some r /\
    r <> null_ref T_func /\ forall a, (a < length (s_func (k_store m1)))%nat -> r <> ref_to T_func a.
End words.
