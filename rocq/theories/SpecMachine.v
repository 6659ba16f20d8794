(* Vocabulary for statements about one step of the machine: what is where on the stacks, independent of how the
   interpreter gets there. *)
From Coq Require Import ZArith List Bool.
From Verif Require Import Py Val Opcode Numeric Syntax Store.
Import ListNotations.
Open Scope Z_scope.

(* the machine is about to run instruction [i] in frame [fr] *)
Definition about_to_run (m : machine) (i : inst) (fr : frame) : Prop :=
  (exists lb ls, k_label m = lb :: ls /\ nth_error (lb_instr lb) (lb_index lb) = Some i) /\
  (exists fs, k_frame m = fr :: fs).

(* the same machine with the instruction pointer behind the current instruction, and other operands *)
Definition moved_on (m : machine) (V : list val) : machine :=
  mkmach (k_store m) V
    match k_label m with
    | lb :: ls =>
      mklabel (lb_arity lb) (lb_frame lb) (lb_value lb) (lb_carry lb) (lb_instr lb) (S (lb_index lb)) :: ls
    | [] => []
    end (k_frame m).
(* ... and another store *)
Definition with_store (m : machine) (s : store) : machine := mkmach s (k_value m) (k_label m) (k_frame m).
(* ... and other locals in the current frame *)
Definition with_locals (m : machine) (l : list val) : machine :=
  mkmach (k_store m) (k_value m) (k_label m)
    match k_frame m with
    | fr :: fs => mkframe (fr_module fr) l (fr_arity fr) (fr_label fr) (fr_value fr) :: fs
    | [] => []
    end.

(* the N-bit integer (or bit pattern) at the low end of a value's 16 bytes, least significant byte first *)
Definition low (N : Z) (v : val) : Z := le_of (v_data v) mod 2 ^ N.
(* the value of type [t] whose 128 bits are those of the number [z] *)
Definition num_val (t : valtype) (z : Z) : val := mkval t (to_le 16 z).
(* the instruction after the current one *)
Definition next_is (m : machine) (i : inst) : Prop :=
  exists lb ls, k_label m = lb :: ls /\ nth_error (lb_instr lb) (S (lb_index lb)) = Some i.
