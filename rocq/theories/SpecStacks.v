(* Code whose branches stay inside the function. *)
From Coq Require Import ZArith List Bool.
From Verif Require Import Py Floatops Val Opcode Numeric Syntax Store Machine.
Import ListNotations.
Open Scope Z_scope.

(* a branch to one of the [d] blocks around it *)
Definition inward (d : nat) (l : Z) : Prop := 0 <= l < Z.of_nat d.
Inductive stays_inside : nat -> list inst -> Prop :=
| si_end d : stays_inside d []
| si_plain d o args is : ~ In o [O_br; O_br_if; O_br_table] -> stays_inside d is -> stays_inside d (IOp o args :: is)
| si_block d bt body is : stays_inside (S d) body -> stays_inside d is -> stays_inside d (IBlock bt body :: is)
| si_loop d bt body is : stays_inside (S d) body -> stays_inside d is -> stays_inside d (ILoop bt body :: is)
| si_if d bt th el is : stays_inside (S d) th -> stays_inside (S d) el -> stays_inside d is -> stays_inside d (IIf bt th el :: is)
| si_br d o args is : In o [O_br; O_br_if] -> (forall l, arg_int args 0 = Ok l -> inward d l) -> stays_inside d is -> stays_inside d (IOp o args :: is)
| si_br_table d args is : (forall l, arg_int args 1 = Ok l -> inward d l) -> (forall ls, arg_list args 0 = Ok ls -> Forall (inward d) ls) ->
    stays_inside d is -> stays_inside d (IOp O_br_table args :: is).

(* A host function that returns has left the three stacks, the functions and the instances as they were. *)
Definition leaves_stacks (host : hostcode) : Prop :=
  forall hid args m r m', host hid args m = (Ok r, m') ->
    k_label m' = k_label m /\ k_frame m' = k_frame m /\ k_value m' = k_value m /\
    s_func (k_store m') = s_func (k_store m) /\ s_inst (k_store m') = s_inst (k_store m).
(* None of the stacks holds more than [B] entries. *)
Definition stacks_below (B : nat) (m : machine) : Prop :=
  (length (k_frame m) <= B /\ length (k_label m) <= B /\ length (k_value m) <= B)%nat.
