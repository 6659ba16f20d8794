(* Code that never goes back, and how many turns of the main loop it takes at most. *)
From Coq Require Import ZArith List Bool.
From Verif Require Import Py Floatops Val Opcode Numeric Syntax Store Machine.
Import ListNotations.
Open Scope Z_scope.

(* The labels of the blocks around an instruction, the innermost first: [true] for a block or an if, where a branch goes
   on behind it, [false] for a loop, where it goes back. The label of the function itself is not among them. *)
Definition forward (C : list bool) (l : Z) : Prop := 0 <= l /\ nth_error C (Z.to_nat l) = Some true.
Definition transfers (o : opc) : bool :=
  match o with O_br | O_br_if | O_br_table | O_call | O_call_indirect => true | _ => false end.

(* [ends_within s d h C is n]: the instructions [is] of instance [h], inside blocks [C], take at most [n] turns to run or to
   leave if at most [d] calls nest in them: one for an instruction, one for the end of a block and of a function that is
   called. (Deeper calls raise, core.py 1754, so that they cost no more than the instruction.) *)
Inductive ends_within (s : store) : nat -> nat -> list bool -> list inst -> nat -> Prop :=
| ew_end d h C n : ends_within s d h C [] n
| ew_plain d h C o args is n : transfers o = false -> ends_within s d h C is n -> ends_within s d h C (IOp o args :: is) (S n)
| ew_block d h C bt body is a n : ends_within s d h (true :: C) body a -> ends_within s d h C is n ->
    ends_within s d h C (IBlock bt body :: is) (2 + a + n)
| ew_loop d h C bt body is a n : ends_within s d h (false :: C) body a -> ends_within s d h C is n ->
    ends_within s d h C (ILoop bt body :: is) (2 + a + n)
| ew_if d h C bt th el is a b n : ends_within s d h (true :: C) th a -> ends_within s d h (true :: C) el b -> ends_within s d h C is n ->
    ends_within s d h C (IIf bt th el :: is) (2 + Nat.max a b + n)
| ew_br d h C o args is n : In o [O_br; O_br_if] -> (forall l, arg_int args 0 = Ok l -> forward C l) -> ends_within s d h C is n ->
    ends_within s d h C (IOp o args :: is) (S n)
| ew_br_table d h C args is n : (forall l, arg_int args 1 = Ok l -> forward C l) ->
    (forall ls, arg_list args 0 = Ok ls -> Forall (forward C) ls) -> ends_within s d h C is n ->
    ends_within s d h C (IOp O_br_table args :: is) (S n)
| ew_call d h C args is a n :
    (forall d' i addr t h' code, d = S d' -> arg_int args 0 = Ok i -> py_index (m_func (mod_of s (MRef h))) i = Ok addr ->
       py_index (s_func s) addr = Ok (FWasm t h' code) -> ends_within s d' h' [] (fd_expr code) a) ->
    ends_within s d h C is n -> ends_within s d h C (IOp O_call args :: is) (2 + a + n)
| ew_call_indirect d h C args is a n :
    (forall d' i t t' h' code, d = S d' -> arg_int args 0 = Ok i -> py_index (m_type (mod_of s (MRef h))) i = Ok t ->
       In (FWasm t' h' code) (s_func s) -> ft_eqb t' t = true -> ends_within s d' h' [] (fd_expr code) a) ->
    ends_within s d h C is n -> ends_within s d h C (IOp O_call_indirect args :: is) (2 + a + n).

(* The same without the number: nothing branches back, and what is called is among [lower]. *)
Inductive no_way_back (s : store) (lower : funcinst -> Prop) (h : nat) : list bool -> list inst -> Prop :=
| nb_end C : no_way_back s lower h C []
| nb_plain C o args is : transfers o = false -> no_way_back s lower h C is -> no_way_back s lower h C (IOp o args :: is)
| nb_block C bt body is : no_way_back s lower h (true :: C) body -> no_way_back s lower h C is -> no_way_back s lower h C (IBlock bt body :: is)
| nb_loop C bt body is : no_way_back s lower h (false :: C) body -> no_way_back s lower h C is -> no_way_back s lower h C (ILoop bt body :: is)
| nb_if C bt th el is : no_way_back s lower h (true :: C) th -> no_way_back s lower h (true :: C) el -> no_way_back s lower h C is ->
    no_way_back s lower h C (IIf bt th el :: is)
| nb_br C o args is : In o [O_br; O_br_if] -> (forall l, arg_int args 0 = Ok l -> forward C l) -> no_way_back s lower h C is ->
    no_way_back s lower h C (IOp o args :: is)
| nb_br_table C args is : (forall l, arg_int args 1 = Ok l -> forward C l) ->
    (forall ls, arg_list args 0 = Ok ls -> Forall (forward C) ls) -> no_way_back s lower h C is ->
    no_way_back s lower h C (IOp O_br_table args :: is)
| nb_call C args is :
    (forall i addr f, arg_int args 0 = Ok i -> py_index (m_func (mod_of s (MRef h))) i = Ok addr -> py_index (s_func s) addr = Ok f -> lower f) ->
    no_way_back s lower h C is -> no_way_back s lower h C (IOp O_call args :: is)
| nb_call_indirect C args is :
    (forall i t f, arg_int args 0 = Ok i -> py_index (m_type (mod_of s (MRef h))) i = Ok t ->
       In f (s_func s) -> ft_eqb (fi_type f) t = true -> lower f) ->
    no_way_back s lower h C is -> no_way_back s lower h C (IOp O_call_indirect args :: is).
(* Every function of the store is such code, and calls lead from higher to lower ranks. *)
Definition ranked (s : store) (rank : funcinst -> nat) : Prop :=
  forall t h code, In (FWasm t h code) (s_func s) ->
    no_way_back s (fun f => (rank f < rank (FWasm t h code))%nat) h [] (fd_expr code).

(* Every function of the store is such code, but may call any function, itself too. *)
Definition loopless (s : store) : Prop :=
  forall t h code, In (FWasm t h code) (s_func s) -> no_way_back s (fun _ => True) h [] (fd_expr code).

(* A host function that returns has left the stacks of labels and frames, the functions and the instances as they were;
   it may change the operands, memories, tables, globals and segments, and it may raise. *)
Definition minds_its_business (host : hostcode) : Prop :=
  forall hid args m r m', host hid args m = (Ok r, m') ->
    k_label m' = k_label m /\ k_frame m' = k_frame m /\ s_func (k_store m') = s_func (k_store m) /\ s_inst (k_store m') = s_inst (k_store m).
