(* C135: the stacks of a call stay bounded. *)
From Coq Require Import ZArith List Bool Lia.
From Verif Require Import Py Floatops Val Opcode Numeric Syntax Store Basic Machine SpecMachine SpecType SpecStacks Float StacksRunFacts.
Import ListNotations.
Open Scope Z_scope.

(* For the functions and instances of [s] there is one number; it does not depend on arguments, on the contents of
   memories, tables, globals and segments ([s'] may have any), on host functions or on how long the call has run. *)
Theorem C135_bounded s :
  (forall t h code, In (FWasm t h code) (s_func s) -> stays_inside 0 (fd_expr code)) ->
  exists B, forall F host s' t h code args n m', leaves_stacks host -> s_func s' = s_func s -> s_inst s' = s_inst s -> In (FWasm t h code) (s_func s) ->
    evaluate F host n (SpecType.starts s' t h code args) = (Ok tt, m') -> stacks_below B m'.
Proof. exact (bounded s). Qed.
Print Assumptions C135_bounded.
(* A function that runs for ever, pushes a number in each turn of a loop and calls itself every time the number is zero:
   after 199 turns the three stacks hold two entries each, and its branches stay inside. *)
Definition ex_forever : funcdesc := mkfd 0 []
  [ILoop BT_empty [IOp O_i32_const [AInt 1]; IOp O_i32_const [AInt 1]; IIf BT_empty [IOp O_br [AInt 1]] [IOp O_call [AInt 0]]]].
Definition ex_forever_store : store := mkstore [FWasm (mkft [] []) 0 ex_forever] [] [] [] [] [] [mkmi [mkft [] []] [0] [] [] [] [] [] []] [].
Definition ex_silent : hostcode := fun _ _ m => (Ok [], m).
Example C135_ex : leaves_stacks ex_silent /\
  (forall t h code, In (FWasm t h code) (s_func ex_forever_store) -> stays_inside 0 (fd_expr code)) /\
  exists m', evaluate ieee ex_silent 199 (SpecType.starts ex_forever_store (mkft [] []) 0 ex_forever []) = (Ok tt, m') /\
    length (k_label m') = 2%nat /\ length (k_value m') = 2%nat /\ length (k_frame m') = 2%nat.
Proof.
  split; [|split].
  - intros hid args m r m' E. injection E as _ <-. repeat split.
  - intros t h code [E|[]]. injection E as <- <- <-. apply si_loop; [|constructor].
    assert (P : forall o, o = O_i32_const \/ o = O_call -> ~ In o [O_br; O_br_if; O_br_table]) by (intros o [->| ->] H; cbn in H; intuition discriminate).
    apply si_plain; [apply P; now left|]. apply si_plain; [apply P; now left|]. apply si_if; [| |constructor].
    + apply si_br; [now left| |constructor]. intros l E. injection E as <-. split; cbn; lia.
    + apply si_plain; [apply P; now right|constructor].
  - eexists. split; [vm_compute; reflexivity|]. cbn. auto.
Qed.
