(* C134: code without a way back ends. *)
From Coq Require Import ZArith List Bool Lia.
From Verif Require Import Py Floatops Val Opcode Numeric Syntax Store Basic Machine SpecMachine SpecType SpecEnds Float EndsFacts EndsRunFacts.
Import ListNotations.
Open Scope Z_scope.

(* At most 1022 calls nest in a call from outside: pywasm allows 1024 frames, and invocate makes two.
   From the start of a call, [N + 1] turns are enough, for the instructions of the function and its end: the call has raised or
   its labels are gone. *)
Theorem C134_ends F host s t h code args N :
  minds_its_business host -> ends_within s 1022 h [] (fd_expr code) N ->
  forall n, (N < n)%nat ->
    match evaluate F host n (SpecType.starts s t h code args) with (Ok _, m') => k_label m' = [] | (Err _, _) => True end.
Proof. exact (starts_ends F host s t h code args N). Qed.
Print Assumptions C134_ends.

(* The outcome of a call - results or exception, and the machine left behind - is the same under all limits above [N],
   whatever the arguments and whatever is in memories, tables, globals and segments. *)
Theorem C134_limit F host s a t h code N :
  minds_its_business host -> py_index (s_func s) a = Ok (FWasm t h code) -> ends_within s 1022 h [] (fd_expr code) N ->
  forall m args n n', k_label m = [] -> s_func (k_store m) = s_func s -> s_inst (k_store m) = s_inst s -> (N < n)%nat -> (N < n')%nat ->
    invocate F host n a args m = invocate F host n' a args m.
Proof. exact (invocate_limit F host s a t h code N). Qed.
Print Assumptions C134_limit.

(* Where no function branches back and calls lead to lower ranks, one number of turns is enough for all calls. *)
Theorem C134_ranked F host s rank :
  minds_its_business host -> ranked s rank ->
  exists N, (forall t h code, In (FWasm t h code) (s_func s) -> ends_within s 1022 h [] (fd_expr code) N) /\
    forall a m args n n', k_label m = [] -> s_func (k_store m) = s_func s -> s_inst (k_store m) = s_inst s -> (N < n)%nat -> (N < n')%nat ->
      invocate F host n a args m = invocate F host n' a args m.
Proof. intros H1 H2. exact (bound_ends F host s H1 (ranked_bound s 1022 rank H2)). Qed.
Print Assumptions C134_ranked.

(* Even where functions call themselves or each other in circles: pywasm allows a limited number of nested calls, so that
   without a branch back every call ends, by an exception if it does not end otherwise. *)
Theorem C134_recursion F host s :
  minds_its_business host -> loopless s ->
  exists N, (forall t h code, In (FWasm t h code) (s_func s) -> ends_within s 1022 h [] (fd_expr code) N) /\
    forall a m args n n', k_label m = [] -> s_func (k_store m) = s_func s -> s_inst (k_store m) = s_inst s -> (N < n)%nat -> (N < n')%nat ->
      invocate F host n a args m = invocate F host n' a args m.
Proof. intros H1 H2. exact (bound_ends F host s H1 (loopless_bound s 1022 H2)). Qed.
Print Assumptions C134_recursion.

(* Function 0 calls function 1 unless its argument is zero ... *)
Definition ex_first : funcdesc := mkfd 0 []
  [IBlock BT_empty [IOp O_local_get [AInt 0]; IOp O_i32_eqz []; IOp O_br_if [AInt 0];
     IOp O_local_get [AInt 0]; IOp O_call [AInt 1]; IOp O_local_set [AInt 0]];
   IOp O_local_get [AInt 0]].
(* ... which doubles it, in a loop that is never taken back. *)
Definition ex_second : funcdesc := mkfd 0 [] [ILoop (BT_val T_i32) [IOp O_local_get [AInt 0]; IOp O_local_get [AInt 0]; IOp O_i32_add []]].
Definition ex_type : functype := mkft [T_i32] [T_i32].
Definition ex_store : store := mkstore [FWasm ex_type 0 ex_first; FWasm ex_type 0 ex_second] [] [] [] [] [] [mkmi [ex_type] [0; 1] [] [] [] [] [] []] [].
Definition ex_host : hostcode := fun _ _ m => (Ok [], m).
Lemma ex_minds : minds_its_business ex_host.
Proof. intros hid args m r m' E. injection E as _ <-. repeat split. Qed.
Lemma ex_number : ends_within ex_store 1022 0 [] (fd_expr ex_first) 15.
Proof.
  change 15%nat with (2 + 12 + 1)%nat. apply ew_block.
  - apply ew_plain; [reflexivity|]. apply ew_plain; [reflexivity|]. apply ew_br; [now right; left| |].
    + intros l E. injection E as <-. split; [lia|reflexivity].
    + apply ew_plain; [reflexivity|]. apply (ew_call _ _ _ _ _ _ 5 1).
      * intros d i addr t h code _ E1 E2 E3. injection E1 as <-. injection E2 as <-. injection E3 as _ <- <-.
        apply (ew_loop _ _ _ _ _ _ _ 3 0); [|constructor]. apply ew_plain; [reflexivity|]. apply ew_plain; [reflexivity|]. apply ew_plain; [reflexivity|]. constructor.
      * apply ew_plain; [reflexivity|]. constructor.
  - apply ew_plain; [reflexivity|]. constructor.
Qed.
(* 16 turns are needed, and enough; the call gives 6 for 3, and 0 for 0. *)
Example C134_ex : minds_its_business ex_host /\ ends_within ex_store 1022 0 [] (fd_expr ex_first) 15 /\
  k_label (snd (evaluate ieee ex_host 15 (SpecType.starts ex_store ex_type 0 ex_first [num_val T_i32 3]))) <> [] /\
  fst (invocate ieee ex_host 16 0 [num_val T_i32 3] (mkmach ex_store [] [] [])) = Ok [num_val T_i32 6] /\
  fst (invocate ieee ex_host 16 0 [num_val T_i32 0] (mkmach ex_store [] [] [])) = Ok [num_val T_i32 0].
Proof.
  split; [exact ex_minds|]. split; [exact ex_number|]. split; [vm_compute; discriminate|]. split; vm_compute; reflexivity.
Qed.
(* Function 0 has the higher rank. *)
Definition ex_rank (f : funcinst) : nat := match f with FWasm _ _ d => length (fd_expr d) | FHost _ _ => 0 end.
Example C134_ex_ranked : ranked ex_store ex_rank.
Proof.
  intros t h code [E|[E|[]]]; injection E as <- <- <-; cbn [ex_rank fd_expr ex_first ex_second length].
  - apply nb_block.
    + apply nb_plain; [reflexivity|]. apply nb_plain; [reflexivity|]. apply nb_br; [now right; left| |].
      * intros l E. injection E as <-. split; [lia|reflexivity].
      * apply nb_plain; [reflexivity|]. apply nb_call; [|apply nb_plain; [reflexivity|constructor]].
        intros i addr f E1 E2 E3. injection E1 as <-. injection E2 as <-. injection E3 as <-. cbn. lia.
    + apply nb_plain; [reflexivity|constructor].
  - apply nb_loop; [|constructor]. do 3 (apply nb_plain; [reflexivity|]). constructor.
Qed.

(* A function that calls itself for ever: the call raises. *)
Definition ex_self : store := mkstore [FWasm (mkft [] []) 0 (mkfd 0 [] [IOp O_call [AInt 0]])] [] [] [] [] [] [mkmi [mkft [] []] [0] [] [] [] [] [] []] [].
Example C134_ex_recursion : loopless ex_self /\ fst (invocate ieee ex_host 1100 0 [] (mkmach ex_self [] [] [])) = Err EAssert.
Proof.
  split; [|vm_compute; reflexivity]. intros t h code [E|[]]. injection E as <- <- <-. apply nb_call; [|constructor]. intros. exact I.
Qed.
