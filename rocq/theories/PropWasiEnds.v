(* C139: programs with WASI functions end, and their stacks stay bounded, whatever the operating system replies. *)
From Coq Require Import ZArith List Bool Lia.
From Verif Require Import Py Floatops Val Opcode Numeric Syntax Store Basic Machine Os Wasi WasiRun SpecControl SpecType SpecCode SpecEnds SpecStacks
  Float EndsRunFacts WasiEndsFacts ReachFacts.
From Verif Require PropWasiAsk.
Import ListNotations.
Open Scope Z_scope.

(* Code of [N] turns without a way back ends within [N] turns, also where it calls WASI functions. *)
Theorem C139_ends : forall F Os s t h code args N w, ends_within s 1022 h [] (fd_expr code) N -> w_mach w = SpecType.starts s t h code args -> forall n, (N < n)%nat ->
  match wevaluate F Os n w with (Ok _, w') => k_label (w_mach w') = [] | (Err _, _) => True end.
Proof. exact wstarts_ends. Qed.
Print Assumptions C139_ends.
(* Where no function branches back and calls lead to lower ranks, one number of turns is enough for all calls, arguments and operating
   systems: above it the outcome, the requests and the world left behind do not depend on the limit. *)
Theorem C139_ranked : forall s rank, ranked s rank ->
  exists N, forall F Os a w args n n', k_label (w_mach w) = [] -> s_func (k_store (w_mach w)) = s_func s -> s_inst (k_store (w_mach w)) = s_inst s -> (N < n)%nat -> (N < n')%nat ->
    winvocate F Os n a args w = winvocate F Os n' a args w.
Proof. intros s rank H. exact (wbound_ends s (ranked_bound s 1022 rank H)). Qed.
Print Assumptions C139_ranked.
(* The same with recursion of any kind, which the limit of 1024 frames ends. *)
Theorem C139_recursion : forall s, loopless s ->
  exists N, forall F Os a w args n n', k_label (w_mach w) = [] -> s_func (k_store (w_mach w)) = s_func s -> s_inst (k_store (w_mach w)) = s_inst s -> (N < n)%nat -> (N < n')%nat ->
    winvocate F Os n a args w = winvocate F Os n' a args w.
Proof. intros s H. exact (wbound_ends s (loopless_bound s 1022 H)). Qed.
Print Assumptions C139_recursion.
(* And where branches stay inside the functions, one bound holds for the stacks of all calls at all times, also of those that never end. *)
Theorem C139_bounded : forall s, (forall t h code, In (FWasm t h code) (s_func s) -> stays_inside 0 (fd_expr code)) ->
  exists B, forall F Os s' t h code args n w w', s_func s' = s_func s -> s_inst s' = s_inst s -> In (FWasm t h code) (s_func s) -> w_mach w = SpecType.starts s' t h code args ->
    wevaluate F Os n w = (Ok tt, w') -> stacks_below B (w_mach w').
Proof. exact wbounded. Qed.
Print Assumptions C139_bounded.

(* The program of C137_ex: 12 turns by the count of [ends_within], and it ends after 11, with two requests made. *)
Definition ex_level (f : funcinst) : nat := match f with FWasm _ _ _ => 1%nat | FHost _ _ => 0%nat end.
Lemma ex_asks_number : ends_within PropWasiAsk.ex_gs 1022 0 [] (fd_expr PropWasiAsk.ex_main) 12.
Proof.
  cbn [fd_expr PropWasiAsk.ex_main]. do 2 (apply ew_plain; [reflexivity|]). apply (ew_call _ _ _ _ _ _ 0 8).
  - intros d' i addr t h code _ E1 E2 E3. injection E1 as <-. injection E2 as <-. discriminate E3.
  - do 5 (apply ew_plain; [reflexivity|]). apply (ew_call_indirect _ _ _ _ _ _ 0 1).
    + intros d' i t t' h code _ E1 E2 HI E3. injection E1 as <-. injection E2 as <-. destruct HI as [E|[E|[E|[E|[]]]]]; try discriminate E. injection E as <- <- <-. discriminate E3.
    + apply ew_plain; [reflexivity|constructor].
Qed.
Lemma ex_asks_ranked : ranked PropWasiAsk.ex_gs ex_level.
Proof.
  intros t h code [E|[E|[E|[E|[]]]]]; try discriminate E. injection E as <- <- <-. cbn [fd_expr PropWasiAsk.ex_main]. do 2 (apply nb_plain; [reflexivity|]). apply nb_call.
  - intros i addr f E1 E2 E3. injection E1 as <-. injection E2 as <-. injection E3 as <-. cbn. lia.
  - do 5 (apply nb_plain; [reflexivity|]). apply nb_call_indirect; [|apply nb_plain; [reflexivity|constructor]].
    intros i t f E1 E2 HI E3. injection E1 as <-. injection E2 as <-. destruct HI as [<-|[<-|[<-|[<-|[]]]]]; try discriminate E3. cbn. lia.
Qed.
Lemma ex_asks_loopless : loopless PropWasiAsk.ex_gs.
Proof.
  intros t h code [E|[E|[E|[E|[]]]]]; try discriminate E. injection E as <- <- <-. cbn [fd_expr PropWasiAsk.ex_main]. do 2 (apply nb_plain; [reflexivity|]). apply nb_call; [intros; exact I|].
  do 5 (apply nb_plain; [reflexivity|]). apply nb_call_indirect; [intros; exact I|]. apply nb_plain; [reflexivity|constructor].
Qed.
Example C139_ex : ends_within PropWasiAsk.ex_gs 1022 0 [] (fd_expr PropWasiAsk.ex_main) 12 /\ ranked PropWasiAsk.ex_gs ex_level /\ loopless PropWasiAsk.ex_gs /\
  (forall t h code, In (FWasm t h code) (s_func PropWasiAsk.ex_gs) -> stays_inside 0 (fd_expr code)) /\
  k_label (w_mach (snd (wevaluate ieee PropWasiAsk.ex_gos 10 (with_mach PropWasiAsk.ex_gw (SpecType.starts PropWasiAsk.ex_gs PropWasiAsk.ex_c3 0 PropWasiAsk.ex_main []))))) <> [] /\
  fst (winvocate ieee PropWasiAsk.ex_gos 11 3 [] PropWasiAsk.ex_gw) = Ok [] /\ length (w_log (snd (winvocate ieee PropWasiAsk.ex_gos 11 3 [] PropWasiAsk.ex_gw))) = 2%nat.
Proof.
  split; [exact ex_asks_number|]. split; [exact ex_asks_ranked|]. split; [exact ex_asks_loopless|]. split.
  - intros t h code HI. apply PropWasiAsk.ex_gg_closed with t h. destruct HI as [E|[E|[E|[E|[]]]]]; try discriminate E. injection E as <- <- <-. right. now right.
  - split; [vm_compute; discriminate|]. split; vm_compute; reflexivity.
Qed.
