(* C138: what WASI functions, and the programs that call them, leave as it was. *)
From Coq Require Import ZArith List Bool Lia.
From Verif Require Import Py Floatops Val Opcode Numeric Syntax Store Basic Machine Os Wasi WasiRun SpecControl SpecType SpecCode SpecEnds SpecStacks SpecReach SpecWasiAsk SpecWasiLeave
  Float CodeFacts ReachFacts WasiLeaveFacts WasiLeaveRunFacts.
From Verif Require PropWasi PropWasiRun PropWasiAsk.
Import ListNotations.
Open Scope Z_scope.

(* With any arguments in any world, and also if it raises, a WASI function that hands nothing back through memory leaves the whole store as
   it was, one that is not about descriptors leaves the descriptor table, and all but fd_read and fd_write leave the streams. *)
Theorem C138_function : forall Os f args w, let w' := snd (wasi_call Os f args w) in
  (fills_memory f = false -> k_store (w_mach w') = k_store (w_mach w)) /\
  (sets_descriptors f = false -> w_self w' = w_self w) /\
  (moves_streams f = false -> w_pipes w' = w_pipes w).
Proof. intros Os f args w. exact (call_leaves Os f args w). Qed.
Print Assumptions C138_function.
(* So do programs without these functions in their call graph: the descriptor table stays as it was, ... *)
Theorem C138_descriptors : forall F Os G n a args w, k_label (w_mach w) = [] -> call_closed (k_store (w_mach w)) G ->
  (forall f, py_index (s_func (k_store (w_mach w))) a = Ok f -> G f) -> none_of sets_descriptors G ->
  w_self (snd (winvocate F Os n a args w)) = w_self w.
Proof. exact leave_descriptors. Qed.
Print Assumptions C138_descriptors.
(* ... the streams stay as they were, ... *)
Theorem C138_streams : forall F Os G n a args w, k_label (w_mach w) = [] -> call_closed (k_store (w_mach w)) G ->
  (forall f, py_index (s_func (k_store (w_mach w))) a = Ok f -> G f) -> none_of moves_streams G ->
  w_pipes (snd (winvocate F Os n a args w)) = w_pipes w.
Proof. exact leave_streams. Qed.
Print Assumptions C138_streams.
(* ... and so do the parts of the store that the code of the program does not write; only memories can also be written by WASI functions. *)
Theorem C138_store : forall F Os G p n a args w, k_label (w_mach w) = [] -> call_closed (k_store (w_mach w)) G ->
  (forall f, py_index (s_func (k_store (w_mach w))) a = Ok f -> G f) ->
  (forall t h code o args, G (FWasm t h code) -> within (IOp o args) (fd_expr code) -> writes p o = false) -> (p = Memories -> none_of fills_memory G) ->
  same_part p (k_store (w_mach w)) (k_store (w_mach (snd (winvocate F Os n a args w)))).
Proof. exact leave_part. Qed.
Print Assumptions C138_store.

(* The program of C137_ex asks for random bytes and the time: descriptors, streams and the table stay as they were, the memory does not. *)
Example C138_ex : none_of sets_descriptors PropWasiAsk.ex_gg /\ none_of moves_streams PropWasiAsk.ex_gg /\
  (forall t h code o args, PropWasiAsk.ex_gg (FWasm t h code) -> within (IOp o args) (fd_expr code) -> writes Tables o = false) /\
  let w' := snd (winvocate ieee PropWasiAsk.ex_gos 99 3 [] PropWasiAsk.ex_gw) in
  map mi_data (s_mems (k_store (w_mach w'))) = [[9; 9; 9; 9; 0; 0; 0; 0; 5; 0; 0; 0; 0; 0; 0; 0]] /\ s_tabl (k_store (w_mach w')) = s_tabl PropWasiAsk.ex_gs.
Proof.
  assert (H : forall sort, sort F_random_get = false -> sort F_clock_time_get = false -> none_of sort PropWasiAsk.ex_gg).
  { intros sort H1 H2 t hid nm ty f [E|[E|E]] H; try discriminate E; injection E as -> ->; injection H as <- <- <-; assumption. }
  split; [now apply H|]. split; [now apply H|]. split; [|split; vm_compute; reflexivity].
  intros t h code o args [E|[E|E]] W; try discriminate E. injection E as -> -> ->. apply negb_true_iff. refine (each_within (fun o _ => negb (writes Tables o)) o args _ W _). reflexivity.
Qed.
(* A program that closes descriptor 3, which a directory was opened on: the descriptor table changes, no part of the store does. *)
Definition ex_closer : funcdesc := mkfd 1 [] [IOp O_i32_const [AInt 3]; IOp O_call [AInt 0]; IOp O_drop []].
Definition ex_ks : store := mkstore [FHost (mkft [T_i32] [T_i32]) 8; FWasm (mkft [] []) 0 ex_closer] [] [mkmem (mklim 1 1) [1; 2; 3] 1] [] [] []
  [mkmi [mkft [T_i32] [T_i32]; mkft [] []] [0; 1] [] [0] [] [] [] []] [].
Definition ex_kw : world := with_mach (snd (new_preview1 PropWasiRun.ex4 [47] PropWasi.ex_std [] [([100], [97])] [] PropWasiRun.ex_off)) (mkmach ex_ks [] [] []).
Definition ex_kg : funcinst -> Prop := fun f => In f (s_func ex_ks).
Example C138_ex_close : call_closed (k_store (w_mach ex_kw)) ex_kg /\ none_of fills_memory ex_kg /\ none_of moves_streams ex_kg /\
  (forall p t h code o args, ex_kg (FWasm t h code) -> within (IOp o args) (fd_expr code) -> writes p o = false) /\
  let w' := snd (winvocate ieee PropWasiRun.ex4 9 1 [] ex_kw) in
  fst (winvocate ieee PropWasiRun.ex4 9 1 [] ex_kw) = Ok [] /\ map fst (w_log w') = [OsClose 10] ++ map fst (w_log ex_kw) /\ k_store (w_mach w') = ex_ks /\
  map wasm_open (p_fd (w_self ex_kw)) = [true; true; true; true] /\ map wasm_open (p_fd (w_self w')) = [true; true; true; false].
Proof.
  split; [|split; [|split; [|split]]].
  - intros t h code [E|[E|[]]]; [discriminate E|]. injection E as <- <- <-. split; [|split].
    + cbn [fd_expr ex_closer]. repeat (apply si_plain; [cbn; intuition discriminate|]). constructor.
    + intros args i addr f W E1 E2 E3. exact (CodeFacts.index_In _ _ _ E3).
    + intros args i ty f W E1 E2 HI HT. exact HI.
  - intros t hid nm ty f [E|[E|[]]] H; [|discriminate E]. injection E as <- <-. injection H as <- <- <-. reflexivity.
  - intros t hid nm ty f [E|[E|[]]] H; [|discriminate E]. injection E as <- <-. injection H as <- <- <-. reflexivity.
  - intros p t h code o args [E|[E|[]]] W; [discriminate E|]. injection E as <- <- <-. apply negb_true_iff. refine (each_within (fun o _ => negb (writes p o)) o args _ W _). destruct p; reflexivity.
  - vm_compute. repeat split.
Qed.
