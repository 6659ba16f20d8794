(* C136: a call runs only what the call graph allows, and changes only what that code writes. *)
From Coq Require Import ZArith List Bool Lia.
From Verif Require Import Py Floatops Val Opcode Numeric Syntax Store Basic Machine SpecControl SpecMachine SpecType SpecCode SpecEnds SpecStacks SpecReach Float ReachFacts.
Import ListNotations.
Open Scope Z_scope.

(* Every instruction that is run is one of the code of a function of the call graph, and is run for the instance of that function. *)
Theorem C136_graph F host s G t h code args m i fr : minds_its_business host -> call_closed s G -> G (FWasm t h code) ->
  gets_to F host (SpecType.starts s t h code args) m -> about_to_run m i fr ->
  exists t' h' code', G (FWasm t' h' code') /\ fr_module fr = MRef h' /\ within i (fd_expr code').
Proof. exact (graph F host s G t h code args m i fr). Qed.
Print Assumptions C136_graph.
(* A part of the store that none of that code writes stays as it was, at every time, and also if the call raises. *)
Theorem C136_pure F host s G p t h code args n r m' : minds_its_business host -> call_closed s G -> reads_only host p G -> G (FWasm t h code) ->
  evaluate F host n (SpecType.starts s t h code args) = (r, m') -> same_part p s (k_store m').
Proof. exact (pure F host s G p t h code args n r m'). Qed.
Print Assumptions C136_pure.
(* The same of a call from outside. *)
Theorem C136_invocation F host G p a args n m r m' : minds_its_business host -> call_closed (k_store m) G -> reads_only host p G -> k_label m = [] ->
  (forall f, py_index (s_func (k_store m)) a = Ok f -> G f) -> invocate F host n a args m = (r, m') -> same_part p (k_store m) (k_store m').
Proof. exact (invocation_pure F host G p a args n m r m'). Qed.
Print Assumptions C136_invocation.

(* A call of code that writes nothing and returns leaves the whole machine as it was: calling again gives the same result. *)
Theorem C136_traceless F host G a args n m rets m' : minds_its_business host -> call_closed (k_store m) G -> (forall p, reads_only host p G) ->
  k_label m = [] -> k_frame m = [] -> k_value m = [] ->
  (forall f, py_index (s_func (k_store m)) a = Ok f -> G f) -> invocate F host n a args m = (Ok rets, m') -> m' = m.
Proof. exact (traceless F host G a args n m rets m'). Qed.
Print Assumptions C136_traceless.

(* Function 0 writes a byte and calls function 1 through the table; function 1 sets a global and calls itself until the argument is
   zero. Function 2 writes to the table, has another type and is not called. *)
Definition ex_t0 : functype := mkft [] [].
Definition ex_t2 : functype := mkft [T_i64] [].
Definition ex_t1 : functype := mkft [T_i32] [].
Definition ex_zero : funcdesc := mkfd 0 [] [IOp O_i32_const [AInt 3]; IOp O_i32_const [AInt 0]; IOp O_call_indirect [AInt 1; AInt 0]; IOp O_i32_const [AInt 0]; IOp O_i32_const [AInt 65]; IOp O_i32_store8 [AInt 0; AInt 0]].
Definition ex_one : funcdesc := mkfd 1 [] [IOp O_local_get [AInt 0]; IOp O_global_set [AInt 0]; IOp O_local_get [AInt 0];
  IIf BT_empty [IOp O_local_get [AInt 0]; IOp O_i32_const [AInt 1]; IOp O_i32_sub []; IOp O_call [AInt 1]] []].
Definition ex_two : funcdesc := mkfd 0 [] [IOp O_i32_const [AInt 0]; IOp O_i32_const [AInt 0]; IOp O_table_get [AInt 0]; IOp O_table_set [AInt 0]].
Definition ex_graph : funcinst -> Prop := fun f => f = FWasm ex_t0 0 ex_zero \/ f = FWasm ex_t1 0 ex_one.
Definition ex_mi : modinst := mkmi [ex_t0; ex_t1; ex_t2] [0; 1; 2] [0] [0] [0] [] [] [].
Definition ex_rs : store := mkstore [FWasm ex_t0 0 ex_zero; FWasm ex_t1 0 ex_one; FWasm ex_t2 0 ex_two]
  [mktab (mktt T_func (mklim 1 1)) [ref_to T_func 1] 1] [mkmem (mklim 1 1) [0; 0; 0; 0] 1] [mkglob (num_val T_i32 9) 1] [] [] [ex_mi] [].
Definition ex_calm : hostcode := fun _ _ m => (Ok [], m).
Lemma ex_calm_minds : minds_its_business ex_calm.
Proof. intros hid args m r m' E. injection E as _ <-. repeat split. Qed.
Lemma ex_closed : call_closed ex_rs ex_graph.
Proof.
  intros t h code [E|E]; injection E as -> -> ->.
  - split; [|split].
    + cbn [fd_expr ex_zero]. repeat (apply si_plain; [cbn; intuition discriminate|]). constructor.
    + intros args i addr f W. apply (each_within (fun o _ => match o with O_call => false | _ => true end)) in W; [discriminate W|reflexivity].
    + intros args i ty f W E1 E2 HI HT. apply (each_within (fun o a => match o with O_call_indirect => match a with [AInt 1; AInt 0] => true | _ => false end | _ => true end)) in W; [|reflexivity].
      destruct args as [|[[|[]|]| |] [|[[|[]|]| |] [|? ?]]]; try discriminate W. injection E1 as <-. injection E2 as <-.
      destruct HI as [<-|[<-|[<-|[]]]]; try discriminate HT. now right.
  - split; [|split].
    + cbn [fd_expr ex_one]. repeat (apply si_plain; [cbn; intuition discriminate|]). apply si_if; [|constructor|constructor]. repeat (apply si_plain; [cbn; intuition discriminate|]). constructor.
    + intros args i addr f W E1 E2 E3. apply (each_within (fun o a => match o with O_call => match a with [AInt 1] => true | _ => false end | _ => true end)) in W; [|reflexivity].
      destruct args as [|[[|[]|]| |] [|? ?]]; try discriminate W. injection E1 as <-. injection E2 as <-. injection E3 as <-. now right.
    + intros args i ty f W. apply (each_within (fun o _ => match o with O_call_indirect => false | _ => true end)) in W; [discriminate W|reflexivity].
Qed.
Lemma ex_reads : reads_only ex_calm Tables ex_graph.
Proof.
  split.
  - intros t h code o args [E|E] W; injection E as -> -> ->; apply negb_true_iff; refine (each_within (fun o _ => negb (writes Tables o)) o args _ W _); reflexivity.
  - intros t hid args m r m' _ E. injection E as _ <-. reflexivity.
Qed.
(* So the table stays as it was; the call writes the byte 65 and leaves 0 in the global. *)
Example C136_ex : minds_its_business ex_calm /\ call_closed ex_rs ex_graph /\ reads_only ex_calm Tables ex_graph /\ ex_graph (FWasm ex_t0 0 ex_zero) /\
  exists m', invocate ieee ex_calm 99 0 [] (mkmach ex_rs [] [] []) = (Ok [], m') /\ s_tabl (k_store m') = s_tabl ex_rs /\
    map mi_data (s_mems (k_store m')) = [[65; 0; 0; 0]] /\ map gi_data (s_glob (k_store m')) = [num_val T_i32 0].
Proof.
  split; [exact ex_calm_minds|]. split; [exact ex_closed|]. split; [exact ex_reads|]. split; [now left|].
  eexists. split; [vm_compute; reflexivity|]. repeat split.
Qed.
(* A function that doubles its argument by adding it to itself leaves no trace. *)
Definition ex_double : funcdesc := mkfd 0 [] [IOp O_local_get [AInt 0]; IOp O_local_get [AInt 0]; IOp O_i32_add []].
Definition ex_ds : store := mkstore [FWasm (mkft [T_i32] [T_i32]) 0 ex_double] [] [mkmem (mklim 1 1) [7] 1] [] [] [] [mkmi [mkft [T_i32] [T_i32]] [0] [] [0] [] [] [] []] [].
Example C136_ex_traceless : call_closed ex_ds (fun f => In f (s_func ex_ds)) /\ (forall p, reads_only ex_calm p (fun f => In f (s_func ex_ds))) /\
  invocate ieee ex_calm 9 0 [num_val T_i32 21] (mkmach ex_ds [] [] []) = (Ok [num_val T_i32 42], mkmach ex_ds [] [] []).
Proof.
  split; [|split; [|vm_compute; reflexivity]].
  - intros t h code [E|[]]. injection E as <- <- <-. split; [|split].
    + cbn [fd_expr ex_double]. repeat (apply si_plain; [cbn; intuition discriminate|]). constructor.
    + intros args i addr f W. apply (each_within (fun o _ => match o with O_call => false | _ => true end)) in W; [discriminate W|reflexivity].
    + intros args i ty f W. apply (each_within (fun o _ => match o with O_call_indirect => false | _ => true end)) in W; [discriminate W|reflexivity].
  - intros p. split.
    + intros t h code o args [E|[]] W. injection E as <- <- <-. apply negb_true_iff. refine (each_within (fun o _ => negb (writes p o)) o args _ W _). destruct p; reflexivity.
    + intros t hid args m r m' _ E. injection E as _ <-. destruct p; repeat split.
Qed.
