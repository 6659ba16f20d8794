(* C137: a WASI program makes only the requests of the WASI functions in its call graph. *)
From Coq Require Import ZArith List Bool Lia.
From Verif Require Import Py Floatops Val Opcode Numeric Syntax Store Basic Machine Os Wasi WasiRun SpecControl SpecType SpecCode SpecEnds SpecStacks SpecReach SpecWasiAsk
  Float ReachFacts WasiAskFacts WasiGraphFacts.
Import ListNotations.
Open Scope Z_scope.

(* Every WASI function makes only its own requests, with any arguments in any world, also if it raises. *)
Theorem C137_function : forall Os f args w, asked_only (fun c => may_ask f c = true) w (snd (wasi_call Os f args w)).
Proof. intros Os f args w. exact (call_asks Os f args w). Qed.
Print Assumptions C137_function.
(* A call of an exported function makes only the requests of the WASI functions in its call graph. *)
Theorem C137_program : forall F Os G n h nm args w, k_label (w_mach w) = [] -> call_closed (k_store (w_mach w)) G ->
  (forall e f, find_export (nth h (s_inst (k_store (w_mach w))) modinst_empty) nm = Ok e -> py_index (s_func (k_store (w_mach w))) (Store.e_data e) = Ok f -> G f) ->
  asked_only (asked_by G) w (snd (wrt_invocate F Os n h nm args w)).
Proof. exact run_graph. Qed.
Print Assumptions C137_program.
(* The same of a function that is called by its address. *)
Theorem C137_invocation : forall F Os G n a args w, k_label (w_mach w) = [] -> call_closed (k_store (w_mach w)) G ->
  (forall f, py_index (s_func (k_store (w_mach w))) a = Ok f -> G f) -> asked_only (asked_by G) w (snd (winvocate F Os n a args w)).
Proof. exact winvocate_graph. Qed.
Print Assumptions C137_invocation.
(* So code that gets to no function that may ask [c] never asks [c]. *)
Theorem C137_never : forall F Os G n a args w c, k_label (w_mach w) = [] -> call_closed (k_store (w_mach w)) G ->
  (forall f, py_index (s_func (k_store (w_mach w))) a = Ok f -> G f) ->
  (forall t hid nm ty f, G (FHost t hid) -> nth_error wasi_methods hid = Some (nm, ty, f) -> may_ask f c = false) ->
  ~ In c (map fst (w_log w)) -> ~ In c (map fst (w_log (snd (winvocate F Os n a args w)))).
Proof.
  intros F Os G n a args w c HL HG HF HN H0 H1. destruct (winvocate_graph F Os G n a args w HL HG HF) as (evs & E & K).
  rewrite E, map_app, in_app_iff in H1. destruct H1 as [H1|H1]; [|exact (H0 H1)]. apply in_map_iff in H1. destruct H1 as (ev & <- & H1).
  rewrite Forall_forall in K. destruct (K _ H1) as (t & hid & nm & ty & f & HGf & HM & HA). rewrite (HN _ _ _ _ _ HGf HM) in HA. discriminate HA.
Qed.
Print Assumptions C137_never.

(* A program with random_get (method 40), path_open (31) and clock_time_get (3) among its functions. It asks for four random bytes and
   for the time; nothing in it calls path_open. *)
Definition ex_c0 : functype := mkft [T_i32; T_i32] [T_i32].
Definition ex_c1 : functype := mkft [T_i32; T_i32; T_i32; T_i32; T_i32; T_i64; T_i64; T_i32; T_i32] [T_i32].
Definition ex_c2 : functype := mkft [T_i32; T_i64; T_i32] [T_i32].
Definition ex_c3 : functype := mkft [] [].
Definition ex_main : funcdesc := mkfd 3 [] [IOp O_i32_const [AInt 0]; IOp O_i32_const [AInt 4]; IOp O_call [AInt 0]; IOp O_drop [];
  IOp O_i32_const [AInt 0]; IOp O_i64_const [AInt 0]; IOp O_i32_const [AInt 8]; IOp O_i32_const [AInt 0]; IOp O_call_indirect [AInt 2; AInt 0]; IOp O_drop []].
Definition ex_funcs : list funcinst := [FHost ex_c0 40; FHost ex_c1 31; FHost ex_c2 3; FWasm ex_c3 0 ex_main].
Definition ex_gs : store := mkstore ex_funcs [mktab (mktt T_func (mklim 1 1)) [ref_to T_func 2] 1] [mkmem (mklim 1 1) (repeat 0 16) 1] [] [] []
  [mkmi [ex_c0; ex_c1; ex_c2; ex_c3] [0; 1; 2; 3] [0] [0] [] [] [] []] [].
Definition ex_gw : world := mkworld (mkpre [] 0 [] [] true) [] [] (mkmach ex_gs [] [] []).
Definition ex_gos : os := fun _ c => match c with OsRandom n => RBytes (repeat 9 (Z.to_nat n)) | OsTime _ => RInt 5 | _ => RInt 0 end.
Definition ex_gg : funcinst -> Prop := fun f => f = FHost ex_c0 40 \/ f = FHost ex_c2 3 \/ f = FWasm ex_c3 0 ex_main.
Lemma ex_gg_closed : call_closed ex_gs ex_gg.
Proof.
  intros t h code [E|[E|E]]; try discriminate E. injection E as -> -> ->. split; [|split].
  - cbn [fd_expr ex_main]. repeat (apply si_plain; [cbn; intuition discriminate|]). constructor.
  - intros args i addr f W E1 E2 E3. apply (each_within (fun o a => match o with O_call => match a with [AInt 0] => true | _ => false end | _ => true end)) in W; [|reflexivity].
    destruct args as [|[[| |]| |] [|? ?]]; try discriminate W. injection E1 as <-. injection E2 as <-. injection E3 as <-. now left.
  - intros args i ty f W E1 E2 HI HT. apply (each_within (fun o a => match o with O_call_indirect => match a with [AInt 2; AInt 0] => true | _ => false end | _ => true end)) in W; [|reflexivity].
    destruct args as [|[[|[|[]|]|]| |] [|[[|[]|]| |] [|? ?]]]; try discriminate W. injection E1 as <-. injection E2 as <-.
    destruct HI as [<-|[<-|[<-|[<-|[]]]]]; try discriminate HT. right. now left.
Qed.
Example C137_ex : call_closed (k_store (w_mach ex_gw)) ex_gg /\ (forall f, py_index (s_func (k_store (w_mach ex_gw))) 3 = Ok f -> ex_gg f) /\
  (forall t hid nm ty f p fl md d, ex_gg (FHost t hid) -> nth_error wasi_methods hid = Some (nm, ty, f) -> may_ask f (OsOpen p fl md d) = false) /\
  exists k, map fst (w_log (snd (winvocate ieee ex_gos 99 3 [] ex_gw))) = [OsTime k; OsRandom 4] /\ fst (winvocate ieee ex_gos 99 3 [] ex_gw) = Ok [].
Proof.
  split; [exact ex_gg_closed|]. split; [|split].
  - intros f E. injection E as <-. right. now right.
  - intros t hid nm ty f p fl md d [E|[E|E]] H; try discriminate E; injection E as -> ->; injection H as <- <- <-; reflexivity.
  - eexists. split; vm_compute; reflexivity.
Qed.
