(* WASI functions and the parts of the store.
   Specification: SpecWasiInside.v, SpecIsolate.v, SpecAgree.v and SpecWasiRun.v. *)
From Coq Require Import String.
From Coq Require Import ZArith List Bool Lia.
From Verif Require Import Py Arith Floatops Val Opcode Numeric Syntax Store Basic Machine Utf8 Os Wasi WasiRun SpecInt SpecNum SpecMachine SpecMem
  SpecRun SpecControl SpecType SpecFormat SpecIsolate SpecAgree PyFacts Float TypeIeeeFacts PropType IsolateFacts IsolateRunFacts SpecWasi SpecWasiRun SpecWasiInside
  WasiGrowFacts WasiTypeFacts WasiInsideFacts WasiInsideRunFacts PropWasi PropWasiRun PropWasiType.
Import ListNotations.
Open Scope Z_scope.

(* C133 (a). A WASI function changes nothing in the machine but memory 0 of the instance that calls it. *)
Theorem C133_own_memory Os f args w : natural_memories (w_mach w) ->
  let m := w_mach w in let m' := w_mach (snd (wasi_call Os f args w)) in
  k_value m' = k_value m /\ k_label m' = k_label m /\ k_frame m' = k_frame m /\
  k_store m' = set_s_mems (k_store m) (s_mems (k_store m')) /\
  forall a, ~ own_memory m a -> nth_error (s_mems (k_store m')) a = nth_error (s_mems (k_store m)) a.
Proof.
  intros H m m'. destruct (call_grows Os f args w) as (O1 & O2 & O3 & O4 & _). split; [exact O1|]. split; [exact O2|]. split; [exact O3|]. split; [exact O4|].
  apply (call_pw (own_memory m) Os f args w w (alike_self w H)).
Qed.
Print Assumptions C133_own_memory.
(* C133 (b). What it does depends on nothing else in the machine: in two worlds with the same WASI object, requests so
   far and in-memory streams, and the same own memory, it returns or raises the same, makes the same requests to the
   operating system, and leaves the worlds alike. *)
Theorem C133_same_call Os f args w w' : natural_memories (w_mach w) -> natural_memories (w_mach w') -> same_outer w w' -> same_own (w_mach w) (w_mach w') ->
  let p := wasi_call Os f args w in let p' := wasi_call Os f args w' in
  fst p' = fst p /\ same_outer (snd p) (snd p') /\ same_own (w_mach (snd p)) (w_mach (snd p')).
Proof.
  intros N N' SO OW p p'. destruct (call_pw (own_memory (w_mach w)) Os f args w w' (alike_of w w' SO N N' OW)) as (H1 & H2 & _). split; [exact H1|]. split; [exact (al_outer _ _ _ H2)|].
  subst p p'. split; [intros a; rewrite (al_own _ _ _ H2 a); apply (al_own' _ _ _ H2)|]. intros a Ha. apply (al_mems _ _ _ H2), (al_own _ _ _ H2), Ha.
Qed.
Print Assumptions C133_same_call.
(* C133 (c). A function of a closed part of the store is called with arguments of the part. Unless some WASI call on the
   way makes the data of a memory longer, nothing outside the part has changed, however the call ends, the part is still
   closed, and what is returned refers only to the part. *)
Theorem C133_confined F Os n w G a t h code args : converts F -> replies_bytes Os -> at_rest w -> closed wasi_sig G (k_store (w_mach w)) -> g_func G a ->
  nth_error (s_func (k_store (w_mach w))) a = Some (FWasm t h code) -> Forall val_wf args -> has_types args (ft_args t) -> Forall (SpecIsolate.inside G) args ->
  let w0 := with_mach w (SpecType.starts (k_store (w_mach w)) t h code args) in
  (exists k w1, (k < n)%nat /\ wevaluate F Os k w0 = (Ok tt, w1) /\ k_label (w_mach w1) <> [] /\ lengthens F Os w1) \/
  let '(r, w') := winvocate F Os n (Z.of_nat a) args w in
  closed wasi_sig G (k_store (w_mach w')) /\ same_outside G (k_store (w_mach w)) (k_store (w_mach w')) /\
  forall rs, r = Ok rs -> Forall (SpecIsolate.inside G) rs.
Proof.
  intros CF HR AR HC GA N W HT HA w0. destruct (winvocate_in F Os HR CF G n w a t h code args AR HC GA N W HT HA) as [L|X]; [left; exact L|right].
  destruct (winvocate F Os n (Z.of_nat a) args w) as [[rs|e] w'].
  - destruct X as [[X1 X2] X3]. split; [exact X1|]. split; [exact X2|]. intros rs' E. injection E as <-. exact X3.
  - destruct X as [X1 X2]. split; [exact X1|]. split; [exact X2|]. discriminate.
Qed.
Print Assumptions C133_confined.
(* C133 (d). The same call in two worlds whose stores agree on the part, whatever else is in the second store: the same
   result or exception, the same requests to the operating system, and the stores agree on the part again. *)
Theorem C133_same_run F Os n w w' G a t h code args : converts F -> replies_bytes Os -> at_rest w -> (exists s', w_mach w' = mkmach s' [] [] []) -> same_outer w w' ->
  closed wasi_sig G (k_store (w_mach w)) -> agrees G (k_store (w_mach w)) (k_store (w_mach w')) -> g_func G a ->
  nth_error (s_func (k_store (w_mach w))) a = Some (FWasm t h code) -> Forall val_wf args -> has_types args (ft_args t) -> Forall (SpecIsolate.inside G) args ->
  let w0 := with_mach w (SpecType.starts (k_store (w_mach w)) t h code args) in
  (exists k w1, (k < n)%nat /\ wevaluate F Os k w0 = (Ok tt, w1) /\ k_label (w_mach w1) <> [] /\ lengthens F Os w1) \/
  let p := winvocate F Os n (Z.of_nat a) args w in let p' := winvocate F Os n (Z.of_nat a) args w' in
  fst p' = fst p /\ same_outer (snd p) (snd p') /\ agrees G (k_store (w_mach (snd p))) (k_store (w_mach (snd p'))).
Proof. intros CF HR AR E SO HC AG GA N W HT HA. exact (winvocate_both F Os HR CF G n w w' a t h code args AR E SO HC AG GA N W HT HA). Qed.
Print Assumptions C133_same_run.

(* ---- examples ---- *)
(* Two instances with a memory of four bytes each; the code of the second one is running. *)
Definition ex_mem (b : Z) : meminst := mkmem (mklim 0 0) [b; b; b; b] 0.
Definition ex_two_inst (b : Z) : machine :=
  mkmach (mkstore [] [] [ex_mem b; ex_mem 0] [] [] [] [mkmi [] [] [] [0] [] [] [] []; mkmi [] [] [] [1] [] [] [] []] []) [] [] [mkframe (MRef 1) [] 0 0 0].
Definition ex_two_world (b : Z) : world := with_mach ex_off (ex_two_inst b).
Lemma ex_two_natural b : natural_memories (ex_two_inst b).
Proof. intros fr fs E. injection E as <- <-. cbn. constructor; [lia|constructor]. Qed.
(* random_get fills its memory, and neither sees nor touches the other one. *)
Example C133_ex_call : own_memory (ex_two_inst 5) 1 /\ ~ own_memory (ex_two_inst 5) 0 /\ same_own (ex_two_inst 5) (ex_two_inst 3) /\
  map mi_data (s_mems (k_store (w_mach (snd (wasi_call ex4 F_random_get [1; 2] (ex_two_world 5)))))) = [[5; 5; 5; 5]; [0; 9; 9; 0]] /\
  map mi_data (s_mems (k_store (w_mach (snd (wasi_call ex4 F_random_get [1; 2] (ex_two_world 3)))))) = [[3; 3; 3; 3]; [0; 9; 9; 0]].
Proof.
  assert (O : forall b a, own_memory (ex_two_inst b) a <-> a = 1%nat).
  { intros b a. split.
    - intros (fr & fs & E & N). injection E as <- <-. cbn in N. injection N as N. lia.
    - intros ->. eexists _, _. split; reflexivity. }
  split; [apply O; reflexivity|]. split; [intros H; apply O in H; discriminate H|]. split.
  - split; [intros a; rewrite !O; reflexivity|]. intros a Ha. apply O in Ha. subst a. reflexivity.
  - split; vm_compute; reflexivity.
Qed.

(* The program of C118_ex_run: it asks for random bytes and exits with 7. The part is everything it has made; the second
   store has another memory and another global besides. *)
Notation ex_w := (PropWasiRun.ex_loaded ieee ex_quiet).
Definition ex_more (w : world) : world :=
  let s := k_store (w_mach w) in
  with_mach w (mkmach (set_s_glob (set_s_mems s (s_mems s ++ [ex_mem 9])) (s_glob s ++ [mkglob (val_zero T_i32) 1])) [] [] []).
Lemma ex_more_alike w : (exists s', w_mach (ex_more w) = mkmach s' [] [] []) /\ same_outer w (ex_more w) /\ agrees (all_of (k_store (w_mach w))) (k_store (w_mach w)) (k_store (w_mach (ex_more w))).
Proof.
  unfold ex_more. cbn [with_mach w_mach k_store]. split; [eexists; reflexivity|]. split; [repeat split|].
  constructor; cbn; intros a Ha; try reflexivity; apply nth_error_app1; exact Ha.
Qed.
Lemma ex_all_closed : closed wasi_sig (all_of (k_store (w_mach ex_w))) (k_store (w_mach ex_w)).
Proof.
  destruct C118_ex_rest as [-> _].
  assert (L : length (s_func (k_store ex_quiet_ready)) = 47%nat /\ length (s_mems (k_store ex_quiet_ready)) = 1%nat /\ length (s_inst (k_store ex_quiet_ready)) = 1%nat /\
    s_tabl (k_store ex_quiet_ready) = [] /\ s_glob (k_store ex_quiet_ready) = [] /\ s_elem (k_store ex_quiet_ready) = [] /\ s_data (k_store ex_quiet_ready) = []) by (vm_compute; repeat split).
  destruct L as (L1 & L2 & L3 & L4 & L5 & L6 & L7). constructor; cbn [all_of g_func g_inst g_tabl g_mems g_glob g_elem g_data g_blob g_host]; rewrite ?L4, ?L5, ?L6, ?L7.
  - intros a. rewrite L1. lia.
  - intros a f _ N. apply nth_error_In in N. revert f N. apply Forall_forall. rewrite L3. vm_compute. repeat (constructor; [split; reflexivity|]). constructor; [lia|constructor].
  - intros [|a] mi H N; [|rewrite L3 in H; lia].
    assert (E : nth_error (s_inst (k_store ex_quiet_ready)) 0 = Some (mkmi (md_type (ex_prog 0 [] ex_quiet)) [38; 40; 31; 3; 46] [] [0] [] [] [] [mkei n_start (mkext 0 46)])) by (vm_compute; reflexivity).
    rewrite E in N. injection N as <-. constructor; cbn [m_func m_tabl m_mems m_glob m_elem m_data all_of g_func g_mems]; rewrite ?L1, ?L2; repeat constructor; lia.
  - intros [|a]; discriminate.
  - intros [|a]; discriminate.
  - intros [|a]; discriminate.
  - intros [|a]; discriminate.
Qed.
Definition ex_begin : world := with_mach ex_w (SpecType.starts (k_store (w_mach ex_w)) (mkft [] []) 0 (mkfd 4 [] ex_quiet) []).
Lemma ex_same_lengths k : (k < 6)%nat -> data_lengths (w_mach (snd (wturn ieee ex4 (snd (wevaluate ieee ex4 k ex_begin))))) = data_lengths (w_mach (snd (wevaluate ieee ex4 k ex_begin))).
Proof. intros K. destruct k as [|[|[|[|[|[|k]]]]]]; [vm_compute; reflexivity..|lia]. Qed.
Lemma ex_none_longer : ~ exists k w1, (k < 6)%nat /\ wevaluate ieee ex4 k ex_begin = (Ok tt, w1) /\ k_label (w_mach w1) <> [] /\ lengthens ieee ex4 w1.
Proof. intros (k & w1 & K & E & _ & [L _]). apply L. pose proof (ex_same_lengths k K) as X. rewrite E in X. exact X. Qed.
Lemma ex_exits : fst (winvocate ieee ex4 6 (Z.of_nat 46) [] ex_w) = Err (ESystemExit 7).
Proof. vm_compute. reflexivity. Qed.
Lemma ex_apply w code : at_rest w -> closed wasi_sig (all_of (k_store (w_mach w))) (k_store (w_mach w)) -> nth_error (s_func (k_store (w_mach w))) 46 = Some (FWasm (mkft [] []) 0 code) ->
  (~ exists k w1, (k < 6)%nat /\ wevaluate ieee ex4 k (with_mach w (SpecType.starts (k_store (w_mach w)) (mkft [] []) 0 code [])) = (Ok tt, w1) /\ k_label (w_mach w1) <> [] /\ lengthens ieee ex4 w1) ->
  let p := winvocate ieee ex4 6 (Z.of_nat 46) [] w in let p' := winvocate ieee ex4 6 (Z.of_nat 46) [] (ex_more w) in
  fst p' = fst p /\ w_log (snd p') = w_log (snd p) /\ same_outside (all_of (k_store (w_mach w))) (k_store (w_mach w)) (k_store (w_mach (snd p))).
Proof.
  intros AR HC N NL p p'. destruct (ex_more_alike w) as (E & SO & AG).
  assert (GA : g_func (all_of (k_store (w_mach w))) 46) by (cbn [all_of g_func]; apply nth_error_Some; rewrite N; discriminate).
  destruct (C133_same_run ieee ex4 6 w (ex_more w) _ 46 _ _ _ [] ieee_converts ex4_replies AR E SO HC AG GA N (Forall_nil _) eq_refl (Forall_nil _)) as [L|(H1 & H2 & _)]; [destruct (NL L)|].
  destruct (C133_confined ieee ex4 6 w _ 46 _ _ _ [] ieee_converts ex4_replies AR HC GA N (Forall_nil _) eq_refl (Forall_nil _)) as [L|H3]; [destruct (NL L)|].
  split; [exact H1|]. split; [apply H2|]. subst p. destruct (winvocate ieee ex4 6 (Z.of_nat 46) [] w) as [r w']. apply H3.
Qed.
Example C133_ex_run : at_rest ex_w /\ closed wasi_sig (all_of (k_store (w_mach ex_w))) (k_store (w_mach ex_w)) /\
  same_outer ex_w (ex_more ex_w) /\ agrees (all_of (k_store (w_mach ex_w))) (k_store (w_mach ex_w)) (k_store (w_mach (ex_more ex_w))) /\
  fst (winvocate ieee ex4 6 (Z.of_nat 46) [] (ex_more ex_w)) = Err (ESystemExit 7).
Proof.
  destruct C118_ex_rest as (EM & AR & N). split; [exact AR|]. split; [exact ex_all_closed|]. destruct (ex_more_alike ex_w) as (_ & SO & AG). split; [exact SO|]. split; [exact AG|].
  rewrite <- EM in N. destruct (ex_apply ex_w (mkfd 4 [] ex_quiet) AR ex_all_closed N ex_none_longer) as (H & _). rewrite <- ex_exits. exact H.
Qed.
