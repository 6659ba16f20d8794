(* C127: no wrong answers. *)
From Coq Require Import ZArith List Bool Lia.
From Verif Require Import CommandLine SpecCommand CommandFacts Os Wasi WasiRun Leb128 Utf8 Decode SpecLeb SpecFormat LebFacts DecodeFacts PropDecode.
From Verif Require Import Py Arith Floatops Val Opcode Numeric Syntax Store Basic Machine
  SpecInt SpecNum SpecMachine SpecMem SpecRun SpecControl SpecType SpecConverse Float PyFacts StepFacts RunFacts TypeBasicFacts TypeFacts TypeIeeeFacts CallFacts ConverseFacts
  SpecInst SpecValid SpecRef HistoryFacts RefFacts RefHistoryFacts NumFacts SpecStandard StandardFacts StandardRunFacts SpecInstantiate SpecWhole WholeFacts PropWhole PropConverse CommandRunFacts PropCommandRun SpecCode CodeFacts PropCode MemFacts AnswerFacts.
Import ListNotations.
Open Scope Z_scope.

(* A call that is cut off by the limit of [n] turns raises. *)
Theorem C127_cut_off F host n s a t h code args : nth_error (s_func s) a = Some (FWasm t h code) ->
  unfinished F host n (starts s t h code args) -> exists x, fst (invocate F host n (Z.of_nat a) args (mkmach s [] [] [])) = Err x.
Proof. intros NF (m' & E1 & E2). exact (cut_invocate F host n s (Z.of_nat a) t h code args m' (py_index_nth _ _ _ NF) E1 E2). Qed.
Print Assumptions C127_cut_off.
(* So does an expression evaluated during instantiation. *)
Theorem C127_expression F host n e k m : unfinished F host n (set_label m (mklabel 1 1 0 KBlock e 0 :: k_label m)) ->
  exists x, fst (run_expr F host n e k m) = Err x.
Proof. apply cut_expr. Qed.
Print Assumptions C127_expression.

(* What calling an exported function returns is the standard's result (C126_bytes_to_results has the hypotheses). *)
Theorem C127_no_wrong_answer hs sg n n' all b md L ext m m1 m2 m3 h e j d t args ps m4 :
  well_behaved (plain_host hs) -> host_typed sg (plain_host hs) -> host_refs sg (plain_host hs) ->
  adds_no_code (plain_host hs) -> made_from ieee (plain_host hs) clean_module m3 ->
  honest ieee (plain_host hs) sg machine_empty m -> enc_module all md b -> bytes b ->
  Forall (fun s => fst s <> 0) all \/ (length all <= 32)%nat ->
  valid_module md -> len (s_func (k_store m)) + len (md_func md) < 2 ^ 31 ->
  load_module md m = (Ok L, m1) -> Forall2 (SpecInst.fits (k_store m1) md) (md_imps md) ext -> (2 <= n)%nat ->
  instance ieee (plain_host hs) n L ext m1 = (Ok h, m2) -> honest ieee (plain_host hs) sg m2 m3 ->
  In e (md_exps md) -> ex_kind e = 0 -> ex_desc e = len (imp_funcs md) + Z.of_nat j ->
  nth_error (md_func md) j = Some d -> item (md_type md) (fd_type d) t ->
  Forall2 of_kind (ft_args t) args -> Forall double_ok args -> numbers_ok (k_store m3) (ft_args t) args ->
  rt_invocate ieee (plain_host hs) n' h (ex_name e) args m3 = (Ok ps, m4) ->
  exists vs s' L' o R, arguments (ft_args t) args vs /\
    run_by does ieee hs 2 (MRef h) (k_store m3) (vs ++ default_locals (fd_locals d)) [] (fd_expr d) s' L' o /\
    result (length (ft_rets t)) o (Some R) /\ Forall2 answer R ps /\ m4 = mkmach s' [] [] [].
Proof.
  intros H1 H2 H3 HA HM H4 HE HB HS H5 H6 H7 H8 H9 H10 H11 H12 H13 H14 H15 H16 H17 H18 H19 ER.
  destruct (C126_bytes_to_results hs sg n n' all b md L ext m m1 m2 m3 h e j d t args H1 H2 H3 HA HM H4 HE HB HS H5 H6 H7 H8 H9 H10 H11 H12 H13 H14 H15 H16 H17 H18 H19) as (EB & vs & A & [[_ (x & X)]|X]).
  - rewrite ER in X. discriminate X.
  - destruct X as (s' & L' & o & r & X1 & X2 & X3). rewrite ER in X3. destruct X3 as (R & -> & X3 & X4). now exists vs, s', L', o, R.
Qed.
Print Assumptions C127_no_wrong_answer.
(* What the command line prints is (C126_command has the hypotheses). *)
Theorem C127_printed : forall Os fl cwd std n all b md L m1 m2 h e j d t o ps w qs,
  enc_module all md b -> bytes b -> Forall (fun s => fst s <> 0) all \/ (length all <= 32)%nat ->
  valid_module md -> clean_module md -> md_imps md = [] -> len (md_func md) < 2 ^ 31 ->
  load_module md machine_empty = (Ok L, m1) -> (2 <= n)%nat -> instance ieee no_host n L [] m1 = (Ok h, m2) ->
  In e (md_exps md) -> ex_kind e = 0 -> ex_desc e = Z.of_nat j -> nth_error (md_func md) j = Some d -> item (md_type md) (fd_type d) t ->
  o_wasi o = false -> o_func o = ex_name e -> all_written fl (ft_args t) (o_func_args o) ps -> Forall2 of_kind (ft_args t) ps ->
  (forall s x, fl s = Ok x -> 0 <= x < 2 ^ 64) -> w_mach w = machine_empty ->
  fst (command ieee Os fl cwd std n o (Ok b) w) = Printed qs ->
  exists vs s' L' out R, arguments (ft_args t) ps vs /\
    run_by does ieee (fun _ _ s => (Err EKey, s)) 2 (MRef h) (k_store m2) (vs ++ default_locals (fd_locals d)) [] (fd_expr d) s' L' out /\
    result (length (ft_rets t)) out (Some R) /\ Forall2 answer R qs.
Proof.
  intros Os fl cwd std n all b md L m1 m2 h e j d t o ps w qs HE HB HS H5 HC HI H6 H7 H9 H10 H12 H13 H14 H15 H16 H17 H18 H19 H20 H21 H22 EQ.
  destruct (C126_command Os fl cwd std n all b md L m1 m2 h e j d t o ps w HE HB HS H5 HC HI H6 H7 H9 H10 H12 H13 H14 H15 H16 H17 H18 H19 H20 H21 H22) as (vs & A & [[_ (x & X)]|X]).
  - rewrite EQ in X. discriminate X.
  - destruct X as (s' & L' & out & r & X1 & X2 & X3). rewrite EQ in X3. destruct X3 as (R & -> & X3). now exists vs, s', L', out, R.
Qed.
Print Assumptions C127_printed.

(* a loop that never ends is cut off whatever the limit, as a function and as an expression; the quotient of 7 and 2 is
   returned as 3, which is the standard's result *)
Definition ex_spin : funcdesc := mkfd 0 [] [ILoop BT_empty [IOp O_br [AInt 0]]].
Definition ex_spin_store : store := set_s_func (k_store machine_empty) [FWasm (mkft [] []) 0 ex_spin].
Lemma ex_spins F host n m m' : k_label m <> [] -> step F host m = (Ok tt, m') -> k_label m' <> [] -> step F host m' = (Ok tt, m') ->
  unfinished F host n m.
Proof.
  intros N1 E1 N2 E2. assert (forall k, evaluate F host k m' = (Ok tt, m')) as EV.
  { induction k as [|k IH]; [reflexivity|]. cbn [evaluate]. destruct (k_label m') eqn:El; [contradiction|]. unfold bind. now rewrite E2. }
  destruct n as [|n]; [exists m; now split|]. exists m'. split; [|exact N2]. cbn [evaluate]. destruct (k_label m) eqn:El; [contradiction|]. unfold bind. now rewrite E1, EV.
Qed.
Example C127_example : (forall F host n, unfinished F host n (starts ex_spin_store (mkft [] []) 0 ex_spin [])) /\
  (forall F host n, unfinished F host n (set_label (mkmach ex_spin_store [] [] [first_frame (mkft [] []) 0 ex_spin []]) [mklabel 1 1 0 KBlock (fd_expr ex_spin) 0])) /\
  fst (rt_invocate ieee (plain_host ex_shost) 30 0 [0x71] [PInt 7; PInt 2] ex_q_ready) = Ok [PInt 3] /\
  exists s' L' o v, run_by does ieee ex_shost 2 (MRef 0) (k_store ex_q_ready) [num_val T_i32 7; num_val T_i32 2] [] (fd_expr ex_quotient) s' L' o /\
    result 1 o (Some [v]) /\ answer v (PInt 3).
Proof.
  split; [|split; [|split; [apply C109_example|apply C109_example]]].
  - intros F host n. eapply ex_spins; [discriminate|vm_compute; reflexivity|discriminate|vm_compute; reflexivity].
  - intros F host n. eapply ex_spins; [discriminate|vm_compute; reflexivity|discriminate|vm_compute; reflexivity].
Qed.
