(* C109: from the bytes of a module to the results of its functions. *)
From Coq Require Import ZArith List Bool Lia.
From Verif Require Import Leb128 Utf8 Decode SpecLeb SpecFormat LebFacts DecodeFacts DecodeWitness PropDecode.
From Verif Require Import Py Arith Floatops Val Opcode Numeric Syntax Store Basic Machine
  SpecInt SpecNum SpecMachine SpecMem SpecRun SpecControl SpecType SpecConverse Float StepFacts PropControl TypeFacts TypeIeeeFacts CallFacts PropType ConverseFacts PropConverse
  SpecInst SpecValid SpecRef HistoryFacts PropValid RefFacts RefHistoryFacts NumFacts PropRef SpecStandard StandardFacts StandardRunFacts SpecInstantiate SpecWhole WholeFacts.
Import ListNotations.
Open Scope Z_scope.

(* C109. [b] are the bytes of the validated module [md], which has no custom sections or at most 32 sections (C39); it is
   loaded and instantiated after an honest history, more honest use of the runtime follows, up to [m3]. Export [e] is
   function [j] of the module, [d], of type [t]. Calling it by its name with Python values [args] of the kinds of its
   parameters runs the code of [d] by the standard on the values that [args] stand for; it returns what stands for the
   results, or raises because the run traps or a result is a null reference - or the call hits the limit of [n'] turns
   or meets a known deviation (C107). *)
Theorem C109_bytes_to_results hs sg n n' all b md L ext m m1 m2 m3 h e j d t args :
  well_behaved (plain_host hs) -> host_typed sg (plain_host hs) -> host_refs sg (plain_host hs) ->
  honest ieee (plain_host hs) sg machine_empty m -> enc_module all md b -> bytes b ->
  Forall (fun s => fst s <> 0) all \/ (length all <= 32)%nat ->
  valid_module md -> len (s_func (k_store m)) + len (md_func md) < 2 ^ 31 ->
  load_module md m = (Ok L, m1) -> Forall2 (SpecInst.fits (k_store m1) md) (md_imps md) ext -> (2 <= n)%nat ->
  instance ieee (plain_host hs) n L ext m1 = (Ok h, m2) -> honest ieee (plain_host hs) sg m2 m3 ->
  In e (md_exps md) -> ex_kind e = 0 -> ex_desc e = len (imp_funcs md) + Z.of_nat j ->
  nth_error (md_func md) j = Some d -> item (md_type md) (fd_type d) t ->
  Forall2 of_kind (ft_args t) args -> Forall double_ok args -> numbers_ok (k_store m3) (ft_args t) args ->
  let s := k_store m3 in
  module_from_reader b = Ok md /\
  exists vs, arguments (ft_args t) args vs /\
    ((unfinished ieee (plain_host hs) n' (starts s t h d vs) /\ exists x, fst (rt_invocate ieee (plain_host hs) n' h (ex_name e) args m3) = Err x) \/
     meets_deviation ieee (plain_host hs) (starts s t h d vs) \/
     exists s' L' o r,
       run_by does ieee hs 2 (MRef h) s (vs ++ default_locals (fd_locals d)) [] (fd_expr d) s' L' o /\ result (length (ft_rets t)) o r /\
       match rt_invocate ieee (plain_host hs) n' h (ex_name e) args m3 with
       | (Ok ps, m4) => exists R, r = Some R /\ Forall2 answer R ps /\ m4 = mkmach s' [] [] []
       | (Err _, m4) => k_store m4 = s' /\ (r = None \/ exists R v, r = Some R /\ In v R /\ is_null v)
       end).
Proof.
  intros H1 H2 H3 H4 HE HB HA H5 H6 H7 H8 H9 H10 H11 H12 H13 H14 H15 H16 H17 H18 H19 s.
  assert (ER : module_from_reader b = Ok md) by (destruct HA as [HA|HA]; [exact (C38_module _ _ _ HE HA)|exact (C39_up_to_32_sections_partial _ _ _ HE HA)]).
  split; [exact ER|].
  exact (whole_call hs sg n n' md L ext m m1 m2 m3 h e j d t args H1 H2 H3 H4 (C72_loaded_in_order _ _ HB ER) H5 H6 H7 H8 H9 H10 H11 H12 H13 H14 H15 H16 H17 H18 H19).
Qed.
Print Assumptions C109_bytes_to_results.

(* (x, y) => x / y, unsigned, exported as "q" *)
Definition ex_quotient : funcdesc := mkfd 0 [] [IOp O_local_get [AInt 0]; IOp O_local_get [AInt 1]; IOp O_i32_div_u []].
Definition ex_qt : functype := mkft [T_i32; T_i32] [T_i32].
Definition ex_q : moddesc := mkmd [ex_qt] [ex_quotient] [] [] [] [] [] (-1) [] [mkexp [0x71] 0 0].
Definition ex_q_all : list section :=
  [(1, [1; 0x60; 2; 0x7f; 0x7f; 1; 0x7f]); (3, [1; 0]); (7, [1; 1; 0x71; 0; 0]); (10, [1; 7; 0; 0x20; 0; 0x20; 1; 0x6e; 0x0b])].
Definition ex_q_bytes : list Z := [0x00; 0x61; 0x73; 0x6d; 0x01; 0x00; 0x00; 0x00] ++ concat (map (fun s => fst s :: len (snd s) :: snd s) ex_q_all).
Lemma ex_q_enc : enc_module ex_q_all ex_q ex_q_bytes.
Proof.
  exists (map (fun s => fst s :: len (snd s) :: snd s) ex_q_all). split; [|split; [|split; [|reflexivity]]].
  - exists [(1, [1; 0x60; 2; 0x7f; 0x7f; 1; 0x7f])], [], [(3, [1; 0])], [], [], [], [(7, [1; 1; 0x71; 0; 0])], [], [], [], [(10, [1; 7; 0; 0x20; 0; 0x20; 1; 0x6e; 0x0b])], [].
    split; [reflexivity|]. cbn [md_type md_imps md_func md_tabl md_mems md_glob md_exps md_star md_elem md_data ex_q].
    split; [some_part; exists [2; 0x7f; 0x7f], [1; 0x7f]; split; [apply (vec_two enc_valtype T_i32 T_i32 [0x7f] [0x7f]); reflexivity|split; [apply vec_one; reflexivity|reflexivity]]|].
    split; [left; split; reflexivity|]. split; [some_part; small|]. do 3 (split; [left; split; reflexivity|]).
    split. { some_part. exists [1; 0x71], [0]. split; [apply (name_enc [0x71]); [repeat constructor; unfold scalar; lia|reflexivity]|].
      split; [cbn; lia|]. split; [small|reflexivity]. }
    do 2 (split; [left; split; reflexivity|]). split; [left; reflexivity|]. split; [|left; split; reflexivity].
    some_part. exists [7], [0], [0x20; 0; 0x20; 1; 0x6e; 0x0b]. split; [apply vec_nil|].
    split; [|split; [apply u32_byte; vm_compute; split; [discriminate|reflexivity]|reflexivity]].
    exists [0x20; 0; 0x20; 1; 0x6e]. split; [|reflexivity].
    apply (es_cons _ _ [0x20; 0] [0x20; 1; 0x6e]); [|apply (es_cons _ _ [0x20; 1] [0x6e]); [|apply (es_cons _ [] [0x6e] []); [|apply es_nil]]].
    + apply (ei_op O_local_get SIdx _ [0x20] [0]); [reflexivity|constructor; apply in_table; vm_compute; reflexivity|]. apply ea_idx. small.
    + apply (ei_op O_local_get SIdx _ [0x20] [1]); [reflexivity|constructor; apply in_table; vm_compute; reflexivity|]. apply ea_idx. small.
    + apply (ei_op O_i32_div_u SNone _ [0x6e] []); [reflexivity|constructor; apply in_table; vm_compute; reflexivity|constructor].
  - repeat constructor; discriminate.
  - apply Forall2_map_r. repeat constructor; apply section_enc; reflexivity.
Qed.
Lemma ex_q_valid : valid_module ex_q.
Proof.
  constructor; cbn [ex_q md_imps md_func md_tabl md_mems md_glob md_elem md_data md_star md_exps md_type]; try (constructor; fail).
  - constructor; [|constructor]. eexists. split; [split; [cbn; lia|reflexivity]|]. cbn [fd_expr ex_quotient fd_locals].
    on none do gets 0%nat. on [T_i32] do gets 1%nat. on none do pure. apply t_nil.
  - left. reflexivity.
  - constructor; [|constructor]. cbn [ex_desc ex_kind]. split; [lia|]. left. split; [reflexivity|]. vm_compute. reflexivity.
  - cbn. repeat constructor; cbn; intuition discriminate.
Qed.
Definition ex_q_ready : machine := snd (instance ieee (plain_host ex_shost) 100 (mkloaded ex_q []) [] machine_empty).
Lemma ex_q_call n' x y : 0 <= x < 2 ^ 31 -> 0 <= y < 2 ^ 31 ->
  exists vs, arguments [T_i32; T_i32] [PInt x; PInt y] vs /\
    ((unfinished ieee (plain_host ex_shost) n' (starts (k_store ex_q_ready) ex_qt 0 ex_quotient vs) /\
        exists er, fst (rt_invocate ieee (plain_host ex_shost) n' 0 [0x71] [PInt x; PInt y] ex_q_ready) = Err er) \/
     meets_deviation ieee (plain_host ex_shost) (starts (k_store ex_q_ready) ex_qt 0 ex_quotient vs) \/
     exists s' L' o r,
       run_by does ieee ex_shost 2 (MRef 0) (k_store ex_q_ready) (vs ++ []) [] (fd_expr ex_quotient) s' L' o /\ result 1 o r /\
       match rt_invocate ieee (plain_host ex_shost) n' 0 [0x71] [PInt x; PInt y] ex_q_ready with
       | (Ok ps, m4) => exists R, r = Some R /\ Forall2 answer R ps /\ m4 = mkmach s' [] [] []
       | (Err _, m4) => k_store m4 = s' /\ (r = None \/ exists R v, r = Some R /\ In v R /\ is_null v)
       end).
Proof.
  intros Hx Hy.
  destruct (C109_bytes_to_results ex_shost ex_sg 100 n' ex_q_all ex_q_bytes ex_q (mkloaded ex_q []) [] machine_empty machine_empty ex_q_ready ex_q_ready 0
    (mkexp [0x71] 0 0) 0 ex_quotient ex_qt [PInt x; PInt y] ex_shost_behaved ex_shost_typed ex_shost_refs) as [_ H]; [..|exact H].
  - apply hon_nil.
  - exact ex_q_enc.
  - repeat constructor; discriminate.
  - left. repeat constructor; discriminate.
  - exact ex_q_valid.
  - cbn. lia.
  - reflexivity.
  - constructor.
  - lia.
  - vm_compute. reflexivity.
  - apply hon_nil.
  - cbn. tauto.
  - reflexivity.
  - reflexivity.
  - reflexivity.
  - split; [cbn; lia|reflexivity].
  - repeat constructor; cbn; lia.
  - repeat constructor.
  - intros [|[|[|i]]] z E; discriminate E.
Qed.
Lemma ex_q_calm y k m : y = 0 \/ y = 2 ->
  evaluate ieee (plain_host ex_shost) k (starts (k_store ex_q_ready) ex_qt 0 ex_quotient [num_val T_i32 7; num_val T_i32 y]) = (Ok tt, m) -> ~ deviates m.
Proof.
  intros Hx E (o & args & fr & [(lb & ls & El & Ei) _] & A).
  assert (G : In (IOp o args) (fd_expr ex_quotient)).
  { destruct Hx as [-> | ->]; do 6 (destruct k as [|k]; [vm_compute in E; first [discriminate E|injection E as <-]; cbn in El;
      first [discriminate El|injection El as <- <-; cbn [lb_instr] in Ei; eapply nth_error_In; exact Ei]|]).
    - exfalso. cut (fst (evaluate ieee (plain_host ex_shost) (6 + k) (starts (k_store ex_q_ready) ex_qt 0 ex_quotient [num_val T_i32 7; num_val T_i32 0])) = Err EZeroDiv).
      { cbn [Nat.add]. rewrite E. discriminate. } clear. vm_compute. reflexivity.
    - exfalso. rewrite (evaluate_finished ieee ex_shost 5) in E by
        (first [lia|intros (m' & E' & U); vm_compute in E'; injection E' as <-; apply U; reflexivity]).
      vm_compute in E. injection E as <-. discriminate El. }
  cbn in G. repeat (destruct G as [G|G]; [injection G as <- <-; inversion A; discriminate|]). exact G.
Qed.
(* "q" of 7 and 2 returns 3, and 3 is what a standard run gives; "q" of 7 and 0 raises, and there is one that traps *)
Example C109_example : module_from_reader ex_q_bytes = Ok ex_q /\
  fst (rt_invocate ieee (plain_host ex_shost) 30 0 [0x71] [PInt 7; PInt 2] ex_q_ready) = Ok [PInt 3] /\
  (exists s' L' o v, run_by does ieee ex_shost 2 (MRef 0) (k_store ex_q_ready) [num_val T_i32 7; num_val T_i32 2] [] (fd_expr ex_quotient) s' L' o /\
     result 1 o (Some [v]) /\ answer v (PInt 3)) /\
  fst (rt_invocate ieee (plain_host ex_shost) 30 0 [0x71] [PInt 7; PInt 0] ex_q_ready) = Err EZeroDiv /\
  (exists s' L' o r, run_by does ieee ex_shost 2 (MRef 0) (k_store ex_q_ready) [num_val T_i32 7; num_val T_i32 0] [] (fd_expr ex_quotient) s' L' o /\
     result 1 o r /\ (r = None \/ exists R v, r = Some R /\ In v R /\ is_null v)).
Proof.
  assert (G : forall y, y = 0 \/ y = 2 -> exists s' L' o r,
    run_by does ieee ex_shost 2 (MRef 0) (k_store ex_q_ready) [num_val T_i32 7; num_val T_i32 y] [] (fd_expr ex_quotient) s' L' o /\ result 1 o r /\
    match rt_invocate ieee (plain_host ex_shost) 30 0 [0x71] [PInt 7; PInt y] ex_q_ready with
    | (Ok ps, m4) => exists R, r = Some R /\ Forall2 answer R ps /\ m4 = mkmach s' [] [] []
    | (Err _, m4) => k_store m4 = s' /\ (r = None \/ exists R v, r = Some R /\ In v R /\ is_null v)
    end).
  { intros y Hy. destruct (ex_q_call 30 7 y ltac:(lia) ltac:(lia)) as (vs & A & H).
    assert (vs = [num_val T_i32 7; num_val T_i32 y]) as ->.
    { destruct vs as [|v [|w [|]]]; cbn in A; try tauto. destruct A as (-> & -> & _). destruct Hy as [-> | ->]; reflexivity. }
    destruct H as [[(m' & U1 & U2) _]|[(m1 & (k & U1) & U2)|H]].
    - exfalso. destruct Hy as [-> | ->]; vm_compute in U1; first [discriminate U1|injection U1 as <-; apply U2; reflexivity].
    - exfalso. exact (ex_q_calm y k m1 Hy U1 U2).
    - exact H. }
  assert (X2 : fst (rt_invocate ieee (plain_host ex_shost) 30 0 [0x71] [PInt 7; PInt 2] ex_q_ready) = Ok [PInt 3]) by (vm_compute; reflexivity).
  assert (X0 : fst (rt_invocate ieee (plain_host ex_shost) 30 0 [0x71] [PInt 7; PInt 0] ex_q_ready) = Err EZeroDiv) by (vm_compute; reflexivity).
  split; [apply (C38_module ex_q_all); [exact ex_q_enc|repeat constructor; discriminate]|]. split; [exact X2|]. split; [|split; [exact X0|]].
  - destruct (G 2 (or_intror eq_refl)) as (s' & L' & o & r & H1 & H2 & H3). exists s', L', o.
    destruct (rt_invocate ieee (plain_host ex_shost) 30 0 [0x71] [PInt 7; PInt 2] ex_q_ready) as [[ps|e] m']; [|discriminate X2]. injection X2 as ->.
    destruct H3 as (R & -> & H3 & _). inversion H3 as [|v p R' ps' H4 H5]; subst. inversion H5; subst. exists v. split; [exact H1|]. split; assumption.
  - destruct (G 0 (or_introl eq_refl)) as (s' & L' & o & r & H1 & H2 & H3). exists s', L', o, r. split; [exact H1|]. split; [exact H2|].
    destruct (rt_invocate ieee (plain_host ex_shost) 30 0 [0x71] [PInt 7; PInt 0] ex_q_ready) as [[ps|e] m']; [discriminate X0|]. apply H3.
Qed.
