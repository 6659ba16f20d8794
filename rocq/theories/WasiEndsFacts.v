(* Programs with WASI functions end, and their stacks stay bounded, as those without (C139). *)
From Coq Require Import ZArith List Bool Lia ZifyBool ZifyNat.
From Verif Require Import Py Floatops Val Opcode Numeric Syntax Store Basic Machine Utf8 Os Wasi WasiRun SpecMachine SpecMem SpecControl SpecType SpecCode SpecEnds SpecStacks
  PyFacts StepFacts ControlFacts CodeFacts EndsFacts EndsRunFacts StacksBasicFacts StacksFacts StacksRunFacts SpecWasi SpecWasiRun WasiGrowFacts WasiRunFacts WasiTypeFacts.
Import ListNotations.
Open Scope Z_scope.

Section turns.
Context (F : fops) (Os : os).
(* the WASI functions as seen from the world [w] *)
Definition seen (w : world) : hostcode := fun hid ps m => let '(r, w') := wasi_host Os hid ps (with_mach w m) in (r, w_mach w').
Lemma seen_leaves w : leaves_stacks (seen w).
Proof.
  intros hid args m r m' E. unfold seen in E. pose proof (host_only Os hid args (with_mach w m)) as O. destruct (wasi_host Os hid args (with_mach w m)) as [r' w']. injection E as _ <-.
  cbn [snd with_mach w_mach] in O. destruct O as (O1 & O2 & O3 & O4 & _). repeat split; try assumption; now rewrite O4.
Qed.
Lemma seen_minds w : minds_its_business (seen w).
Proof. intros hid args m r m' E. destruct (seen_leaves w _ _ _ _ _ E) as (E1 & E2 & _ & E4 & E5). auto. Qed.
Lemma turn_seen w : step F (seen w) (w_mach w) = (fst (wturn F Os w), w_mach (snd (wturn F Os w))).
Proof.
  pose proof (host_turn_spec F (w_mach w)) as T. unfold wturn. destruct (host_turn F (w_mach w)) as [[[[hid ps] t] m2]|].
  - rewrite T. unfold plug, seen, bind. destruct (wasi_host Os hid ps (with_mach w m2)) as [[l|e] w1]; [|reflexivity]. unfold lift. destruct (from_alls F (ft_rets t) l) as [vs|e]; [|reflexivity].
    unfold mach. now destruct (extend vs (w_mach w1)).
  - rewrite (T _ (fun _ _ m => (Err (EHost 0), m))). unfold mach. now destruct (step F (fun _ _ m => (Err (EHost 0), m)) (w_mach w)).
Qed.
Lemma wevaluate_goes s n : forall w x, EndsFacts.code_same s (w_mach w) -> stack s x (k_frame (w_mach w)) (k_label (w_mach w)) n ->
  (forall j, (n <= j)%nat -> wevaluate F Os j w = wevaluate F Os n w) /\ (forall u w', wevaluate F Os n w = (Ok u, w') -> k_label (w_mach w') = []).
Proof.
  induction n as [n IH] using lt_wf_ind. intros w x HS H. destruct (k_label (w_mach w)) as [|lb ls] eqn:EL.
  - assert (E : forall j, wevaluate F Os j w = (Ok tt, w)) by (intros [|j]; cbn [wevaluate]; [reflexivity|now rewrite EL]). split; [intros j _; now rewrite !E|]. intros u w'. rewrite E. intros X. injection X as _ <-. exact EL.
  - rewrite <- EL in H. assert (HL : k_label (w_mach w) <> []) by (rewrite EL; discriminate). pose proof (label_cost _ _ _ _ _ H HL). destruct n as [|n]; [lia|].
    pose proof (step_goes F (seen w) s (seen_minds w) _ _ _ HS H HL) as SG. rewrite turn_seen in SG.
    assert (E : forall j, wevaluate F Os (S j) w = (wturn F Os ;; wevaluate F Os j) w) by (intros j; cbn [wevaluate]; now rewrite EL).
    unfold bind in E. destruct (wturn F Os w) as [[u|e] w1] eqn:ES; cbn [fst snd] in SG.
    + destruct SG as (G1 & x1 & n1 & G2 & G3). destruct (IH n1 G2 w1 x1 G1 G3) as [I1 I2]. split.
      * intros [|j] Hj; [lia|]. rewrite !E. rewrite (I1 j), (I1 n) by lia. reflexivity.
      * intros u' w'. rewrite E, (I1 n) by lia. apply I2.
    + split; [intros [|j] Hj; [lia|]; now rewrite !E|]. intros u w'. rewrite E. discriminate.
Qed.
Lemma wstarts_ends s t h code args N w : ends_within s 1022 h [] (fd_expr code) N -> w_mach w = SpecType.starts s t h code args -> forall n, (N < n)%nat ->
  match wevaluate F Os n w with (Ok _, w') => k_label (w_mach w') = [] | (Err _, _) => True end.
Proof.
  intros H EW n Hn. destruct (wevaluate_goes s (1 + N + 0) w (Some (h, []))) as [E1 E2].
  - rewrite EW. split; reflexivity.
  - rewrite EW. apply st_func with (x := None); [constructor|reflexivity|reflexivity|reflexivity|]. apply ends_less with 1022%nat; [exact H|]. unfold EndsFacts.room. cbn [SpecType.starts length k_frame w_mach]. lia.
  - rewrite E1 by lia. destruct (wevaluate F Os (1 + N + 0) _) as [[u|e] m']; [exact (E2 _ _ eq_refl)|exact I].
Qed.
Lemma winvocate_limit s a t h code N : py_index (s_func s) a = Ok (FWasm t h code) -> ends_within s 1022 h [] (fd_expr code) N ->
  forall w args n n', k_label (w_mach w) = [] -> s_func (k_store (w_mach w)) = s_func s -> s_inst (k_store (w_mach w)) = s_inst s -> (N < n)%nat -> (N < n')%nat ->
    winvocate F Os n a args w = winvocate F Os n' a args w.
Proof.
  intros EF H [p lg pi [ms mv ml mf]] args n n' HL E1 E2 Hn Hn'. cbn [w_mach k_label k_store] in *. subst ml.
  set (w0 := mkworld p lg pi (mkmach ms mv [mklabel (length (ft_rets t)) 1 0 KFunc (fd_expr code) 0]
         (mkframe (MRef h) (args ++ zero_locals (fd_locals code)) (length (ft_rets t)) 0 0 :: mkframe (MVal modinst_empty) [] 0 0 0 :: mf))).
  assert (E : exists K : W (list val), forall j, winvocate F Os j a args (mkworld p lg pi (mkmach ms mv [] mf)) =
    if types_agree (ft_args t) args then (wevaluate F Os j ;; K) w0 else (Err EAssert, mkworld p lg pi (mkmach ms mv [] mf))).
  { eexists. intros j. unfold winvocate. unfold bind at 1, mach at 1, bind at 1, mget at 1, lift at 1. cbn [w_mach k_store]. rewrite E1, EF. destruct (types_agree (ft_args t) args); [|reflexivity].
    reflexivity. }
  destruct E as [K E]. rewrite !E. destruct (types_agree (ft_args t) args); [|reflexivity]. unfold bind.
  destruct (wevaluate_goes s (1 + N + 0) w0 (Some (h, []))) as [X _].
  - split; [exact E1|exact E2].
  - apply st_func with (x := None); [constructor|reflexivity|reflexivity|reflexivity|]. apply ends_less with 1022%nat; [exact H|]. unfold EndsFacts.room. cbn [SpecType.starts length k_frame w_mach]. lia.
  - rewrite (X n), (X n') by lia. reflexivity.
Qed.
Lemma wevaluate_ok s R T D base (HR : (1 <= R)%nat)
  (HF : Forall (fun f => small_type R (fi_type f) /\ forall t h code, f = FWasm t h code -> small_code R T D (fd_expr code)) (s_func s))
  (HI : Forall (fun mi => Forall (small_type R) (m_type mi)) (s_inst s)) n : forall w u w', ok s R T D base (w_mach w) -> wevaluate F Os n w = (Ok u, w') -> ok s R T D base (w_mach w').
Proof.
  induction n as [|n IH]; intros w u w' H E; cbn [wevaluate] in E; [injection E as _ <-; exact H|]. destruct (k_label (w_mach w)) eqn:EL; [injection E as _ <-; exact H|].
  unfold bind in E. pose proof (step_ok F (seen w) s (seen_leaves w) R T D base HR HF HI (w_mach w) H ltac:(rewrite EL; discriminate)) as S1. rewrite turn_seen in S1.
  destruct (wturn F Os w) as [[v|e] w1]; [|discriminate E]. exact (IH _ _ _ S1 E).
Qed.
End turns.
Lemma wbounded s : (forall t h code, In (FWasm t h code) (s_func s) -> stays_inside 0 (fd_expr code)) ->
  exists B, forall F Os s' t h code args n w w', s_func s' = s_func s -> s_inst s' = s_inst s -> In (FWasm t h code) (s_func s) -> w_mach w = SpecType.starts s' t h code args ->
    wevaluate F Os n w = (Ok tt, w') -> stacks_below B (w_mach w').
Proof.
  intros H. destruct (sizes s H) as (R & T & D & HR & HF & HI). exists (1024 + R + 1024 * (R + T) + 1024 * (1 + D))%nat.
  intros F Os s' t h code args n w w' E1 E2 IN EW E. apply ok_bounds with (s := s); [exact HR|].
  refine (wevaluate_ok F Os s R T D R HR HF HI n _ _ _ _ E). rewrite EW. rewrite Forall_forall in HF. destruct (HF _ IN) as [[A B] C].
  split; [split; [exact E1|exact E2]|]. split; [cbn [SpecType.starts k_frame length]; lia|]. eexists _, _. split.
  - apply tw_func with None R; [constructor|reflexivity|reflexivity|reflexivity|exact (C _ _ _ eq_refl)|reflexivity|]. exact B.
  - cbn [SpecType.starts k_value length]. lia.
Qed.
Lemma wbound_ends s : (exists N, forall f, In f (s_func s) -> func_within s 1022 f N) ->
  exists N, forall F Os a w args n n', k_label (w_mach w) = [] -> s_func (k_store (w_mach w)) = s_func s -> s_inst (k_store (w_mach w)) = s_inst s -> (N < n)%nat -> (N < n')%nat ->
      winvocate F Os n a args w = winvocate F Os n' a args w.
Proof.
  intros [N HN]. exists N. assert (H : forall t h code, In (FWasm t h code) (s_func s) -> ends_within s 1022 h [] (fd_expr code) N) by (intros t h code HI; exact (HN _ HI)).
  intros F Os a w args n n' HL E1 E2 Hn Hn'. destruct (py_index (s_func s) a) as [[t h code|t hid]|e] eqn:EF.
  - exact (winvocate_limit F Os s a t h code N EF (H _ _ _ (index_In _ _ _ EF)) w args n n' HL E1 E2 Hn Hn').
  - unfold winvocate, mach, bind, mget, lift. rewrite E1, EF. reflexivity.
  - unfold winvocate, mach, bind, mget, lift. rewrite E1, EF. reflexivity.
Qed.
