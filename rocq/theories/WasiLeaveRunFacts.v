(* What programs leave as it was, by the WASI functions in their call graph (C138). *)
From Coq Require Import ZArith List Bool Lia ZifyBool ZifyNat.
From Verif Require Import Py Floatops Val Opcode Numeric Syntax Store Basic Machine Utf8 Os Wasi WasiRun SpecMachine SpecMem SpecControl SpecType SpecCode SpecEnds SpecStacks SpecReach
  PyFacts StepFacts ControlFacts CodeFacts EndsFacts StacksBasicFacts StacksFacts ReachBasicFacts ReachFacts SpecWasi SpecWasiRun WasiGrowFacts WasiRunFacts WasiTypeFacts SpecWasiAsk WasiAskFacts WasiGraphFacts
  SpecWasiLeave WasiLeaveFacts.
Import ListNotations.
Open Scope Z_scope.

(* the worlds differ at most in the stacks and the log *)
Definition same_rest (w w' : world) : Prop := w_self w' = w_self w /\ w_pipes w' = w_pipes w /\ k_store (w_mach w') = k_store (w_mach w).
Section run.
Context (F : fops) (Os : os) (s : store) (G : funcinst -> Prop) (HG : call_closed s G) (R : world -> world -> Prop).
Notation T := (fun _ : store => True).
Notation none := (fun _ _ m => (Err (EHost 0), m)).
Context (Rsame : forall w w', same_rest w w' -> R w w') (Rtrans : forall a b c, R a b -> R b c -> R a c).
Context (Rcode : forall w, housed s G T (w_mach w) -> k_label (w_mach w) <> [] -> R w (snd (mach (step F none) w))).
Context (Rhost : forall t hid nm ty f args w, G (FHost t hid) -> nth_error wasi_methods hid = Some (nm, ty, f) -> R w (snd (wasi_call Os f args w))).
Lemma Rrefl w : R w w. Proof. apply Rsame. repeat split. Qed.
Lemma host_rel hid ps w t : G (FHost t hid) -> R w (snd (wasi_host Os hid ps w)).
Proof.
  intros HF. unfold wasi_host. destruct (nth_error wasi_methods hid) as [[[nm ty] f]|] eqn:EM; [|apply Rrefl]. unfold bind, lift. destruct (rmapl as_int ps) as [zs|]; [|apply Rrefl].
  pose proof (Rhost _ _ _ _ _ zs w HF EM) as A. now destruct (wasi_call Os f zs w) as [[rs|e] w1].
Qed.
Lemma wturn_rel w : housed s G T (w_mach w) -> k_label (w_mach w) <> [] -> R w (snd (wturn F Os w)).
Proof.
  intros H N. unfold wturn. destruct (host_turn F (w_mach w)) as [[[[hid ps] t] m2]|] eqn:EH; [|exact (Rcode w H N)].
  destruct (turn_graph F s G HG _ _ _ _ _ H EH) as [HF _]. pose proof (host_turn_store _ _ _ _ _ _ EH) as ES.
  assert (A : R w (with_mach w m2)) by (apply Rsame; repeat split; exact ES).
  pose proof (Rtrans _ _ _ A (host_rel hid ps (with_mach w m2) t HF)) as B.
  unfold bind. destruct (wasi_host Os hid ps (with_mach w m2)) as [[l|e] w1]; cbn [snd] in *; [|exact B].
  unfold lift. destruct (from_alls F (ft_rets t) l) as [vs|e]; [|exact B]. refine (Rtrans _ _ _ B _). apply Rsame. repeat split.
Qed.
Lemma wevaluate_rel n : forall w, housed s G T (w_mach w) -> R w (snd (wevaluate F Os n w)).
Proof.
  induction n as [|n IH]; intros w H; cbn [wevaluate]; [apply Rrefl|]. destruct (k_label (w_mach w)) eqn:EL; [apply Rrefl|].
  assert (N : k_label (w_mach w) <> []) by congruence. pose proof (wturn_rel w H N) as A. destruct (wturn_graph F Os s G HG w H N) as [_ K].
  unfold bind. destruct (wturn F Os w) as [[[]|e] w1]; cbn [fst snd] in *; [|exact A]. exact (Rtrans _ _ _ A (IH _ (K eq_refl))).
Qed.
Lemma winvocate_rel n a args w : k_label (w_mach w) = [] -> k_store (w_mach w) = s -> (forall f, py_index (s_func s) a = Ok f -> G f) -> R w (snd (winvocate F Os n a args w)).
Proof.
  intros HL HSS HF. unfold winvocate. unfold bind at 1, mach at 1, bind at 1, mget at 1, lift at 1. rewrite HSS. destruct (py_index (s_func s) a) as [[t h code|t hid]|e]; try (apply Rsame; repeat split; reflexivity).
  specialize (HF _ eq_refl). destruct w as [p lg pi [sm vm ls fm]]. cbn [w_mach k_label k_store with_mach] in *. subst ls sm. unfold bind at 1. unfold mach at 1. unfold bind at 1, assert.
  destruct (types_agree (ft_args t) args); [|apply Rsame; repeat split]. set (w0 := mkworld _ _ _ _).
  match goal with |- R w0 (snd (match ?X with _ => _ end)) => destruct X as [[u|e] w1] eqn:EX end.
  - cbn in EX. injection EX as _ E1.
    assert (HH : housed s G T (w_mach w1)).
    { rewrite <- E1. split; [split; reflexivity|]. split; [exact I|]. exists (Some (t, h, code, O)). eapply ld_func with (x := None); try reflexivity; [apply ld_none|exact HF]. }
    assert (A : R w0 w1) by (apply Rsame; rewrite <- E1; repeat split).
    pose proof (Rtrans _ _ _ A (wevaluate_rel n w1 HH)) as B. unfold bind at 1.
    destruct (wevaluate F Os n w1) as [[u'|e] w2]; cbn [snd] in *; [|exact B].
    refine (Rtrans _ _ _ B _). apply Rsame. unfold mach.
    match goal with |- same_rest _ (snd (let '(r, m) := ?c ?m0 in _)) => assert (KS : ks c) end.
    { repeat (apply ks_bind; [|intros ?]); intros m; try reflexivity;
        first [apply popn_store|unfold pop_frame; now destruct (k_frame m)|unfold lift; now destruct (py_assert _)]. }
    match goal with |- same_rest _ (snd (let '(r, m) := ?c ?m0 in _)) => specialize (KS m0); destruct (c m0) as [r m1] end. repeat split. exact KS.
  - cbn in EX. discriminate EX.
Qed.
End run.
Lemma leave_descriptors F Os G n a args w : k_label (w_mach w) = [] -> call_closed (k_store (w_mach w)) G -> (forall f, py_index (s_func (k_store (w_mach w))) a = Ok f -> G f) ->
  none_of sets_descriptors G -> w_self (snd (winvocate F Os n a args w)) = w_self w.
Proof.
  intros HL HG HF HN. apply (winvocate_rel F Os (k_store (w_mach w)) G HG (fun w w' => w_self w' = w_self w)); try assumption; try reflexivity.
  - intros x y H. apply H.
  - intros x y z H1 H2. now rewrite H2.
  - intros x _ _. unfold mach. now destruct (step _ _ _).
  - intros t hid nm ty f zs x H1 H2. apply (call_leaves Os f zs x). exact (HN _ _ _ _ _ H1 H2).
Qed.
Lemma leave_streams F Os G n a args w : k_label (w_mach w) = [] -> call_closed (k_store (w_mach w)) G -> (forall f, py_index (s_func (k_store (w_mach w))) a = Ok f -> G f) ->
  none_of moves_streams G -> w_pipes (snd (winvocate F Os n a args w)) = w_pipes w.
Proof.
  intros HL HG HF HN. apply (winvocate_rel F Os (k_store (w_mach w)) G HG (fun w w' => w_pipes w' = w_pipes w)); try assumption; try reflexivity.
  - intros x y H. apply H.
  - intros x y z H1 H2. now rewrite H2.
  - intros x _ _. unfold mach. now destruct (step _ _ _).
  - intros t hid nm ty f zs x H1 H2. apply (call_leaves Os f zs x). exact (HN _ _ _ _ _ H1 H2).
Qed.
Lemma leave_part F Os G p n a args w : k_label (w_mach w) = [] -> call_closed (k_store (w_mach w)) G -> (forall f, py_index (s_func (k_store (w_mach w))) a = Ok f -> G f) ->
  (forall t h code o args, G (FWasm t h code) -> within (IOp o args) (fd_expr code) -> writes p o = false) -> (p = Memories -> none_of fills_memory G) ->
  same_part p (k_store (w_mach w)) (k_store (w_mach (snd (winvocate F Os n a args w)))).
Proof.
  intros HL HG HF HC HN. apply (winvocate_rel F Os (k_store (w_mach w)) G HG (fun w w' => same_part p (k_store (w_mach w)) (k_store (w_mach w')))); try assumption; try reflexivity.
  - intros x y (_ & _ & ->). apply ReachBasicFacts.same_refl.
  - intros x y z H1 H2. exact (ReachBasicFacts.same_trans p _ _ _ H1 H2).
  - intros x (S1 & _ & S3) NL.
    assert (HQ : forall t h code o args mr b, G (FWasm t h code) -> within (IOp o args) (fd_expr code) -> same_part p (k_store (w_mach x)) (b_store b) ->
      same_part p (k_store (w_mach x)) (b_store (snd (exec_basic F mr o args b)))).
    { intros t0 h0 code0 o args0 mr b K1 K2 K3. exact (ReachBasicFacts.same_trans p _ _ _ K3 (kp_basic p F mr o args0 (HC _ _ _ _ _ K1 K2) b)). }
    pose proof (step_fair F (fun _ _ m => (Err (EHost 0), m)) (k_store (w_mach w)) G (same_part p (k_store (w_mach x))) quiet_host HG HQ) as SF.
    assert (HH : forall (t : functype) (hid : nat) (args : list pyval) m (r : res (list pyval)) m', G (FHost t hid) -> (Err (EHost 0), m) = (r, m') -> same_part p (k_store (w_mach x)) (k_store m) ->
      same_part p (k_store (w_mach x)) (k_store m')) by (intros t hid zs m r m' _ E K; now injection E as _ <-).
    specialize (SF HH (w_mach x) (conj S1 (conj (ReachBasicFacts.same_refl _ _) S3)) NL). unfold mach.
    destruct (step F _ (w_mach x)) as [[u|e] m']; [exact (proj1 (proj2 SF))|exact SF].
  - intros t hid nm ty f zs x H1 H2. pose proof (call_grows Os f zs x) as O. destruct (wasi_call Os f zs x) as [r x'] eqn:EX. cbn [snd].
    destruct p; try (destruct O as (_ & _ & _ & O & _); cbn [snd] in O; rewrite O; repeat split).
    cbn [same_part]. assert (E : k_store (w_mach x') = k_store (w_mach x)); [|now rewrite E].
    pose proof (proj1 (call_leaves Os f zs x) (HN eq_refl _ _ _ _ _ H1 H2)) as E. now rewrite EX in E.
Qed.
