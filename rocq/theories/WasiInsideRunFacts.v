(* Programs that call WASI functions are confined to the part of the store they are given, and depend only on it. *)
From Coq Require Import ZArith List Bool Lia ZifyBool ZifyNat.
From Verif Require Import Py Arith Floatops Val Opcode Numeric Syntax Store Basic Machine Utf8 Os Wasi WasiRun
  SpecInt SpecNum SpecMachine SpecMem SpecRun SpecControl SpecType SpecFormat SpecRef SpecIsolate SpecAgree
  PyFacts ArithFacts ValFacts MemFacts WfFacts StepFacts RunFacts TypeOpFacts ControlFacts TypeBasicFacts TypeFacts CallFacts IsolateFacts IsolateRunFacts AgreeFacts AgreeRunFacts.
From Verif Require Import SpecWasi SpecWasiRun SpecWasiInside WasiGrowFacts WasiKeepFacts WasiRunFacts WasiTypeFacts WasiInsideFacts.
Import ListNotations.
Open Scope Z_scope.

Lemma own_dec m a : own_memory m a \/ ~ own_memory m a.
Proof.
  destruct (k_frame m) as [|fr fs] eqn:E; [right; intros (fr & fs & E' & _); congruence|].
  destruct (nth_error (m_mems (mod_of (k_store m) (fr_module fr))) 0) as [z|] eqn:N.
  - destruct (Z.eq_dec z (Z.of_nat a)) as [->|D]; [left; exists fr, fs; split; assumption|].
    right. intros (fr' & fs' & E' & N'). rewrite E in E'. injection E' as <- <-. congruence.
  - right. intros (fr' & fs' & E' & N'). rewrite E in E'. injection E' as <- <-. congruence.
Qed.
Lemma own_of m m' : k_frame m' = k_frame m -> same_running m m' -> forall a, own_memory m' a <-> own_memory m a.
Proof.
  intros EF ER a. split; intros (fr & fs & E & N); exists fr, fs; (split; [congruence|]).
  - rewrite EF in E. rewrite <- (ER fr fs E). exact N.
  - rewrite (ER fr fs E). exact N.
Qed.
Lemma called_natural G m : called_inside G m -> natural_memories m.
Proof. intros H fr fs E. eapply Forall_impl; [|exact (kn_mems _ _ (H fr fs E))]. intros z Hz. apply Hz. Qed.
Lemma called_own G m a : called_inside G m -> own_memory m a -> g_mems G a.
Proof.
  intros H (fr & fs & E & N). pose proof (nth_Forall _ _ _ _ (kn_mems _ _ (H fr fs E)) N) as [_ A]. rewrite Nat2Z.id in A. exact A.
Qed.
Lemma natural_of m m' : k_frame m' = k_frame m -> same_running m m' -> natural_memories m -> natural_memories m'.
Proof. intros EF ER H fr fs E. rewrite EF in E. rewrite (ER fr fs E). exact (H fr fs E). Qed.
Lemma alike_of w w' : same_outer w w' -> natural_memories (w_mach w) -> natural_memories (w_mach w') -> same_own (w_mach w) (w_mach w') -> alike (own_memory (w_mach w)) w w'.
Proof. intros H1 H2 H3 [H4 H5]. constructor; try assumption. reflexivity. Qed.
Lemma outer_refl w : same_outer w w.
Proof. repeat split. Qed.
Lemma alike_self w : natural_memories (w_mach w) -> alike (own_memory (w_mach w)) w w.
Proof. intros H. apply alike_of; [apply outer_refl|exact H|exact H|]. split; reflexivity. Qed.
Lemma alike_sym P w w' : alike P w w' -> alike P w' w.
Proof. intros [(A & B & C) A2 A3 A4 A5 A6]. constructor; try assumption; [repeat split; congruence|]. intros a Ha. symmetry. exact (A6 a Ha). Qed.
(* lengths of memories *)
Lemma lens_nth l l' : length l' = length l -> (forall a x x', nth_error l a = Some x -> nth_error l' a = Some x' -> len (mi_data x') = len (mi_data x)) ->
  map (fun x => len (mi_data x)) l = map (fun x => len (mi_data x)) l'.
Proof.
  revert l'. induction l as [|x l IH]; intros [|y l'] HL H; try discriminate HL; [reflexivity|]. cbn [map]. f_equal; [symmetry; exact (H 0%nat x y eq_refl eq_refl)|].
  apply IH; [now injection HL|]. intros a. exact (H (S a)).
Qed.
Lemma lens_at l l' a x x' : map (fun x => len (mi_data x)) l = map (fun x => len (mi_data x)) l' -> nth_error l a = Some x -> nth_error l' a = Some x' -> len (mi_data x') = len (mi_data x).
Proof.
  intros E N N'. apply (map_nth_error (fun x => len (mi_data x))) in N, N'. rewrite E in N. congruence.
Qed.
Lemma grown_length l l' : Forall2 grown l l' -> length l' = length l.
Proof. induction 1; cbn; congruence. Qed.
Lemma lens_alike m w1 m' w1' : only_memories m (w_mach w1) -> only_memories m' (w_mach w1') -> alike (own_memory m) w1 w1' -> others (own_memory m) (with_mach w1' m') w1' ->
  (forall a, own_memory m a -> nth_error (s_mems (k_store m')) a = nth_error (s_mems (k_store m)) a) -> data_lengths m = data_lengths (w_mach w1) -> data_lengths m' = data_lengths (w_mach w1').
Proof.
  intros (_ & _ & _ & _ & G1) (_ & _ & _ & _ & G2) HA HO HM E. unfold data_lengths in *. apply lens_nth; [exact (grown_length _ _ G2)|]. intros a x x' N N'.
  destruct (own_dec m a) as [D|D].
  - rewrite (HM a D) in N. rewrite (al_mems _ _ _ HA a D) in N'. exact (lens_at _ _ _ _ _ E N N').
  - rewrite (HO a D) in N'. cbn [with_mach w_mach] in N'. congruence.
Qed.
(* only memories change *)
Lemma only_closed sg G k k' : only_memories k k' -> closed sg G (k_store k) -> closed sg G (k_store k').
Proof. intros (_ & _ & _ & S & _) []. rewrite S. constructor; cbn; assumption. Qed.
Lemma only_outside G k k' : only_memories k k' -> (forall a, ~ g_mems G a -> nth_error (s_mems (k_store k')) a = nth_error (s_mems (k_store k)) a) -> same_outside G (k_store k) (k_store k').
Proof. intros (_ & _ & _ & S & _) H. constructor; try exact H; rewrite S; reflexivity. Qed.
Lemma only_agrees G k k' k1 k1' : only_memories k k1 -> only_memories k' k1' -> agrees G (k_store k) (k_store k') ->
  (forall a, g_mems G a -> nth_error (s_mems (k_store k1')) a = nth_error (s_mems (k_store k1)) a) -> agrees G (k_store k1) (k_store k1').
Proof. intros (_ & _ & _ & S & _) (_ & _ & _ & S' & _) [] H. constructor; try exact H; rewrite S, S'; assumption. Qed.

Section run.
Variables (F : fops) (Os : os).
Notation lens := data_lengths.
Notation sg := wasi_sig.
Lemma host_others hid ps w : natural_memories (w_mach w) -> others (own_memory (w_mach w)) w (snd (wasi_host Os hid ps w)).
Proof. intros H. apply (host_pw (own_memory (w_mach w)) Os hid ps w w (alike_self w H)). Qed.
Lemma sig_rets hid i : nth_error (ft_rets (sg hid)) i <> Some T_func.
Proof.
  unfold wasi_sig. destruct (nth_error wasi_methods hid) as [[[nm t] f]|] eqn:E; [|destruct i; discriminate].
  apply nth_error_In in E. cbn [wasi_methods In] in E. repeat destruct E as [E|E]; try contradiction; injection E as <- <- <-; destruct i as [|[|i]]; discriminate.
Qed.
Lemma tame_inside G w : host_inside sg G (tame Os w).
Proof.
  intros hid ps m r m' _ HC CI E. unfold tame in E. pose proof (host_only Os hid ps (with_mach w m)) as O.
  pose proof (host_others hid ps (with_mach w m) (called_natural G m CI)) as HO. cbn [with_mach w_mach] in O, HO.
  destruct (wasi_host Os hid ps (with_mach w m)) as [r' w1]. cbn [snd] in *.
  assert (X : closed sg G (k_store (w_mach w1)) /\ same_outside G (k_store m) (k_store (w_mach w1))).
  { split; [exact (only_closed _ _ _ _ O HC)|]. apply (only_outside G _ _ O). intros a Ha. apply HO. intros D. exact (Ha (called_own G m a CI D)). }
  destruct (list_eq_dec _ _ _); injection E as <- <-.
  - destruct X as [X1 X2]. split; [exact X1|]. split; [exact X2|]. intros l _. destruct O as (O1 & O2 & O3 & _). split; [|split; [assumption|split; assumption]].
    intros i z N. destruct (sig_rets _ _ N).
  - split; [exact HC|]. split; [apply out_refl|discriminate].
Qed.
Lemma host_two G hid ps w w' m m' : same_outer w w' -> agrees G (k_store m) (k_store m') -> k_frame m' = k_frame m -> called_inside G m -> same_running m m' ->
  let p := wasi_host Os hid ps (with_mach w m) in let p' := wasi_host Os hid ps (with_mach w' m') in
  fst p' = fst p /\ same_outer (snd p) (snd p') /\ agrees G (k_store (w_mach (snd p))) (k_store (w_mach (snd p'))) /\
  (lens m = lens (w_mach (snd p)) <-> lens m' = lens (w_mach (snd p'))).
Proof.
  intros SO AG EF CI SR p p'. pose proof (called_natural G m CI) as NA.
  assert (HM : forall a, own_memory m a -> nth_error (s_mems (k_store m')) a = nth_error (s_mems (k_store m)) a) by (intros a D; apply (ag_mems _ _ _ AG), (called_own G m a CI D)).
  assert (HA : alike (own_memory m) (with_mach w m) (with_mach w' m')).
  { apply (alike_of (with_mach w m) (with_mach w' m')); cbn [with_mach w_mach]; [exact SO|exact NA|exact (natural_of _ _ EF SR NA)|]. split; [exact (own_of _ _ EF SR)|exact HM]. }
  destruct (host_pw _ Os hid ps _ _ HA) as (H1 & H2 & H3). destruct (host_pw _ Os hid ps _ _ (alike_sym _ _ _ HA)) as (_ & _ & H3').
  pose proof (host_only Os hid ps (with_mach w m)) as O. pose proof (host_only Os hid ps (with_mach w' m')) as O'. cbn [with_mach w_mach] in O, O'. subst p p'.
  split; [exact H1|]. split; [exact (al_outer _ _ _ H2)|]. split.
  - apply (only_agrees G _ _ _ _ O O' AG). intros a Ha. destruct (own_dec m a) as [D|D]; [exact (al_mems _ _ _ H2 a D)|]. rewrite (H3 a D), (H3' a D). exact (ag_mems _ _ _ AG a Ha).
  - assert (OW : forall a, own_memory m' a <-> own_memory m a) by exact (own_of _ _ EF SR). split.
    + apply (lens_alike m _ m' _ O O' H2 H3' HM).
    + assert (PE : forall w1 w2, alike (own_memory m) w1 w2 -> alike (own_memory m') w1 w2).
      { intros w1 w2 [B1 B2 B3 B4 B5 B6]. constructor; try assumption; [intros a; rewrite OW; apply B2|intros a; rewrite OW; apply B3|]. intros a Ha. apply B6, OW, Ha. }
      apply (lens_alike m' _ m _ O' O (PE _ _ (alike_sym _ _ _ H2))).
      * intros a Ha. apply (H3 a). intros D. apply Ha, OW, D.
      * intros a Ha. symmetry. apply HM, OW, Ha.
Qed.
Lemma tame_agrees G w : host_agrees sg G (tame Os w).
Proof.
  intros hid ps m m' _ _ _ AG _ _ EF CI SR. destruct (host_two G hid ps w w m m' (outer_refl w) AG EF CI SR) as (H1 & _ & H2 & H3). unfold tame.
  destruct (wasi_host Os hid ps (with_mach w m)) as [r w1], (wasi_host Os hid ps (with_mach w m')) as [r' w1']. cbn [fst snd] in *. subst r'.
  destruct (list_eq_dec Z.eq_dec (lens m) (lens (w_mach w1))) as [D|D], (list_eq_dec Z.eq_dec (lens m') (lens (w_mach w1'))) as [D'|D']; cbn [fst snd].
  - split; [reflexivity|exact H2].
  - destruct (D' (proj1 H3 D)).
  - destruct (D (proj2 H3 D')).
  - split; [reflexivity|exact AG].
Qed.
(* host functions that always raise *)
Lemma raise_inside G (x : nat -> list pyval -> exn) : host_inside sg G (fun h ps m => (Err (x h ps), m)).
Proof. intros hid ps m r m' _ HC _ E. injection E as <- <-. split; [exact HC|]. split; [apply out_refl|discriminate]. Qed.
Lemma raise_agrees G (x : nat -> list pyval -> exn) : host_agrees sg G (fun h ps m => (Err (x h ps), m)).
Proof. intros hid ps m m' _ _ _ AG _ _ _ _ _. split; [reflexivity|exact AG]. Qed.
Lemma pyval_eq_dec (p q : pyval) : {p = q} + {p <> q}.
Proof. decide equality; try apply Z.eq_dec. apply list_eq_dec, Z.eq_dec. Qed.

(* the frames at a call of a host function *)
Definition kf {A} (e : M A) : Prop := forall m, k_frame (snd (e m)) = k_frame m.
Lemma kf_bind {A B} (e : M A) (f : A -> M B) : kf e -> (forall a, kf (f a)) -> kf (bind e f).
Proof. intros E K m. unfold bind. specialize (E m). destruct (e m) as [[a|x] m1]; cbn [snd] in *; [|exact E]. rewrite K. exact E. Qed.
Lemma callee_frame fr o args : kf (callee fr o args).
Proof.
  destruct o; try (intros m; reflexivity); cbn [callee]; repeat (apply kf_bind; [|intros ?]); try (intros m; reflexivity);
    intros m; (unfold popv; now destruct (k_value m)) || (unfold assert, lift; now destruct (py_assert _)).
Qed.
Lemma popn_frame k : forall m, k_frame (snd (popn k m)) = k_frame m.
Proof.
  induction k as [|k IH]; intros m; [reflexivity|]. cbn [popn]. unfold bind, popv. destruct (k_value m); [reflexivity|].
  specialize (IH (set_value m l)). destruct (popn k (set_value m l)) as [[x|x] mm]; exact IH.
Qed.
Lemma host_turn_frame m hid ps t m2 : host_turn F m = Some (hid, ps, t, m2) -> k_frame m2 = k_frame m.
Proof.
  unfold host_turn. destruct (k_label m) as [|lb ls]; [discriminate|]. destruct (k_frame m) as [|fr fs] eqn:EF; [discriminate|]. destruct (Nat.eqb _ _); [discriminate|].
  destruct (nth_error _ _) as [[| | |o args]|]; try discriminate. set (m0 := set_label m _).
  pose proof (callee_frame fr o args m0) as C. destruct (callee fr o args m0) as [[a|e] m1]; [|discriminate]. cbn [snd] in C.
  destruct (py_index _ a) as [[t' h c|t' hid']|]; try discriminate. pose proof (popn_frame (length (ft_args t')) m1) as P.
  destruct (popn _ m1) as [[vs|e] m3]; [|discriminate]. cbn [snd] in P. destruct (rmapl (into_all F) vs); [|discriminate]. intros [= <- <- <- <-]. rewrite P, C. exact EF.
Qed.
(* one turn that calls a host function *)
Definition behind (w : world) (hid : nat) (ps : list pyval) (m2 : machine) : world := snd (wasi_host Os hid ps (with_mach w m2)).
Lemma turn_host w hid ps t m2 : host_turn F (w_mach w) = Some (hid, ps, t, m2) -> lens m2 = lens (w_mach (behind w hid ps m2)) ->
  (fst (wturn F Os w), w_mach (snd (wturn F Os w))) = step F (tame Os w) (w_mach w) /\ same_outer (behind w hid ps m2) (snd (wturn F Os w)).
Proof.
  intros EH EL. pose proof (host_turn_spec F (w_mach w)) as T. unfold wturn, behind in *. rewrite EH in T |- *. rewrite T. unfold plug, tame, bind.
  destruct (wasi_host Os hid ps (with_mach w m2)) as [r w1]. cbn [snd] in EL |- *.
  destruct (list_eq_dec Z.eq_dec (lens m2) (lens (w_mach w1))) as [_|NE]; [|contradiction].
  destruct r as [l|e]; [|split; [reflexivity|apply outer_refl]]. unfold lift, mach. destruct (from_alls F (ft_rets t) l) as [vs|e]; [|split; [reflexivity|apply outer_refl]].
  destruct (extend vs (w_mach w1)) as [r' m']. split; [reflexivity|repeat split].
Qed.
Lemma turn_longer w hid ps t m2 : host_turn F (w_mach w) = Some (hid, ps, t, m2) -> lens m2 <> lens (w_mach (behind w hid ps m2)) -> lengthens F Os w.
Proof.
  intros EH NE. pose proof (host_turn_store _ _ _ _ _ _ EH) as KS. pose proof (host_turn_at _ _ _ _ _ _ EH) as AT. split; [|exact AT].
  assert (lens m2 = lens (w_mach w)) as LE by (unfold data_lengths; now rewrite KS). rewrite <- LE. intros Q. apply NE. rewrite <- Q. unfold wturn, behind. rewrite EH. unfold bind.
  destruct (wasi_host Os hid ps (with_mach w m2)) as [r w1]. destruct r as [l|e]; [|reflexivity]. unfold lift, mach. destruct (from_alls F (ft_rets t) l) as [vs|e]; [|reflexivity].
  pose proof (extend_store vs (w_mach w1)) as X. destruct (extend vs (w_mach w1)) as [r' m']. cbn [snd with_mach w_mach] in *. unfold data_lengths. now rewrite X.
Qed.
Lemma turn_other w : host_turn F (w_mach w) = None -> (fst (wturn F Os w), w_mach (snd (wturn F Os w))) = step F (tame Os w) (w_mach w) /\ same_outer w (snd (wturn F Os w)).
Proof.
  intros EH. pose proof (host_turn_spec F (w_mach w)) as T. unfold wturn. rewrite EH in T |- *. unfold mach. rewrite (T _ (tame Os w)).
  destruct (step F (tame Os w) (w_mach w)) as [r m]. split; [reflexivity|repeat split].
Qed.
Lemma tame_same w w' : same_outer w w' -> tame Os w' = tame Os w.
Proof. destruct w, w'. unfold same_outer. cbn. intros (-> & -> & ->). reflexivity. Qed.
Lemma outer_trans a b c : same_outer a b -> same_outer b c -> same_outer a c.
Proof. unfold same_outer. intros (A & B & C) (D & E & G). repeat split; congruence. Qed.
Lemma outer_sym a b : same_outer a b -> same_outer b a.
Proof. unfold same_outer. intros (A & B & C). repeat split; congruence. Qed.

Section two.
Variables (G : region) (s0 s0' : store).
Notation both := (both sg G s0 s0').
Lemma turns_both fin w w' : same_outer w w' -> both (w_mach w) (w_mach w') -> running (sg := sg) fin (w_mach w) -> k_label (w_mach w) <> [] ->
  lengthens F Os w \/
  (same_out sg G s0 s0' (is any) (fst (wturn F Os w), w_mach (snd (wturn F Os w))) (fst (wturn F Os w'), w_mach (snd (wturn F Os w'))) /\
   same_outer (snd (wturn F Os w)) (snd (wturn F Os w'))).
Proof.
  intros SO HB HR NL.
  assert (SB : forall host, host_inside sg G host -> host_agrees sg G host -> same_out sg G s0 s0' (is any) (step F host (w_mach w)) (step F host (w_mach w'))).
  { intros host HI HE. exact (step_both sg G s0 s0' F host HI HE fin _ _ HR HB NL). }
  pose proof (SB (tame Os w) (tame_inside G w) (tame_agrees G w)) as ST.
  pose proof (fun x => SB _ (raise_inside G x) (raise_agrees G x)) as RB.
  pose proof (host_turn_spec F (w_mach w)) as T. pose proof (host_turn_spec F (w_mach w')) as T'.
  destruct (host_turn F (w_mach w)) as [[[[hid ps] t] m2]|] eqn:EH; destruct (host_turn F (w_mach w')) as [[[[hid' ps'] t'] m2']|] eqn:EH'.
  - assert (E : hid' = hid /\ ps' = ps).
    { pose (x := fun h q => if Nat.eq_dec h hid then if list_eq_dec pyval_eq_dec q ps then EHost 1 else EHost 2 else EHost 2).
      specialize (RB x). rewrite T, T' in RB. unfold plug, bind in RB. cbn [same_out] in RB. destruct RB as [RB _]. unfold x in RB.
      destruct (Nat.eq_dec hid hid); [|congruence]. destruct (list_eq_dec pyval_eq_dec ps ps); [|congruence].
      destruct (Nat.eq_dec hid' hid); [|discriminate RB]. destruct (list_eq_dec pyval_eq_dec ps' ps); [|discriminate RB]. split; assumption. }
    destruct E as [-> ->].
    destruct (list_eq_dec Z.eq_dec (lens m2) (lens (w_mach (behind w hid ps m2)))) as [EL|NE]; [right|left; exact (turn_longer _ _ _ _ _ EH NE)].
    pose proof (host_turn_store _ _ _ _ _ _ EH) as KS. pose proof (host_turn_store _ _ _ _ _ _ EH') as KS'.
    pose proof (host_turn_frame _ _ _ _ _ EH) as KF. pose proof (host_turn_frame _ _ _ _ _ EH') as KF'.
    assert (CI : called_inside G m2). { unfold called_inside. rewrite KS, KF. exact (in_called _ _ _ _ (bo_in _ _ _ _ _ _ HB)). }
    assert (SR : same_running m2 m2'). { unfold same_running. rewrite KS, KS', KF. exact (both_running _ _ _ _ _ _ HB). }
    destruct (host_two G hid ps w w' m2 m2' SO) as (H1 & H2 & H3 & H4); [rewrite KS, KS'; apply (bo_store _ _ _ _ _ _ HB)|rewrite KF, KF'; apply (bo_frame _ _ _ _ _ _ HB)|exact CI|exact SR|].
    destruct (turn_host w hid ps t m2 EH EL) as [TE TO]. destruct (turn_host w' hid ps t' m2' EH' (proj1 H4 EL)) as [TE' TO'].
    rewrite TE, TE', (tame_same w w' SO). split; [exact ST|]. eapply outer_trans; [apply outer_sym, TO|]. eapply outer_trans; [exact H2|exact TO'].
  - exfalso. pose proof (RB (fun _ _ => EHost 1)) as R1. pose proof (RB (fun _ _ => EHost 2)) as R2. rewrite T in R1, R2.
    rewrite (T' _ (fun _ _ m => (Err (EHost 2), m))) in R1. destruct (step F (fun _ _ m => (Err (EHost 2), m)) (w_mach w')) as [[u|e] mm]; unfold plug, bind in R1, R2; cbn [same_out] in R1, R2; [contradiction|].
    destruct R1 as [-> _], R2 as [R2 _]. discriminate R2.
  - exfalso. pose proof (RB (fun _ _ => EHost 1)) as R1. pose proof (RB (fun _ _ => EHost 2)) as R2. rewrite T' in R1, R2.
    rewrite (T _ (fun _ _ m => (Err (EHost 2), m))) in R1. destruct (step F (fun _ _ m => (Err (EHost 2), m)) (w_mach w)) as [[u|e] mm]; unfold plug, bind in R1, R2; cbn [same_out] in R1, R2; [contradiction|].
    destruct R1 as [<- _], R2 as [R2 _]. discriminate R2.
  - right. destruct (turn_other w EH) as [TE TO]. destruct (turn_other w' EH') as [TE' TO']. rewrite TE, TE', (tame_same w w' SO). split; [exact ST|].
    eapply outer_trans; [apply outer_sym, TO|]. eapply outer_trans; [exact SO|exact TO'].
Qed.
Hypothesis (HR : replies_bytes Os) (CF : converts F).
Definition meets_longer (n : nat) (w : world) : Prop :=
  exists k w1, (k < n)%nat /\ wevaluate F Os k w = (Ok tt, w1) /\ k_label (w_mach w1) <> [] /\ lengthens F Os w1.
Lemma longer_now n w : k_label (w_mach w) <> [] -> lengthens F Os w -> meets_longer (S n) w.
Proof. intros H L. exists O, w. split; [lia|]. split; [reflexivity|]. split; assumption. Qed.
Lemma longer_next n w u w1 : k_label (w_mach w) <> [] -> wturn F Os w = (Ok u, w1) -> meets_longer n w1 -> meets_longer (S n) w.
Proof.
  intros H E (k & w2 & K1 & K2 & K3). exists (S k), w2. split; [lia|]. split; [|exact K3]. cbn [wevaluate]. destruct (k_label (w_mach w)); [contradiction|]. unfold bind. now rewrite E.
Qed.
(* the next turn keeps the machine running *)
Lemma turn_running fin w : pipes_ok w -> running (sg := sg) fin (w_mach w) -> k_label (w_mach w) <> [] -> lengthens F Os w \/
  forall u w1, wturn F Os w = (Ok u, w1) -> pipes_ok w1 /\ running (sg := sg) fin (w_mach w1).
Proof.
  intros P R NL. destruct (turn_tame F Os HR w P (proj1 R)) as [L|(T1 & T2 & T3)]; [left; exact L|right]. intros u w1 E. rewrite E in T1, T2, T3. cbn [fst snd] in *. split; [exact T3|].
  pose proof (step_typed (sg := sg) F CF (tame Os w) (tame_behaved Os HR w P) (tame_typed Os w) fin (w_mach w) R NL) as ST.
  destruct (step F (tame Os w) (w_mach w)) as [r m1]; cbn [fst snd] in *. subst r m1. apply ST.
Qed.
Lemma weval_both fin n : forall w w', pipes_ok w -> same_outer w w' -> both (w_mach w) (w_mach w') -> running (sg := sg) fin (w_mach w) ->
  meets_longer n w \/
  (same_out sg G s0 s0' (is any) (fst (wevaluate F Os n w), w_mach (snd (wevaluate F Os n w))) (fst (wevaluate F Os n w'), w_mach (snd (wevaluate F Os n w'))) /\
   same_outer (snd (wevaluate F Os n w)) (snd (wevaluate F Os n w'))).
Proof.
  induction n as [|n IH]; intros w w' P SO HB R.
  { right. split; [split; [exact HB|split; [reflexivity|exact I]]|exact SO]. }
  destruct (k_label (w_mach w)) as [|lb LS] eqn:EL.
  { right. cbn [wevaluate]. rewrite (bo_label _ _ _ _ _ _ HB), EL. split; [split; [exact HB|split; [reflexivity|exact I]]|exact SO]. }
  assert (NL : k_label (w_mach w) <> []) by congruence.
  destruct (turns_both fin w w' SO HB R NL) as [L|[TB TO]]; [left; exact (longer_now n w NL L)|].
  destruct (turn_running fin w P R NL) as [L|TR]; [left; exact (longer_now n w NL L)|].
  cbn [wevaluate]. rewrite (bo_label _ _ _ _ _ _ HB), EL. unfold bind.
  destruct (wturn F Os w) as [[u|e] w1] eqn:EW; destruct (wturn F Os w') as [[u'|e'] w1']; cbn [fst snd same_out] in *; try contradiction.
  - destruct TB as [TB _]. destruct (TR u w1 eq_refl) as [P1 R1]. destruct (IH w1 w1' P1 TO TB R1) as [L|X]; [left; exact (longer_next n w u w1 NL EW L)|right; exact X].
  - right. split; [exact TB|exact TO].
Qed.
Lemma weval_in fin n : forall w, pipes_ok w -> machine_in sg G s0 (w_mach w) -> running (sg := sg) fin (w_mach w) ->
  meets_longer n w \/
  match wevaluate F Os n w with
  | (Ok _, w') => machine_in sg G s0 (w_mach w')
  | (Err _, w') => store_in sg G s0 (k_store (w_mach w'))
  end.
Proof.
  induction n as [|n IH]; intros w P HI R; [right; exact HI|].
  destruct (k_label (w_mach w)) as [|lb LS] eqn:EL; [right; cbn [wevaluate]; rewrite EL; exact HI|].
  assert (NL : k_label (w_mach w) <> []) by congruence.
  destruct (turn_running fin w P R NL) as [L|TR]; [left; exact (longer_now n w NL L)|].
  destruct (turn_tame F Os HR w P (proj1 R)) as [L|(T1 & T2 & _)]; [left; exact (longer_now n w NL L)|].
  pose proof (step_in sg G s0 F (tame Os w) (tame_inside G w) fin (w_mach w) R HI NL) as SI.
  cbn [wevaluate]. rewrite EL. unfold bind. destruct (step F (tame Os w) (w_mach w)) as [r m1].
  destruct (wturn F Os w) as [[u|e] w1] eqn:EW; cbn [fst snd] in *; subst r m1.
  - destruct (TR u w1 eq_refl) as [P1 R1]. destruct (IH w1 P1 SI R1) as [L|X]; [left; exact (longer_next n w u w1 NL EW L)|right; exact X].
  - right. exact SI.
Qed.
Lemma rest_in t : IsolateRunFacts.keeps sg G s0 (rest t) (Forall (SpecIsolate.inside G)).
Proof.
  unfold rest. eapply k_bind; [apply k_popn|]. intros rets Hr. eapply k_bind; [apply k_assert|]. intros _ _. eapply k_bind; [apply k_pop_frame|]. intros _ _.
  eapply k_bind; [apply k_mget|]. intros m _. eapply k_bind; [apply k_assert|]. intros _ _. eapply k_bind; [apply k_assert|]. intros _ _. eapply k_bind; [apply k_assert|]. intros _ _. apply k_ret, Hr.
Qed.
Lemma rest_both t : pair sg G s0 s0' (rest t) (rest t) (is any).
Proof.
  unfold rest. eapply p_eq; [apply p_popn|]. intros rets Hr. eapply p_eq; [apply p_assert; reflexivity|]. intros _ _. eapply p_eq; [apply p_pop_frame|]. intros _ _.
  eapply p_bind; [apply p_mget|]. intros m m' Hm. rewrite (bo_frame _ _ _ _ _ _ Hm), (bo_label _ _ _ _ _ _ Hm), (bo_value _ _ _ _ _ _ Hm).
  eapply p_eq; [apply p_assert; reflexivity|]. intros _ _. eapply p_eq; [apply p_assert; reflexivity|]. intros _ _. eapply p_eq; [apply p_assert; reflexivity|]. intros _ _. apply p_ret, Logic.I.
Qed.
End two.
Hypothesis (HR : replies_bytes Os) (CF : converts F).
Lemma winvocate_in G n w a t h code args : at_rest w -> closed sg G (k_store (w_mach w)) -> g_func G a ->
  nth_error (s_func (k_store (w_mach w))) a = Some (FWasm t h code) -> Forall val_wf args -> has_types args (ft_args t) -> Forall (SpecIsolate.inside G) args ->
  meets_longer n (with_mach w (SpecType.starts (k_store (w_mach w)) t h code args)) \/
  match winvocate F Os n (Z.of_nat a) args w with
  | (Ok rs, w') => store_in sg G (k_store (w_mach w)) (k_store (w_mach w')) /\ Forall (SpecIsolate.inside G) rs
  | (Err _, w') => store_in sg G (k_store (w_mach w)) (k_store (w_mach w'))
  end.
Proof.
  intros ((s & E) & OK & T & P) HC GA N W HT HA. rewrite (winvocate_starts F Os n a args w t h code); [|now rewrite E|exact N|exact HT].
  pose proof (starts_running (sg := sg) _ t h code args a OK T N W HT) as R. pose proof (starts_in sg G _ a t h code args HC GA N HA) as SI.
  destruct (weval_in G _ HR CF _ n (with_mach w (SpecType.starts (k_store (w_mach w)) t h code args)) P SI R) as [L|X]; [left; exact L|right].
  unfold bind. destruct (wevaluate F Os n _) as [[u|e] w1]; [|exact X]. pose proof (rest_in G (k_store (w_mach w)) t _ X) as Y. unfold mach.
  destruct (rest t (w_mach w1)) as [[rs|e] m1]; cbn [with_mach w_mach]; [|exact Y]. destruct Y as [Y1 Y2]. split; [apply (mi_store _ _ _ _ Y1)|exact Y2].
Qed.
Lemma winvocate_both G n w w' a t h code args : at_rest w -> (exists s', w_mach w' = mkmach s' [] [] []) -> same_outer w w' -> closed sg G (k_store (w_mach w)) ->
  agrees G (k_store (w_mach w)) (k_store (w_mach w')) -> g_func G a ->
  nth_error (s_func (k_store (w_mach w))) a = Some (FWasm t h code) -> Forall val_wf args -> has_types args (ft_args t) -> Forall (SpecIsolate.inside G) args ->
  meets_longer n (with_mach w (SpecType.starts (k_store (w_mach w)) t h code args)) \/
  (fst (winvocate F Os n (Z.of_nat a) args w') = fst (winvocate F Os n (Z.of_nat a) args w) /\
   same_outer (snd (winvocate F Os n (Z.of_nat a) args w)) (snd (winvocate F Os n (Z.of_nat a) args w')) /\
   agrees G (k_store (w_mach (snd (winvocate F Os n (Z.of_nat a) args w)))) (k_store (w_mach (snd (winvocate F Os n (Z.of_nat a) args w'))))).
Proof.
  intros ((s & E) & OK & T & P) (s' & E') SO HC AG GA N W HT HA.
  assert (N' : nth_error (s_func (k_store (w_mach w'))) a = Some (FWasm t h code)) by (rewrite (ag_func _ _ _ AG) by exact GA; exact N).
  rewrite (winvocate_starts F Os n a args w t h code); [|now rewrite E|exact N|exact HT]. rewrite (winvocate_starts F Os n a args w' t h code); [|now rewrite E'|exact N'|exact HT].
  pose proof (starts_running (sg := sg) _ t h code args a OK T N W HT) as R. pose proof (starts_both sg G _ _ a t h code args HC AG GA N HA) as SB.
  set (w0 := with_mach w _). set (w0' := with_mach w' _).
  destruct (weval_both G _ _ HR CF _ n w0 w0' P SO SB R) as [L|[X XO]]; [left; exact L|right].
  unfold bind. destruct (wevaluate F Os n w0) as [[u|e] w1], (wevaluate F Os n w0') as [[u'|e'] w1']; cbn [fst snd same_out] in *; try contradiction.
  - destruct X as [X _]. pose proof (rest_both G _ _ t _ _ X) as Y. unfold mach. destruct (rest t (w_mach w1)) as [[rs|e] m1], (rest t (w_mach w1')) as [[rs'|e'] m1']; cbn [same_out] in Y; try contradiction;
      cbn [fst snd with_mach w_mach].
    + destruct Y as [Y [-> _]]. split; [reflexivity|]. split; [exact XO|apply (bo_store _ _ _ _ _ _ Y)].
    + destruct Y as [-> Y]. split; [reflexivity|]. split; [exact XO|exact Y].
  - destruct X as [-> X]. split; [reflexivity|]. split; [exact XO|exact X].
Qed.
End run.
