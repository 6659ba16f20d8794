(* Whole runs have one outcome where no choice is made. *)
From Coq Require Import ZArith List Bool Lia.
From Verif Require Import Py Arith Floatops Val Opcode Numeric Syntax Store Basic Machine SpecInt SpecNum SpecMachine SpecMem SpecRun SpecIeee SpecSimd SpecVecFloat
  SpecControl SpecType SpecConverse SpecStandard SpecCode CodeFacts SpecUnique Float StepFacts RunFacts TypeFacts TypeIeeeFacts ControlFacts ConverseFacts StandardFacts StandardRunFacts UniqueFacts UniqueStepFacts UniqueOpFacts.
Import ListNotations.
Open Scope Z_scope.

Lemma block_once mi bt t u : block_type mi bt t -> block_type mi bt u -> t = u.
Proof. destruct bt; cbn; [congruence|congruence|]. intros [_ H1] [_ H2]. congruence. Qed.
Lemma leaves_once k V o a b : leaves k V o a -> leaves k V o b -> a = b.
Proof. intros H1 H2. destruct H1; inversion H2; subst; reflexivity. Qed.
Lemma returns_once k V o a b : returns k V o a -> returns k V o b -> a = b.
Proof. intros H1 H2. destruct H1; inversion H2; subst; reflexivity. Qed.
Lemma result_once k o a b : result k o a -> result k o b -> a = b.
Proof. intros H1 H2. destruct H1; inversion H2; subst; reflexivity. Qed.
Lemma map_of_nat_once l l' : map Z.of_nat l = map Z.of_nat l' -> l = l'.
Proof. revert l'. induction l as [|x l IH]; intros [|y l'] H; try discriminate H; [reflexivity|]. cbn in H. injection H as H1 H2. f_equal; [lia|now apply IH]. Qed.
Lemma ref_once t u a b : Z.of_nat a < 2 ^ 31 -> Z.of_nat b < 2 ^ 31 -> ref_to t a = ref_to u b -> a = b.
Proof.
  intros Ha Hb H. assert (E : low 64 (ref_to t a) = low 64 (ref_to u b)) by now rewrite H.
  unfold ref_to in E. rewrite !low_num in E by lia. rewrite !Z.mod_small in E by lia. lia.
Qed.
Lemma null_not_ref t u a : Z.of_nat a < 2 ^ 31 -> null_ref t <> ref_to u a.
Proof.
  intros Ha H. assert (E : low 64 (null_ref t) = low 64 (ref_to u a)) by now rewrite H.
  unfold ref_to, null_ref in E. rewrite !low_num in E by lia. rewrite !Z.mod_small in E by lia. lia.
Qed.

Ltac tie := match goal with
  | H : Z.of_nat _ = Z.of_nat _ |- _ => apply Nat2Z.inj in H; subst
  | H : map Z.of_nat _ = map Z.of_nat _ |- _ => apply map_of_nat_once in H; subst
  | H : ?x = Ok _, H' : ?x = Ok _ |- _ => rewrite H in H'; injection H'; clear H'; intros; subst
  | H : ?x = Ok _, H' : ?x = Err _ |- _ => rewrite H in H'; discriminate H'
  | H : ?x = (_, _), H' : ?x = (_, _) |- _ => rewrite H in H'; (discriminate H' || (injection H'; clear H'; intros; subst))
  | H : nth_error ?l ?i = Some (ref_to ?t ?a), H' : nth_error ?l ?i = Some (ref_to ?u ?b) |- _ =>
      let E := fresh in assert (ref_to t a = ref_to u b) as E by congruence; apply ref_once in E; [|assumption..]; clear H'; subst
  | H : nth_error ?l ?i = Some (null_ref ?t), H' : nth_error ?l ?i = Some (ref_to ?u ?a) |- _ => exfalso; apply (null_not_ref t u a); [assumption|congruence]
  | H : nth_error ?l ?i = Some _, H' : nth_error ?l ?i = None |- _ => rewrite H in H'; discriminate H'
  | H : nth_error ?l ?i = Some _, H' : nth_error ?l ?i = Some _ |- _ => rewrite H in H'; (discriminate H' || (injection H'; clear H'; intros; subst))
  | H : block_type ?m ?b ?t, H' : block_type ?m ?b ?u |- _ => pose proof (block_once _ _ _ _ H H'); clear H'; subst
  | H : ?a ++ _ = ?c ++ _, H1 : length ?a = ?n, H2 : length ?c = ?n |- _ => apply app_once in H; [destruct H; subst|congruence]
  | H : rev ?a ++ _ = rev ?c ++ _, H1 : length ?a = ?n, H2 : length ?c = ?n |- _ =>
      apply app_once in H; [let E := fresh in destruct H as [E H]; apply (f_equal (@rev val)) in E; rewrite !rev_involutive in E; subst|rewrite !rev_length; congruence]
  end.
Section runs.
Context (F : fops) (hs : storehost).
Notation P_run := (fun d mr s L V is s' L' o => forall s2 L2 o2, run_by does F hs d mr s L V is s2 L2 o2 -> s' = s2 /\ L' = L2 /\ o = o2).
Notation P_one := (fun d mr s L V i s' L' o => forall s2 L2 o2, one_by does F hs d mr s L V i s2 L2 o2 -> s' = s2 /\ L' = L2 /\ o = o2).
Notation P_loops := (fun d mr n s L A body s' L' o => forall s2 L2 o2, loops_by does F hs d mr n s L A body s2 L2 o2 -> s' = s2 /\ L' = L2 /\ o = o2).
Notation P_called := (fun d s L V a s' L' o => forall s2 L2 o2, called_by does F hs d s L V a s2 L2 o2 -> s' = s2 /\ L' = L2 /\ o = o2).
Lemma all_once :
  (forall d mr s L V is s' L' o, run_by definite F hs d mr s L V is s' L' o -> P_run d mr s L V is s' L' o) /\
  (forall d mr s L V i s' L' o, one_by definite F hs d mr s L V i s' L' o -> P_one d mr s L V i s' L' o) /\
  (forall d mr n s L A body s' L' o, loops_by definite F hs d mr n s L A body s' L' o -> P_loops d mr n s L A body s' L' o) /\
  (forall d s L V a s' L' o, called_by definite F hs d s L V a s' L' o -> P_called d s L V a s' L' o).
Proof.
  apply (structured_ind definite F hs P_run P_one P_loops P_called).
  all: intros; match goal with
    | H : run_by does _ _ _ _ _ _ _ _ _ _ _ |- _ => inversion H; clear H; subst
    | H : one_by does _ _ _ _ _ _ _ _ _ _ _ |- _ => inversion H; clear H; subst
    | H : loops_by does _ _ _ _ _ _ _ _ _ _ _ _ |- _ => inversion H; clear H; subst
    | H : called_by does _ _ _ _ _ _ _ _ _ _ |- _ => inversion H; clear H; subst end; try discriminate.
  all: repeat tie.
  all: try (repeat split; fail).
  all: repeat match goal with
    | IH : forall s L o, run_by does _ _ _ _ _ _ _ _ s L o -> _, H : run_by does _ _ _ _ _ _ _ _ _ _ _ |- _ => destruct (IH _ _ _ H) as (? & ? & ?); clear H
    | IH : forall s L o, one_by does _ _ _ _ _ _ _ _ s L o -> _, H : one_by does _ _ _ _ _ _ _ _ _ _ _ |- _ => destruct (IH _ _ _ H) as (? & ? & ?); clear H
    | IH : forall s L o, called_by does _ _ _ _ _ _ _ s L o -> _, H : called_by does _ _ _ _ _ _ _ _ _ _ |- _ => destruct (IH _ _ _ H) as (? & ? & ?); clear H
    | IH : forall s L o, loops_by does _ _ _ _ _ _ _ _ _ s L o -> _, H : loops_by does _ _ _ _ _ _ _ _ _ _ _ _ |- _ => destruct (IH _ _ _ H) as (? & ? & ?); clear H
    | H : Done _ = Done _ |- _ => injection H as ->
    | H : Jump _ _ = Jump _ _ |- _ => injection H; clear H; intros
    | _ => progress subst
    end; try discriminate.
  all: try (repeat split; congruence).
  all: try (repeat split; (eapply leaves_once || eapply returns_once); eassumption).
  all: try match goal with H : definite _ _ _ _ _ _ _ _ _, H' : does _ _ _ _ _ _ _ _ _ |- _ => destruct H as (HD & HF & HN);
    destruct (does_once _ _ _ _ _ _ _ _ _ _ _ _ (conj HF HN) HD H') as (? & ? & E); (discriminate E || (try injection E as ->; subst; now repeat split)) end.
  all: try (exfalso; lia).
  all: try (exfalso; match goal with H : forall R, _ <> Jump 0 R |- _ => exact (H _ eq_refl) end).
  all: try (exfalso; match goal with H : _ \/ _ |- _ => destruct H as [H|[(?u & H)|(?u & ?a & ?f & H & ?A & ?B & ?C)]] end; repeat tie;
    first [congruence | match goal with H : nth_error ?l ?i = Some (null_ref ?t), H' : nth_error ?l ?i = Some (ref_to ?u ?a) |- _ => apply (null_not_ref t u a); [assumption|congruence] end]).
  split; [reflexivity|]. split; [reflexivity|]. eapply returns_once; eassumption.
Qed.
End runs.
Lemma run_once F hs d mr s L V is s1 L1 o1 s2 L2 o2 : run_by definite F hs d mr s L V is s1 L1 o1 -> run_by does F hs d mr s L V is s2 L2 o2 -> s1 = s2 /\ L1 = L2 /\ o1 = o2.
Proof. intros H. exact (proj1 (all_once F hs) _ _ _ _ _ _ _ _ _ H s2 L2 o2). Qed.
Lemma definite_once mr o args s L V s1 L1 r1 s2 L2 r2 : definite mr o args s L V s1 L1 r1 -> does mr o args s L V s2 L2 r2 -> s1 = s2 /\ L1 = L2 /\ r1 = r2.
Proof. intros (HD & HF & HN). exact (does_once _ _ _ _ _ _ _ _ _ _ _ _ (conj HF HN) HD). Qed.
Lemma definite_does F hs d mr s L V is s1 L1 o1 : run_by definite F hs d mr s L V is s1 L1 o1 -> run_by does F hs d mr s L V is s1 L1 o1.
Proof. apply run_mono. intros ? ? ? ? ? ? ? ? ? [H _]. exact H. Qed.

(* ---- what the machine does where it comes to no choice ---- *)
Lemma arithmetic_place o N : arithmetic o = Some N -> place o <> None.
Proof. destruct o; intros H; (discriminate H || discriminate). Qed.
Lemma does_more mr o args s L V s' L' v V' W N : arithmetic o = Some N -> does mr o args s L V s' L' (Some (v :: V')) ->
  does mr o args s L (V ++ W) s' L' (Some (v :: (V' ++ W))).
Proof.
  intros A H. inversion H; subst; try discriminate A.
  - rewrite <- app_assoc. now apply d_computes.
  - match goal with H : wasm_load _ = _ |- _ => apply load_place in H; now apply arithmetic_place in A end.
  - match goal with H : wasm_load_lane _ = _ |- _ => apply load_lane_place in H; now apply arithmetic_place in A end.
  - match goal with H : wasm_store _ = _ |- _ => apply store_place in H; now apply arithmetic_place in A end.
  - match goal with H : wasm_store_lane _ = _ |- _ => apply store_lane_place in H; now apply arithmetic_place in A end.
Qed.
Section sg.
Context {sg : nat -> functype}.
Lemma model_definite C o args A B R s va vr W lb LS fr FS rest :
  typed_inst C (IOp o args) A B -> is_control o = false -> inst_ok (IOp o args) -> has_types va A -> has_types vr R ->
  Forall val_wf va -> Forall val_wf vr -> sound (sg := sg) s C fr -> at_code lb (IOp o args :: rest) ->
  (deviates (mkmach s ((va ++ vr) ++ W) (lb :: LS) (fr :: FS)) \/ chooses (mkmach s ((va ++ vr) ++ W) (lb :: LS) (fr :: FS))) \/
  forall s' L' r, by_model ieee (fr_module fr) o args s (fr_locals fr) (va ++ vr) s' L' r ->
    definite (fr_module fr) o args s (fr_locals fr) (va ++ vr) s' L' r.
Proof.
  intros Ht Hc Hok HA HR WA WR Hs Hcode.
  assert (AB : about_to_run (mkmach s ((va ++ vr) ++ W) (lb :: LS) (fr :: FS)) (IOp o args) fr).
  { split; [|exists FS; reflexivity]. exists lb, LS. split; [reflexivity|]. destruct Hcode as [E1 E2].
    rewrite <- (firstn_skipn (lb_index lb) (lb_instr lb)) at 1. rewrite nth_error_app2; rewrite firstn_length_le by lia; [|lia]. rewrite Nat.sub_diag, E1. reflexivity. }
  destruct (free o) eqn:EF; [left; right; exists o, args, fr; split; [exact AB|now left]|].
  destruct (model_means C o args A B R s va vr W lb LS fr FS rest Ht Hc Hok HA HR WA WR Hs Hcode) as [D|M]; [now left; left|].
  destruct (exec_basic ieee (fr_module fr) o args (mkb s (fr_locals fr) (va ++ vr))) as [[[]|e] [s1 L1 V1]] eqn:EX.
  - pose proof (M s1 L1 (Some V1) EX) as D. destruct (arithmetic o) as [N|] eqn:EA.
    + destruct V1 as [|v V1].
      { right. intros s' L' r HM. pose proof (M _ _ _ HM) as D2. split; [exact D2|]. split; [exact EF|]. intros N' v V' _ ->. cbn in HM. congruence. }
      destruct (nan_in N v) eqn:EN.
      * left. right. exists o, args, fr. split; [exact AB|]. right. exists N, s1, L1, v, (V1 ++ W). split; [exact EA|]. split; [|exact EN].
        cbn [k_store k_value]. exact (does_more _ _ _ _ _ _ _ _ _ _ _ _ EA D).
      * right. intros s' L' r HM. pose proof (M _ _ _ HM) as D2. split; [exact D2|]. split; [exact EF|]. intros N' v' V' E1 ->. cbn in HM. congruence.
    + right. intros s' L' r HM. pose proof (M _ _ _ HM) as D2. split; [exact D2|]. split; [exact EF|]. congruence.
  - right. intros s' L' r HM. pose proof (M _ _ _ HM) as D2. split; [exact D2|]. split; [exact EF|]. intros N v V' _ ->. cbn in HM. congruence.
Qed.
End sg.

(* ---- code without choices ---- *)
Lemma certain_clean o : certain o = true -> suspect o = false /\ free o = false /\ arithmetic o = None.
Proof.
  unfold certain. intros H. apply andb_prop in H. destruct H as [H H3]. apply andb_prop in H. destruct H as [H1 H2].
  split; [now destruct (suspect o)|]. split; [now destruct (free o)|]. now destruct (arithmetic o).
Qed.
Lemma certain_is_clean md : certain_module md -> clean_module md.
Proof. intros H. eapply Forall_impl; [|exact H]. intros d C o args W. apply certain_clean, (C _ _ W). Qed.
Lemma made_mono F host (D D' : moddesc -> Prop) m : (forall md, D md -> D' md) -> made_from F host D m -> made_from F host D' m.
Proof. intros I H. induction H; eauto using made_from. Qed.
Lemma certain_run F host m t h code args : adds_no_code host -> made_from F host certain_module m -> In (FWasm t h code) (s_func (k_store m)) ->
  ~ meets_choice F host (starts (k_store m) t h code args).
Proof.
  intros HH HM HI (m1 & G & o & oargs & fr & A & X).
  assert (HL : leaves_code host) by (intros hid a0 m0 r m2 E; destruct (HH _ _ _ _ _ E) as [E1 ->]; split; [exact E1|apply incl_refl]).
  destruct (provenance _ _ _ _ _ _ _ _ _ _ HL HI G A) as (t1 & h1 & c1 & H1 & H2). rewrite (kept_code _ _ _ _ HH G) in H1. cbn [starts k_store] in H1.
  destruct (origin F host certain_module HH m t1 h1 c1 HM H1) as (md & CM & IN). unfold certain_module in CM. rewrite Forall_forall in CM.
  destruct (certain_clean _ (CM _ IN _ _ H2)) as (_ & C2 & C3). destruct X as [X|(N & s' & L' & v & V' & X & _)]; congruence.
Qed.
