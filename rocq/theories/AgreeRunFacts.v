(* Runs that start in a closed region go the same way in stores that agree on the region. *)
From Coq Require Import ZArith List Bool Lia ZifyBool ZifyNat.
From Verif Require Import Py Arith Floatops Val Opcode Numeric Syntax Store Basic Machine
  SpecInt SpecNum SpecMachine SpecMem SpecRun SpecControl SpecInst SpecType SpecValid SpecRef SpecIsolate SpecAgree
  PyFacts ArithFacts ValFacts MemFacts WfFacts StepFacts RunFacts TypeOpFacts ControlFacts TypeBasicFacts TypeFacts BulkFacts CallFacts IsolateFacts IsolateRunFacts AgreeFacts.
Import ListNotations.
Open Scope Z_scope.

Section machine.
Context (sg : nat -> functype) (G : region) (s0 s0' : store).
Notation pt := (inside G).
(* a frame whose instance is the same in both runs *)
Definition same_mod (fr : frame) : Prop := mod_of s0' (fr_module fr) = mod_of s0 (fr_module fr).
Record both (m m' : machine) : Prop := mk_both {
  bo_in : machine_in sg G s0 m;
  bo_in' : machine_in sg G s0' m';
  bo_store : agrees G (k_store m) (k_store m');
  bo_value : k_value m' = k_value m;
  bo_label : k_label m' = k_label m;
  bo_frame : k_frame m' = k_frame m;
  bo_mods : Forall same_mod (k_frame m)
}.
Definition same_out {A} (Q : A -> A -> Prop) (p p' : res A * machine) : Prop :=
  match p, p' with
  | (Ok a, m), (Ok a', m') => both m m' /\ Q a a'
  | (Err e, m), (Err e', m') => e' = e /\ agrees G (k_store m) (k_store m')
  | _, _ => False
  end.
Definition pair {A} (c c' : M A) (Q : A -> A -> Prop) : Prop := forall m m', both m m' -> same_out Q (c m) (c' m').
(* the same value in both, with a property *)
Definition is {A} (P : A -> Prop) (a a' : A) : Prop := a' = a /\ P a.
Lemma p_bind {A B'} (c c' : M A) Q (f f' : A -> M B') R : pair c c' Q -> (forall a a', Q a a' -> pair (f a) (f' a') R) -> pair (bind c f) (bind c' f') R.
Proof.
  intros H1 H2 m m' Hm. unfold bind. specialize (H1 m m' Hm). destruct (c m) as [[a|e] m1], (c' m') as [[a'|e'] m1']; try contradiction; [|exact H1].
  destruct H1 as [H3 H4]. exact (H2 a a' H4 m1 m1' H3).
Qed.
Lemma p_eq {A B'} (c c' : M A) P (f f' : A -> M B') R : pair c c' (is P) -> (forall a, P a -> pair (f a) (f' a) R) -> pair (bind c f) (bind c' f') R.
Proof. intros H1 H2. eapply p_bind; [exact H1|]. intros a a' [-> H]. apply H2, H. Qed.
Lemma s_bind {A B'} (c c' : M A) P (f f' : A -> M B') R m m' : same_out (is P) (c m) (c' m') -> (forall a, P a -> pair (f a) (f' a) R) -> same_out R (bind c f m) (bind c' f' m').
Proof.
  intros H1 H2. unfold bind. destruct (c m) as [[a|e] m1], (c' m') as [[a'|e'] m1']; try contradiction; [|exact H1].
  destruct H1 as [H3 [-> H4]]. exact (H2 a H4 m1 m1' H3).
Qed.
Lemma p_ret {A} (a : A) (P : A -> Prop) : P a -> pair (ret a) (ret a) (is P).
Proof. intros H m m' Hm. split; [exact Hm|split; [reflexivity|exact H]]. Qed.
Lemma p_fail {A} e (Q : A -> A -> Prop) : pair (fail e) (fail e) Q.
Proof. intros m m' Hm. split; [reflexivity|apply (bo_store _ _ Hm)]. Qed.
Lemma p_lift {A} (r r' : res A) P : r' = r -> gives P r -> pair (lift r) (lift r') (is P).
Proof. intros -> H m m' Hm. unfold lift. destruct r as [a|e]; [split; [exact Hm|split; [reflexivity|apply H; reflexivity]]|split; [reflexivity|apply (bo_store _ _ Hm)]]. Qed.
Lemma p_any {A} (r r' : res A) : r' = r -> pair (lift r) (lift r') (is any).
Proof. intros H. apply p_lift; [exact H|apply gives_true]. Qed.
Lemma p_assert c c' : c' = c -> pair (assert c) (assert c') (is any).
Proof. intros ->. apply p_any. reflexivity. Qed.
Lemma p_mget : pair mget mget both.
Proof. intros m m' Hm. split; exact Hm. Qed.
Lemma p_mput m m' : both m m' -> pair (mput m) (mput m') (is any).
Proof. intros H x x' _. split; [exact H|split; [reflexivity|exact I]]. Qed.
Lemma both_make m m' V LS FS : both m m' -> Forall pt V -> Forall (frame_in G (k_store m)) FS -> Forall (frame_in G (k_store m')) FS -> Forall same_mod FS ->
  both (mkmach (k_store m) V LS FS) (mkmach (k_store m') V LS FS).
Proof. intros [] HV HF HF' HS. constructor; try reflexivity; try assumption; apply in_make; assumption. Qed.
Lemma both_eq m m' : both m m' -> m' = mkmach (k_store m') (k_value m) (k_label m) (k_frame m).
Proof. intros []. destruct m'. cbn in *. congruence. Qed.
Lemma frames' m m' : both m m' -> Forall (frame_in G (k_store m')) (k_frame m).
Proof. intros H. rewrite <- (bo_frame _ _ H). apply (mi_frame _ _ _ _ (bo_in' _ _ H)). Qed.
Lemma p_popv : pair popv popv (is pt).
Proof.
  intros m m' Hm. pose proof (frames' _ _ Hm) as HF. rewrite (both_eq _ _ Hm). unfold popv. cbn [k_value].
  pose proof (mi_value _ _ _ _ (bo_in _ _ Hm)) as H. destruct (k_value m) as [|v vs] eqn:E; [split; [reflexivity|apply (bo_store _ _ Hm)]|].
  apply Forall_cons_iff in H. destruct H as [H1 H2]. split; [|split; [reflexivity|exact H1]]. unfold set_value. cbn [k_store k_label k_frame].
  apply both_make; [exact Hm|exact H2|apply (mi_frame _ _ _ _ (bo_in _ _ Hm))|exact HF|apply (bo_mods _ _ Hm)].
Qed.
Lemma p_popn j : pair (popn j) (popn j) (is (Forall pt)).
Proof.
  induction j as [|j IH]; cbn [popn]; [apply p_ret; constructor|].
  eapply p_eq; [apply p_popv|]. intros v Hv. eapply p_eq; [exact IH|]. intros vs Hvs.
  apply p_ret, Forall_app. split; [exact Hvs|constructor; [exact Hv|constructor]].
Qed.
Lemma p_extend l : Forall pt l -> pair (extend l) (extend l) (is any).
Proof.
  intros H m m' Hm. pose proof (frames' _ _ Hm) as HF. rewrite (both_eq _ _ Hm). split; [|split; [reflexivity|exact I]]. unfold set_value. cbn [k_store k_value k_label k_frame].
  apply both_make; [exact Hm| |apply (mi_frame _ _ _ _ (bo_in _ _ Hm))|exact HF|apply (bo_mods _ _ Hm)].
  apply Forall_app. split; [apply Forall_rev, H|apply (mi_value _ _ _ _ (bo_in _ _ Hm))].
Qed.
Lemma p_push_label l : pair (push_label l) (push_label l) (is any).
Proof.
  intros m m' Hm. pose proof (frames' _ _ Hm) as HF. rewrite (both_eq _ _ Hm). split; [|split; [reflexivity|exact I]]. unfold set_label. cbn [k_store k_value k_label k_frame].
  apply both_make; [exact Hm|apply (mi_value _ _ _ _ (bo_in _ _ Hm))|apply (mi_frame _ _ _ _ (bo_in _ _ Hm))|exact HF|apply (bo_mods _ _ Hm)].
Qed.
Lemma mod_in m fr t : machine_in sg G t m -> mod_of (k_store m) (fr_module fr) = mod_of t (fr_module fr).
Proof. intros H. apply (mod_same G), (mi_store _ _ _ _ H). Qed.
Lemma p_push_frame h L a b c : Forall pt L -> g_inst G h -> pair (push_frame (mkframe (MRef h) L a b c)) (push_frame (mkframe (MRef h) L a b c)) (is any).
Proof.
  intros H1 H2 m m' Hm. pose proof (frames' _ _ Hm) as HF.
  pose proof (agrees_mod G _ _ _ (bo_store _ _ Hm) H2) as E. pose proof (closed_mod sg G _ _ (proj1 (mi_store _ _ _ _ (bo_in _ _ Hm))) H2) as KN.
  pose proof (mod_in m (mkframe (MRef h) L a b c) _ (bo_in _ _ Hm)) as E1. pose proof (mod_in m' (mkframe (MRef h) L a b c) _ (bo_in' _ _ Hm)) as E2. cbn [fr_module] in E1, E2.
  rewrite (both_eq _ _ Hm). split; [|split; [reflexivity|exact I]]. unfold set_frame. cbn [k_store k_value k_label k_frame].
  apply both_make; [exact Hm|apply (mi_value _ _ _ _ (bo_in _ _ Hm))| | |]; (constructor; [|first [exact HF|apply (mi_frame _ _ _ _ (bo_in _ _ Hm))|apply (bo_mods _ _ Hm)]]).
  - split; [exact H1|exact KN].
  - split; [exact H1|]. cbn [fr_module]. rewrite E. exact KN.
  - unfold same_mod. cbn [fr_module]. congruence.
Qed.
Lemma p_pop_frame : pair pop_frame pop_frame (is any).
Proof.
  intros m m' Hm. pose proof (frames' _ _ Hm) as HF. rewrite (both_eq _ _ Hm). unfold pop_frame. cbn [k_frame].
  pose proof (mi_frame _ _ _ _ (bo_in _ _ Hm)) as H. pose proof (bo_mods _ _ Hm) as HM. destruct (k_frame m) as [|f fs] eqn:E; [split; [reflexivity|apply (bo_store _ _ Hm)]|].
  apply Forall_cons_iff in H, HF, HM. split; [|split; [reflexivity|exact I]]. unfold set_frame. cbn [k_store k_value k_label].
  apply both_make; [exact Hm|apply (mi_value _ _ _ _ (bo_in _ _ Hm))|apply H|apply HF|apply HM].
Qed.
Lemma p_top_frame : pair top_frame top_frame (is same_mod).
Proof.
  intros m m' Hm. unfold top_frame. rewrite (bo_frame _ _ Hm). pose proof (bo_mods _ _ Hm) as HM.
  destruct (k_frame m) as [|f fs] eqn:E; [split; [reflexivity|apply (bo_store _ _ Hm)]|]. apply Forall_cons_iff in HM. split; [exact Hm|split; [reflexivity|apply HM]].
Qed.
Lemma mods m m' fr : both m m' -> same_mod fr -> mod_of (k_store m') (fr_module fr) = mod_of (k_store m) (fr_module fr).
Proof. intros H E. rewrite (mod_in _ _ _ (bo_in _ _ H)), (mod_in _ _ _ (bo_in' _ _ H)). exact E. Qed.
Lemma p_basic F o args : pair (on_basic (fun mr => exec_basic F mr o args)) (on_basic (fun mr => exec_basic F mr o args)) (is any).
Proof.
  intros m m' Hm. pose proof (k_basic sg G s0 F o args m (bo_in _ _ Hm)) as K. pose proof (k_basic sg G s0' F o args m' (bo_in' _ _ Hm)) as K'.
  unfold on_basic in *. rewrite (bo_frame _ _ Hm) in *. pose proof (bo_mods _ _ Hm) as HM. destruct (k_frame m) as [|fr fs] eqn:E; [split; [reflexivity|apply (bo_store _ _ Hm)]|].
  pose proof (mi_frame _ _ _ _ (bo_in _ _ Hm)) as HF. rewrite E in HF. apply Forall_cons_iff in HF, HM. destruct HF as [[H1 H2] H3], HM as [M1 M2].
  rewrite (bo_value _ _ Hm), (bo_label _ _ Hm) in *.
  pose proof (x_basic sg G (k_store m) (k_store m') (proj1 (mi_store _ _ _ _ (bo_in _ _ Hm))) (bo_store _ _ Hm) (fr_module fr) H2 (mods _ _ _ Hm M1) F o args (fr_locals fr) (k_value m)) as X.
  destruct (exec_basic F (fr_module fr) o args (mkb (k_store m) _ _)) as [[a|e] b], (exec_basic F (fr_module fr) o args (mkb (k_store m') _ _)) as [[a'|e'] b']; try contradiction; destruct X as (X1 & X2 & X3 & X4).
  - split; [|split; [exact X1|exact I]]. constructor; cbn [k_store k_value k_label k_frame]; [apply K|apply K'|exact X2|exact X4|reflexivity|rewrite X3; reflexivity|constructor; [exact M1|exact M2]].
  - split; [exact X1|exact X2].
Qed.
Lemma p_bype bt : pair (evaluate_bype bt) (evaluate_bype bt) (is any).
Proof.
  destruct bt; cbn [evaluate_bype]; try (apply p_ret, I). eapply p_eq; [apply p_top_frame|]. intros f Hf.
  eapply p_bind; [apply p_mget|]. intros m m' Hm. apply p_any. rewrite (mods _ _ _ Hm Hf). reflexivity.
Qed.
Lemma p_br l : pair (evaluate_br l) (evaluate_br l) (is any).
Proof.
  unfold evaluate_br. eapply p_bind; [apply p_mget|]. intros m m' Hm. rewrite (bo_label _ _ Hm), (bo_value _ _ Hm). eapply p_eq; [apply p_assert; reflexivity|]. intros _ _.
  destruct (nth_error (k_label m) (Z.to_nat l)) as [lb|] eqn:N; [|apply p_fail].
  eapply p_eq; [apply p_assert; reflexivity|]. intros _ _. eapply p_eq; [apply p_popn|]. intros rets Hr.
  eapply p_bind; [apply p_mget|]. intros m1 m1' Hm1. rewrite (bo_label _ _ Hm1), (bo_value _ _ Hm1), (bo_frame _ _ Hm1). apply p_mput, both_make; [exact Hm1| | | |].
  - apply Forall_app. split; [apply Forall_rev, Hr|apply Forall_keep, (mi_value _ _ _ _ (bo_in _ _ Hm1))].
  - apply Forall_keep, (mi_frame _ _ _ _ (bo_in _ _ Hm1)).
  - apply Forall_keep, frames', Hm1.
  - apply Forall_keep, (bo_mods _ _ Hm1).
Qed.
Lemma p_enter lb c bt body : pair (enter lb c bt body) (enter lb c bt body) (is any).
Proof.
  unfold enter. eapply p_bind; [apply p_mget|]. intros m m' Hm. rewrite (bo_value _ _ Hm), (bo_frame _ _ Hm). eapply p_eq; [apply p_assert; reflexivity|]. intros _ _. apply p_push_label.
Qed.
Context (F : fops) (host : hostcode) (HI : host_inside sg G host) (HE : host_agrees sg G host).
Lemma both_running m m' : both m m' -> same_running m m'.
Proof.
  intros Hm fr fs E. pose proof (bo_mods _ _ Hm) as H. rewrite E in H. apply Forall_cons_iff in H. destruct H as [H _]. exact (mods _ _ _ Hm H).
Qed.
Lemma p_host t hid pargs : g_host G hid -> t = sg hid ->
  pair (let! rets := (fun m => host hid pargs m) in let! rets := lift (from_alls F (ft_rets t) rets) in extend rets)
    (let! rets := (fun m => host hid pargs m) in let! rets := lift (from_alls F (ft_rets t) rets) in extend rets) (is any).
Proof.
  intros Hh -> m m' Hm. pose proof (proj1 (mi_store _ _ _ _ (bo_in _ _ Hm))) as C. pose proof (proj1 (mi_store _ _ _ _ (bo_in' _ _ Hm))) as C'.
  destruct (HE hid pargs m m' Hh C C' (bo_store _ _ Hm) (bo_value _ _ Hm) (bo_label _ _ Hm) (bo_frame _ _ Hm) (in_called _ _ _ _ (bo_in _ _ Hm)) (both_running _ _ Hm)) as [E1 E2].
  unfold bind at 1 3. destruct (host hid pargs m) as [r m1] eqn:E. destruct (host hid pargs m') as [r' m1'] eqn:E'. cbn [fst snd] in E1, E2. subst r'.
  destruct (HI _ _ _ _ _ Hh C (in_called _ _ _ _ (bo_in _ _ Hm)) E) as (H1 & H2 & H3). destruct (HI _ _ _ _ _ Hh C' (in_called _ _ _ _ (bo_in' _ _ Hm)) E') as (H1' & H2' & H3').
  destruct r as [l|e]; [|split; [reflexivity|exact E2]]. destruct (H3 l eq_refl) as (H4 & H5 & H6 & H7). destruct (H3' l eq_refl) as (_ & H5' & H6' & H7').
  assert (Hm1 : both m1 m1').
  { constructor; try exact E2; try (rewrite ?H5, ?H6, ?H7, ?H5', ?H6', ?H7'; apply Hm).
    - constructor; [split; [exact H1|exact (out_trans _ _ _ _ (proj2 (mi_store _ _ _ _ (bo_in _ _ Hm))) H2)]|rewrite H5; apply (mi_value _ _ _ _ (bo_in _ _ Hm))|].
      rewrite H7. eapply Forall_impl; [|exact (mi_frame _ _ _ _ (bo_in _ _ Hm))]. intros f. apply frame_same, H2.
    - constructor; [split; [exact H1'|exact (out_trans _ _ _ _ (proj2 (mi_store _ _ _ _ (bo_in' _ _ Hm))) H2')]|rewrite H5'; apply (mi_value _ _ _ _ (bo_in' _ _ Hm))|].
      rewrite H7'. eapply Forall_impl; [|exact (mi_frame _ _ _ _ (bo_in' _ _ Hm))]. intros f. apply frame_same, H2'. }
  exact (p_eq _ _ _ _ _ _ (p_lift _ _ _ eq_refl (from_alls_in G F _ _ H4)) (fun vs Hvs => p_extend vs Hvs) m1 m1' Hm1).
Qed.
Lemma func_same m m' addr : both m m' -> among (g_func G) addr -> py_index (s_func (k_store m')) addr = py_index (s_func (k_store m)) addr.
Proof. intros H [A0 A]. apply index_same; [exact A0|]. apply (ag_func _ _ _ (bo_store _ _ H)), A. Qed.
Lemma p_call addr : among (g_func G) addr -> pair (evaluate_call F host addr) (evaluate_call F host addr) (is any).
Proof.
  intros HA. pose proof HA as [A0 A]. unfold evaluate_call. eapply p_bind; [apply p_mget|]. intros m m' Hm.
  eapply (p_eq _ _ (fun f => match f with FWasm _ h _ => g_inst G h | FHost t hid => g_host G hid /\ t = sg hid end)).
  { apply p_lift; [exact (func_same _ _ _ Hm HA)|]. intros f E. apply index_at in E; [|exact A0]. exact (cl_func _ _ _ (proj1 (mi_store _ _ _ _ (bo_in _ _ Hm))) _ _ A E). }
  intros f Hf. eapply p_eq; [apply p_popn|]. intros args Ha. destruct f as [t h code|t hid].
  - eapply p_bind; [apply p_mget|]. intros m1 m1' H1. rewrite (bo_frame _ _ H1), (bo_label _ _ H1), (bo_value _ _ H1). eapply p_eq; [apply p_assert; reflexivity|]. intros _ _.
    eapply p_eq; [apply p_push_frame; [apply Forall_app; split; [exact Ha|apply zero_locals_in]|exact Hf]|]. intros _ _.
    eapply p_bind; [apply p_mget|]. intros m2 m2' H2. rewrite (bo_frame _ _ H2), (bo_value _ _ H2). apply p_push_label.
  - eapply p_eq; [apply p_any; reflexivity|]. intros pargs _. apply p_host; apply Hf.
Qed.
Ltac sd := eapply p_eq; [first [apply p_popv|apply p_assert; reflexivity|apply p_bype|apply p_any; reflexivity|apply p_pop_frame|apply p_popn]|];
  let x := fresh "x" in let H := fresh "H" in intros x H; cbv beta in H.
(* everything but indirect calls *)
Lemma p_exec lb fr i : (forall args, i <> IOp O_call_indirect args) -> knows G (mod_of s0 (fr_module fr)) -> same_mod fr -> pair (exec F host lb fr i) (exec F host lb fr i) (is any).
Proof.
  intros NI Hfr Hsm. destruct i as [bt l|bt l|bt l el|o args]; cbn [exec].
  - sd. apply p_enter.
  - sd. apply p_enter.
  - sd. sd. sd. apply p_enter.
  - destruct o; try (apply p_fail); try (apply p_basic).
    + sd. apply p_br.
    + sd. sd. destruct (x0 =? 0); [apply (p_ret tt any), I|]. sd. apply p_br.
    + sd. sd. sd. sd. eapply (p_eq _ _ any); [|intros l _; apply p_br]. destruct (x0 <? len x2); [apply p_any; reflexivity|apply p_ret, I].
    + eapply p_bind; [apply p_mget|]. intros m m' Hm. rewrite (bo_value _ _ Hm). sd. sd. sd.
      eapply p_bind; [apply p_mget|]. intros m1 m1' Hm1. rewrite (bo_label _ _ Hm1), (bo_value _ _ Hm1), (bo_frame _ _ Hm1). apply p_mput, both_make; [exact Hm1| | | |].
      * apply Forall_app. split; [apply Forall_rev; assumption|apply Forall_keep, (mi_value _ _ _ _ (bo_in _ _ Hm1))].
      * apply (mi_frame _ _ _ _ (bo_in _ _ Hm1)).
      * apply frames', Hm1.
      * apply (bo_mods _ _ Hm1).
    + sd. eapply p_bind; [apply p_mget|]. intros m m' Hm. eapply p_eq; [apply p_lift; [rewrite (mods _ _ _ Hm Hsm); reflexivity|apply (gives_index (among (g_func G)))]|intros a Ha; apply p_call, Ha].
      rewrite (mod_in _ _ _ (bo_in _ _ Hm)). apply Hfr.
    + exfalso. exact (NI args eq_refl).
Qed.
(* indirect calls through a table of function references *)
Lemma p_indirect lb fr args m m' : both m m' -> knows G (mod_of s0 (fr_module fr)) -> same_mod fr ->
  (forall j ta x, arg_int args 1 = Ok j -> py_index (m_tabl (mod_of (k_store m) (fr_module fr))) j = Ok ta -> py_index (s_tabl (k_store m)) ta = Ok x ->
     Forall (fun r => v_type r = T_func) (ti_elem x)) ->
  same_out (is any) (exec F host lb fr (IOp O_call_indirect args) m) (exec F host lb fr (IOp O_call_indirect args) m').
Proof.
  intros Hm Hfr Hsm HT. cbn [exec].
  match goal with |- same_out _ (bind mget ?f m) (bind mget ?f' m') => change (same_out (is any) (f m m) (f' m' m')) end. cbv beta.
  match goal with |- same_out _ (?c m) (?c' m') => assert (X : pair c c' (is any)); [|exact (X m m' Hm)] end.
  assert (KN : knows G (mod_of (k_store m) (fr_module fr))) by (rewrite (mod_in _ _ _ (bo_in _ _ Hm)); exact Hfr).
  rewrite (mods _ _ _ Hm Hsm).
  eapply (p_eq _ _ (fun j => arg_int args 1 = Ok j)); [apply p_lift; [reflexivity|intros j E; exact E]|]. intros j Ej.
  eapply (p_eq _ _ (fun ta => py_index (m_tabl (mod_of (k_store m) (fr_module fr))) j = Ok ta)); [apply p_lift; [reflexivity|intros ta E; exact E]|]. intros ta Eta.
  assert (GA : among (g_tabl G) ta) by exact (gives_index (among (g_tabl G)) _ _ (kn_tabl _ _ KN) ta Eta).
  eapply (p_eq _ _ (fun x => Forall (fun r => pt r /\ v_type r = T_func) (ti_elem x))).
  { apply p_lift; [apply index_same; [apply GA|apply (ag_tabl _ _ _ (bo_store _ _ Hm)), GA]|]. intros x Ex. pose proof (HT j ta x Ej Eta Ex) as H1.
    apply index_at in Ex; [|apply GA]. pose proof (cl_tabl _ _ _ (proj1 (mi_store _ _ _ _ (bo_in _ _ Hm))) _ _ (proj2 GA) Ex) as H2.
    rewrite Forall_forall in *. intros r Hr. split; [apply H2, Hr|apply H1, Hr]. }
  intros x Hx. sd. sd. sd. sd.
  eapply p_eq; [apply p_lift; [reflexivity|apply (gives_index (fun r => pt r /\ v_type r = T_func)), Hx]|]. intros r [PR TR].
  eapply (p_eq _ _ (among (g_func G))).
  { apply p_lift; [reflexivity|]. intros a E. destruct (PR TR) as [->|(b & Gb & ->)]; [discriminate E|].
    pose proof (cl_some _ _ _ (proj1 (mi_store _ _ _ _ (bo_in _ _ Hm))) _ Gb) as Lb. rewrite ref_to_addr in E by lia. injection E as <-. split; [lia|]. rewrite Nat2Z.id. exact Gb. }
  intros a Ha. eapply p_eq; [apply p_any, (func_same _ _ _ Hm Ha)|]. intros f _. sd. apply p_call, Ha.
Qed.
(* the table of an indirect call of a running machine holds function references *)
Lemma running_table fin m lb LS fr FS args : running (sg := sg) fin m -> k_label m = lb :: LS -> k_frame m = fr :: FS ->
  nth_error (lb_instr lb) (lb_index lb) = Some (IOp O_call_indirect args) ->
  forall j ta x, arg_int args 1 = Ok j -> py_index (m_tabl (mod_of (k_store m) (fr_module fr))) j = Ok ta -> py_index (s_tabl (k_store m)) ta = Ok x ->
     Forall (fun r => v_type r = T_func) (ti_elem x).
Proof.
  intros (Ok_m & Hs & C & K) EL EF N. destruct m as [s V LS0 FS0]. cbn [k_label k_frame k_store k_value] in *. subst LS0 FS0.
  destruct (kont_run _ _ _ _ _ _ _ K) as [(fr' & FS' & E & Hi & _)|(fr' & FS' & i & A & B & va & V' & E & N' & HT & Hva & EV & _ & K')].
  { assert (lb_index lb < length (lb_instr lb))%nat by (apply nth_error_Some; congruence). lia. }
  injection E as <- <-. rewrite N in N'. injection N' as <-. subst V.
  assert (X : exists i j t, args = [imm i; imm j] /\ nth_error (c_types C) i = Some t /\ nth_error (c_tabls C) j = Some T_func /\ A = T_i32 :: rev (ft_args t)).
  { inversion HT; subst; try match goal with H : _ O_call_indirect = Some _ |- _ => discriminate H end. eexists _, _, _. repeat split; eassumption. }
  destruct X as (i & j & t & -> & Ht & Hj & ->).
  destruct (kont_frame _ _ _ _ _ _ _ _ K) as (fr' & FS' & E & Hf). injection E as <- <-.
  pose proof (frame_instance _ _ _ Hf) as IT.
  destruct (it_tabl _ _ _ IT _ _ Hj) as (a & x & Ha & Hx & Tx).
  intros j' ta x' E1 E2 E3. cbn in E1. injection E1 as <-. rewrite (py_index_nth _ _ _ Ha) in E2. injection E2 as <-. rewrite (py_index_nth _ _ _ Hx) in E3. injection E3 as <-.
  destruct (nth_Forall _ _ _ _ (st_tabl s Hs) Hx) as [_ TX]. rewrite Tx in TX. exact TX.
Qed.
Lemma step_both fin m m' : running (sg := sg) fin m -> both m m' -> k_label m <> [] -> same_out (is any) (step F host m) (step F host m').
Proof.
  intros HR Hm HL. pose proof HR as (Ok_m & Hs & C & K). pose proof (both_eq _ _ Hm) as Em'. pose proof (frames' _ _ Hm) as HF'.
  destruct m as [s V LS FS]. cbn [k_store k_value k_label k_frame] in *. destruct LS as [|lb LS]; [contradiction|].
  pose proof (mi_frame _ _ _ _ (bo_in _ _ Hm)) as HF. pose proof (mi_value _ _ _ _ (bo_in _ _ Hm)) as HV. pose proof (bo_mods _ _ Hm) as HMO. cbn [k_store k_frame k_value] in HF, HV, HMO.
  destruct (kont_run _ _ _ _ _ _ _ K) as [(fr & FS' & -> & Hi & HX)|(fr & FS' & i & A & B & va & V' & -> & N & _ & _ & EV & _ & K')].
  - rewrite Em'. destruct HX as [[Hc (C' & K')]|[Hc [Hv (C' & K')]]].
    + rewrite !end_block by assumption. split; [|split; [reflexivity|exact I]]. apply (both_make (mkmach s V (lb :: LS) (fr :: FS')) m'); assumption.
    + rewrite !end_func by assumption. split; [|split; [reflexivity|exact I]]. apply Forall_cons_iff in HF, HF', HMO. apply (both_make (mkmach s V (lb :: LS) (fr :: FS')) m'); [exact Hm|exact HV|apply HF|apply HF'|apply HMO].
  - assert (AB : about_to_run (mkmach s V (lb :: LS) (fr :: FS')) i fr).
    { split; [exists lb, LS; split; [reflexivity|exact N]|exists FS'; reflexivity]. }
    assert (AB' : about_to_run (mkmach (k_store m') V (lb :: LS) (fr :: FS')) i fr).
    { split; [exists lb, LS; split; [reflexivity|exact N]|exists FS'; reflexivity]. }
    rewrite Em'.
    destruct (step_inst F host _ i fr AB) as (lb' & ls & E & ->). injection E as <- <-.
    destruct (step_inst F host _ i fr AB') as (lb' & ls & E & ->). injection E as <- <-.
    unfold moved_on. cbn [k_store k_value k_label k_frame].
    match goal with |- same_out _ (exec _ _ _ _ _ ?x) (exec _ _ _ _ _ ?x') => assert (Hm1 : both x x') end.
    { apply (both_make (mkmach s V (lb :: LS) (fr :: FS')) m'); assumption. }
    pose proof HF as HF0. apply Forall_cons_iff in HF0. destruct HF0 as [[_ KN] _]. pose proof HMO as HMO0. apply Forall_cons_iff in HMO0. destruct HMO0 as [SM _].
    rewrite (mod_same G s0) in KN by (apply (mi_store _ _ _ _ (bo_in _ _ Hm))).
    assert (D : (exists args, i = IOp O_call_indirect args) \/ forall args, i <> IOp O_call_indirect args).
    { destruct i as [| | |o args]; try (right; intros; discriminate). destruct o; try (right; intros; discriminate). left. eauto. }
    destruct D as [(args & ->)|D].
    + apply p_indirect; [exact Hm1|exact KN|exact SM|]. exact (running_table fin _ lb LS fr FS' args HR eq_refl eq_refl N).
    + exact (p_exec _ fr i D KN SM _ _ Hm1).
Qed.
Context (CF : converts F) (HB : well_behaved host) (HH : host_typed sg host).
Lemma evaluate_both fin n : forall m m', running (sg := sg) fin m -> both m m' -> same_out (is any) (evaluate F host n m) (evaluate F host n m').
Proof.
  induction n as [|n IH]; intros m m' HR Hm; cbn [evaluate]; [split; [exact Hm|split; [reflexivity|exact I]]|].
  rewrite (bo_label _ _ Hm). destruct (k_label m) as [|lb LS] eqn:EL; [split; [exact Hm|split; [reflexivity|exact I]]|].
  pose proof (step_typed F CF host HB HH fin m HR ltac:(congruence)) as ST. pose proof (step_both fin m m' HR Hm ltac:(congruence)) as SI.
  unfold bind. destruct (step F host m) as [[u|e] m1], (step F host m') as [[u'|e'] m1']; try contradiction; [|exact SI]. apply IH; [apply ST|apply SI].
Qed.
Lemma starts_both a t h code args : closed sg G s0 -> agrees G s0 s0' -> g_func G a -> nth_error (s_func s0) a = Some (FWasm t h code) -> Forall pt args ->
  both (starts s0 t h code args) (starts s0' t h code args).
Proof.
  intros HC HA Ha N I. pose proof (agrees_closed sg G _ _ HA HC) as HC'. assert (N' : nth_error (s_func s0') a = Some (FWasm t h code)) by (rewrite (ag_func _ _ _ HA) by exact Ha; exact N).
  constructor; try reflexivity; [exact (starts_in sg G s0 a t h code args HC Ha N I)|exact (starts_in sg G s0' a t h code args HC' Ha N' I)|exact HA|].
  cbn [starts k_frame]. constructor; [|constructor; [reflexivity|constructor]]. apply (agrees_mod G); [exact HA|]. exact (cl_func _ _ _ HC _ _ Ha N).
Qed.
Lemma invocate_both a t h code args n : store_ok s0 -> store_typed sg s0 -> closed sg G s0 -> agrees G s0 s0' -> g_func G a ->
  nth_error (s_func s0) a = Some (FWasm t h code) -> Forall val_wf args -> has_types args (ft_args t) -> Forall pt args ->
  same_out (is any) (invocate F host n (Z.of_nat a) args (mkmach s0 [] [] [])) (invocate F host n (Z.of_nat a) args (mkmach s0' [] [] [])).
Proof.
  intros H1 H2 HC HA Ha N W HT I. assert (N' : nth_error (s_func s0') a = Some (FWasm t h code)) by (rewrite (ag_func _ _ _ HA) by exact Ha; exact N).
  rewrite (invocate_starts F host n a args s0 t h code N HT), (invocate_starts F host n a args s0' t h code N' HT), <- !starts_eq.
  pose proof (evaluate_both _ n _ _ (starts_running s0 t h code args a H1 H2 N W HT) (starts_both a t h code args HC HA Ha N I)) as X.
  eapply s_bind; [exact X|]. intros _ _.
  eapply p_eq; [apply p_popn|]. intros rets Hr. sd. sd. eapply p_bind; [apply p_mget|]. intros m m' Hm. rewrite (bo_frame _ _ Hm), (bo_label _ _ Hm), (bo_value _ _ Hm). sd. sd. sd. apply p_ret. exact Logic.I.
Qed.
End machine.
