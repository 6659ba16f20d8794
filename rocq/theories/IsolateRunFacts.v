(* Runs that start in a closed region leave the rest of the store alone. *)
From Coq Require Import ZArith List Bool Lia ZifyBool ZifyNat.
From Verif Require Import Py Arith Floatops Val Opcode Numeric Syntax Store Basic Machine
  SpecInt SpecNum SpecMachine SpecMem SpecRun SpecControl SpecInst SpecType SpecValid SpecRef SpecIsolate
  PyFacts ArithFacts ValFacts MemFacts WfFacts StepFacts RunFacts TypeOpFacts ControlFacts TypeBasicFacts TypeFacts BulkFacts CallFacts IsolateFacts.
Import ListNotations.
Open Scope Z_scope.
Notation any := (fun _ => True).

Section machine.
Context (sg : nat -> functype) (G : region) (s0 : store).
Notation pt := (inside G).
Definition frame_in (s : store) (fr : frame) : Prop := Forall pt (fr_locals fr) /\ knows G (mod_of s (fr_module fr)).
Definition store_in (s : store) : Prop := closed sg G s /\ same_outside G s0 s.
Record machine_in (m : machine) : Prop := mk_machine_in {
  mi_store : store_in (k_store m);
  mi_value : Forall pt (k_value m);
  mi_frame : Forall (frame_in (k_store m)) (k_frame m)
}.
Definition halted (m : machine) : Prop := store_in (k_store m).
Definition keeps {A} (c : M A) (Q : A -> Prop) : Prop := hoare machine_in c (fun a m => machine_in m /\ Q a) halted.
Lemma k_bind {A B'} (c : M A) Q (f : A -> M B') R : keeps c Q -> (forall a, Q a -> keeps (f a) R) -> keeps (bind c f) R.
Proof. intros H1 H2. eapply h_bind; [exact H1|]. intros a m [H3 H4]. apply H2; assumption. Qed.
Lemma k_ret {A} (a : A) (Q : A -> Prop) : Q a -> keeps (ret a) Q.
Proof. intros H m Hm. split; assumption. Qed.
Lemma k_fail {A} e (Q : A -> Prop) : keeps (fail e) Q.
Proof. intros m Hm. apply (mi_store _ Hm). Qed.
Lemma k_lift {A} (r : res A) Q : gives Q r -> keeps (lift r) Q.
Proof. intros H m Hm. unfold lift. destruct r as [a|e]; [split; [exact Hm|apply H; reflexivity]|apply (mi_store _ Hm)]. Qed.
Lemma k_any {A} (r : res A) : keeps (lift r) any.
Proof. apply k_lift, gives_true. Qed.
Lemma k_assert c : keeps (assert c) any.
Proof. apply k_any. Qed.
Lemma k_mget : keeps mget machine_in.
Proof. intros m Hm. split; exact Hm. Qed.
Lemma k_mput m : machine_in m -> keeps (mput m) any.
Proof. intros H m' _. split; [exact H|exact I]. Qed.
Lemma in_make m V LS FS : machine_in m -> Forall pt V -> Forall (frame_in (k_store m)) FS -> machine_in (mkmach (k_store m) V LS FS).
Proof. intros [] HV HF. constructor; assumption. Qed.
Lemma in_label m l : machine_in m -> machine_in (set_label m l).
Proof. intros []. constructor; assumption. Qed.
Lemma k_popv : keeps popv pt.
Proof.
  intros m Hm. unfold popv. destruct (k_value m) as [|v vs] eqn:E; [apply (mi_store _ Hm)|].
  pose proof (mi_value _ Hm) as H. rewrite E in H. apply Forall_cons_iff in H. destruct H as [H1 H2].
  split; [|exact H1]. destruct Hm. constructor; assumption.
Qed.
Lemma k_popn j : keeps (popn j) (Forall pt).
Proof.
  induction j as [|j IH]; cbn [popn]; [apply k_ret; constructor|].
  eapply k_bind; [apply k_popv|]. intros v Hv. eapply k_bind; [exact IH|]. intros vs Hvs.
  apply k_ret, Forall_app. split; [exact Hvs|constructor; [exact Hv|constructor]].
Qed.
Lemma k_extend l : Forall pt l -> keeps (extend l) any.
Proof.
  intros H m []. split; [|exact I]. constructor; cbn [extend set_value k_store k_value k_frame]; try assumption. apply Forall_app. split; [apply Forall_rev, H|assumption].
Qed.
Lemma k_push_label l : keeps (push_label l) any.
Proof. intros m Hm. split; [|exact I]. apply in_label, Hm. Qed.
Lemma k_push_frame f : Forall pt (fr_locals f) -> (forall h, fr_module f = MRef h -> g_inst G h) -> (forall mi, fr_module f = MVal mi -> knows G mi) -> keeps (push_frame f) any.
Proof.
  intros H1 H2 H3 m []. split; [|exact I]. constructor; cbn [push_frame set_frame k_store k_value k_frame]; try assumption. constructor; [|assumption].
  split; [exact H1|]. destruct (fr_module f) as [mi|h] eqn:E; [apply H3; reflexivity|]. eapply closed_mod; [apply mi_store0|apply H2; reflexivity].
Qed.
Lemma k_pop_frame : keeps pop_frame any.
Proof.
  intros m Hm. unfold pop_frame. destruct (k_frame m) as [|f fs] eqn:E; [apply (mi_store _ Hm)|].
  pose proof (mi_frame _ Hm) as H. rewrite E in H. apply Forall_cons_iff in H. split; [|exact I]. destruct Hm. constructor; try assumption. apply H.
Qed.
Lemma k_top_frame : keeps top_frame any.
Proof. intros m Hm. unfold top_frame. destruct (k_frame m); [apply (mi_store _ Hm)|split; [exact Hm|exact I]]. Qed.
Lemma mod_same s s' mr : same_outside G s s' -> mod_of s' mr = mod_of s mr.
Proof. intros H. destruct mr; cbn [mod_of]; [reflexivity|]. rewrite (so_insts _ _ _ H). reflexivity. Qed.
Lemma frame_same s s' fr : same_outside G s s' -> frame_in s fr -> frame_in s' fr.
Proof. intros H [H1 H2]. split; [exact H1|]. rewrite (mod_same _ _ _ H). exact H2. Qed.
Lemma k_basic F o args : keeps (on_basic (fun mr => exec_basic F mr o args)) any.
Proof.
  intros m Hm. unfold on_basic. destruct (k_frame m) as [|fr fs] eqn:E; [apply (mi_store _ Hm)|].
  pose proof (mi_frame _ Hm) as HF. rewrite E in HF. apply Forall_cons_iff in HF. destruct HF as [[H1 H2] H3].
  pose proof (mi_store _ Hm) as [Hc Ho].
  pose proof (x_basic sg G (k_store m) Hc (fr_module fr) H2 F o args
    (mkb (k_store m) (fr_locals fr) (k_value m)) (conj eq_refl (conj H1 (mi_value _ Hm)))) as X.
  destruct (exec_basic F (fr_module fr) o args _) as [[a|e] b]; destruct X as (X1 & X2 & X3 & X4).
  - split; [|exact I]. constructor; cbn [k_store k_value k_frame]; [split; [exact X1|exact (out_trans _ _ _ _ Ho X2)]|exact X4|].
    constructor; [split; [exact X3|cbn [fr_module]; rewrite (mod_same _ _ _ X2); exact H2]|]. eapply Forall_impl; [|exact H3]. intros f. apply frame_same, X2.
  - split; [exact X1|exact (out_trans _ _ _ _ Ho X2)].
Qed.
Lemma k_bype bt : keeps (evaluate_bype bt) any.
Proof.
  destruct bt; cbn [evaluate_bype]; try (apply k_ret, I). eapply k_bind; [apply k_top_frame|]. intros f _.
  eapply k_bind; [apply k_mget|]. intros m _. apply k_any.
Qed.
Lemma k_br l : keeps (evaluate_br l) any.
Proof.
  unfold evaluate_br. eapply k_bind; [apply k_mget|]. intros m Hm. eapply k_bind; [apply k_assert|]. intros _ _.
  destruct (nth_error (k_label m) (Z.to_nat l)) as [lb|] eqn:N; [|apply k_fail].
  eapply k_bind; [apply k_assert|]. intros _ _. eapply k_bind; [apply k_popn|]. intros rets Hr.
  eapply k_bind; [apply k_mget|]. intros m' Hm'. apply k_mput, in_make; [exact Hm'| |].
  - apply Forall_app. split; [apply Forall_rev, Hr|apply Forall_keep, (mi_value _ Hm')].
  - apply Forall_keep, (mi_frame _ Hm').
Qed.
Lemma zero_locals_in d : Forall pt (zero_locals d).
Proof.
  unfold zero_locals. induction d as [|[i t] d IH]; cbn [map concat]; [constructor|]. apply Forall_app. split; [|exact IH].
  apply Forall_forall. intros v Hv. apply repeat_spec in Hv. subst v. apply in_zero.
Qed.
Lemma k_enter lb c bt body : keeps (enter lb c bt body) any.
Proof.
  unfold enter. eapply k_bind; [apply k_mget|]. intros m Hm. eapply k_bind; [apply k_assert|]. intros _ _. apply k_push_label.
Qed.
Lemma from_alls_in F ts ps : numbers_in G ts ps -> gives (Forall pt) (from_alls F ts ps).
Proof.
  intros H. apply gives_rmapl. intros [t p] Hin. apply In_nth_error in Hin. destruct Hin as (i & Hi).
  assert (N1 : nth_error ts i = Some t /\ nth_error ps i = Some p).
  { clear H. revert ps i Hi. induction ts as [|x ts IH]; intros [|y ps] [|i] Hi; try discriminate Hi.
    - injection Hi as -> ->. split; reflexivity.
    - exact (IH ps i Hi). }
  destruct N1 as [N1 N2]. intros v E Et. pose proof (from_all_type F t p v E) as T. unfold of_type in T.
  assert (HT : t = T_func) by congruence. rewrite HT in E, N1. destruct p as [z|?|?|]; cbn [from_all] in E; try discriminate E.
  exact (in_ref G T_func z (fun _ => H i z N1 N2) v E Et).
Qed.
Context (F : fops) (host : hostcode) (HI : host_inside sg G host).
Lemma in_called m : machine_in m -> called_inside G m.
Proof. intros Hm fr fs E. pose proof (mi_frame _ Hm) as H. rewrite E in H. apply Forall_cons_iff in H. apply H. Qed.
Lemma k_host t hid pargs : g_host G hid -> t = sg hid ->
  keeps (let! rets := (fun m => host hid pargs m) in let! rets := lift (from_alls F (ft_rets t) rets) in extend rets) any.
Proof.
  intros Hh -> m Hm. unfold bind at 1. destruct (host hid pargs m) as [r m'] eqn:E.
  destruct (HI _ _ _ _ _ Hh (proj1 (mi_store _ Hm)) (in_called m Hm) E) as (H1 & H2 & H3).
  assert (SI : store_in (k_store m')) by (split; [exact H1|exact (out_trans _ _ _ _ (proj2 (mi_store _ Hm)) H2)]).
  destruct r as [l|e]; [|exact SI]. destruct (H3 l eq_refl) as (H4 & H5 & H6 & H7).
  assert (Hm' : machine_in m').
  { constructor; [exact SI|rewrite H5; apply (mi_value _ Hm)|]. rewrite H7. eapply Forall_impl; [|exact (mi_frame _ Hm)]. intros f. apply frame_same, H2. }
  exact (k_bind _ _ _ _ (k_lift _ _ (from_alls_in F _ _ H4)) (fun vs Hvs => k_extend vs Hvs) m' Hm').
Qed.
Lemma k_call addr : among (g_func G) addr -> keeps (evaluate_call F host addr) any.
Proof.
  intros [A0 A]. unfold evaluate_call. eapply k_bind; [apply k_mget|]. intros m Hm.
  eapply (k_bind _ (fun f => match f with FWasm _ h _ => g_inst G h | FHost t hid => g_host G hid /\ t = sg hid end)).
  { apply k_lift. intros f E. apply index_at in E; [|exact A0]. exact (cl_func _ _ _ (proj1 (mi_store _ Hm)) _ _ A E). }
  intros f Hf. eapply k_bind; [apply k_popn|]. intros args Ha. destruct f as [t h code|t hid].
  - eapply k_bind; [apply k_mget|]. intros m1 H1. eapply k_bind; [apply k_assert|]. intros _ _.
    eapply k_bind; [apply k_push_frame; cbn [fr_locals fr_module]; [apply Forall_app; split; [exact Ha|apply zero_locals_in]|intros ? E; injection E as <-; exact Hf|discriminate]|]. intros _ _.
    eapply k_bind; [apply k_mget|]. intros m2 H2. apply k_push_label.
  - eapply k_bind; [apply k_any|]. intros pargs _. apply k_host; apply Hf.
Qed.
Ltac sd := eapply k_bind; [first [apply k_mget|apply k_popv|apply k_assert|apply k_bype|apply k_any|apply k_pop_frame|apply k_popn|apply k_top_frame]|];
  let x := fresh "x" in let H := fresh "H" in intros x H; cbv beta in H.
(* everything but indirect calls *)
Lemma k_exec lb fr i : (forall args, i <> IOp O_call_indirect args) -> knows G (mod_of s0 (fr_module fr)) -> keeps (exec F host lb fr i) any.
Proof.
  intros NI Hfr. destruct i as [bt l|bt l|bt l el|o args]; cbn [exec].
  - sd. apply k_enter.
  - sd. apply k_enter.
  - sd. sd. sd. apply k_enter.
  - destruct o; try (apply k_fail); try (apply k_basic).
    + sd. apply k_br.
    + sd. sd. destruct (x0 =? 0); [apply (k_ret tt any), I|]. sd. apply k_br.
    + sd. sd. sd. sd. eapply (k_bind _ any); [|intros l _; apply k_br]. destruct (x0 <? len x2); [apply k_any|apply k_ret, I].
    + sd. sd. sd. sd. eapply k_bind; [apply k_mget|]. intros m' Hm'. apply k_mput, in_make; [exact Hm'| |].
      * apply Forall_app. split; [apply Forall_rev; assumption|apply Forall_keep, (mi_value _ Hm')].
      * apply (mi_frame _ Hm').
    + sd. sd. eapply k_bind; [apply k_lift, (gives_index (among (g_func G)))|intros a Ha; apply k_call, Ha].
      rewrite (mod_same s0 _ _ (proj2 (mi_store _ H0))). apply Hfr.
    + exfalso. exact (NI args eq_refl).
Qed.

(* indirect calls of a running machine *)
Lemma null_not_ref : into_ref (null_ref T_func) = Err EAssert.
Proof. reflexivity. Qed.
Lemma k_indirect fin m lb LS fr FS args : running (sg := sg) fin m -> machine_in m -> k_label m = lb :: LS -> k_frame m = fr :: FS ->
  nth_error (lb_instr lb) (lb_index lb) = Some (IOp O_call_indirect args) ->
  match exec F host lb fr (IOp O_call_indirect args) (moved_on m (k_value m)) with
  | (Ok _, m') => machine_in m'
  | (Err _, m') => halted m'
  end.
Proof.
  intros (Ok_m & Hs & C & K) Hm EL EF N. destruct m as [s V LS0 FS0]. cbn [k_label k_frame k_store k_value] in *. subst LS0 FS0.
  destruct (kont_run _ _ _ _ _ _ _ K) as [(fr' & FS' & E & Hi & _)|(fr' & FS' & i & A & B & va & V' & E & N' & HT & Hva & EV & _ & K')].
  { assert (lb_index lb < length (lb_instr lb))%nat by (apply nth_error_Some; congruence). lia. }
  injection E as <- <-. rewrite N in N'. injection N' as <-. subst V.
  assert (X : exists i j t, args = [imm i; imm j] /\ nth_error (c_types C) i = Some t /\ nth_error (c_tabls C) j = Some T_func /\ A = T_i32 :: rev (ft_args t)).
  { inversion HT; subst; try match goal with H : _ O_call_indirect = Some _ |- _ => discriminate H end. eexists _, _, _. repeat split; eassumption. }
  destruct X as (i & j & t & -> & Ht & Hj & ->).
  apply types_cons in Hva. destruct Hva as (c & va' & -> & Hc & Hva). cbn [app] in *.
  destruct (kont_frame _ _ _ _ _ _ _ _ K) as (fr' & FS' & E & Hf). injection E as <- <-.
  pose proof (frame_instance _ _ _ Hf) as IT.
  destruct (it_tabl _ _ _ IT _ _ Hj) as (a & x & Ha & Hx & Tx).
  pose proof (mo_value _ Ok_m) as W. cbn [k_value] in W. apply Forall_cons_iff in W.
  unfold moved_on, imm. cbn [k_store k_label k_frame k_value].
  rewrite (indirect_run F host s c (va' ++ V') _ fr FS lb j i a x t (val_zero T_i32) Ha Hx); [|rewrite (it_type _ _ _ IT); exact Ht|apply W].
  pose proof (mi_store _ Hm) as Hst. cbn [k_store] in Hst.
  pose proof (mi_frame _ Hm) as HF. cbn [k_store k_frame] in HF. apply Forall_cons_iff in HF. destruct HF as [[_ KN] HF].
  pose proof (mi_value _ Hm) as HV. cbn [k_value] in HV. apply Forall_cons_iff in HV.
  destruct (nth_error (ti_elem x) _) as [r|] eqn:Nr; [|exact Hst].
  pose proof (nth_Forall _ _ _ _ (kn_tabl _ _ KN) Ha) as [_ GA]. rewrite Nat2Z.id in GA.
  pose proof (cl_tabl _ _ _ (proj1 Hst) _ _ GA Hx) as PX.
  pose proof (nth_Forall _ _ _ _ PX Nr) as PR.
  destruct (nth_Forall _ _ _ _ (st_tabl s Hs) Hx) as [_ TX]. pose proof (nth_Forall _ _ _ _ TX Nr) as TR. cbv beta in TR. rewrite Tx in TR.
  assert (Hm1 : machine_in (mkmach s (va' ++ V') (mklabel (lb_arity lb) (lb_frame lb) (lb_value lb) (lb_carry lb) (lb_instr lb) (S (lb_index lb)) :: LS) (fr :: FS))).
  { constructor; [exact Hst|apply HV|exact (mi_frame _ Hm)]. }
  destruct (PR TR) as [->|(b & Gb & ->)]; [exact Hst|].
  pose proof (cl_some _ _ _ (proj1 Hst) _ Gb) as Lb.
  rewrite (bind_ok (lift (into_ref (ref_to T_func b))) _ _ (Z.of_nat b) _ ltac:(unfold lift; rewrite ref_to_addr by lia; reflexivity)).
  match goal with |- match ?c ?m with _ => _ end => assert (KP : keeps c any) end.
  { eapply k_bind; [apply k_any|]. intros f _. eapply k_bind; [apply k_assert|]. intros _ _. apply k_call. split; [lia|]. rewrite Nat2Z.id. exact Gb. }
  specialize (KP _ Hm1). match goal with |- match ?c with _ => _ end => destruct c as [[u|e] m'] end; [apply KP|exact KP].
Qed.
Lemma step_in fin m : running (sg := sg) fin m -> machine_in m -> k_label m <> [] ->
  match step F host m with
  | (Ok _, m') => machine_in m'
  | (Err _, m') => halted m'
  end.
Proof.
  intros HR Hm HL. pose proof HR as (Ok_m & Hs & C & K). destruct m as [s V LS FS]. cbn [k_store k_value k_label k_frame] in *. destruct LS as [|lb LS]; [contradiction|].
  destruct (kont_run _ _ _ _ _ _ _ K) as [(fr & FS' & -> & Hi & HE)|(fr & FS' & i & A & B & va & V' & -> & N & _ & _ & EV & _ & K')].
  - destruct HE as [[Hc (C' & K')]|[Hc [Hv (C' & K')]]].
    + rewrite end_block by assumption. destruct Hm. constructor; assumption.
    + rewrite end_func by assumption. destruct Hm as [M1 M2 M3]. constructor; try assumption. cbn [k_store k_frame] in *. apply Forall_cons_iff in M3. apply M3.
  - assert (AB : about_to_run (mkmach s V (lb :: LS) (fr :: FS')) i fr).
    { split; [exists lb, LS; split; [reflexivity|exact N]|exists FS'; reflexivity]. }
    destruct (step_inst F host _ i fr AB) as (lb' & ls & E & ->). injection E as <- <-.
    assert (D : (exists args, i = IOp O_call_indirect args) \/ forall args, i <> IOp O_call_indirect args).
    { destruct i as [| | |o args]; try (right; intros; discriminate). destruct o; try (right; intros; discriminate). left. eauto. }
    destruct D as [(args & ->)|D].
    + exact (k_indirect fin _ lb LS fr FS' args HR Hm eq_refl eq_refl N).
    + pose proof (mi_frame _ Hm) as HF. cbn [k_store k_frame] in HF. apply Forall_cons_iff in HF. destruct HF as [[_ KN] HF].
      rewrite (mod_same s0) in KN by (apply (mi_store _ Hm)).
      assert (Hm1 : machine_in (moved_on (mkmach s V (lb :: LS) (fr :: FS')) V)) by (destruct Hm; constructor; assumption).
      pose proof (k_exec (mklabel (lb_arity lb) (lb_frame lb) (lb_value lb) (lb_carry lb) (lb_instr lb) (S (lb_index lb))) fr i D KN _ Hm1) as X.
      cbn [k_value]. match goal with |- match ?c with _ => _ end => destruct c as [[u|e] m'] end; apply X.
Qed.
Context (CF : converts F) (HB : well_behaved host) (HH : host_typed sg host).
Lemma evaluate_in fin n : forall m, running (sg := sg) fin m -> machine_in m ->
  match evaluate F host n m with
  | (Ok _, m') => machine_in m'
  | (Err _, m') => halted m'
  end.
Proof.
  induction n as [|n IH]; intros m HR Hm; cbn [evaluate]; [exact Hm|].
  destruct (k_label m) as [|lb LS] eqn:EL; [exact Hm|].
  pose proof (step_typed F CF host HB HH fin m HR ltac:(congruence)) as ST. pose proof (step_in fin m HR Hm ltac:(congruence)) as SI.
  unfold bind. destruct (step F host m) as [[u|e] m1]; [|exact SI]. apply IH; [apply ST|exact SI].
Qed.
Lemma starts_in a t h code args : closed sg G s0 -> g_func G a -> nth_error (s_func s0) a = Some (FWasm t h code) -> Forall pt args ->
  machine_in (starts s0 t h code args).
Proof.
  intros HC HA N Ha. constructor; cbn [starts k_store k_value k_frame].
  - split; [exact HC|apply out_refl].
  - constructor.
  - constructor; [|constructor; [split; [constructor|apply knows_empty]|constructor]]. split; cbn [fr_locals fr_module].
    + apply Forall_app. split; [exact Ha|]. apply Forall_forall. intros v Hv. apply in_map_iff in Hv. destruct Hv as (ty & <- & _). apply (in_zero G ty).
    + apply (closed_mod sg); [exact HC|]. exact (cl_func _ _ _ HC _ _ HA N).
Qed.
Lemma reached_in a t h code args m : store_ok s0 -> store_typed sg s0 -> closed sg G s0 -> g_func G a ->
  nth_error (s_func s0) a = Some (FWasm t h code) -> Forall val_wf args -> has_types args (ft_args t) -> Forall pt args ->
  gets_to F host (starts s0 t h code args) m -> machine_in m.
Proof.
  intros H1 H2 HC HA N W HT Ha (k & E).
  pose proof (evaluate_in _ k _ (starts_running s0 t h code args a H1 H2 N W HT) (starts_in a t h code args HC HA N Ha)) as X. rewrite E in X. exact X.
Qed.
Lemma invocate_in a t h code args n : store_ok s0 -> store_typed sg s0 -> closed sg G s0 -> g_func G a ->
  nth_error (s_func s0) a = Some (FWasm t h code) -> Forall val_wf args -> has_types args (ft_args t) -> Forall pt args ->
  match invocate F host n (Z.of_nat a) args (mkmach s0 [] [] []) with
  | (Ok rs, m') => store_in (k_store m') /\ Forall pt rs
  | (Err _, m') => store_in (k_store m')
  end.
Proof.
  intros H1 H2 HC HA N W HT Ha.
  rewrite (invocate_starts F host n a args s0 t h code N HT), <- starts_eq.
  pose proof (evaluate_in _ n _ (starts_running s0 t h code args a H1 H2 N W HT) (starts_in a t h code args HC HA N Ha)) as X.
  unfold bind at 1. destruct (evaluate F host n (starts s0 t h code args)) as [[u|e] m1]; [|exact X].
  match goal with |- match ?c ?m with _ => _ end => assert (KP : keeps c (Forall pt)) end.
  { eapply k_bind; [apply k_popn|]. intros rets Hr. sd. sd. sd. sd. sd. sd. apply k_ret, Hr. }
  specialize (KP _ X). match goal with |- match ?c with _ => _ end => destruct c as [[rs|e] m'] end; [|exact KP].
  destruct KP as [K1 K2]. split; [apply (mi_store _ K1)|exact K2].
Qed.
End machine.
