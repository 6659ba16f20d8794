(* Type soundness of the interpreter: an invariant of running machines, kept by every turn of the loop. *)
From Coq Require Import ZArith List Bool Lia ZifyBool ZifyNat.
From Verif Require Import Py Arith Floatops Val Opcode Numeric Syntax Store Basic Machine
  SpecInt SpecNum SpecMachine SpecMem SpecRun SpecControl SpecSimd SpecType PyFacts ArithFacts ValFacts LaneFacts NumFacts StepFacts MemFacts
  BulkFacts WfFacts RunFacts ControlFacts CallFacts TypeOpFacts TypeBasicFacts.
Import ListNotations.
Open Scope Z_scope.

Section sg.
Context {sg : nat -> functype}.

Lemma in_block_instance s mi C ts : instance_typed s mi C -> instance_typed s mi (in_block ts C).
Proof. intros []. constructor; cbn [in_block c_types c_funcs c_tabls c_mems c_globs c_elems c_datas]; assumption. Qed.

(* a frame that runs code typed in C *)
Definition frame_typed (s : store) (C : tctx) (fr : frame) : Prop :=
  exists h mi, fr_module fr = MRef h /\ nth_error (s_inst s) h = Some mi /\ instance_typed s mi C /\
    has_types (fr_locals fr) (c_locals C).
Lemma frame_later s s' C fr : same_types s s' -> frame_typed s C fr -> frame_typed s' C fr.
Proof.
  intros H (h & mi & H1 & H2 & H3 & H4). exists h, mi. split; [exact H1|]. destruct (sa_inst _ _ H _ _ H2) as (x & E & <-).
  split; [exact E|]. split; [exact (instance_later _ _ _ _ H H3)|exact H4].
Qed.
Lemma frame_in_block s C fr ts : frame_typed s C fr -> frame_typed s (in_block ts C) fr.
Proof. intros (h & mi & H1 & H2 & H3 & H4). exists h, mi. split; [exact H1|]. split; [exact H2|]. split; [apply in_block_instance, H3|exact H4]. Qed.
Lemma frame_relocal s C fr L : frame_typed s C fr -> has_types L (c_locals C) -> frame_typed s C (relocal fr L).
Proof. intros (h & mi & H1 & H2 & H3 & H4) H. exists h, mi. auto. Qed.
Lemma frame_instance s C fr : frame_typed s C fr -> instance_typed s (mod_of s (fr_module fr)) C.
Proof. intros (h & mi & -> & H2 & H3 & _). cbn [mod_of]. rewrite (nth_error_nth _ _ modinst_empty H2). exact H3. Qed.

(* [kont s fin C LS FS V ts]: once values of types [ts] (top first) are pushed on [V], the labels [LS] and frames [FS]
   hold code that is well typed in [C] and, in the end, ends as [fin] says. [k_init] is the code that
   instantiation runs outside any function: instructions without blocks and branches, and calls. *)
Definition flat (i : inst) : Prop := match i with IOp o _ => is_control o = false \/ o = O_call | _ => False end.
(* how a run ends: with values of these types, and with this outermost frame (up to its locals, which keep their types) *)
Record ending : Set := mkending { en_types : list valtype; en_frame : frame }.
Definition outermost (fin : ending) (fr : frame) : Prop :=
  exists L, fr = relocal (en_frame fin) L /\ has_types L (map v_type (fr_locals (en_frame fin))).
Lemma outermost_relocal fin fr L : outermost fin fr -> has_types L (map v_type (fr_locals fr)) -> outermost fin (relocal fr L).
Proof. intros (L0 & -> & H0) H. exists L. split; [reflexivity|]. unfold has_types in *. cbn [relocal fr_locals] in H. congruence. Qed.
Lemma outermost_self ts fr : outermost (mkending ts fr) fr.
Proof. exists (fr_locals fr). split; [symmetry; apply relocal_same|reflexivity]. Qed.
Inductive kont (s : store) (fin : ending) : tctx -> list label -> list frame -> list val -> list valtype -> Prop :=
| k_base C fr V ts R : c_labels C = [] -> has_types V R -> ts ++ R = en_types fin -> outermost fin fr -> kont s fin C [] [fr] V ts
| k_block C lb LS fr FS V0 vs R ts outs lt : kont s fin C LS (fr :: FS) V0 outs -> FS <> [] -> frame_typed s C fr ->
    lb_value lb = length V0 -> lb_frame lb = length (fr :: FS) -> (lb_index lb <= length (lb_instr lb))%nat ->
    has_types vs R -> typed_seq (in_block lt C) (skipn (lb_index lb) (lb_instr lb)) (ts ++ R) outs ->
    lb_arity lb = length lt ->
    (lb_carry lb = KBlock /\ lt = outs \/ lb_carry lb = KLoop /\ typed_seq (in_block lt C) (lb_instr lb) lt outs) ->
    kont s fin (in_block lt C) (lb :: LS) (fr :: FS) (vs ++ V0) ts
| k_func C C' lb LS fr FS V0 vs R ts : kont s fin C' LS FS V0 (rev (c_return C)) -> frame_typed s C fr -> c_labels C = [] ->
    lb_carry lb = KFunc -> lb_value lb = length V0 -> fr_value fr = length V0 -> fr_arity fr = length (c_return C) ->
    fr_label fr = length LS -> (lb_index lb <= length (lb_instr lb))%nat ->
    has_types vs R -> typed_seq C (skipn (lb_index lb) (lb_instr lb)) (ts ++ R) (rev (c_return C)) ->
    kont s fin C (lb :: LS) (fr :: FS) (vs ++ V0) ts
| k_init C lb fr V R ts : frame_typed s C fr -> c_labels C = [] -> lb_carry lb = KBlock -> lb_value lb = 0%nat ->
    (lb_index lb <= length (lb_instr lb))%nat -> Forall flat (lb_instr lb) ->
    has_types V R -> typed_seq C (skipn (lb_index lb) (lb_instr lb)) (ts ++ R) (en_types fin) -> outermost fin fr ->
    kont s fin C [lb] [fr] V ts.

Section kont_facts.
Context (fin : ending).
Notation kont s := (kont s fin).
Lemma kont_later s s' C LS FS V ts : same_types s s' -> kont s C LS FS V ts -> kont s' C LS FS V ts.
Proof.
  intros H K. induction K.
  - econstructor; eassumption.
  - econstructor; try eassumption. eapply frame_later; eassumption.
  - eapply k_func; try eassumption. eapply frame_later; eassumption.
  - eapply k_init; try eassumption. eapply frame_later; eassumption.
Qed.
Lemma kont_push s C LS FS V ts us : kont s C LS FS V ts -> has_types us ts -> kont s C LS FS (us ++ V) [].
Proof.
  intros K H. destruct K.
  - eapply k_base; [assumption|eapply types_join; eassumption|assumption|assumption].
  - rewrite app_assoc. eapply k_block; try eassumption. eapply types_join; eassumption.
  - rewrite app_assoc. eapply k_func; try eassumption. eapply types_join; eassumption.
  - eapply k_init; try eassumption. eapply types_join; eassumption.
Qed.
Lemma kont_relocal s C LS fr FS V ts L : kont s C LS (fr :: FS) V ts -> has_types L (map v_type (fr_locals fr)) ->
  kont s C LS (relocal fr L :: FS) V ts.
Proof.
  intros K. remember (fr :: FS) as FS0 eqn:E. revert fr FS E. induction K; intros fr' FS' E HL; injection E as <- <-.
  - econstructor; try eassumption. apply outermost_relocal; assumption.
  - econstructor; try eassumption.
    + apply IHK; [reflexivity|exact HL].
    + apply frame_relocal; [assumption|]. match goal with H : frame_typed _ _ _ |- _ => destruct H as (h & mi & _ & _ & _ & Hloc) end.
      unfold has_types in *. congruence.
  - eapply k_func; try eassumption. apply frame_relocal; [assumption|].
    match goal with H : frame_typed _ _ _ |- _ => destruct H as (h & mi & _ & _ & _ & Hloc) end. unfold has_types in *. congruence.
  - eapply k_init; try eassumption; [|apply outermost_relocal; assumption]. apply frame_relocal; [assumption|].
    match goal with H : frame_typed _ _ _ |- _ => destruct H as (h & mi & _ & _ & _ & Hloc) end. unfold has_types in *. congruence.
Qed.
Lemma kont_frame s C lb LS FS V ts : kont s C (lb :: LS) FS V ts -> exists fr FS', FS = fr :: FS' /\ frame_typed s C fr.
Proof.
  intros K. inversion K; subst.
  - eexists _, _. split; [reflexivity|]. apply frame_in_block. assumption.
  - eexists _, _. split; [reflexivity|]. assumption.
  - eexists _, _. split; [reflexivity|]. assumption.
Qed.
Lemma kont_frames s C LS FS V ts : kont s C LS FS V ts -> FS <> [].
Proof. intros K. inversion K; discriminate. Qed.
Lemma kont_value s C lb LS FS V ts : kont s C (lb :: LS) FS V ts -> (lb_value lb <= length V)%nat.
Proof. intros K. inversion K; subst; rewrite ?app_length; lia. Qed.

(* a branch *)
Lemma kont_br s C LS FS V X : kont s C LS FS V X -> forall l ts us, nth_error (c_labels C) l = Some ts -> has_types us ts ->
  exists lb C2, nth_error LS l = Some lb /\ lb_arity lb = length ts /\ (lb_value lb <= length V)%nat /\ keep (lb_frame lb) FS = FS /\
    kont s C2 (match lb_carry lb with KLoop => goto lb 0 :: skipn (S l) LS | _ => skipn (S l) LS end) FS
      (us ++ keep (lb_value lb) V) [].
Proof.
  intros K. induction K; intros l ts' us N HU.
  - rewrite H in N. destruct l; discriminate N.
  - cbn [in_block c_labels] in N. destruct l as [|l].
    + injection N as <-. exists lb. match goal with H : _ \/ _ |- _ => destruct H as [[Hk ->]|[Hk HT]] end.
      * exists C. split; [reflexivity|]. split; [assumption|]. split; [rewrite app_length; lia|]. split; [apply keep_all; assumption|].
        rewrite Hk. cbn [skipn]. rewrite keep_app by lia. rewrite keep_all by assumption. eapply kont_push; eassumption.
      * exists (in_block lt C). split; [reflexivity|]. split; [assumption|]. split; [rewrite app_length; lia|]. split; [apply keep_all; assumption|].
        rewrite Hk. cbn [skipn]. rewrite keep_app by lia. rewrite keep_all by assumption.
        eapply k_block; try eassumption; cbn [goto lb_value lb_frame lb_index lb_instr lb_arity lb_carry]; try assumption; [lia|].
        right. split; assumption.
    + cbn [nth_error] in N. destruct (IHK l ts' us N HU) as (lb' & C2 & N2 & H7' & H8' & H9' & K2).
      exists lb', C2. split; [exact N2|]. split; [exact H7'|]. split; [rewrite app_length; lia|]. split; [exact H9'|].
      rewrite keep_app by exact H8'. exact K2.
  - match goal with H : c_labels C = [] |- _ => rewrite H in N end. destruct l; discriminate N.
  - match goal with H : c_labels C = [] |- _ => rewrite H in N end. destruct l; discriminate N.
Qed.
(* a return *)
Lemma kont_return s C LS FS V X : kont s C LS FS V X -> (2 <= length FS)%nat -> forall us, has_types us (rev (c_return C)) ->
  exists fr FS' C2, FS = fr :: FS' /\ (fr_value fr <= length V)%nat /\ fr_arity fr = length (c_return C) /\
    (fr_label fr <= length LS)%nat /\ kont s C2 (keep (fr_label fr) LS) FS' (us ++ keep (fr_value fr) V) [].
Proof.
  intros K. induction K; intros HN us HU.
  - cbn in HN. lia.
  - destruct (IHK ltac:(assumption) us HU) as (fr' & FS' & C2 & E & H1' & H2' & H3' & K2). injection E as <- <-. exists fr, FS, C2.
    split; [reflexivity|]. split; [rewrite app_length; lia|]. split; [exact H2'|]. split; [cbn [length]; lia|].
    rewrite (keep_app _ vs) by exact H1'. change (lb :: LS) with ([lb] ++ LS). rewrite keep_app by exact H3'. exact K2.
  - exists fr, FS, C'. split; [reflexivity|]. split; [rewrite app_length; lia|]. split; [assumption|]. split; [cbn [length]; lia|].
    rewrite (keep_app _ vs) by lia. rewrite (keep_all (fr_value fr)) by lia. change (lb :: LS) with ([lb] ++ LS). rewrite keep_app by lia. rewrite (keep_all (fr_label fr)) by lia.
    eapply kont_push; eassumption.
  - cbn in HN. lia.
Qed.
End kont_facts.

Lemma pure_control o p : signature o = Some p -> is_control o = false.
Proof. destruct o; try reflexivity; intros H; discriminate H. Qed.
Lemma memory_control o p : mem_signature o = Some p -> is_control o = false.
Proof. destruct o; try reflexivity; intros H; discriminate H. Qed.
Lemma from_alls_types F ts vs r : from_alls F ts vs = Ok r -> length vs = length ts -> has_types r ts.
Proof.
  unfold from_alls. revert vs r. induction ts as [|t ts IH]; intros [|v vs] r E HL; try discriminate HL.
  - apply Ok_inj in E. subst r. reflexivity.
  - cbn [combine rmapl] in E. destruct (from_all F t v) as [x|e] eqn:E1; [|discriminate E]. cbn [rbind] in E.
    destruct (rmapl _ (combine ts vs)) as [r'|e] eqn:E2; [|discriminate E]. apply Ok_inj in E. subst r.
    unfold has_types. cbn [map]. rewrite (from_all_type F t v x E1). f_equal. apply (IH vs r' E2). injection HL as HL. exact HL.
Qed.
Lemma zero_types d : has_types (zero_locals d) (declared d).
Proof.
  unfold has_types, zero_locals, declared. induction d as [|[n t] d IH]; [reflexivity|]. cbn [map concat flat_map]. rewrite map_app, IH. f_equal.
  induction (Z.to_nat n) as [|k IHk]; [reflexivity|]. cbn [repeat map]. rewrite IHk. reflexivity.
Qed.
Lemma rev_types vs ts : has_types vs (rev ts) -> has_types (rev vs) ts.
Proof. unfold has_types. intros H. rewrite map_rev, H, rev_involutive. reflexivity. Qed.
Lemma types_rev vs ts : has_types vs ts -> has_types (rev vs) (rev ts).
Proof. unfold has_types. intros H. rewrite map_rev, H. reflexivity. Qed.

Section soundness.
Context (F : fops) (CF : converts F) (host : hostcode) (HB : well_behaved host) (HH : host_typed sg host) (fin : ending).
Notation kont s := (kont s fin).

Definition typed_at (m : machine) : Prop := exists C, kont (k_store m) C (k_label m) (k_frame m) (k_value m) [].
Definition running (m : machine) : Prop := machine_ok m /\ store_typed sg (k_store m) /\ typed_at m.
Definition goes (s : store) (i : inst) (p : res unit * machine) : Prop :=
  match p with
  | (Ok _, m') => store_typed sg (k_store m') /\ same_types s (k_store m') /\ typed_at m'
  | (Err _, m') => store_typed sg (k_store m') /\ same_types s (k_store m') /\ inst_may_trap i = true
  end.
Lemma goes_err s i e V LS FS : store_typed sg s -> inst_may_trap i = true -> goes s i (Err e, mkmach s V LS FS).
Proof. intros H1 H2. split; [exact H1|]. split; [apply same_refl|exact H2]. Qed.
Lemma goes_ok s i V LS FS C : store_typed sg s -> kont s C LS FS V [] -> goes s i (Ok tt, mkmach s V LS FS).
Proof. intros H1 H2. split; [exact H1|]. split; [apply same_refl|exists C; exact H2]. Qed.

Lemma call_typed s i addr f t C LS FS va V : store_typed sg s -> inst_may_trap i = true ->
  py_index (s_func s) addr = Ok f -> fi_type f = t -> has_types va (rev (ft_args t)) ->
  kont s C LS FS V (rev (ft_rets t)) ->
  goes s i (evaluate_call F host addr (mkmach s (va ++ V) LS FS)).
Proof.
  intros Hs Hi N Ht HT K. unfold evaluate_call. unfold bind at 1, mget. cbn [k_store]. unfold bind at 1, lift at 1. rewrite N.
  assert (La : length (ft_args (fi_type f)) = length va) by (rewrite Ht, (types_length _ _ HT), rev_length; reflexivity).
  rewrite (bind_ok _ _ _ _ _ (popn_run (length (ft_args (fi_type f))) va V s LS FS ltac:(rewrite La; reflexivity))). rewrite La, firstn_all, skipn_all. cbn [app].
  destruct f as [t' h code|t' hid]; cbn [fi_type] in *; subst t'.
  - pose proof (gives_index (func_typed sg s) _ addr (st_func s Hs) _ N) as (mi & C2 & Hmi & Hin & Hloc & Hlab & Hret & Hty).
    unfold bind at 1. cbn [k_frame].
    destruct (Nat.ltb (length FS) 1024) eqn:HD.
    + unfold bind, assert, lift, push_frame, push_label, set_frame, set_label. cbn [py_assert k_store k_value k_label k_frame].
      try rewrite HD. cbn [py_assert k_store k_value k_label k_frame].
      apply (goes_ok s i _ _ _ C2 Hs). apply (k_func s fin C2 C _ LS _ FS V [] []); cbn [lb_carry lb_value fr_value fr_arity fr_label lb_index lb_instr]; try assumption; try reflexivity.
      * rewrite Hret. exact K.
      * exists h, mi. split; [reflexivity|]. split; [exact Hmi|]. split; [exact Hin|]. cbn [fr_locals]. rewrite Hloc.
        apply types_join; [apply rev_types, HT|apply zero_types].
      * rewrite Hret. reflexivity.
      * lia.
      * cbn [skipn app]. rewrite Hret. exact Hty.
    + unfold bind, assert, lift. cbn [k_frame]. try rewrite HD. cbn [py_assert]. apply goes_err; assumption.
  - unfold bind at 1, lift at 1. destruct (rmapl (into_all F) (rev va)) as [pargs|e]; [|apply goes_err; assumption].
    unfold bind at 1. destruct (host hid pargs (mkmach s V LS FS)) as [r m'] eqn:EH.
    destruct (HH hid pargs (mkmach s V LS FS) r m' Hs EH) as (H1 & H2 & H3). cbn [k_store k_value k_label k_frame] in *.
    destruct r as [l|e]; [|split; [exact H1|split; [exact H2|exact Hi]]].
    destruct (H3 l eq_refl) as (E1 & E2 & E3 & E4).
    unfold bind at 1, lift at 1. destruct (from_alls F (ft_rets t) l) as [rs|e] eqn:EA; [|split; [exact H1|split; [exact H2|exact Hi]]].
    assert (HL : length l = length (ft_rets t)).
    { pose proof (gives_index (func_typed sg s) _ addr (st_func s Hs) _ N) as Et. cbn [func_typed] in Et. rewrite Et. exact E4. }
    unfold extend, set_value. split; [exact H1|]. split; [exact H2|]. exists C. cbn [k_store k_value k_label k_frame]. rewrite E1, E2, E3.
    eapply kont_push; [exact (kont_later fin _ _ _ _ _ _ _ H2 K)|]. apply types_rev. exact (from_alls_types _ _ _ _ EA HL).
Qed.

Lemma br_typed s i l ts C LS FS us W V X : store_typed sg s -> kont s C LS FS V X -> nth_error (c_labels C) l = Some ts -> has_types us ts ->
  goes s i (evaluate_br (Z.of_nat l) (mkmach s (us ++ W ++ V) LS FS)).
Proof.
  intros Hs K N HU. destruct (kont_br fin s C LS FS V X K l ts us N HU) as (lb & C2 & N2 & Ha & Hv & Hf & K2).
  pose proof (types_length _ _ HU) as HL.
  rewrite app_assoc, (br_run s (us ++ W) V LS FS l lb N2 Hv) by (rewrite app_length; lia).
  rewrite Ha, <- HL, firstn_app, firstn_all, PeanoNat.Nat.sub_diag, firstn_O, app_nil_r, Hf. apply (goes_ok _ _ _ _ _ C2 Hs K2).
Qed.

Lemma enter_typed s i k lb C LS fr FS V bt t body va B : store_typed sg s ->
  kont s C (lb :: LS) (fr :: FS) V B -> B = rev (ft_rets t) -> has_types va (rev (ft_args t)) -> typed_block C bt t ->
  (k = KBlock /\ typed_seq (in_block (rev (ft_rets t)) C) body (rev (ft_args t)) (rev (ft_rets t)) \/
   k = KLoop /\ typed_seq (in_block (rev (ft_args t)) C) body (rev (ft_args t)) (rev (ft_rets t))) ->
  FS <> [] -> goes s i (enter lb k t body (mkmach s (va ++ V) (lb :: LS) (fr :: FS))).
Proof.
  intros Hs K -> HT _ HK HFS. pose proof (types_length _ _ HT) as HL. rewrite rev_length in HL.
  rewrite (enter_run s va V lb (lb :: LS) (fr :: FS) k t body (kont_value _ _ _ _ _ _ _ _ K) HL).
  destruct (kont_frame _ _ _ _ _ _ _ _ K) as (fr' & FS' & E & Hf). injection E as <- <-.
  destruct HK as [[-> HS]|[-> HS]].
  - eapply (goes_ok s i _ _ _ _ Hs). eapply (k_block s fin C _ (lb :: LS) fr FS V va); cbn [lb_value lb_frame lb_index lb_instr lb_arity lb_carry skipn]; try eassumption; try reflexivity; [lia|rewrite rev_length; reflexivity|].
    left. split; reflexivity.
  - eapply (goes_ok s i _ _ _ _ Hs). eapply (k_block s fin C _ (lb :: LS) fr FS V va); cbn [lb_value lb_frame lb_index lb_instr lb_arity lb_carry skipn]; try eassumption; try reflexivity; [lia|rewrite rev_length; reflexivity|].
    right. split; [reflexivity|exact HS].
Qed.
Lemma typed_block_type s C fr bt t : frame_typed s C fr -> typed_block C bt t -> block_type (mod_of s (fr_module fr)) bt t.
Proof. intros H HT. destruct bt; [exact HT..|]. cbn [typed_block block_type] in *. rewrite (it_type _ _ _ (frame_instance _ _ _ H)). exact HT. Qed.

Lemma popv_run s v V LS FS : popv (mkmach s (v :: V) LS FS) = (Ok v, mkmach s V LS FS).
Proof. reflexivity. Qed.

Lemma exec_typed s i A B C lb LS fr FS va V : store_typed sg s -> store_ok s -> typed_inst C i A B -> has_types va A ->
  kont s C (lb :: LS) (fr :: FS) V B -> FS <> [] \/ flat i -> Forall val_wf (va ++ V) ->
  goes s i (exec F host lb fr i (mkmach s (va ++ V) (lb :: LS) (fr :: FS))).
Proof.
  intros Hs Ok_s T HT K HFS W.
  destruct (kont_frame _ _ _ _ _ _ _ _ K) as (fr' & FS' & E & Hf). injection E as <- <-.
  destruct i as [bt body|bt body|bt th el|o args]; [| | |destruct (is_control o) eqn:Ec].
  - destruct HFS as [HFS|[]]. inversion T; subst. cbn [exec].
    rewrite (bind_ok _ _ _ _ _ (bype_run (fr_module fr) s (va ++ V) (lb :: LS) fr FS bt t eq_refl (typed_block_type _ _ _ _ _ Hf ltac:(eassumption)))).
    eapply enter_typed; try eassumption; [reflexivity|]. left. split; [reflexivity|assumption].
  - destruct HFS as [HFS|[]]. inversion T; subst. cbn [exec].
    rewrite (bind_ok _ _ _ _ _ (bype_run (fr_module fr) s (va ++ V) (lb :: LS) fr FS bt t eq_refl (typed_block_type _ _ _ _ _ Hf ltac:(eassumption)))).
    eapply enter_typed; try eassumption; [reflexivity|]. right. split; [reflexivity|assumption].
  - destruct HFS as [HFS|[]]. inversion T; subst. cbn [exec]. apply types_cons in HT. destruct HT as (c & va' & -> & Hc & HT). cbn [app] in *.
    rewrite (bind_ok _ _ _ _ _ (bype_run (fr_module fr) s (c :: va' ++ V) (lb :: LS) fr FS bt t eq_refl (typed_block_type _ _ _ _ _ Hf ltac:(eassumption)))).
    rewrite (bind_ok _ _ _ _ _ (popv_run s c (va' ++ V) _ _)). apply Forall_cons_iff in W. destruct W as [Wc W].
    unfold bind, lift. rewrite (into_i32_ok c Wc).
    eapply enter_typed; try eassumption; [reflexivity|]. left. split; [reflexivity|]. destruct (_ =? 0); assumption.
  - inversion T; subst; try discriminate Ec;
      try (match goal with H : signature _ = Some _ |- _ => rewrite (pure_control _ _ H) in Ec; discriminate Ec end);
      try (match goal with H : mem_signature _ = Some _ |- _ => rewrite (memory_control _ _ H) in Ec; discriminate Ec end); clear Ec.
    + (* br *) apply types_app in HT. destruct HT as (us & w & -> & HU & _). cbn [exec]. rewrite <- app_assoc in *.
      rewrite (bind_ok _ _ _ (Z.of_nat l) (mkmach s (us ++ w ++ V) (lb :: LS) (fr :: FS)) eq_refl).
      eapply br_typed; eassumption.
    + (* br_if *) apply types_cons in HT. destruct HT as (c & va' & -> & Hc & HT). cbn [exec app] in *.
      apply Forall_cons_iff in W. destruct W as [Wc W]. rewrite (bind_ok _ _ _ _ _ (popv_run s c (va' ++ V) _ _)).
      unfold bind at 1, lift at 1. rewrite (into_i32_ok c Wc). destruct (_ =? 0).
      * apply (goes_ok _ _ _ _ _ C Hs). eapply kont_push; eassumption.
      * rewrite (bind_ok _ _ _ (Z.of_nat l) (mkmach s (va' ++ V) (lb :: LS) (fr :: FS)) eq_refl).
        apply (br_typed s _ l B C (lb :: LS) (fr :: FS) va' [] V B); assumption.
    + (* br_table *) apply types_cons in HT. destruct HT as (c & va' & -> & Hc & HT). apply types_app in HT. destruct HT as (us & w & -> & HU & _).
      cbn [exec app] in *. apply Forall_cons_iff in W. destruct W as [Wc W]. rewrite (bind_ok _ _ _ _ _ (popv_run s c ((us ++ w) ++ V) _ _)).
      unfold bind at 1, lift at 1. rewrite (into_u32_ok c Wc). set (k := uval c mod 2 ^ 32).
      assert (Hk : 0 <= k) by (apply Z.mod_pos_bound; reflexivity).
      rewrite (bind_ok _ _ _ (Z.of_nat d) (mkmach s ((us ++ w) ++ V) (lb :: LS) (fr :: FS)) eq_refl).
      rewrite (bind_ok _ _ _ (map Z.of_nat ls) (mkmach s ((us ++ w) ++ V) (lb :: LS) (fr :: FS)) eq_refl).
      match goal with H : Forall _ (d :: ls) |- _ => apply Forall_cons_iff in H; destruct H as [Hd Hls] end.
      rewrite <- app_assoc.
      destruct (k <? len (map Z.of_nat ls)) eqn:Elt.
      * assert (Hlt : (Z.to_nat k < length ls)%nat) by (unfold len in Elt; rewrite map_length in Elt; lia).
        destruct (nth_error ls (Z.to_nat k)) as [l|] eqn:El; [|apply nth_error_None in El; lia].
        unfold bind at 1, lift at 1. rewrite py_index_nonneg by exact Hk. rewrite (map_nth_error _ _ _ El).
        eapply br_typed; try eassumption. rewrite Forall_forall in Hls. apply Hls. eapply nth_error_In, El.
      * unfold bind at 1. cbv [ret]. eapply br_typed; eassumption.
    + (* return *) apply types_app in HT. destruct HT as (us & w & -> & HU & _). cbn [exec]. rewrite <- app_assoc in *.
      destruct (kont_return _ _ _ _ _ _ _ K ltac:(cbn [length]; destruct HFS as [HFS|[HFS|HFS]]; try discriminate HFS; destruct FS; [contradiction HFS; reflexivity|cbn [length]; lia]) us HU) as (fr' & FS' & C2 & E & H1 & H2 & H3 & K2). injection E as <- <-.
      pose proof (types_length _ _ HU) as HL. rewrite rev_length in HL.
      unfold bind at 1, mget. cbn [k_value].
      rewrite (bind_ok _ _ _ tt (mkmach s (us ++ w ++ V) (lb :: LS) (fr :: FS))).
      2:{ unfold assert, lift, py_assert. replace (Nat.leb _ _) with true; [reflexivity|]. symmetry. apply PeanoNat.Nat.leb_le. rewrite !app_length. lia. }
      rewrite (bind_ok _ _ _ _ _ (popn_run (fr_arity fr) us (w ++ V) s (lb :: LS) (fr :: FS) ltac:(lia))).
      unfold bind, pop_frame, mput, mget, set_frame. cbn [k_frame k_store k_value k_label].
      rewrite rev_involutive. replace (fr_arity fr) with (length us) by lia. rewrite firstn_all, skipn_all. cbn [app].
      rewrite keep_app by exact H1. apply (goes_ok _ _ _ _ _ C2 Hs K2).
    + (* call *) cbn [exec].
      rewrite (bind_ok _ _ _ (Z.of_nat i) (mkmach s (va ++ V) (lb :: LS) (fr :: FS)) eq_refl). unfold bind at 1, mget. cbn [k_store].
      match goal with H : nth_error (c_funcs C) _ = _ |- _ => destruct (it_func _ _ _ (frame_instance _ _ _ Hf) _ _ H) as (a & f & Ha & Hf' & Tf) end.
      unfold bind at 1, lift at 1. rewrite (py_index_nth _ _ _ Ha).
      eapply call_typed; try eassumption; [reflexivity|]. apply py_index_nth, Hf'.
    + (* call_indirect *) apply types_cons in HT. destruct HT as (c & va' & -> & Hc & HT). cbn [app] in *.
      apply Forall_cons_iff in W. destruct W as [Wc W].
      match goal with H : nth_error (c_tabls C) _ = _ |- _ => destruct (it_tabl _ _ _ (frame_instance _ _ _ Hf) _ _ H) as (a & x & Ha & Hx & Tx) end.
      unfold imm. rewrite (indirect_run F host s c (va' ++ V) (lb :: LS) fr FS lb j i a x t (val_zero T_i32) Ha Hx); [|rewrite (it_type _ _ _ (frame_instance _ _ _ Hf)); assumption|exact Wc].
      destruct (nth_error (ti_elem x) _) as [r|]; [|apply goes_err; [exact Hs|reflexivity]].
      unfold bind at 1, lift at 1. destruct (into_ref r) as [addr|e]; [|apply goes_err; [exact Hs|reflexivity]].
      unfold bind at 1, lift at 1. destruct (py_index (s_func s) addr) as [f|e] eqn:Nf; [|apply goes_err; [exact Hs|reflexivity]].
      unfold bind at 1, assert, lift, py_assert. destruct (ft_eqb (fi_type f) t) eqn:Eft; [|apply goes_err; [exact Hs|reflexivity]].
      apply ft_eqb_eq in Eft. eapply call_typed; try eassumption; reflexivity.
  - rewrite (exec_op_basic F host lb fr o args Ec). unfold on_basic. cbn [k_frame k_store k_value k_label].
    assert (HL : has_types (fr_locals fr) (c_locals C)) by (destruct Hf as (? & ? & _ & _ & _ & H); exact H).
    pose proof (t_basic F CF s Hs Ok_s (fr_module fr) C (frame_instance _ _ _ Hf) (fr_locals fr) HL V o args A B va T Ec HT W) as Hb.
    unfold TypeBasicFacts.ends in Hb. destruct (exec_basic F (fr_module fr) o args _) as [[u|e] b].
    + destruct Hb as (vs & Ev & HT' & HL' & Hs' & Hsa). split; [exact Hs'|]. split; [exact Hsa|]. exists C. cbn [k_store k_value k_label k_frame].
      rewrite Ev. eapply kont_push; [|exact HT']. apply (kont_relocal fin (b_store b) C (lb :: LS) fr FS V B (b_locals b)); [apply (kont_later fin s _ _ _ _ _ _ Hsa K)|].
      unfold has_types in *. congruence.
    + destruct Hb as [H1 H2]. split; cbn [k_store]; rewrite H2; [exact Hs|]. split; [apply same_refl|exact H1].
Qed.
Lemma typed_rest C i is ts outs : typed_seq C (i :: is) ts outs ->
  exists A B R, ts = A ++ R /\ typed_inst C i A B /\ typed_seq C is (B ++ R) outs.
Proof. intros H. inversion H; subst. eexists _, _, _. split; [reflexivity|]. split; eassumption. Qed.
Lemma typed_end C ts outs : typed_seq C [] ts outs -> ts = outs.
Proof. intros H. inversion H. reflexivity. Qed.
Lemma rest_code lb : (lb_index lb <= length (lb_instr lb))%nat ->
  lb_index lb = length (lb_instr lb) /\ skipn (lb_index lb) (lb_instr lb) = [] \/
  exists i is, nth_error (lb_instr lb) (lb_index lb) = Some i /\ skipn (lb_index lb) (lb_instr lb) = i :: is /\
    skipn (S (lb_index lb)) (lb_instr lb) = is /\ (S (lb_index lb) <= length (lb_instr lb))%nat.
Proof.
  intros H. destruct (skipn (lb_index lb) (lb_instr lb)) as [|i is] eqn:E.
  - left. split; [|reflexivity]. assert (L : length (skipn (lb_index lb) (lb_instr lb)) = O) by (rewrite E; reflexivity). rewrite skipn_length in L. lia.
  - right. exists i, is. assert (A : at_code lb (i :: is)) by (split; assumption). pose proof (at_code_nth _ _ _ A) as N. apply at_code_next in A.
    destruct A as [A1 A2]. cbn [goto lb_instr lb_index] in A1, A2. auto.
Qed.

(* what a running machine is about to do *)
Lemma kont_run s C lb LS FS V : kont s C (lb :: LS) FS V [] ->
  (exists fr FS', FS = fr :: FS' /\ lb_index lb = length (lb_instr lb) /\
     (lb_carry lb <> KFunc /\ (exists C', kont s C' LS FS V []) \/
      lb_carry lb = KFunc /\ length V = (fr_value fr + fr_arity fr)%nat /\ (exists C', kont s C' LS FS' V []))) \/
  (exists fr FS' i A B va V', FS = fr :: FS' /\ nth_error (lb_instr lb) (lb_index lb) = Some i /\
     typed_inst C i A B /\ has_types va A /\ V = va ++ V' /\ (FS' <> [] \/ flat i) /\ kont s C (goto lb (S (lb_index lb)) :: LS) FS V' B).
Proof.
  intros K. inversion K; subst.
  - destruct (rest_code lb ltac:(assumption)) as [[E1 E2]|(i & is & N & E1 & E2 & HI)].
    + left. exists fr, FS0. split; [reflexivity|]. split; [exact E1|]. left.
      match goal with H : typed_seq _ (skipn (lb_index lb) _) _ _ |- _ => rewrite E2 in H; apply typed_end in H; cbn [app] in H; subst R end.
      split; [match goal with H : _ \/ _ |- _ => destruct H as [[-> _]|[-> _]]; discriminate end|].
      exists C0. eapply kont_push; eassumption.
    + right. match goal with H : typed_seq _ (skipn (lb_index lb) _) _ _ |- _ => rewrite E1 in H; apply typed_rest in H; destruct H as (A & B & R' & E & HI1 & HI2) end.
      cbn [app] in E. subst R. match goal with H : has_types vs _ |- _ => apply types_app in H; destruct H as (va & vr & -> & Hva & Hvr) end.
      exists fr, FS0, i, A, B, va, (vr ++ V0). split; [reflexivity|]. split; [exact N|]. split; [exact HI1|]. split; [exact Hva|]. split; [symmetry; apply app_assoc|]. split; [left; assumption|].
      eapply k_block; cbn [goto lb_value lb_frame lb_index lb_instr lb_arity lb_carry]; try eassumption. rewrite E2. exact HI2.
  - destruct (rest_code lb ltac:(assumption)) as [[E1 E2]|(i & is & N & E1 & E2 & HI)].
    + left. exists fr, FS0. split; [reflexivity|]. split; [exact E1|]. right.
      match goal with H : typed_seq _ (skipn (lb_index lb) _) _ _ |- _ => rewrite E2 in H; apply typed_end in H; cbn [app] in H; subst R end.
      split; [assumption|]. split.
      { match goal with H : has_types vs _ |- _ => apply types_length in H; rewrite rev_length in H end. rewrite app_length. lia. }
      exists C'. eapply kont_push; eassumption.
    + right. match goal with H : typed_seq _ (skipn (lb_index lb) _) _ _ |- _ => rewrite E1 in H; apply typed_rest in H; destruct H as (A & B & R' & E & HI1 & HI2) end.
      cbn [app] in E. subst R. match goal with H : has_types vs _ |- _ => apply types_app in H; destruct H as (va & vr & -> & Hva & Hvr) end.
      exists fr, FS0, i, A, B, va, (vr ++ V0). split; [reflexivity|]. split; [exact N|]. split; [exact HI1|]. split; [exact Hva|]. split; [symmetry; apply app_assoc|]. split; [left; eapply kont_frames; eassumption|].
      eapply k_func; cbn [goto lb_value lb_frame lb_index lb_instr lb_arity lb_carry]; try eassumption. rewrite E2. exact HI2.
  - destruct (rest_code lb ltac:(assumption)) as [[E1 E2]|(i & is & N & E1 & E2 & HI)].
    + left. exists fr, []. split; [reflexivity|]. split; [exact E1|]. left.
      match goal with H : typed_seq _ (skipn (lb_index lb) _) _ _ |- _ => rewrite E2 in H; apply typed_end in H; cbn [app] in H; subst R end.
      split; [match goal with H : lb_carry lb = _ |- _ => rewrite H end; discriminate|].
      exists C. eapply k_base; [assumption|eassumption|reflexivity|assumption].
    + right. match goal with H : typed_seq _ (skipn (lb_index lb) _) _ _ |- _ => rewrite E1 in H; apply typed_rest in H; destruct H as (A & B & R' & E & HI1 & HI2) end.
      cbn [app] in E. subst R. match goal with H : has_types V _ |- _ => apply types_app in H; destruct H as (va & vr & -> & Hva & Hvr) end.
      exists fr, [], i, A, B, va, vr. split; [reflexivity|]. split; [exact N|]. split; [exact HI1|]. split; [exact Hva|]. split; [reflexivity|].
      split; [right; eapply nth_Forall; eassumption|].
      eapply k_init; cbn [goto lb_value lb_frame lb_index lb_instr lb_arity lb_carry]; try eassumption. rewrite E2. exact HI2.
Qed.

Lemma end_block s V lb LS fr FS : lb_index lb = length (lb_instr lb) -> lb_carry lb <> KFunc ->
  step F host (mkmach s V (lb :: LS) (fr :: FS)) = (Ok tt, mkmach s V LS (fr :: FS)).
Proof.
  intros E H. unfold step, bind, mget, top_frame. cbn [k_label k_frame]. rewrite E, PeanoNat.Nat.eqb_refl.
  unfold mput, set_label. cbn [k_store k_value k_frame]. destruct (lb_carry lb); try reflexivity. contradiction.
Qed.
Lemma end_func s V lb LS fr FS : lb_index lb = length (lb_instr lb) -> lb_carry lb = KFunc -> length V = (fr_value fr + fr_arity fr)%nat ->
  step F host (mkmach s V (lb :: LS) (fr :: FS)) = (Ok tt, mkmach s V LS FS).
Proof.
  intros E H EV. unfold step, bind, mget, top_frame. cbn [k_label k_frame]. rewrite E, PeanoNat.Nat.eqb_refl.
  unfold mput, set_label. cbn [k_store k_value k_frame]. rewrite H. cbn [k_value]. rewrite EV, PeanoNat.Nat.eqb_refl. reflexivity.
Qed.
Lemma step_typed m : running m -> k_label m <> [] ->
  match step F host m with
  | (Ok _, m') => running m' /\ same_types (k_store m) (k_store m')
  | (Err _, m') => store_typed sg (k_store m') /\ same_types (k_store m) (k_store m') /\
      exists i fr, about_to_run m i fr /\ inst_may_trap i = true
  end.
Proof.
  intros (Ok_m & Hs & C & K) HL.
  assert (IN : inv (k_store m) m) by (split; [exact Ok_m|apply later_refl]).
  pose proof (s_step (k_store m) F host HB m IN) as ST.
  destruct m as [s V LS FS]. cbn [k_store k_value k_label k_frame] in *. destruct LS as [|lb LS]; [contradiction|].
  assert (G : forall p, step F host (mkmach s V (lb :: LS) FS) = p -> (exists i fr, about_to_run (mkmach s V (lb :: LS) FS) i fr /\ goes s i p) \/
     goes s (IOp O_nop []) p).
  { intros p <-. destruct (kont_run _ _ _ _ _ _ K) as [(fr & FS' & -> & Hi & HE)|(fr & FS' & i & A & B & va & V' & -> & N & HT & Hva & -> & HFS & K')].
    - right.
      destruct HE as [[Hc (C' & K')]|[Hc [Hv (C' & K')]]].
      + rewrite end_block by assumption. apply (goes_ok _ _ _ _ _ _ Hs K').
      + rewrite end_func by assumption. apply (goes_ok _ _ _ _ _ _ Hs K').
    - left. exists i, fr.
      assert (AB : about_to_run (mkmach s (va ++ V') (lb :: LS) (fr :: FS')) i fr).
      { split; [exists lb, LS; split; [reflexivity|exact N]|exists FS'; reflexivity]. }
      split; [exact AB|]. destruct (step_inst F host _ i fr AB) as (lb' & ls & E & ->). injection E as <- <-.
      unfold moved_on. cbn [k_store k_value k_label k_frame].
      eapply exec_typed; try eassumption; [apply Ok_m|apply Ok_m]. }
  specialize (G _ eq_refl). destruct (step F host (mkmach s V (lb :: LS) FS)) as [[u|e] m'].
  - destruct ST as [[ST _] _]. destruct G as [(i & fr & _ & G)|G]; destruct G as (G1 & G2 & G3); (split; [|exact G2]); (split; [exact ST|]); split; assumption.
  - destruct G as [(i & fr & AB & G)|G]; destruct G as (G1 & G2 & G3); [|discriminate G3]. split; [exact G1|]. split; [exact G2|]. exists i, fr. auto.
Qed.

Lemma evaluate_typed n : forall m, running m ->
  match evaluate F host n m with
  | (Ok _, m') => running m' /\ same_types (k_store m) (k_store m')
  | (Err e, m') => store_typed sg (k_store m') /\ same_types (k_store m) (k_store m') /\
      exists m1 i fr, gets_to F host m m1 /\ about_to_run m1 i fr /\ inst_may_trap i = true /\ step F host m1 = (Err e, m')
  end.
Proof.
  induction n as [|n IH]; intros m HR; cbn [evaluate]; [split; [exact HR|apply same_refl]|].
  destruct (k_label m) as [|lb LS] eqn:EL; [split; [exact HR|apply same_refl]|].
  pose proof (step_typed m HR ltac:(congruence)) as ST. unfold bind. destruct (step F host m) as [[u|e] m1] eqn:ES.
  - destruct ST as [R1 S1]. specialize (IH m1 R1). destruct (evaluate F host n m1) as [[u'|e] m2].
    + destruct IH as [R2 S2]. split; [exact R2|]. exact (same_trans _ _ _ S1 S2).
    + destruct IH as (T2 & S2 & m3 & i & fr & (k & G) & IH). split; [exact T2|]. split; [exact (same_trans _ _ _ S1 S2)|].
      exists m3, i, fr. split; [|exact IH]. exists (S k). cbn [evaluate]. rewrite EL. unfold bind. rewrite ES. exact G.
  - destruct ST as (T1 & S1 & i & fr & AB & HI). split; [exact T1|]. split; [exact S1|]. exists m, i, fr. split; [exists O; reflexivity|]. auto.
Qed.
End soundness.

Lemma starts_eq s t h code args : starts s t h code args = mkmach s [] [first_label t code] [first_frame t h code args; dummy].
Proof.
  unfold starts, first_frame. rewrite <- default_zero. unfold zero_locals, declared, first_label, dummy. repeat f_equal.
  induction (fd_locals code) as [|[n x] d IH]; [reflexivity|]. cbn [flat_map map concat]. rewrite map_app, IH. f_equal.
  generalize (Z.to_nat n). intros k. clear. induction k as [|k IH]; [reflexivity|]. cbn [repeat map]. rewrite IH. reflexivity.
Qed.
Lemma starts_running s t h code args a : store_ok s -> store_typed sg s -> nth_error (s_func s) a = Some (FWasm t h code) ->
  Forall val_wf args -> has_types args (ft_args t) -> running (mkending (rev (ft_rets t)) dummy) (starts s t h code args).
Proof.
  intros Ok_s Hs N W HT. rewrite starts_eq. destruct (nth_Forall _ _ _ _ (st_func s Hs) N) as (mi & C & Hmi & Hin & Hloc & Hlab & Hret & Hty).
  unfold first_frame. rewrite <- default_zero.
  split; [|split; [exact Hs|]].
  - constructor; cbn [k_store k_value k_frame k_label].
    + exact Ok_s.
    + constructor.
    + constructor; [|constructor; constructor]. cbn [fr_locals]. apply Forall_app. split; [exact W|apply zero_locals_wf].
    + constructor; [|constructor]. exact (nth_Forall _ _ _ _ (so_func s Ok_s) N).
  - exists C. cbn [k_store k_value k_frame k_label].
    apply (k_func s (mkending (rev (ft_rets t)) dummy) C C (first_label t code) [] _ [dummy] [] [] []); try assumption; try reflexivity.
    + rewrite Hret. apply (k_base _ _ _ _ _ _ []); [exact Hlab|reflexivity|apply app_nil_r|apply outermost_self].
    + exists h, mi. split; [reflexivity|]. split; [exact Hmi|]. split; [exact Hin|]. cbn [fr_locals]. rewrite Hloc. apply types_join; [exact HT|apply zero_types].
    + rewrite Hret. reflexivity.
    + cbn. lia.
    + cbn [skipn first_label lb_index lb_instr app]. rewrite Hret. exact Hty.
Qed.

(* the state in which a run ends *)
Lemma kont_done s fin C FS V : kont s fin C [] FS V [] -> has_types V (en_types fin) /\ exists fr, FS = [fr] /\ outermost fin fr.
Proof. intros K. inversion K as [C' fr V' ts R H1 H2 H3 H4| | |]; subst. cbn [app] in H3. rewrite <- H3. split; [exact H2|]. exists fr. split; [reflexivity|assumption]. Qed.

Section calls.
Context (F : fops) (CF : converts F) (host : hostcode) (HB : well_behaved host) (HH : host_typed sg host).
Lemma invocate_done s a t h code args n m' : store_ok s -> store_typed sg s -> nth_error (s_func s) a = Some (FWasm t h code) ->
  Forall val_wf args -> has_types args (ft_args t) -> evaluate F host n (starts s t h code args) = (Ok tt, m') -> k_label m' = [] ->
  exists rs, invocate F host n (Z.of_nat a) args (mkmach s [] [] []) = (Ok rs, mkmach (k_store m') [] [] []) /\ has_types rs (ft_rets t).
Proof.
  intros Ok_s Hs N W HT EE EL. pose proof (starts_running s t h code args a Ok_s Hs N W HT) as HR.
  rewrite (invocate_starts F host n a args s t h code N HT), <- starts_eq.
  pose proof (evaluate_typed F CF host HB HH _ n _ HR) as EV. rewrite EE in EV. destruct EV as [(_ & _ & C & K) _]. rewrite EL in K.
  rewrite (bind_ok _ _ _ _ _ EE).
  destruct (kont_done _ _ _ _ _ K) as [TV (fr & LF & _)]. cbn [en_types] in TV. destruct m' as [s' V LS FS]. cbn [k_store k_value k_label k_frame] in *. subst LS.
  pose proof (types_length _ _ TV) as LV. rewrite rev_length in LV.
  subst FS.
  pose proof (popn_run (length (ft_rets t)) V [] s' [] [fr] ltac:(lia)) as P. rewrite app_nil_r in P.
  rewrite (bind_ok _ _ _ _ _ P). rewrite <- LV, firstn_all, skipn_all.
  unfold bind, assert, lift, py_assert. rewrite types_agree_refl by exact (rev_types _ _ TV). cbn.
  exists (rev V). split; [reflexivity|exact (rev_types _ _ TV)].
Qed.
Lemma invocate_typed s a t h code args n : store_ok s -> store_typed sg s -> nth_error (s_func s) a = Some (FWasm t h code) ->
  Forall val_wf args -> has_types args (ft_args t) ->
  match invocate F host n (Z.of_nat a) args (mkmach s [] [] []) with
  | (Ok rs, m') => has_types rs (ft_rets t) /\ k_value m' = [] /\ k_label m' = [] /\ k_frame m' = [] /\
      store_typed sg (k_store m') /\ same_types s (k_store m')
  | (Err e, m') => store_typed sg (k_store m') /\ same_types s (k_store m') /\
      ((exists m1 i fr, gets_to F host (starts s t h code args) m1 /\ about_to_run m1 i fr /\ inst_may_trap i = true /\
          step F host m1 = (Err e, m')) \/
       (exists m1, evaluate F host n (starts s t h code args) = (Ok tt, m1) /\ k_label m1 <> []))
  end.
Proof.
  intros Ok_s Hs N W HT. pose proof (starts_running s t h code args a Ok_s Hs N W HT) as HR.
  rewrite (invocate_starts F host n a args s t h code N HT), <- starts_eq.
  pose proof (evaluate_typed F CF host HB HH _ n _ HR) as EV. unfold bind at 1. destruct (evaluate F host n (starts s t h code args)) as [[u|e] m'] eqn:EE.
  2:{ destruct EV as (E1 & E2 & E3). split; [exact E1|]. split; [exact E2|]. left. exact E3. }
  destruct EV as [(E1 & E2 & C & K) E3]. cbn [starts k_store] in E3.
  destruct (k_label m') as [|lb LS] eqn:EL.
  - destruct u. destruct (invocate_done s a t h code args n m' Ok_s Hs N W HT EE EL) as (rs & EI & TR).
    rewrite (invocate_starts F host n a args s t h code N HT), <- starts_eq, (bind_ok _ _ _ _ _ EE) in EI. rewrite EI.
    split; [exact TR|]. auto.
  - (* ran out of turns: whatever happens next leaves the store alone *)
    set (rest := (let! rets := popn (length (ft_rets t)) in _)). 
    assert (KS : k_store (snd (rest m')) = k_store m').
    { unfold rest, bind. assert (P : forall k m, k_store (snd (popn k m)) = k_store m).
      { induction k as [|k IH]; intros m; [reflexivity|]. cbn [popn]. unfold bind, popv. destruct (k_value m); [reflexivity|].
        specialize (IH (set_value m l)). destruct (popn k (set_value m l)) as [[x|x] mm]; exact IH. }
      specialize (P (length (ft_rets t)) m'). destruct (popn (length (ft_rets t)) m') as [[x|x] mm]; [|exact P]. cbn [snd] in P.
      unfold assert, lift, py_assert. destruct (types_agree _ _); [|exact P]. unfold pop_frame. destruct (k_frame mm); [exact P|].
      cbn [mget]. unfold mget. destruct (Nat.eqb _ _); [|exact P]. destruct (Nat.eqb _ _); [|exact P]. destruct (Nat.eqb _ _); exact P. }
    assert (NOK : forall rs, fst (rest m') <> Ok rs).
    { intros rs. unfold rest, bind. assert (P : forall k m, k_label (snd (popn k m)) = k_label m).
      { induction k as [|k IH]; intros m; [reflexivity|]. cbn [popn]. unfold bind, popv. destruct (k_value m); [reflexivity|].
        specialize (IH (set_value m l)). destruct (popn k (set_value m l)) as [[x|x] mm]; exact IH. }
      specialize (P (length (ft_rets t)) m'). destruct (popn (length (ft_rets t)) m') as [[x|x] mm]; [|discriminate]. cbn [snd] in P.
      unfold assert, lift, py_assert. destruct (types_agree _ _); [|discriminate]. unfold pop_frame. destruct (k_frame mm); [discriminate|].
      unfold mget, set_frame. cbn [k_label k_frame k_value]. rewrite P, EL. destruct (Nat.eqb _ _); [|discriminate]. cbn. discriminate. }
    destruct (rest m') as [[rs|e] mm]; [exfalso; exact (NOK rs eq_refl)|]. cbn [snd] in KS. rewrite KS.
    split; [exact E2|]. split; [exact E3|]. right. exists m'. split; [destruct u; reflexivity|congruence].
Qed.

Lemma reached_typed s a t h code args m : store_ok s -> store_typed sg s -> nth_error (s_func s) a = Some (FWasm t h code) ->
  Forall val_wf args -> has_types args (ft_args t) -> gets_to F host (starts s t h code args) m ->
  store_typed sg (k_store m) /\ same_types s (k_store m) /\
  (k_label m = [] \/ exists r m', step F host m = (r, m') /\ store_typed sg (k_store m') /\ same_types s (k_store m') /\
     (r = Ok tt \/ exists i fr, about_to_run m i fr /\ inst_may_trap i = true)).
Proof.
  intros Ok_s Hs N W HT (k & G). pose proof (starts_running s t h code args a Ok_s Hs N W HT) as HR.
  pose proof (evaluate_typed F CF host HB HH _ k _ HR) as EV. rewrite G in EV. destruct EV as [HR' HS]. cbn [starts k_store] in HS.
  split; [apply HR'|]. split; [exact HS|]. destruct (k_label m) as [|lb LS] eqn:EL; [left; reflexivity|]. right.
  pose proof (step_typed F CF host HB HH _ m HR' ltac:(congruence)) as ST. destruct (step F host m) as [[u|e] m1].
  - exists (Ok u), m1. destruct ST as [(_ & T1 & _) S1]. split; [reflexivity|]. split; [exact T1|]. split; [exact (same_trans _ _ _ HS S1)|]. left. destruct u. reflexivity.
  - exists (Err e), m1. destruct ST as (T1 & S1 & HE). split; [reflexivity|]. split; [exact T1|]. split; [exact (same_trans _ _ _ HS S1)|]. right. exact HE.
Qed.

Lemma operands_typed s a t h code args m o oargs fr ins out : store_ok s -> store_typed sg s -> nth_error (s_func s) a = Some (FWasm t h code) ->
  Forall val_wf args -> has_types args (ft_args t) -> gets_to F host (starts s t h code args) m ->
  about_to_run m (IOp o oargs) fr -> signature o = Some (ins, out) ->
  exists lb ls vs V, k_label m = lb :: ls /\ k_value m = vs ++ V /\ has_types (rev vs) ins /\ (lb_value lb <= length V)%nat.
Proof.
  intros Ok_s Hs N W HT (k & G) [(lb & ls & El & Ei) _] HS. pose proof (starts_running s t h code args a Ok_s Hs N W HT) as HR.
  pose proof (evaluate_typed F CF host HB HH _ k _ HR) as EV. rewrite G in EV. destruct EV as [(_ & _ & C & K) _]. rewrite El in K.
  destruct (kont_run _ _ _ _ _ _ _ K) as [(fr' & FS' & _ & Hi & _)|(fr' & FS' & i & A & B & va & V' & _ & N' & HTI & Hva & EV & _ & K')].
  - assert (lb_index lb < length (lb_instr lb))%nat by (apply nth_error_Some; congruence). lia.
  - rewrite Ei in N'. injection N' as <-. exists lb, ls, va, V'. split; [exact El|]. split; [exact EV|].
    pose proof (kont_value _ _ _ _ _ _ _ _ K') as KV. cbn [goto lb_value] in KV. split; [|exact KV].
    inversion HTI; subst; try discriminate HS.
    + assert (E : (ins0, out0) = (ins, out)) by congruence. injection E as <- <-. apply rev_types, Hva.
    + exfalso. match goal with H : mem_signature o = Some _ |- _ => clear - HS H; destruct o; try discriminate HS; discriminate H end.
Qed.
End calls.
End sg.
