(* Whatever run the standard has, the interpreter makes it, unless it comes to an odd state (C129). *)
From Coq Require Import ZArith List Bool Lia ZifyBool ZifyNat.
From Verif Require Import Py Arith Floatops Val Opcode Numeric Syntax Store Basic Machine
  SpecInt SpecNum SpecMachine SpecMem SpecRun SpecControl SpecSimd SpecType PyFacts ArithFacts ValFacts LaneFacts NumFacts StepFacts MemFacts
  BulkFacts WfFacts RunFacts ControlFacts CallFacts TypeOpFacts TypeBasicFacts TypeFacts SpecConverse ConverseFacts.
Import ListNotations.
Open Scope Z_scope.

Lemma split_at {A} (a b c d : list A) : a ++ b = c ++ d -> length a = length c -> a = c /\ b = d.
Proof.
  revert c. induction a as [|x a IH]; intros [|y c] E HL; cbn in *; try discriminate HL; [auto|]. injection E as -> E.
  destruct (IH c E ltac:(lia)) as [-> ->]. auto.
Qed.
Lemma map_inj {A B} (f : A -> B) : (forall x y, f x = f y -> x = y) -> forall l k, map f l = map f k -> l = k.
Proof. intros H. induction l as [|x l IH]; intros [|y k] E; try discriminate E; [reflexivity|]. injection E as E1 E2. f_equal; auto. Qed.
Lemma block_same mi bt t u : block_type mi bt t -> block_type mi bt u -> t = u.
Proof. destruct bt; cbn; [congruence|congruence|]. intros [_ H1] [_ H2]. congruence. Qed.
Lemma leaves_same k V o a b : leaves k V o a -> leaves k V o b -> a = b.
Proof. intros H1 H2. destruct H1; inversion H2; subst; reflexivity. Qed.
Lemma returns_same k V o a b : returns k V o a -> returns k V o b -> a = b.
Proof. intros H1 H2. destruct H1; inversion H2; subst; reflexivity. Qed.

Section follow.
Context {sg : nat -> functype} (F : fops) (CF : converts F) (hs : storehost).
Notation host := (plain_host hs).
Context (HB : well_behaved host) (HH : host_typed sg host).
Context (means given : meaning) (odd : machine -> Prop).
Notation stray := (meets F host odd).
Notation both := (fun mr o args s L V s' L' r => by_model F mr o args s L V s' L' r /\ means mr o args s L V s' L' r).
Context (Hmeans : forall C o args A B R s va vr W lb LS fr FS rest,
  typed_inst C (IOp o args) A B -> is_control o = false -> inst_ok (IOp o args) -> has_types va A -> has_types vr R ->
  Forall val_wf va -> Forall val_wf vr -> sound (sg := sg) s C fr -> at_code lb (IOp o args :: rest) ->
  odd (mkmach s ((va ++ vr) ++ W) (lb :: LS) (fr :: FS)) \/
  forall s' L' r, by_model F (fr_module fr) o args s (fr_locals fr) (va ++ vr) s' L' r ->
    means (fr_module fr) o args s (fr_locals fr) (va ++ vr) s' L' r).
Context (Hsame : forall mr o args s L V s1 L1 r1 s2 L2 r2,
  means mr o args s L V s1 L1 r1 -> given mr o args s L V s2 L2 r2 -> s1 = s2 /\ L1 = L2 /\ r1 = r2).

Definition F_run (d : nat) (mr : modref) s L V is s' L' o : Prop :=
  forall C ts outs W lb LS fr FS, typed_seq C is ts outs -> code_ok is -> has_types V ts -> Forall val_wf V -> sound (sg := sg) s C fr ->
    at_code lb is -> (lb_value lb <= length W)%nat -> fr_module fr = mr -> fr_locals fr = L -> S (length FS) = d ->
    stray (mkmach s (V ++ W) (lb :: LS) (fr :: FS)) \/
    (run_by both F hs d mr s L V is s' L' o /\ after (sg := sg) C outs s s' L' o).
Definition F_one (d : nat) (mr : modref) s L V i s' L' o : Prop :=
  forall C A B R rest va vr W lb LS fr FS, V = va ++ vr -> typed_inst C i A B -> inst_ok i -> has_types va A -> has_types vr R ->
    Forall val_wf va -> Forall val_wf vr -> sound (sg := sg) s C fr -> at_code lb (i :: rest) -> (lb_value lb <= length W)%nat ->
    fr_module fr = mr -> fr_locals fr = L -> S (length FS) = d ->
    stray (mkmach s (V ++ W) (lb :: LS) (fr :: FS)) \/
    (one_by both F hs d mr s L V i s' L' o /\ after (sg := sg) C (B ++ R) s s' L' o).
Definition F_loops (d : nat) (mr : modref) (n : nat) s L A body s' L' o : Prop :=
  forall C ts r outs W LS fr FS, c_labels C = ts :: r -> length ts = n -> typed_seq C body ts outs -> has_types A ts -> code_ok body ->
    Forall val_wf A -> sound (sg := sg) s C fr -> fr_module fr = mr -> fr_locals fr = L -> S (length FS) = d ->
    stray (mkmach s (A ++ W) (mklabel n d (length W) KLoop body 0 :: LS) (fr :: FS)) \/
    (loops_by both F hs d mr n s L A body s' L' o /\ (forall R, o <> Jump 0 R) /\ after (sg := sg) C outs s s' L' o).
Definition F_called (d : nat) s L V a s' L' o : Prop :=
  forall C f A vr R W LB fr FS, V = rev A ++ vr -> sound (sg := sg) s C fr -> LB <> [] ->
    nth_error (s_func s) a = Some f -> has_types A (ft_args (fi_type f)) -> Forall val_wf A -> has_types vr R -> Forall val_wf vr ->
    fr_locals fr = L -> S (length FS) = d ->
    (exists m1, evaluate_call F host (Z.of_nat a) (mkmach s (V ++ W) LB (fr :: FS)) = (Ok tt, m1) /\ stray m1) \/
    (called_by both F hs d s L V a s' L' o /\ L' = L /\ after (sg := sg) C (rev (ft_rets (fi_type f)) ++ R) s s' L' o).

Lemma stray_reach m m' : reach F host m m' -> stray m' -> stray m.
Proof. intros [n E] (m1 & (k & G) & H). exists m1. split; [|exact H]. exists (n + k)%nat. rewrite E. exact G. Qed.
Lemma stray_step m m1 : k_label m <> [] -> step F host m = (Ok tt, m1) -> stray m1 -> stray m.
Proof. intros H E. apply stray_reach, reach_step; assumption. Qed.
Lemma same_state C s fr : sound (sg := sg) s C fr -> store_ok s /\ store_typed sg s /\ same_types s s /\ Forall val_wf (fr_locals fr) /\ has_types (fr_locals fr) (c_locals C).
Proof. intros (H1 & H2 & (h & mi & _ & _ & _ & HL) & H4). split; [exact H1|]. split; [exact H2|]. split; [apply same_refl|]. split; assumption. Qed.
Lemma after_same C outs s fr o : sound (sg := sg) s C fr -> fits C outs o -> after (sg := sg) C outs s s (fr_locals fr) o.
Proof. intros H HF. destruct (same_state _ _ _ H) as (H1 & H2 & H3 & H4 & H5). right. do 5 (split; [assumption|]). exact HF. Qed.

(* straight-line code *)
Lemma straight_line C o args A B R s va vr W lb LS fr FS rest s' L' r :
  typed_inst C (IOp o args) A B -> inst_ok (IOp o args) -> has_types va A -> has_types vr R -> Forall val_wf va -> Forall val_wf vr -> sound (sg := sg) s C fr ->
  at_code lb (IOp o args :: rest) -> straight o = true -> given (fr_module fr) o args s (fr_locals fr) (va ++ vr) s' L' r ->
  stray (mkmach s ((va ++ vr) ++ W) (lb :: LS) (fr :: FS)) \/
  (by_model F (fr_module fr) o args s (fr_locals fr) (va ++ vr) s' L' r /\ means (fr_module fr) o args s (fr_locals fr) (va ++ vr) s' L' r /\
   after (sg := sg) C (B ++ R) s s' L' (match r with Some V' => Done V' | None => Trap end)).
Proof.
  intros HTI Hok HA HR WA WR HS Hc HSt HG. pose proof HS as (Ok_s & Hs & Hf & HWL).
  assert (Ec : is_control o = false) by (destruct o; (reflexivity || discriminate HSt)).
  assert (HL : has_types (fr_locals fr) (c_locals C)) by (destruct Hf as (? & ? & _ & _ & _ & H); exact H).
  assert (W' : Forall val_wf (va ++ vr)) by (apply Forall_app; split; assumption).
  pose proof (t_basic F CF s Hs Ok_s (fr_module fr) C (frame_instance _ _ _ Hf) (fr_locals fr) HL vr o args A B va HTI Ec HA W') as Hb.
  inversion Hok as [| | |? ? Hop]; subst.
  pose proof (w_basic s Ok_s F (fr_module fr) o args Hop (mkb s (fr_locals fr) (va ++ vr)) (conj eq_refl (conj HWL W'))) as Hw.
  pose proof (proj2 (deep_basic F (fr_module fr) o args) s (fr_locals fr) (va ++ vr)) as Hd.
  specialize (Hd ltac:(rewrite app_length, (types_length _ _ HA); pose proof (typed_takes _ _ _ _ _ HTI Ec); lia)).
  destruct (Hmeans C o args A B R s va vr W lb LS fr FS rest HTI Ec Hok HA HR WA WR HS Hc) as [Hm|Hm].
  { left. eexists. split; [exists O; reflexivity|exact Hm]. }
  right. unfold TypeBasicFacts.ends in Hb. destruct (exec_basic F (fr_module fr) o args _) as [[[]|e] [s1 L1 V1]] eqn:EX; cbn [b_store b_locals b_value] in *.
  - destruct Hb as (vs & Ev & HT' & HL' & Hs' & Hsa). cbn [b_store b_locals b_value] in *. subst V1. destruct Hw as (P1 & P2 & P3 & P4). cbn [b_store b_locals b_value] in *.
    assert (BM : by_model F (fr_module fr) o args s (fr_locals fr) (va ++ vr) s1 L1 (Some (vs ++ vr))) by exact EX.
    destruct (Hsame _ _ _ _ _ _ _ _ _ _ _ _ (Hm _ _ _ BM) HG) as (<- & <- & <-). split; [exact BM|]. split; [exact (Hm _ _ _ BM)|]. right.
    do 5 (split; [assumption|]). split; [apply types_join; assumption|assumption].
  - assert (BM : by_model F (fr_module fr) o args s (fr_locals fr) (va ++ vr) s1 L1 None) by (exists e, V1; split; [exact EX|exact Hd]).
    destruct (Hsame _ _ _ _ _ _ _ _ _ _ _ _ (Hm _ _ _ BM) HG) as (<- & <- & <-). split; [exact BM|]. split; [exact (Hm _ _ _ BM)|]. left. reflexivity.
Qed.
Ltac sole HTI := inversion HTI; subst;
  try (match goal with H : signature _ = Some _ |- _ => discriminate H end);
  try (match goal with H : mem_signature _ = Some _ |- _ => discriminate H end);
  repeat match goal with H : Z.of_nat _ = Z.of_nat _ |- _ => apply Nat2Z.inj in H; subst end;
  repeat match goal with H : map Z.of_nat _ = map Z.of_nat _ |- _ => apply (map_inj Z.of_nat Nat2Z.inj) in H; subst end.

Ltac small := try first [assumption|reflexivity|apply sound_block; assumption|split; [reflexivity|cbn; lia]|cbn [lb_value]; lia].

Lemma follow :
  (forall d mr s L V is s' L' o, run_by given F hs d mr s L V is s' L' o -> F_run d mr s L V is s' L' o) /\
  (forall d mr s L V i s' L' o, one_by given F hs d mr s L V i s' L' o -> F_one d mr s L V i s' L' o) /\
  (forall d mr n s L A body s' L' o, loops_by given F hs d mr n s L A body s' L' o -> F_loops d mr n s L A body s' L' o) /\
  (forall d s L V a s' L' o, called_by given F hs d s L V a s' L' o -> F_called d s L V a s' L' o).
Proof.
  apply structured_ind.
  - (* nil *) intros d mr s L V C ts outs W lb LS fr FS HT Hok HV WV HS Hc Hv Hm HL Hd. right. apply typed_end in HT. subst ts L.
    split; [constructor|]. apply after_same; [exact HS|]. split; assumption.
  - (* cons *) intros d mr s L V i is s1 L1 V1 s2 L2 o _ H1 _ H2 C ts outs W lb LS fr FS HT Hok HV WV HS Hc Hv Hm HL Hd.
    apply typed_rest in HT. destruct HT as (A & B & R & -> & HTI & HTS). apply types_app in HV. destruct HV as (va & vr & -> & HA & HR).
    apply Forall_app in WV. destruct WV as [WA WR]. apply Forall_cons_iff in Hok. destruct Hok as [Hi His].
    destruct (H1 C A B R is va vr W lb LS fr FS eq_refl HTI Hi HA HR WA WR HS Hc Hv Hm HL Hd) as [U|[HO HAf]]; [left; exact U|].
    destruct HAf as [HAf|(A1 & A2 & A3 & A4 & A5 & A6 & A7)]; [discriminate HAf|].
    destruct (simulation F hs) as (_ & Sim & _). pose proof (Sim _ _ _ _ _ _ _ _ _ (forget_one F hs means _ _ _ _ _ _ _ _ _ HO) W lb LS fr FS is Hc Hv Hm HL Hd) as E. cbn [ends] in E.
    destruct (H2 C (B ++ R) outs W (goto lb (S (lb_index lb))) LS (relocal fr L1) FS HTS His A6 A7 (sound_later C s s1 fr L1 HS A1 A2 A3 A4 A5)
      (at_code_next _ _ _ Hc) Hv Hm eq_refl Hd) as [U|[HRun HO2]]; [left; exact (stray_reach _ _ E U)|].
    right. split; [eapply run_cons; [exact HO|exact HRun]|exact (after_later _ _ _ _ _ _ _ A3 HO2)].
  - (* stop *) intros d mr s L V i is s1 L1 o _ H1 ED C ts outs W lb LS fr FS HT Hok HV WV HS Hc Hv Hm HL Hd.
    apply typed_rest in HT. destruct HT as (A & B & R & -> & HTI & HTS). apply types_app in HV. destruct HV as (va & vr & -> & HA & HR).
    apply Forall_app in WV. destruct WV as [WA WR]. apply Forall_cons_iff in Hok. destruct Hok as [Hi His].
    destruct (H1 C A B R is va vr W lb LS fr FS eq_refl HTI Hi HA HR WA WR HS Hc Hv Hm HL Hd) as [U|[HO HAf]]; [left; exact U|].
    right. split; [eapply run_stop; eassumption|]. destruct HAf as [->|HAf]; [left; reflexivity|]. right.
    destruct HAf as (A1 & A2 & A3 & A4 & A5 & A6). do 5 (split; [assumption|]). destruct o; try exact A6. discriminate ED.
  - (* straight-line code *) intros d mr s L V o args s' L' V' HSt HG C A B R rest va vr W lb LS fr FS -> HTI Hok HA HR WA WR HS Hc Hv Hm HL Hd.
    subst mr L. destruct (straight_line C o args A B R s va vr W lb LS fr FS rest s' L' (Some V') HTI Hok HA HR WA WR HS Hc HSt HG) as [U|(BM & MM & AF)]; [left; exact U|].
    right. split; [apply one_op; [exact HSt|split; assumption]|exact AF].
  - intros d mr s L V o args s' L' HSt HG C A B R rest va vr W lb LS fr FS -> HTI Hok HA HR WA WR HS Hc Hv Hm HL Hd.
    subst mr L. destruct (straight_line C o args A B R s va vr W lb LS fr FS rest s' L' None HTI Hok HA HR WA WR HS Hc HSt HG) as [U|(BM & MM & AF)]; [left; exact U|].
    right. split; [apply one_op_trap; [exact HSt|split; assumption]|left; reflexivity].
  - (* block *) intros d mr s L A' V' bt t' body s' L' o o' HBT' LA' _ IH HLV C A B R rest va vr W lb LS fr FS EV HTI Hok HA HR WA WR HS Hc Hv Hm HL Hd.
    pose proof HS as (Ok_s & Hs & Hf & HWL). inversion HTI; subst. inversion Hok; subst.
    pose proof (typed_block_type _ _ _ _ _ Hf ltac:(eassumption)) as HBT. pose proof (block_same _ _ _ _ HBT HBT') as <-.
    pose proof (types_length _ _ HA) as LA. rewrite rev_length in LA.
    destruct (split_at _ _ _ _ EV ltac:(lia)) as [-> ->].
    assert (HVW : (lb_value lb <= length (vr ++ W))%nat) by (rewrite app_length; lia).
    destruct (IH (in_block (rev (ft_rets t)) C) (rev (ft_args t)) (rev (ft_rets t)) (vr ++ W)
      (mklabel (length (ft_rets t)) (length (fr :: FS)) (length (vr ++ W)) KBlock body 0) (goto lb (S (lb_index lb)) :: LS) fr FS) as [U|[HRun HO]];
      small.
    + left. refine (stray_step _ _ _ _ U); [discriminate|].
      rewrite <- app_assoc, (step_at F hs _ _ _ _ _ _ _ _ Hc). cbn [exec]. rewrite (bind_ok _ _ _ _ _ (bype_run (fr_module fr) _ _ _ _ _ _ _ eq_refl HBT)).
      apply enter_run; [exact HVW|exact LA].
    + right. destruct (leave F means odd Hmeans C (rev (ft_rets t)) (rev (ft_rets t)) vr R s s' L' o HO HR WR (or_introl eq_refl)) as (o2 & H1' & H2'). rewrite rev_length in H1'.
      rewrite (leaves_same _ _ _ _ _ HLV H1'). split; [eapply one_block; eassumption|exact H2'].
  - (* loop *) intros d mr s L A' V' bt t' body s' L' o o' HBT' LA' _ IH HLV C A B R rest va vr W lb LS fr FS EV HTI Hok HA HR WA WR HS Hc Hv Hm HL Hd.
    pose proof HS as (Ok_s & Hs & Hf & HWL). inversion HTI; subst. inversion Hok; subst.
    pose proof (typed_block_type _ _ _ _ _ Hf ltac:(eassumption)) as HBT. pose proof (block_same _ _ _ _ HBT HBT') as <-.
    pose proof (types_length _ _ HA) as LA. rewrite rev_length in LA.
    destruct (split_at _ _ _ _ EV ltac:(lia)) as [-> ->].
    assert (HVW : (lb_value lb <= length (vr ++ W))%nat) by (rewrite app_length; lia).
    destruct (IH (in_block (rev (ft_args t)) C) (rev (ft_args t)) (c_labels C) (rev (ft_rets t)) (vr ++ W) (goto lb (S (lb_index lb)) :: LS) fr FS) as [U|(HRun & HJ & HO)];
      small; [apply rev_length| |].
    + left. refine (stray_step _ _ _ _ U); [discriminate|].
      rewrite <- app_assoc, (step_at F hs _ _ _ _ _ _ _ _ Hc). cbn [exec]. rewrite (bind_ok _ _ _ _ _ (bype_run (fr_module fr) _ _ _ _ _ _ _ eq_refl HBT)).
      apply enter_run; [exact HVW|exact LA].
    + right. destruct (leave F means odd Hmeans C (rev (ft_args t)) (rev (ft_rets t)) vr R s s' L' o HO HR WR (or_intror HJ)) as (o2 & H1' & H2'). rewrite rev_length in H1'.
      rewrite (leaves_same _ _ _ _ _ HLV H1'). split; [eapply one_loop; eassumption|exact H2'].
  - (* if *) intros d mr s L c A' V' bt t' th el s' L' o o' Wc' HBT' LA' _ IH HLV C A B R rest va vr W lb LS fr FS EV HTI Hok HA HR WA WR HS Hc Hv Hm HL Hd.
    pose proof HS as (Ok_s & Hs & Hf & HWL). inversion HTI; subst. inversion Hok; subst.
    pose proof (typed_block_type _ _ _ _ _ Hf ltac:(eassumption)) as HBT. pose proof (block_same _ _ _ _ HBT HBT') as <-.
    apply types_cons in HA. destruct HA as (c0 & va' & -> & _ & HA). apply Forall_cons_iff in WA. destruct WA as [Wc WA].
    pose proof (types_length _ _ HA) as LA. rewrite rev_length in LA. cbn [app] in EV. injection EV as <- EV.
    destruct (split_at _ _ _ _ EV ltac:(lia)) as [-> ->].
    destruct (low_signed c Wc) as (z & Ez & E0).
    assert (HVW : (lb_value lb <= length (vr ++ W))%nat) by (rewrite app_length; lia).
    destruct (IH (in_block (rev (ft_rets t)) C) (rev (ft_args t)) (rev (ft_rets t)) (vr ++ W)
      (mklabel (length (ft_rets t)) (length (fr :: FS)) (length (vr ++ W)) KBlock (if low 32 c =? 0 then el else th) 0) (goto lb (S (lb_index lb)) :: LS) fr FS) as [U|[HRun HO]];
      small; [destruct (low 32 c =? 0); assumption|destruct (low 32 c =? 0); assumption| |].
    + left. refine (stray_step _ _ _ _ U); [discriminate|].
      cbn [app]. rewrite <- app_assoc, (step_at F hs _ _ _ _ _ _ _ _ Hc). cbn [exec]. rewrite (bind_ok _ _ _ _ _ (bype_run (fr_module fr) _ _ _ _ _ _ _ eq_refl HBT)).
      unfold bind at 1, popv. cbn [k_value]. unfold set_value. cbn [k_store k_label k_frame]. unfold bind at 1, lift. rewrite Ez, E0.
      apply enter_run; [exact HVW|exact LA].
    + right. destruct (leave F means odd Hmeans C (rev (ft_rets t)) (rev (ft_rets t)) vr R s s' L' o HO HR WR (or_introl eq_refl)) as (o2 & H1' & H2'). rewrite rev_length in H1'.
      rewrite (leaves_same _ _ _ _ _ HLV H1'). split; [cbn [app]; eapply one_if; eassumption|exact H2'].
  - (* br *) intros d mr s L V k C A B R rest va vr W lb LS fr FS -> HTI Hok HA HR WA WR HS Hc Hv Hm HL Hd. subst L. sole HTI. right. split; [apply one_br|].
    apply after_same; [exact HS|].
    apply types_app in HA. destruct HA as (us & w & -> & HU & _). apply Forall_app in WA.
    exists ts, us, (w ++ vr). split; [assumption|]. split; [symmetry; apply app_assoc|]. split; [exact HU|apply WA].
  - (* br_if *) intros d mr s L c V k Wc' C A B R rest va vr W lb LS fr FS EV HTI Hok HA HR WA WR HS Hc Hv Hm HL Hd. subst L. sole HTI. right. split; [apply one_br_if, Wc'|].
    apply types_cons in HA. destruct HA as (c0 & va' & -> & _ & HA). apply Forall_cons_iff in WA. destruct WA as [Wc WA]. cbn [app] in EV. injection EV as <- ->.
    apply after_same; [exact HS|]. destruct (low 32 c =? 0); cbn [fits].
    + split; [apply types_join; assumption|apply Forall_app; split; assumption].
    + exists B, va', vr. auto.
  - (* br_table *) intros d mr s L c V ks k Wc' C A B R rest va vr W lb LS fr FS EV HTI Hok HA HR WA WR HS Hc Hv Hm HL Hd. subst L. sole HTI. right. split; [apply one_br_table, Wc'|].
    apply types_cons in HA. destruct HA as (c0 & va' & -> & _ & HA). apply Forall_cons_iff in WA. destruct WA as [Wc WA]. cbn [app] in EV. injection EV as <- ->.
    apply after_same; [exact HS|]. cbn [fits].
    apply types_app in HA. destruct HA as (us & w & -> & HU & _). apply Forall_app in WA.
    exists ts, us, (w ++ vr). split; [|split; [symmetry; apply app_assoc|split; [exact HU|apply WA]]].
    match goal with H : Forall _ (?d :: ?ls) |- _ => rewrite Forall_forall in H; apply H; destruct (nth_in_or_default (Z.to_nat (low 32 c)) ls d) as [I| ->]; [right; exact I|left; reflexivity] end.
  - (* return *) intros d mr s L V args C A B R rest va vr W lb LS fr FS -> HTI Hok HA HR WA WR HS Hc Hv Hm HL Hd. subst L. sole HTI. right. split; [apply one_return|].
    apply after_same; [exact HS|]. apply types_app in HA. destruct HA as (us & w & -> & HU & _). apply Forall_app in WA.
    exists us, (w ++ vr). split; [symmetry; apply app_assoc|]. split; [exact HU|apply WA].
  - (* call *) intros d mr s L V j a s' L' o Ha' _ IH C A B R rest va vr W lb LS fr FS EV HTI Hok HA HR WA WR HS Hc Hv Hm HL Hd.
    pose proof HS as (Ok_s & Hs & Hf & HWL). sole HTI.
    match goal with H : nth_error (c_funcs C) _ = _ |- _ => destruct (it_func _ _ _ (frame_instance _ _ _ Hf) _ _ H) as (a0 & f & Ha & Hf' & Tf) end.
    rewrite Ha' in Ha. injection Ha as Ha. apply Nat2Z.inj in Ha. subst a0.
    subst t. assert (EA : exists ar, va = rev ar) by (exists (rev va); symmetry; apply rev_involutive). destruct EA as (ar & EA). subst va. apply rev_types in HA. rewrite rev_involutive in HA.
    assert (War : Forall val_wf ar) by (rewrite <- (rev_involutive ar); apply Forall_rev, WA).
    destruct (IH C f ar vr R W (goto lb (S (lb_index lb)) :: LS) fr FS) as [(m1 & E1 & U)|(HC & -> & HO)]; try first [assumption|reflexivity|discriminate].
    + left. refine (stray_step _ _ _ _ U); [discriminate|]. rewrite <- E1.
      rewrite (step_at F hs _ _ _ _ _ _ _ _ Hc). cbn [exec]. unfold imm. unfold bind at 1, lift, arg_int. rewrite (py_index_0 [AInt (Z.of_nat j)] (AInt (Z.of_nat j)) eq_refl).
      cbn [rbind]. unfold bind at 1, mget. cbn [k_store]. unfold bind at 1, lift. rewrite (py_index_nth _ _ _ Ha'). reflexivity.
    + right. split; [eapply one_call; eassumption|exact HO].
  - (* call_indirect *) intros d mr s L c V i j ta tab ty u a f s' L' o Ha Hx Hty Wc' EN Hlt Nf Tf _ IH C A B R rest va vr W lb LS fr FS EV HTI Hok HA HR WA WR HS Hc Hv Hm HL Hd.
    pose proof HS as (Ok_s & Hs & Hf & HWL). sole HTI.
    apply types_cons in HA. destruct HA as (c0 & va' & -> & _ & HA). apply Forall_cons_iff in WA. destruct WA as [Wc WA]. cbn [app] in EV. injection EV as <- ->.
    match goal with H : nth_error (c_types C) _ = _ |- _ => rewrite <- (it_type _ _ _ (frame_instance _ _ _ Hf)) in H; rewrite Hty in H; injection H as <- end.
    assert (EA : exists ar, va' = rev ar) by (exists (rev va'); symmetry; apply rev_involutive). destruct EA as (ar & EA). subst va'. apply rev_types in HA. rewrite rev_involutive in HA.
    assert (War : Forall val_wf ar) by (rewrite <- (rev_involutive ar); apply Forall_rev, WA).
    destruct (IH C f ar vr R W (goto lb (S (lb_index lb)) :: LS) fr FS) as [(m1 & E1 & U)|(HC & -> & HO)]; try first [assumption|reflexivity|discriminate].
    + left. refine (stray_step _ _ _ _ U); [discriminate|]. rewrite <- E1. cbn [app].
      rewrite (step_at F hs _ _ _ _ _ _ _ _ Hc). unfold imm. rewrite (indirect_run F host s c ((rev ar ++ vr) ++ W) _ fr FS _ j i ta tab (fi_type f) c Ha Hx Hty Wc), EN.
      unfold bind at 1, lift at 1. rewrite ref_to_addr by exact Hlt. unfold bind at 1, lift at 1. rewrite (py_index_nth _ _ _ Nf).
      unfold bind at 1, assert, lift. rewrite (proj2 (ft_eqb_eq _ _) eq_refl). reflexivity.
    + right. split; [eapply one_indirect; try eassumption; reflexivity|exact HO].
  - (* call_indirect, trap *) intros d mr s L c V i j ta tab ty Ha Hx Hty Wc' HT C A B R rest va vr W lb LS fr FS EV HTI Hok HA HR WA WR HS Hc Hv Hm HL Hd.
    right. split; [eapply one_indirect_trap; eassumption|left; reflexivity].
  - (* the end of a loop *) intros d mr n s L A body s' L' o _ IH HJ C ts r outs W LS fr FS EL EK HT HA Hok WA HS Hm HL Hd. subst d.
    destruct (IH C ts outs W (mklabel n (S (length FS)) (length W) KLoop body 0) LS fr FS) as [U|[HR HO]]; small; [left; exact U|].
    right. split; [apply loop_end; assumption|]. split; assumption.
  - (* once more *) intros d mr n s L A body s1 L1 R s' L' o _ IH1 HN _ IH2 C ts r outs W LS fr FS EL EK HT HA Hok WA HS Hm HL Hd. subst d.
    destruct (IH1 C ts outs W (mklabel n (S (length FS)) (length W) KLoop body 0) LS fr FS) as [U|[HR HO]]; small; [left; exact U|].
    destruct HO as [HO|(A1 & A2 & A3 & A4 & A5 & A6)]; [discriminate HO|]. cbn [fits] in A6. destruct A6 as (ts' & X & Y & N & -> & TX & WX).
    rewrite EL in N. injection N as <-. pose proof (types_length _ _ TX) as HX.
    assert (EX : firstn n (X ++ Y) = X) by (rewrite <- EK, <- HX, firstn_app, firstn_all, PeanoNat.Nat.sub_diag, firstn_O, app_nil_r; reflexivity).
    destruct (simulation F hs) as [Sim _]. pose proof (Sim _ _ _ _ _ _ _ _ _ (forget F hs means _ _ _ _ _ _ _ _ _ HR)) as E. unfold P_run in E.
    specialize (E W (mklabel n (S (length FS)) (length W) KLoop body 0) LS fr FS (conj eq_refl (PeanoNat.Nat.le_0_l _)) (le_n _) Hm HL eq_refl).
    cbn [ends] in E. specialize (E _ eq_refl (le_n _)). cbn [lb_arity lb_value lb_carry lb_frame skipn] in E.
    specialize (E HN). rewrite EX in E. rewrite !keep_all in E by reflexivity. rewrite EX in *.
    destruct (IH2 C ts r outs W LS (relocal fr L1) FS) as [U|(HL2 & HJ & HO2)]; small.
    + apply (sound_later C s); assumption.
    + left. exact (stray_reach _ _ (reach1_weak _ _ _ _ E) U).
    + right. split; [|split; [exact HJ|exact (after_later _ _ _ _ _ _ _ A3 HO2)]]. eapply loop_again; [exact HR|exact HN|]. rewrite EX. exact HL2.
  - (* calling a function *) intros d s L A' V' a t h code s' L' o o' N LA' Hlt _ IH HRt C f A vr R W LB fr FS EV HS HLB N' HA WA HR WR HL Hd.
    rewrite N in N'. injection N' as <-. cbn [fi_type] in *. pose proof (types_length _ _ HA) as LA.
    destruct (split_at _ _ _ _ EV ltac:(rewrite !rev_length; lia)) as [EA ->]. apply (f_equal (@rev val)) in EA. rewrite !rev_involutive in EA. subst A'.
    pose proof HS as (Ok_s & Hs & Hf & HWL). assert (HL' : has_types (fr_locals fr) (c_locals C)) by (destruct Hf as (? & ? & _ & _ & _ & H); exact H).
    pose proof (nth_Forall _ _ _ _ (st_func s Hs) N) as (mi & C2 & Hmi & Hin & Hloc & Hlab & Hret & Hty).
    pose proof (call_enters F host s A vr W LB (fr :: FS) a t h code N LA ltac:(cbn [length]; lia)) as E. cbv zeta in E.
    set (fr' := mkframe _ _ _ _ _) in E. set (lb' := mklabel _ _ _ _ _ _) in E.
    assert (S' : sound (sg := sg) s C2 fr').
    { split; [exact Ok_s|]. split; [exact Hs|]. unfold fr'. rewrite <- default_zero. split.
      - exists h, mi. split; [reflexivity|]. split; [exact Hmi|]. split; [exact Hin|]. cbn [fr_locals]. rewrite Hloc. apply types_join; [exact HA|apply zero_types].
      - cbn [fr_locals]. apply Forall_app. split; [exact WA|apply zero_locals_wf]. }
    destruct (IH C2 [] (rev (ft_rets t)) (vr ++ W) lb' LB fr' (fr :: FS) Hty (nth_Forall _ _ _ _ (so_func s Ok_s) N) eq_refl (Forall_nil _) S'
      (conj eq_refl (PeanoNat.Nat.le_0_l _)) (le_n _) eq_refl eq_refl ltac:(cbn [length]; lia)) as [U|[HRun HO]].
    + left. eexists. split; [exact E|]. exact U.
    + right. subst L. destruct (give_back F means odd Hmeans C C2 (fr_locals fr) t vr R s s' L' o HO Hlab Hret HR WR HL' HWL) as (o2 & H1 & H2). rewrite (returns_same _ _ _ _ _ HRt H1).
      split; [eapply call_wasm; eassumption|]. split; [reflexivity|exact H2].
  - intros d s L A' V' a t h code N LA' Hlt C f A vr R W LB fr FS EV HS HLB N' HA WA HR WR HL Hd. right. split; [eapply call_deep; eassumption|]. split; [reflexivity|left; reflexivity].
  - (* a host function *) intros d s L A' V' a t hid pargs rets s' rs N LA' EP EH HLr ER C f A vr R W LB fr FS EV HS HLB N' HA WA HR WR HL Hd.
    rewrite N in N'. injection N' as <-. cbn [fi_type] in *. pose proof (types_length _ _ HA) as LA.
    destruct (split_at _ _ _ _ EV ltac:(rewrite !rev_length; lia)) as [EA ->]. apply (f_equal (@rev val)) in EA. rewrite !rev_involutive in EA. subst A'.
    pose proof HS as (Ok_s & Hs & Hf & HWL). assert (HL' : has_types (fr_locals fr) (c_locals C)) by (destruct Hf as (? & ? & _ & _ & _ & H); exact H).
    right. split; [eapply call_outside; eassumption|]. split; [reflexivity|]. subst L.
    assert (HP : host hid pargs (mkmach s [] [] []) = (Ok rets, mkmach s' [] [] [])) by (unfold plain_host; cbn [k_store k_value k_label k_frame]; rewrite EH; reflexivity).
    destruct (HH hid pargs (mkmach s [] [] []) _ _ Hs HP) as (T1 & T2 & T3). cbn [k_store k_value k_label k_frame] in *.
    assert (MO : machine_ok (mkmach s [] [] [])) by (constructor; [exact Ok_s|constructor..]).
    destruct (HB hid pargs _ _ _ MO HP) as (B1 & _ & B3). right.
    split; [exact (mo_store _ B1)|]. split; [exact T1|]. split; [exact T2|]. split; [exact HWL|]. split; [exact HL'|].
    split; [apply types_join; [apply types_rev; exact (from_alls_types _ _ _ _ ER HLr)|exact HR]|].
    apply Forall_app. split; [|exact WR]. apply Forall_rev. exact (from_alls_gives F (ft_rets t) rets (B3 _ eq_refl) rs ER).
  - intros d s L A' V' a t hid e N LA' EP C f A vr R W LB fr FS EV HS HLB N' HA WA HR WR HL Hd. right. split; [eapply call_outside_args; eassumption|]. split; [reflexivity|left; reflexivity].
  - intros d s L A' V' a t hid pargs rets s' e N LA' EP EH ER C f A vr R W LB fr FS EV HS HLB N' HA WA HR WR HL Hd. right. split; [eapply call_outside_rets; eassumption|]. split; [reflexivity|left; reflexivity].
  - intros d s L A' V' a t hid pargs e s' N LA' EP EH C f A vr R W LB fr FS EV HS HLB N' HA WA HR WR HL Hd. right. split; [eapply call_outside_trap; eassumption|]. split; [reflexivity|left; reflexivity].
Qed.
End follow.

(* ---- calls ---- *)
Section function.
Context {sg : nat -> functype} (F : fops) (CF : converts F) (hs : storehost).
Notation host := (plain_host hs).
Context (HB : well_behaved host) (HH : host_typed sg host).
Context (s : store) (a : nat) (t : functype) (h : nat) (code : funcdesc) (args : list val).
Context (Ok_s : store_ok s) (Hs : store_typed sg s) (N : nth_error (s_func s) a = Some (FWasm t h code)).
Context (WA : Forall val_wf args) (HA : has_types args (ft_args t)).
Context (means given : meaning) (odd : machine -> Prop).
Context (Hmeans : forall C o args A B R s va vr W lb LS fr FS rest,
  typed_inst C (IOp o args) A B -> is_control o = false -> inst_ok (IOp o args) -> has_types va A -> has_types vr R ->
  Forall val_wf va -> Forall val_wf vr -> sound (sg := sg) s C fr -> at_code lb (IOp o args :: rest) ->
  odd (mkmach s ((va ++ vr) ++ W) (lb :: LS) (fr :: FS)) \/
  forall s' L' r, by_model F (fr_module fr) o args s (fr_locals fr) (va ++ vr) s' L' r ->
    means (fr_module fr) o args s (fr_locals fr) (va ++ vr) s' L' r).
Context (Hsame : forall mr o args s L V s1 L1 r1 s2 L2 r2,
  means mr o args s L V s1 L1 r1 -> given mr o args s L V s2 L2 r2 -> s1 = s2 /\ L1 = L2 /\ r1 = r2).
Notation start := (starts s t h code args).
Lemma followed s' L' o : run_by given F hs 2 (MRef h) s (args ++ default_locals (fd_locals code)) [] (fd_expr code) s' L' o ->
  meets F host odd start \/
  exists r n0, result (length (ft_rets t)) o r /\ forall n, (n0 <= n)%nat ->
    ~ unfinished F host n start /\
    match invocate F host n (Z.of_nat a) args (mkmach s [] [] []) with
    | (Ok R, m') => r = Some R /\ m' = mkmach s' [] [] []
    | (Err _, m') => r = None /\ k_store m' = s'
    end.
Proof.
  intros HG. pose proof (nth_Forall _ _ _ _ (st_func s Hs) N) as (mi & C2 & Hmi & Hin & Hloc & Hlab & Hret & Hty).
  assert (S' : sound (sg := sg) s C2 (first_frame t h code args)).
  { split; [exact Ok_s|]. split; [exact Hs|]. unfold first_frame. rewrite <- default_zero. split.
    - exists h, mi. split; [reflexivity|]. split; [exact Hmi|]. split; [exact Hin|]. cbn [fr_locals]. rewrite Hloc. apply types_join; [exact HA|apply zero_types].
    - cbn [fr_locals]. apply Forall_app. split; [exact WA|apply zero_locals_wf]. }
  destruct (proj1 (follow F CF hs HB HH means given odd Hmeans Hsame) _ _ _ _ _ _ _ _ _ HG C2 [] (rev (ft_rets t)) [] (first_label t code) [] (first_frame t h code args) [dummy]
    Hty (nth_Forall _ _ _ _ (so_func s Ok_s) N) eq_refl (Forall_nil _) S' (conj eq_refl (PeanoNat.Nat.le_0_l _)) (le_n _) eq_refl eq_refl eq_refl) as [U|[HRun HO]].
  { left. rewrite starts_eq. exact U. }
  right. apply forget in HRun.
  assert (R : exists r, result (length (ft_rets t)) o r).
  { destruct HO as [->|(_ & _ & _ & _ & _ & A6)]; [exists None; constructor|]. destruct o as [X|k X|X|]; cbn [fits] in A6.
    - eexists. constructor. rewrite (types_length _ _ (proj1 A6)). apply rev_length.
    - destruct A6 as (ts & Y & Z & E & _). rewrite Hlab in E. destruct k; discriminate E.
    - destruct A6 as (Y & Z & -> & T & W). eexists. constructor. rewrite app_length, (types_length _ _ T), rev_length, Hret. lia.
    - contradiction. }
  destruct R as [r Hr]. exists r. destruct r as [R|].
  - destruct (run_results F hs s t h code args _ _ _ _ HRun Hr) as (n0 & E). exists n0. split; [exact Hr|]. intros n Hn.
    pose proof (ended F hs s t h code args _ _ _ E (or_intror eq_refl)) as NU.
    rewrite <- (evaluate_finished F hs n0 n _ Hn NU) in E. split; [exact (ended F hs s t h code args _ _ _ E (or_intror eq_refl))|].
    rewrite (invocate_value F CF hs HB HH s a t h code args Ok_s Hs N WA HA _ _ _ E). split; reflexivity.
  - destruct (run_traps F hs s t h code args _ _ _ HRun Hr) as (n0 & e & m' & E & HS'). exists n0. split; [exact Hr|]. intros n Hn.
    pose proof (ended F hs s t h code args _ _ _ E ltac:(left; discriminate)) as NU.
    rewrite <- (evaluate_finished F hs n0 n _ Hn NU) in E. split; [exact (ended F hs s t h code args _ _ _ E ltac:(left; discriminate))|].
    rewrite (invocate_fails F hs s a t h code args N HA _ _ _ E). split; [reflexivity|exact HS'].
Qed.
End function.
