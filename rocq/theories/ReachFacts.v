(* Calls run only what the call graph allows (C136). *)
From Coq Require Import ZArith List Bool Lia ZifyBool ZifyNat.
From Verif Require Import Py Floatops Val Opcode Numeric Syntax Store Basic Machine SpecMachine SpecControl SpecType SpecCode SpecEnds SpecStacks SpecReach
  PyFacts StepFacts ControlFacts CodeFacts EndsFacts StacksBasicFacts StacksFacts ReachBasicFacts.
Import ListNotations.
Open Scope Z_scope.

(* ---- parts of a turn, also those that raise ---- *)
Definition hush {A} (c : M A) : Prop := forall m r m', c m = (r, m') -> still m m'.
Lemma still_trans a b c : still a b -> still b c -> still a c.
Proof. intros (E1 & E2 & E3) (E4 & E5 & E6). unfold still. now rewrite E4, E5, E6. Qed.
Lemma hush_bind {A B'} (c : M A) (f : A -> M B') : hush c -> (forall a, hush (f a)) -> hush (bind c f).
Proof.
  intros Q H m r m'. unfold bind. destruct (c m) as [[a|x] m1] eqn:E; intros E2; [|injection E2 as _ <-; exact (Q _ _ _ E)].
  exact (still_trans _ _ _ (Q _ _ _ E) (H a _ _ _ E2)).
Qed.
Lemma hush_ret {A} (a : A) : hush (ret a). Proof. intros m r m' E. injection E as _ <-. apply still_refl. Qed.
Lemma hush_lift {A} (x : res A) : hush (lift x). Proof. intros m r m' E. injection E as _ <-. apply still_refl. Qed.
Lemma hush_assert c : hush (assert c). Proof. intros m r m' E. unfold assert in E. destruct c; injection E as _ <-; apply still_refl. Qed.
Lemma hush_mget : hush mget. Proof. intros m r m' E. injection E as _ <-. apply still_refl. Qed.
Lemma hush_popv : hush popv. Proof. intros m r m' E. unfold popv in E. destruct (k_value m); injection E as _ <-; repeat split. Qed.
Lemma hush_popn n : hush (popn n).
Proof. induction n as [|n IH]; [apply hush_ret|]. apply hush_bind; [apply hush_popv|]. intros v. apply hush_bind; [exact IH|]. intros vs. apply hush_ret. Qed.
Lemma hush_top : hush top_frame. Proof. intros m r m' E. unfold top_frame in E. destruct (k_frame m); injection E as _ <-; apply still_refl. Qed.
Lemma hush_extend l : hush (extend l). Proof. intros m r m' E. injection E as _ <-. repeat split. Qed.
Lemma hush_bype bt : hush (evaluate_bype bt).
Proof. destruct bt; cbn [evaluate_bype]; [apply hush_ret|apply hush_ret|]. apply hush_bind; [apply hush_top|]. intros f. apply hush_bind; [apply hush_mget|]. intros m. apply hush_lift. Qed.
Ltac hs := first [apply hush_ret|apply hush_lift|apply hush_assert|apply hush_mget|apply hush_popv|apply hush_popn|apply hush_top|apply hush_extend|apply hush_bype].

(* ---- the stacks ---- *)
Section run.
Context (F : fops) (host : hostcode) (s : store) (G : funcinst -> Prop) (Q : store -> Prop).
Context (Hh : minds_its_business host) (HG : call_closed s G).
Context (HQ : forall t h code o args mr b, G (FWasm t h code) -> within (IOp o args) (fd_expr code) -> Q (b_store b) -> Q (b_store (snd (exec_basic F mr o args b)))).
Context (HH : forall t hid args m r m', G (FHost t hid) -> host hid args m = (r, m') -> Q (k_store m) -> Q (k_store m')).

(* frames and labels of nested calls of functions of [G] *)
Inductive lodged : option (functype * nat * funcdesc * nat) -> list frame -> list label -> Prop :=
| ld_none fs : lodged None fs []
| ld_func x fr fs lb ls t h code : lodged x fs ls -> G (FWasm t h code) -> fr_module fr = MRef h -> fr_label fr = length ls -> lb_carry lb = KFunc ->
    lb_instr lb = fd_expr code -> lodged (Some (t, h, code, O)) (fr :: fs) (lb :: ls)
| ld_block t h code d fs lb ls : lodged (Some (t, h, code, d)) fs ls -> lb_carry lb <> KFunc -> lb_frame lb = length fs ->
    stays_inside (S d) (lb_instr lb) -> (forall i, within i (lb_instr lb) -> within i (fd_expr code)) -> lodged (Some (t, h, code, S d)) fs (lb :: ls).
Definition housed (m : machine) : Prop := code_same s m /\ Q (k_store m) /\ exists x, lodged x (k_frame m) (k_label m).
(* the part is as it was also after an exception *)
Definition fair {A} (r : res A * machine) : Prop := match r with (Ok _, m) => housed m | (Err _, m) => Q (k_store m) end.
Lemma fair_bind {A B'} (c : M A) (f : A -> M B') m : Q (k_store m) -> hush c -> (forall a m', still m m' -> c m = (Ok a, m') -> fair (f a m')) -> fair (bind c f m).
Proof.
  intros HQm HC H. unfold bind. destruct (c m) as [[a|x] m'] eqn:E; [exact (H _ _ (HC _ _ _ E) eq_refl)|]. cbn. destruct (HC _ _ _ E) as (_ & _ & ->). exact HQm.
Qed.
Lemma lodged_frame x fs ls t h code d : lodged x fs ls -> x = Some (t, h, code, d) ->
  exists fr fs' bs lb ls' x', fs = fr :: fs' /\ ls = bs ++ lb :: ls' /\ fr_module fr = MRef h /\ fr_label fr = length ls' /\ lodged x' fs' ls' /\ G (FWasm t h code).
Proof.
  intros H. revert t h code d. induction H as [|x fr fs lb ls t h code H IH E1 E2 E3 E4 E5|t h code d0 fs lb ls H IH E1 E2 E3 E4]; intros t1 h1 code1 d1 E; [discriminate E| |].
  - injection E as <- <- <- <-. exists fr, fs, [], lb, ls, x. repeat split; auto.
  - injection E as <- <- <- <-. destruct (IH _ _ _ _ eq_refl) as (fr & fs' & bs & lb' & ls' & x' & -> & -> & K1 & K2 & K3 & K4).
    exists fr, fs', (lb :: bs), lb', ls', x'. repeat split; auto.
Qed.
Lemma lodged_label x fs ls t h code d k : lodged x fs ls -> x = Some (t, h, code, d) -> (k < d)%nat ->
  exists lb d', nth_error ls k = Some lb /\ lb_carry lb <> KFunc /\ lb_frame lb = length fs /\ stays_inside (S d') (lb_instr lb) /\
    (forall i, within i (lb_instr lb) -> within i (fd_expr code)) /\ lodged (Some (t, h, code, d')) fs (skipn (S k) ls).
Proof.
  intros H. revert t h code d k. induction H as [|x fr fs lb ls t h code H IH E1 E2 E3 E4 E5|t h code d0 fs lb ls H IH E1 E2 E3 E4]; intros t1 h1 code1 d1 k E L; [discriminate E| |].
  - injection E as <- <- <- <-. lia.
  - injection E as <- <- <- <-. destruct k as [|k]; cbn [nth_error skipn].
    + exists lb, d0. auto 10.
    + apply (IH _ _ _ _ k eq_refl). lia.
Qed.
Lemma lodged_top x fs lb ls : lodged x fs (lb :: ls) ->
  exists t h code d, x = Some (t, h, code, d) /\ stays_inside d (lb_instr lb) /\ (forall i, within i (lb_instr lb) -> within i (fd_expr code)) /\
    forall j, lodged x fs (mklabel (lb_arity lb) (lb_frame lb) (lb_value lb) (lb_carry lb) (lb_instr lb) j :: ls).
Proof.
  intros H. inversion H as [|x' fr fs' lb' ls' t h code H1 E1 E2 E3 E4 E5|t h code d fs' lb' ls' H1 E1 E2 E3 E4]; subst.
  - exists t, h, code, O. split; [reflexivity|]. rewrite E5. split; [apply (HG _ _ _ E1)|]. split; [auto|]. intros j. apply ld_func with x'; auto.
  - exists t, h, code, (S d). split; [reflexivity|]. split; [exact E3|]. split; [exact E4|]. intros j. apply ld_block; auto.
Qed.
Lemma lodged_locals x fr fs ls L : lodged x (fr :: fs) ls -> lodged x (mkframe (fr_module fr) L (fr_arity fr) (fr_label fr) (fr_value fr) :: fs) ls.
Proof.
  intros H. remember (fr :: fs) as FS eqn:E. induction H as [|x fr' fs' lb ls t h code H IH E1 E2 E3 E4 E5|t h code d0 fs' lb ls H IH E1 E2 E3 E4].
  - constructor.
  - injection E as -> ->. apply ld_func with x; auto.
  - subst fs'. apply ld_block; auto.
Qed.
Lemma housed_still m m' : still m m' -> housed m -> housed m'.
Proof. intros (E1 & E2 & E3). unfold housed, code_same. now rewrite E1, E2, E3. Qed.

Lemma br_fair m t h code d l : code_same s m -> Q (k_store m) -> lodged (Some (t, h, code, d)) (k_frame m) (k_label m) -> inward d l -> fair (evaluate_br l m).
Proof.
  intros HS Hq H [Hl Hd]. unfold evaluate_br, bind at 1, mget at 1.
  destruct (lodged_label _ _ _ _ _ _ _ (Z.to_nat l) H eq_refl ltac:(lia)) as (lb & d' & K1 & K2 & K3 & K4 & K5 & K6).
  apply fair_bind; [exact Hq|hs|]. intros ? m1 _ EA. unfold assert in EA. destruct (_ >=? _); [|discriminate EA]. injection EA as _ <-. rewrite K1.
  apply fair_bind; [exact Hq|hs|]. intros ? m1 _ EA. unfold assert in EA. destruct (Nat.leb _ _); [|discriminate EA]. injection EA as _ <-.
  apply fair_bind; [exact Hq|hs|]. intros rets m2 (S1 & S2 & S3) _.
  unfold bind, mget, mput. cbn [fair]. unfold housed, code_same in *. cbn [k_store k_frame k_label k_value]. rewrite S1, S2, S3, K3. rewrite (keep_all (length (k_frame m))) by reflexivity.
  split; [exact HS|]. split; [exact Hq|].
  destruct (lb_carry lb) eqn:EC; [|exists (Some (t, h, code, d')); exact K6|congruence].
  exists (Some (t, h, code, S d')). apply ld_block; cbn [lb_carry lb_frame lb_instr]; auto; discriminate.
Qed.
Lemma enter_fair m t0 h code d lb k t body : code_same s m -> Q (k_store m) -> lodged (Some (t0, h, code, d)) (k_frame m) (k_label m) -> k <> KFunc ->
  stays_inside (S d) body -> (forall i, within i body -> within i (fd_expr code)) -> fair (enter lb k t body m).
Proof.
  intros HS Hq H HK H1 H2. unfold enter, bind at 1, mget at 1. apply fair_bind; [exact Hq|hs|]. intros ? m1 _ EA. unfold assert in EA. destruct (Nat.leb _ _); [|discriminate EA]. injection EA as _ <-.
  cbn [push_label fair]. unfold housed. cbn [set_label k_store k_frame k_label]. split; [exact HS|]. split; [exact Hq|].
  exists (Some (t0, h, code, S d)). apply ld_block; auto.
Qed.
Lemma call_fair m x addr : code_same s m -> Q (k_store m) -> lodged x (k_frame m) (k_label m) -> (forall f, py_index (s_func s) addr = Ok f -> G f) ->
  fair (evaluate_call F host addr m).
Proof.
  intros HS Hq H HA. unfold evaluate_call, bind at 1, mget at 1. destruct HS as [HS1 HS2]. rewrite HS1. unfold bind at 1, lift at 1. destruct (py_index (s_func s) addr) as [f|e] eqn:EF; [|exact Hq].
  specialize (HA _ eq_refl). apply fair_bind; [exact Hq|hs|]. intros args m1 (S1 & S2 & S3) _. destruct f as [t h' code|t hid]; cbn [fi_type] in *.
  - unfold bind at 1, mget at 1. apply fair_bind; [now rewrite S3|hs|]. intros ? m2 _ EA. unfold assert in EA. destruct (Nat.ltb _ _); [|discriminate EA]. injection EA as _ <-.
    unfold bind, push_frame, mget, push_label, set_frame, set_label. cbn [fair k_store k_value k_label k_frame]. unfold housed, code_same. cbn [k_store k_value k_label k_frame].
    rewrite S3. split; [now split|]. split; [exact Hq|]. eexists. rewrite S1, S2. apply ld_func with x; cbn [fr_module fr_label lb_carry lb_instr]; try reflexivity; [exact H|exact HA].
  - apply fair_bind; [now rewrite S3|hs|]. intros pargs m2 (T1 & T2 & T3) _. unfold bind at 1. destruct (host hid pargs m2) as [r m3] eqn:EH.
    assert (Hq3 : Q (k_store m3)) by (apply (HH _ _ _ _ _ _ HA EH); now rewrite T3, S3). destruct r as [rets|e]; [|exact Hq3].
    destruct (Hh _ _ _ _ _ EH) as (K1 & K2 & K4 & K5). apply fair_bind; [exact Hq3|hs|]. intros rs m4 (U1 & U2 & U3) _.
    cbn [extend fair]. unfold housed, code_same. cbn [set_value k_store k_value k_label k_frame]. rewrite U1, U2, U3, K1, K2, K4, K5, T1, T2, T3, S1, S2, S3. split; [now split|].
    split; [exact Hq3|]. exists x. exact H.
Qed.
Lemma exec_fair m t h code d lb fr i : code_same s m -> Q (k_store m) -> lodged (Some (t, h, code, d)) (k_frame m) (k_label m) -> (exists fs, k_frame m = fr :: fs) ->
  stays_inside d [i] -> (forall j, within j [i] -> within j (fd_expr code)) -> fair (exec F host lb fr i m).
Proof.
  intros HS Hq HT [fs HFR] HI1 HW.
  destruct (lodged_frame _ _ _ _ _ _ _ HT eq_refl) as (fr' & fs' & bs & lb' & ls' & x' & K1 & K2 & K3 & K4 & K5 & K6). rewrite HFR in K1. injection K1 as <- <-.
  destruct (HG _ _ _ K6) as (G1 & G2 & G3).
  assert (W0 : within i (fd_expr code)) by (apply HW, in_here; now left).
  assert (BR : forall l m1, still m m1 -> inward d l -> fair (evaluate_br l m1)).
  { intros l m1 (S1 & S2 & S3) X. apply br_fair with t h code d; auto; [unfold code_same in *; now rewrite S3|now rewrite S3|now rewrite S1, S2]. }
  assert (CA : forall a m1, still m m1 -> (forall f, py_index (s_func s) a = Ok f -> G f) -> fair (evaluate_call F host a m1)).
  { intros a m1 (S1 & S2 & S3) X. apply call_fair with (Some (t, h, code, d)); [unfold code_same in *; now rewrite S3|now rewrite S3|now rewrite S1, S2|exact X]. }
  assert (MO : mod_of (k_store m) (fr_module fr) = nth h (s_inst s) modinst_empty) by (rewrite K3; cbn [mod_of]; now rewrite (proj2 HS)).
  assert (OK : housed m) by (split; [exact HS|]; split; [exact Hq|]; now exists (Some (t, h, code, d))).
  assert (QS : forall m1, still m m1 -> Q (k_store m1)) by (intros m1 (_ & _ & ->); exact Hq).
  inversion HI1 as [|d0 o args is X H1|d0 bt body is H1 H2|d0 bt body is H1 H2|d0 bt th el is H1 H2 H3|d0 o args is X1 X2 H1|d0 args is X1 X2 H1]; subst.
  - destruct (is_control o) eqn:EC.
    + destruct o; try discriminate EC; try (exfalso; apply X; cbn; tauto); try exact Hq; cbn [exec].
      * unfold bind at 1, mget at 1. apply fair_bind; [exact Hq|hs|]. intros ? m1 _ EA. unfold assert in EA. destruct (Nat.leb _ _); [|discriminate EA]. injection EA as _ <-.
        apply fair_bind; [exact Hq|hs|]. intros rets m2 (S1 & S2 & S3) _.
        unfold bind at 1, pop_frame. rewrite S2, HFR. unfold bind, mget, mput, set_frame. cbn [fair k_store k_label k_frame k_value]. unfold housed, code_same in *. cbn [k_store k_label k_frame k_value].
        rewrite S1, S3, K2, K4. change (bs ++ lb' :: ls') with (bs ++ [lb'] ++ ls'). rewrite app_assoc, keep_app, keep_all by lia. split; [exact HS|]. split; [exact Hq|]. exists x'. exact K5.
      * unfold bind at 1, lift at 1. destruct (arg_int args 0) as [i|e] eqn:EI; [|exact Hq]. unfold bind at 1, mget at 1. rewrite MO. unfold bind, lift. destruct (py_index _ i) as [a|e] eqn:EA; [|exact Hq].
        apply CA; [apply still_refl|]. intros f Ef. exact (G2 _ _ _ _ W0 EI EA Ef).
      * unfold bind at 1, mget at 1. rewrite MO. unfold bind at 1, lift at 1. destruct (arg_int args 1) as [j|e]; [|exact Hq]. unfold bind at 1, lift at 1. destruct (py_index _ j) as [ta|e]; [|exact Hq].
        unfold bind at 1, lift at 1. destruct (py_index _ ta) as [tabl|e]; [|exact Hq]. unfold bind at 1, lift at 1. destruct (arg_int args 0) as [i|e] eqn:EI; [|exact Hq].
        unfold bind at 1, lift at 1. destruct (py_index _ i) as [ty|e] eqn:ET; [|exact Hq]. apply fair_bind; [exact Hq|hs|]. intros v m1 C1 _.
        unfold bind at 1, lift at 1. destruct (into_u32 v) as [k|e]; [|exact (QS _ C1)]. unfold bind at 1, lift at 1. destruct (py_index _ k) as [r|e]; [|exact (QS _ C1)].
        unfold bind at 1, lift at 1. destruct (into_ref r) as [a|e]; [|exact (QS _ C1)]. rewrite (proj1 HS). unfold bind at 1, lift at 1. destruct (py_index (s_func s) a) as [f|e] eqn:EF; [|exact (QS _ C1)].
        apply fair_bind; [exact (QS _ C1)|hs|]. intros ? m2 _ EA. unfold assert in EA. destruct (ft_eqb (fi_type f) ty) eqn:EQ; [|discriminate EA]. injection EA as _ <-.
        apply CA; [exact C1|]. intros f' Ef. rewrite EF in Ef. injection Ef as <-. apply (G3 _ _ _ _ W0 EI ET (index_In _ _ _ EF)). now apply ft_eqb_eq.
    + rewrite exec_op_basic by exact EC. unfold on_basic. rewrite HFR.
      pose proof (kf_basic F (fr_module fr) o args (mkb (k_store m) (fr_locals fr) (k_value m))) as KF.
      pose proof (ki_basic F (fr_module fr) o args (mkb (k_store m) (fr_locals fr) (k_value m))) as KI.
      pose proof (HQ _ _ _ _ _ (fr_module fr) (mkb (k_store m) (fr_locals fr) (k_value m)) K6 W0 Hq) as KQ.
      destruct (exec_basic F (fr_module fr) o args (mkb (k_store m) (fr_locals fr) (k_value m))) as [[u|e] b]; cbn [snd b_store fair] in *; [|exact KQ]. unfold housed, code_same in *. cbn [k_store k_frame k_label k_value].
      split; [now rewrite KF, KI|]. split; [exact KQ|]. exists (Some (t, h, code, d)). apply lodged_locals. rewrite <- HFR. exact HT.
  - cbn [exec]. apply fair_bind; [exact Hq|hs|]. intros ty m1 (S1 & S2 & S3) _. apply enter_fair with t h code d; [unfold code_same in *; now rewrite S3|now rewrite S3|now rewrite S1, S2|discriminate|exact H1|].
    intros j Hj. apply HW. apply (in_block j bt body); [now left|exact Hj].
  - cbn [exec]. apply fair_bind; [exact Hq|hs|]. intros ty m1 (S1 & S2 & S3) _. apply enter_fair with t h code d; [unfold code_same in *; now rewrite S3|now rewrite S3|now rewrite S1, S2|discriminate|exact H1|].
    intros j Hj. apply HW. apply (in_loop j bt body); [now left|exact Hj].
  - cbn [exec]. apply fair_bind; [exact Hq|hs|]. intros ty m1 C1 _. apply fair_bind; [exact (QS _ C1)|hs|]. intros v m2 C2 _. pose proof (still_trans _ _ _ C1 C2) as C3.
    apply fair_bind; [exact (QS _ C3)|hs|]. intros z m3 C4 _. destruct (still_trans _ _ _ C3 C4) as (S1 & S2 & S3).
    apply enter_fair with t h code d; [unfold code_same in *; now rewrite S3|now rewrite S3|now rewrite S1, S2|discriminate|destruct (z =? 0); assumption|].
    intros j Hj. apply HW. destruct (z =? 0); [apply (in_else j bt th el)|apply (in_then j bt th el)]; try exact Hj; now left.
  - assert (GO : forall m1, still m m1 -> fair ((let! l := lift (arg_int args 0) in evaluate_br l) m1)).
    { intros m1 C1. unfold bind, lift. destruct (arg_int args 0) as [l|e] eqn:EA; [|exact (QS _ C1)]. apply BR; [exact C1|exact (X2 _ eq_refl)]. }
    destruct X1 as [<-|[<-|[]]]; cbn [exec]; [apply GO, still_refl|].
    apply fair_bind; [exact Hq|hs|]. intros v m1 C1 _. apply fair_bind; [exact (QS _ C1)|hs|]. intros z m2 C2 _. pose proof (still_trans _ _ _ C1 C2) as C3.
    destruct (z =? 0); [|exact (GO m2 C3)]. cbn [ret fair]. exact (housed_still _ _ C3 OK).
  - cbn [exec]. apply fair_bind; [exact Hq|hs|]. intros v m1 C1 _. apply fair_bind; [exact (QS _ C1)|hs|]. intros a m2 C2 _. pose proof (still_trans _ _ _ C1 C2) as C3.
    unfold bind at 1, lift at 1. destruct (arg_int args 1) as [b|e] eqn:EB; [|exact (QS _ C3)]. unfold bind at 1, lift at 1. destruct (arg_list args 0) as [ls|e] eqn:EL; [|exact (QS _ C3)].
    unfold bind at 1. destruct (a <? len ls).
    + unfold lift. destruct (py_index ls a) as [l|e] eqn:EI; [|exact (QS _ C3)]. apply BR; [exact C3|]. specialize (X2 _ eq_refl). rewrite Forall_forall in X2. apply X2. exact (index_In _ _ _ EI).
    + cbn [ret]. apply BR; [exact C3|exact (X1 _ eq_refl)].
Qed.
Lemma within_one j i is : In i is -> within j [i] -> within j is.
Proof.
  intros HI H. inversion H as [c K|bt body c K H1|bt body c K H1|bt th el c K H1|bt th el c K H1]; subst; destruct K as [->|[]].
  - now apply in_here.
  - exact (in_block j bt body is HI H1).
  - exact (in_loop j bt body is HI H1).
  - exact (in_then j bt th el is HI H1).
  - exact (in_else j bt th el is HI H1).
Qed.
Lemma step_fair m : housed m -> k_label m <> [] -> fair (step F host m).
Proof.
  intros (HS & Hq & x & HT) HN. destruct (k_label m) as [|lb ls] eqn:EL; [congruence|]. destruct (lodged_top _ _ _ _ HT) as (t & h & code & d & -> & H1 & H2 & H3).
  destruct (lodged_frame _ _ _ _ _ _ _ HT eq_refl) as (fr & fs & _ & _ & _ & _ & HFR & _).
  unfold step, bind at 1, mget at 1. rewrite EL. unfold bind at 1, top_frame. rewrite HFR. destruct (Nat.eqb (lb_index lb) (length (lb_instr lb))) eqn:EN.
  - unfold bind, mget, mput, set_label. cbn [k_store k_value k_frame k_label].
    inversion HT as [|x' fr' fs' lb' ls' t' h' code' H4 E1 E2 E3 E4 E5|t' h' code' d' fs' lb' ls' H4 E1 E2 E3 E4]; subst.
    + assert (EFR : fr' = fr /\ fs' = fs) by (split; congruence). destruct EFR as [-> ->]. rewrite E4.
      cbn [k_value]. destruct (Nat.eqb (length (k_value m)) (fr_value fr + fr_arity fr)) eqn:EV; [|exact Hq].
      unfold assert, ret, pop_frame. cbn [k_frame]. rewrite ?HFR. cbn [fair set_frame]. unfold housed, code_same in *. cbn [set_frame k_store k_value k_frame k_label]. split; [exact HS|].
      split; [exact Hq|]. exists x'. exact H4.
    + assert (OK : housed (mkmach (k_store m) (k_value m) ls (k_frame m))).
      { split; [exact HS|]. split; [exact Hq|]. exists (Some (t, h, code, d')). exact H4. }
      destruct (lb_carry lb); [exact OK|exact OK|congruence].
  - destruct (nth_error (lb_instr lb) (lb_index lb)) as [i|] eqn:EI; [|exact Hq]. pose proof (nth_error_In _ _ EI) as IN.
    unfold bind at 1, mget at 1. unfold bind at 1, mput, set_label. cbn [k_store k_value k_frame].
    apply exec_fair with t h code d; cbn [k_frame k_label k_value].
    + exact HS.
    + exact Hq.
    + apply H3.
    + exists fs. exact HFR.
    + exact (inside_one _ _ _ H1 IN).
    + intros j Hj. apply H2. exact (within_one _ _ _ IN Hj).
Qed.
Lemma evaluate_fair n : forall m, housed m -> fair (evaluate F host n m).
Proof.
  induction n as [|n IH]; intros m H; cbn [evaluate]; [exact H|]. destruct (k_label m) eqn:EL; [exact H|].
  unfold bind. pose proof (step_fair m H ltac:(rewrite EL; discriminate)) as S1. destruct (step F host m) as [[v|e] m1]; [|exact S1]. exact (IH _ S1).
Qed.
Lemma starts_housed t h code args : G (FWasm t h code) -> Q s -> housed (SpecType.starts s t h code args).
Proof.
  intros HI Hq. split; [split; reflexivity|]. split; [exact Hq|]. eexists. apply ld_func with None; [constructor|exact HI|reflexivity..].
Qed.
Lemma housed_runs m i fr : housed m -> about_to_run m i fr -> exists t h code, G (FWasm t h code) /\ fr_module fr = MRef h /\ within i (fd_expr code).
Proof.
  intros (_ & _ & x & HT) ((lb & ls & EL & EN) & fs & EF). rewrite EL, EF in HT. destruct (lodged_top _ _ _ _ HT) as (t & h & code & d & -> & _ & H2 & _).
  destruct (lodged_frame _ _ _ _ _ _ _ HT eq_refl) as (fr' & fs' & bs & lb' & ls' & x' & K1 & _ & K3 & _ & _ & K6). injection K1 as <- <-.
  exists t, h, code. split; [exact K6|]. split; [exact K3|]. apply H2, in_here. exact (nth_error_In _ _ EN).
Qed.
End run.

Lemma graph F host s G t h code args m i fr : minds_its_business host -> call_closed s G -> G (FWasm t h code) ->
  gets_to F host (SpecType.starts s t h code args) m -> about_to_run m i fr -> exists t' h' code', G (FWasm t' h' code') /\ fr_module fr = MRef h' /\ within i (fd_expr code').
Proof.
  intros Hh HG HI [k HK] HR. pose proof (evaluate_fair F host s G (fun _ => True) Hh HG ltac:(auto) ltac:(auto) k _ (starts_housed s G (fun _ => True) t h code args HI I)) as X.
  rewrite HK in X. exact (housed_runs _ _ _ HG _ _ _ X HR).
Qed.
Lemma pure F host s G p t h code args n r m' : minds_its_business host -> call_closed s G -> reads_only host p G -> G (FWasm t h code) ->
  evaluate F host n (SpecType.starts s t h code args) = (r, m') -> same_part p s (k_store m').
Proof.
  intros Hh HG [R1 R2] HI E.
  assert (X : fair s G (same_part p s) (evaluate F host n (SpecType.starts s t h code args))).
  { apply evaluate_fair; [exact Hh|exact HG|..].
    - intros t0 h0 code0 o args0 mr b K1 K2 K3. exact (same_trans p _ _ _ K3 (kp_basic p F mr o args0 (R1 _ _ _ _ _ K1 K2) b)).
    - intros t0 hid args0 m r0 m0 K1 K2 K3. exact (same_trans p _ _ _ K3 (R2 _ _ _ _ _ _ K1 K2)).
    - apply starts_housed; [exact HI|apply same_refl]. }
  rewrite E in X. destruct r as [u|e]; [exact (proj1 (proj2 X))|exact X].
Qed.
Lemma invocation_pure F host G p a args n m r m' : minds_its_business host -> call_closed (k_store m) G -> reads_only host p G -> k_label m = [] ->
  (forall f, py_index (s_func (k_store m)) a = Ok f -> G f) -> invocate F host n a args m = (r, m') -> same_part p (k_store m) (k_store m').
Proof.
  destruct m as [ms mv ml mf]. cbn [k_store k_label]. intros Hh HG [R1 R2] -> HI E. unfold invocate in E. unfold bind at 1, mget at 1 in E. unfold bind at 1, lift at 1 in E. cbn [k_store] in E.
  destruct (py_index (s_func ms) a) as [f|e]; [|injection E as _ <-; apply same_refl]. specialize (HI _ eq_refl). destruct f as [t h code|t hid]; [|injection E as _ <-; apply same_refl].
  unfold bind at 1, assert at 1 in E. destruct (types_agree (ft_args t) args); [|injection E as _ <-; apply same_refl]. unfold lift at 1 in E. cbn [py_assert] in E. cbv beta iota in E.
  unfold bind at 1, push_frame at 1, set_frame in E. unfold bind at 1, push_frame at 1, set_frame in E. unfold bind at 1, push_label at 1, set_label in E. cbn [k_store k_value k_label k_frame] in E.
  set (m0 := mkmach ms mv _ _) in E.
  assert (X : fair ms G (same_part p ms) (evaluate F host n m0)).
  { apply evaluate_fair; [exact Hh|exact HG|..].
    - intros t0 h0 code0 o args0 mr b K1 K2 K3. exact (same_trans p _ _ _ K3 (kp_basic p F mr o args0 (R1 _ _ _ _ _ K1 K2) b)).
    - intros t0 hid args0 m r0 m1 K1 K2 K3. exact (same_trans p _ _ _ K3 (R2 _ _ _ _ _ _ K1 K2)).
    - split; [split; reflexivity|]. split; [apply same_refl|]. eexists. apply ld_func with None; [constructor|exact HI|reflexivity..]. }
  unfold bind at 1 in E. destruct (evaluate F host n m0) as [[u|e] m1]; [|injection E as _ <-; exact X]. destruct X as (_ & X & _).
  assert (SS : forall (c : M (list val)), (forall m r m', c m = (r, m') -> k_store m' = k_store m) -> c m1 = (r, m') -> same_part p ms (k_store m')) by (intros c Hc Ec; now rewrite (Hc _ _ _ Ec)).
  refine (SS _ _ E). clear. intros m r m' E.
  assert (KS : forall A B' (c : M A) (f : A -> M B') m r m', (forall m r m', c m = (r, m') -> k_store m' = k_store m) -> (forall a m r m', f a m = (r, m') -> k_store m' = k_store m) ->
    bind c f m = (r, m') -> k_store m' = k_store m).
  { intros A B' c f y1 z1 y2 H1 H2. unfold bind. destruct (c y1) as [[x|x] y3] eqn:E1; intros E2; [rewrite (H2 _ _ _ _ E2); exact (H1 _ _ _ E1)|injection E2 as _ <-; exact (H1 _ _ _ E1)]. }
  assert (KH : forall A (c : M A), hush c -> forall m r m', c m = (r, m') -> k_store m' = k_store m) by (intros A c Hc y1 z1 y2 E1; exact (proj2 (proj2 (Hc _ _ _ E1)))).
  revert E. apply KS; [apply KH; hs|]. intros ? ? ? ?. apply KS; [apply KH; hs|]. intros ? ? ? ?. apply KS.
  { intros y1 z1 y2 E1. unfold pop_frame in E1. destruct (k_frame y1); injection E1 as _ <-; reflexivity. }
  intros ? ? ? ?. apply KS; [apply KH; hs|]. intros ? ? ? ?. do 3 (apply KS; [apply KH; hs|]; intros ? ? ? ?). apply KH. hs.
Qed.

(* ---- calls that leave no trace ---- *)
Lemma store_same s s' : (forall p, same_part p s s') -> s_func s' = s_func s -> s_inst s' = s_inst s -> s' = s.
Proof.
  intros H H1 H2. pose proof (H Memories) as E1. pose proof (H Tables) as E2. pose proof (H Globals) as E3. pose proof (H Elements) as E4. destruct (H Data) as [E5 E6]. cbn [same_part] in *.
  destruct s as [a1 a2 a3 a4 a5 a6 a7 a8], s' as [b1 b2 b3 b4 b5 b6 b7 b8]. cbn in *. now subst.
Qed.
Lemma traceless F host G a args n m rets m' : minds_its_business host -> call_closed (k_store m) G -> (forall p, reads_only host p G) ->
  k_label m = [] -> k_frame m = [] -> k_value m = [] ->
  (forall f, py_index (s_func (k_store m)) a = Ok f -> G f) -> invocate F host n a args m = (Ok rets, m') -> m' = m.
Proof.
  intros Hh HG HR HL HF HV HI E.
  assert (HP : forall p, same_part p (k_store m) (k_store m')) by (intros p; exact (invocation_pure F host G p a args n m _ _ Hh HG (HR p) HL HI E)).
  destruct m as [ms mv ml mf]. cbn [k_store k_label k_frame k_value] in *. subst mv ml mf. unfold invocate in E. unfold bind at 1, mget at 1 in E. unfold bind at 1, lift at 1 in E. cbn [k_store] in E.
  destruct (py_index (s_func ms) a) as [f|e]; [|discriminate E]. specialize (HI _ eq_refl). destruct f as [t h code|t hid]; [|discriminate E].
  unfold bind at 1, assert at 1 in E. destruct (types_agree (ft_args t) args); [|discriminate E]. unfold lift at 1 in E. cbn [py_assert] in E. cbv beta iota in E.
  unfold bind at 1, push_frame at 1, set_frame in E. unfold bind at 1, push_frame at 1, set_frame in E. unfold bind at 1, push_label at 1, set_label in E. cbn [k_store k_value k_label k_frame] in E.
  set (m0 := mkmach ms [] _ _) in E.
  assert (X : fair ms G (fun _ => True) (evaluate F host n m0)).
  { apply evaluate_fair; [exact Hh|exact HG|auto|auto|]. split; [split; reflexivity|]. split; [exact I|]. eexists. apply ld_func with None; [constructor|exact HI|reflexivity..]. }
  unfold bind at 1 in E. destruct (evaluate F host n m0) as [[u|e] m1]; [|discriminate E]. destruct X as ((C1 & C2) & _).
  unfold bind at 1 in E. destruct (popn (length (ft_rets t)) m1) as [[vs|e] m2] eqn:E2; [|discriminate E]. destruct (hush_popn _ _ _ _ E2) as (_ & _ & S2).
  unfold bind at 1, assert at 1, lift at 1 in E. destruct (types_agree (ft_rets t) vs); [|discriminate E]. cbn [py_assert] in E. unfold bind at 1, pop_frame in E. destruct (k_frame m2) as [|fr fs]; [discriminate E|].
  unfold bind at 1, mget at 1 in E. unfold bind, assert, lift in E. cbn [set_frame k_frame k_label k_value] in E.
  destruct fs as [|]; [|discriminate E]. destruct (k_label m2) as [|] eqn:EL; [|discriminate E]. destruct (k_value m2) as [|] eqn:EV; [|discriminate E]. cbn in E. injection E as _ <-.
  destruct m2 as [s2 v2 l2 f2]. cbn [k_store k_label k_value set_frame] in *. subst v2 l2. unfold set_frame. cbn [k_store k_value k_label]. f_equal. apply store_same; [exact HP|now rewrite S2|now rewrite S2].
Qed.

(* ---- a check of every instruction of some code ---- *)
Fixpoint each (f : opc -> list arg -> bool) (i : inst) : bool :=
  match i with
  | IOp o args => f o args
  | IBlock _ b | ILoop _ b => forallb (each f) b
  | IIf _ a b => forallb (each f) a && forallb (each f) b
  end.
Lemma each_within f o args c : within (IOp o args) c -> forallb (each f) c = true -> f o args = true.
Proof.
  intros H. remember (IOp o args) as i eqn:E. induction H as [c K|bt body c K H IH|bt body c K H IH|bt th el c K H IH|bt th el c K H IH]; intros HE; rewrite forallb_forall in HE; specialize (HE _ K); cbn [each] in HE.
  - subst i. exact HE.
  - exact (IH HE).
  - exact (IH HE).
  - apply andb_prop in HE. exact (IH (proj1 HE)).
  - apply andb_prop in HE. exact (IH (proj2 HE)).
Qed.
