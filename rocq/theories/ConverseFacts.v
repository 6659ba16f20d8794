(* The converse of ControlFacts.simulation for validated code: whatever the flat machine does, the structured semantics does. *)
From Coq Require Import ZArith List Bool Lia ZifyBool ZifyNat Arith.Wf_nat.
From Verif Require Import Py Arith Floatops Val Opcode Numeric Syntax Store Basic Machine
  SpecInt SpecNum SpecMachine SpecMem SpecRun SpecControl SpecSimd SpecType PyFacts ArithFacts ValFacts LaneFacts NumFacts StepFacts MemFacts
  BulkFacts WfFacts RunFacts ControlFacts CallFacts TypeOpFacts TypeBasicFacts TypeFacts SpecConverse.
Import ListNotations.
Open Scope Z_scope.

(* ---- with [n] operands available, failing does not depend on what is below ---- *)
Definition deep {A} (n : nat) (c : B A) (k : nat) : Prop := local_op c /\ forall s L V, (n <= length V)%nat ->
  match c (mkb s L V) with
  | (Ok a, b) => (k <= length (b_value b))%nat
  | (Err e, b) => forall W, exists L' V', c (mkb s L (V ++ W)) = (Err e, mkb (b_store b) L' V')
  end.
Lemma d_bind {A B'} n k j (c : B A) (f : A -> B B') : deep n c k -> (forall a, deep k (f a) j) -> deep n (bind c f) j.
Proof.
  intros [H0 H1] H2. split; [apply l_bind; [exact H0|intros a; apply H2]|]. intros s L V HV. unfold bind. specialize (H0 s L V). specialize (H1 s L V HV).
  destruct (c (mkb s L V)) as [[a|e] [s1 L1 V1]].
  - destruct (H2 a) as [_ H3]. specialize (H3 s1 L1 V1 H1). cbn [b_store b_locals b_value] in H0. destruct (f a (mkb s1 L1 V1)) as [[x|e] b2]; [exact H3|].
    intros W. rewrite H0. apply H3.
  - intros W. destruct (H1 W) as (L' & V' & ->). exists L', V'. reflexivity.
Qed.
Lemma d_lift {A} n (r : res A) : deep n (lift r) n.
Proof. split; [apply l_lift|]. intros s L V H. unfold lift. destruct r; [exact H|]. intros W. exists L, (V ++ W). reflexivity. Qed.
Lemma d_ret {A} n (a : A) : deep n (ret a) n.
Proof. split; [apply l_ret|]. intros s L V H. exact H. Qed.
Lemma d_fail {A} n e : deep n (@fail _ A e) n.
Proof. split; [apply l_fail|]. intros s L V H W. exists L, (V ++ W). reflexivity. Qed.
Lemma d_assert n c : deep n (assert c) n.
Proof. apply d_lift. Qed.
Lemma d_pop n : deep (S n) pop n.
Proof. split; [apply l_pop|]. intros s L [|v V] H; cbn in *; lia. Qed.
Lemma d_top n : deep (S n) top (S n).
Proof. split; [apply l_top|]. intros s L [|v V] H; cbn in *; lia. Qed.
Lemma d_push n v : deep n (push v) (S n).
Proof. split; [apply l_push|]. intros s L V H. cbn. lia. Qed.
Lemma d_get_store n : deep n get_store n.
Proof. split; [apply l_get_store|]. intros s L V H. exact H. Qed.
Lemma d_put_store n x : deep n (put_store x) n.
Proof. split; [apply l_put_store|]. intros s L V H. exact H. Qed.
Lemma d_get_locals n : deep n get_locals n.
Proof. split; [apply l_get_locals|]. intros s L V H. exact H. Qed.
Lemma d_put_locals n x : deep n (put_locals x) n.
Proof. split; [apply l_put_locals|]. intros s L V H. exact H. Qed.
Lemma d_if {A} n k (b : bool) (c d : B A) : deep n c k -> deep n d k -> deep n (if b then c else d) k.
Proof. destruct b; auto. Qed.
Lemma d_weak {A} n k (c : B A) : deep n c k -> deep n c 0.
Proof. intros [H0 H]. split; [exact H0|]. intros s L V HV. specialize (H s L V HV). destruct (c _) as [[a|e] b]; [lia|exact H]. Qed.
Lemma d_more {A} n n' k (c : B A) : (n' <= n)%nat -> deep n' c k -> deep n c k.
Proof. intros Hn [H0 H]. split; [exact H0|]. intros s L V HV. apply H. lia. Qed.
Ltac leaf := first [ apply d_pop | apply d_top | apply d_push | apply d_get_store | apply d_put_store | apply d_get_locals | apply d_put_locals
  | apply d_lift | apply d_ret | apply d_fail | apply d_assert ].
Ltac dp := repeat first
  [ leaf | eapply d_weak; leaf
  | progress unfold mem_load, mem_save, load_lane, store_lane, pop_u32, pushr, mod_addr, get_mem, get_tab, get_glob, get_elem,
      get_data, get_blob, put_mem, put_tab, put_glob, put_elem, put_blob
  | eapply d_bind; [|intros]
  | match goal with |- deep _ (if ?b then _ else _) _ => destruct b end ].

(* how many operands an instruction takes *)
Definition takes (o : opc) : nat :=
  match signature o with
  | Some (ins, _) => length ins
  | None => match mem_signature o with
    | Some (ins, _) => length ins
    | None => match o with
      | O_drop | O_local_set | O_local_tee | O_global_set | O_table_get | O_memory_grow | O_ref_is_null => 1
      | O_table_set | O_table_grow => 2
      | O_select | O_select_type | O_table_fill | O_table_copy | O_table_init | O_memory_fill | O_memory_copy | O_memory_init => 3
      | _ => 0
      end
    end
  end%nat.
Lemma typed_takes C o args A R : typed_inst C (IOp o args) A R -> is_control o = false -> (takes o <= length A)%nat.
Proof.
  intros H Hc. inversion H; subst; try discriminate Hc; try (cbn; lia).
  - unfold takes. match goal with H : signature o = _ |- _ => rewrite H end. rewrite rev_length. lia.
  - unfold takes. match goal with H : mem_signature o = Some (?a, ?b) |- _ => assert (S : signature o = None) by (clear - H; destruct o; try reflexivity; discriminate H); rewrite S, H end.
    rewrite rev_length. lia.
Qed.
Lemma deep_misc mr o args : deep (takes o) (exec_misc mr o args) 0.
Proof.
  assert (L : forall k (c : B unit), (forall n, deep n c n) -> deep k c 0) by (intros k c H; apply (d_weak _ k), H).
  destruct o; cbn [exec_misc]; try (apply L; intros; leaf).
  all: try (unfold takes; cbn [signature mem_signature length]; dp; fail).
Qed.
Lemma num_takes F o n : num_op F o = Some n -> match n with N0 _ => 0 | N1 _ => 1 | N2 _ => 2 | N3 _ => 3 end%nat = takes o.
Proof. destruct o; cbn [num_op]; intros E; try discriminate E; injection E as <-; reflexivity. Qed.
Lemma deep_basic F mr o args : deep (takes o) (exec_basic F mr o args) 0.
Proof.
  unfold exec_basic. destruct (num_op F o) as [n|] eqn:N.
  { pose proof (num_takes F o n N) as T. rewrite <- T. destruct n; cbn [exec_num]; dp. }
  destruct (load_op o) as [[n conv]|] eqn:EL.
  { assert (T : takes o = 1%nat) by (destruct o; try discriminate EL; reflexivity). rewrite T. dp. }
  destruct (store_op o) as [n|] eqn:ES; [|apply deep_misc].
  assert (T : takes o = 2%nat) by (destruct o; try discriminate ES; reflexivity). rewrite T. dp.
Qed.

(* ---- turns ---- *)
Section turns.
Context (F : fops) (host : hostcode).
Lemma evaluate_prefix n : forall k m m1, evaluate F host k m = (Ok tt, m1) -> k_label m1 <> [] -> (n <= k)%nat -> unfinished F host n m.
Proof.
  induction n as [|n IH]; intros k m m1 E HL Hk.
  - exists m. split; [reflexivity|]. intros E0. rewrite (evaluate_empty F host k m E0) in E. injection E as <-. contradiction.
  - destruct k as [|k]; [lia|]. cbn [evaluate] in E. unfold unfinished. cbn [evaluate]. destruct (k_label m) as [|lb LS] eqn:EL.
    + injection E as <-. rewrite EL in HL. contradiction.
    + unfold bind in *. destruct (step F host m) as [[u|e] m2]; [|discriminate E]. exact (IH k m2 m1 E HL ltac:(lia)).
Qed.
(* the machine comes to a state of a given kind *)
Definition meets (odd : machine -> Prop) (m : machine) : Prop := exists m1, gets_to F host m m1 /\ odd m1.
(* the kind C105 speaks of *)
Definition astray (m : machine) : Prop :=
  exists fr i j c V ta tab r,
    about_to_run m (IOp O_call_indirect [AInt (Z.of_nat i); AInt (Z.of_nat j)]) fr /\ k_value m = c :: V /\
    nth_error (m_tabl (mod_of (k_store m) (fr_module fr))) j = Some (Z.of_nat ta) /\
    nth_error (s_tabl (k_store m)) ta = Some tab /\
    nth_error (ti_elem tab) (Z.to_nat (low 32 c)) = Some r /\
    r <> null_ref T_func /\ forall a, (a < length (s_func (k_store m)))%nat -> r <> ref_to T_func a.
Lemma meets_astray m : meets astray m <-> stray F host m.
Proof.
  split.
  - intros (m1 & G & fr & i & j & c & V & ta & tab & r & H). exists m1, fr, i, j, c, V, ta, tab, r. split; [exact G|exact H].
  - intros (m1 & fr & i & j & c & V & ta & tab & r & G & H). exists m1. split; [exact G|]. exists fr, i, j, c, V, ta, tab, r. exact H.
Qed.
Context (odd : machine -> Prop).
Notation stray := (meets odd).
Lemma go_on (P : Prop) k n m m1 : (forall j, evaluate F host (k + j) m = evaluate F host j m1) -> k_label m1 <> [] ->
  ((k <= n)%nat -> unfinished F host (n - k) m1 \/ stray m1 \/ P) -> unfinished F host n m \/ stray m \/ P.
Proof.
  intros E HL H. destruct (Compare_dec.le_lt_dec k n) as [G|G].
  - destruct (H G) as [(m' & E1 & H1)|[S|HP]].
    + left. exists m'. split; [|exact H1]. rewrite <- E1. replace n with (k + (n - k))%nat at 1 by lia. apply E.
    + right. left. destruct S as (m2 & (k2 & G2) & S). exists m2. split; [|exact S].
      exists (k + k2)%nat. rewrite E. exact G2.
    + right. right. exact HP.
  - left. apply (evaluate_prefix n k m m1); [|exact HL|lia]. specialize (E O). rewrite PeanoNat.Nat.add_0_r in E. exact E.
Qed.
Lemma go_step (P : Prop) n m m1 : k_label m <> [] -> step F host m = (Ok tt, m1) -> k_label m1 <> [] ->
  (unfinished F host n m1 \/ stray m1 \/ P) -> unfinished F host (S n) m \/ stray m \/ P.
Proof.
  intros H1 E H2 H. apply (go_on P 1 (S n) m m1); [|exact H2|intros _; replace (S n - 1)%nat with n by lia; exact H].
  intros j. cbn [Nat.add evaluate]. destruct (k_label m); [contradiction|]. unfold bind. rewrite E. reflexivity.
Qed.
End turns.

Lemma val_eq_dec (x y : val) : {x = y} + {x <> y}.
Proof. decide equality; [apply list_eq_dec, Z.eq_dec|decide equality]. Qed.
(* a reference is null, or to a function, or stray *)
Lemma ref_cases (n : nat) (r : val) :
  r = null_ref T_func \/ (exists a, (a < n)%nat /\ r = ref_to T_func a) \/
  (r <> null_ref T_func /\ forall a, (a < n)%nat -> r <> ref_to T_func a).
Proof.
  destruct (val_eq_dec r (null_ref T_func)) as [E|E]; [left; exact E|right].
  destruct (in_dec val_eq_dec r (map (ref_to T_func) (seq 0 n))) as [I|I].
  - left. apply in_map_iff in I. destruct I as (a & <- & I). apply in_seq in I. exists a. split; [lia|reflexivity].
  - right. split; [exact E|]. intros a Ha ->. apply I. apply in_map. apply in_seq. lia.
Qed.

Section converse.
Context {sg : nat -> functype} (F : fops) (CF : converts F) (hs : storehost).
Notation host := (plain_host hs).
Context (HB : well_behaved host) (HH : host_typed sg host).
Notation unfinished := (unfinished F host).
Context (means : meaning) (odd : machine -> Prop).
Notation stray := (meets F host odd).
Notation both := (fun mr o args s L V s' L' r => by_model F mr o args s L V s' L' r /\ means mr o args s L V s' L' r).

(* the operands an outcome leaves behind *)
Definition fits (C : tctx) (outs : list valtype) (o : outcome) : Prop :=
  match o with
  | Done R => has_types R outs /\ Forall val_wf R
  | Jump k R => exists ts X Y, nth_error (c_labels C) k = Some ts /\ R = X ++ Y /\ has_types X ts /\ Forall val_wf X
  | Back R => exists X Y, R = X ++ Y /\ has_types X (rev (c_return C)) /\ Forall val_wf X
  | Trap => False
  end.
Definition after (C : tctx) (outs : list valtype) (s s' : store) (L' : list val) (o : outcome) : Prop :=
  o = Trap \/ (store_ok s' /\ store_typed sg s' /\ same_types s s' /\ Forall val_wf L' /\ has_types L' (c_locals C) /\ fits C outs o).

Definition sound (s : store) (C : tctx) (fr : frame) : Prop :=
  store_ok s /\ store_typed sg s /\ frame_typed s C fr /\ Forall val_wf (fr_locals fr).
(* what is assumed of [means] and [odd]: straight-line code has the meaning [means], or the state is [odd] *)
Context (Hmeans : forall C o args A B R s va vr W lb LS fr FS rest,
  typed_inst C (IOp o args) A B -> is_control o = false -> inst_ok (IOp o args) -> has_types va A -> has_types vr R ->
  Forall val_wf va -> Forall val_wf vr -> sound s C fr -> at_code lb (IOp o args :: rest) ->
  odd (mkmach s ((va ++ vr) ++ W) (lb :: LS) (fr :: FS)) \/
  forall s' L' r, by_model F (fr_module fr) o args s (fr_locals fr) (va ++ vr) s' L' r ->
    means (fr_module fr) o args s (fr_locals fr) (va ++ vr) s' L' r).
Context (Hodd : forall m, astray m -> odd m).
Lemma forget d mr s L V is s' L' o : run_by both F hs d mr s L V is s' L' o -> run F hs d mr s L V is s' L' o.
Proof. apply (run_mono both (by_model F)). intros. tauto. Qed.
Lemma forget_one d mr s L V i s' L' o : one_by both F hs d mr s L V i s' L' o -> one F hs d mr s L V i s' L' o.
Proof. apply (run_mono both (by_model F)). intros. tauto. Qed.
Definition conv (n : nat) : Prop := forall C is ts outs s V W lb LS fr FS,
  typed_seq C is ts outs -> code_ok is -> has_types V ts -> Forall val_wf V -> sound s C fr ->
  at_code lb is -> (lb_value lb <= length W)%nat ->
  let m := mkmach s (V ++ W) (lb :: LS) (fr :: FS) in
  unfinished n m \/ stray m \/
  exists s' L' o, run_by both F hs (S (length FS)) (fr_module fr) s (fr_locals fr) V is s' L' o /\ after C outs s s' L' o.

Lemma after_later C outs s1 s2 s3 L o : same_types s1 s2 -> after C outs s2 s3 L o -> after C outs s1 s3 L o.
Proof.
  intros H [->|(A1 & A2 & A3 & A4)]; [left; reflexivity|]. right. split; [exact A1|]. split; [exact A2|]. split; [exact (same_trans _ _ _ H A3)|exact A4].
Qed.
Lemma sound_later C s s' fr L : sound s C fr -> store_ok s' -> store_typed sg s' -> same_types s s' -> Forall val_wf L -> has_types L (c_locals C) ->
  sound s' C (relocal fr L).
Proof.
  intros (H1 & H2 & H3 & H4) A1 A2 A3 A4 A5. split; [exact A1|]. split; [exact A2|]. split; [|exact A4].
  apply frame_relocal; [exact (frame_later _ _ _ _ A3 H3)|exact A5].
Qed.
Lemma sound_block s C fr ts : sound s C fr -> sound s (in_block ts C) fr.
Proof. intros (H1 & H2 & H3 & H4). split; [exact H1|]. split; [exact H2|]. split; [apply frame_in_block, H3|exact H4]. Qed.

(* leaving a block *)
Lemma leave C lt outs vr R s s' L o : after (in_block lt C) outs s s' L o -> has_types vr R -> Forall val_wf vr ->
  (lt = outs \/ forall X, o <> Jump 0 X) ->
  exists o', leaves (length outs) vr o o' /\ after C (outs ++ R) s s' L o'.
Proof.
  intros [->|(A1 & A2 & A3 & A4 & A5 & A6)] HR HW HJ; [exists Trap; split; [constructor|left; reflexivity]|].
  cbn [in_block c_locals] in A5.
  assert (G : forall o', leaves (length outs) vr o o' -> fits C (outs ++ R) o' -> exists o', leaves (length outs) vr o o' /\ after C (outs ++ R) s s' L o').
  { intros o' H1 H2. exists o'. split; [exact H1|]. right. do 5 (split; [assumption|]). exact H2. }
  destruct o as [X|k X|X|]; cbn [fits] in A6.
  - destruct A6 as [T W]. apply (G (Done (X ++ vr))); [constructor; exact (types_length _ _ T)|]. split; [apply types_join; assumption|apply Forall_app; split; assumption].
  - destruct A6 as (ts & Y & Z & N & -> & T & W). destruct k as [|k].
    + destruct HJ as [->|HJ]; [|exfalso; exact (HJ _ eq_refl)]. injection N as <-. pose proof (types_length _ _ T) as HL.
      apply (G (Done (Y ++ vr))).
      * replace (Y ++ vr) with (firstn (length outs) (Y ++ Z) ++ vr); [constructor; rewrite app_length; lia|].
        rewrite <- HL, firstn_app, firstn_all, PeanoNat.Nat.sub_diag, firstn_O, app_nil_r. reflexivity.
      * split; [apply types_join; assumption|apply Forall_app; split; assumption].
    + apply (G (Jump k (Y ++ Z))); [constructor|]. exists ts, Y, Z. cbn [in_block c_labels nth_error] in N. auto.
  - apply (G (Back X)); [constructor|exact A6].
  - contradiction.
Qed.
(* returning from a function *)
Lemma give_back C C2 L t vr R s s' L' o : after C2 (rev (ft_rets t)) s s' L' o -> c_labels C2 = [] -> c_return C2 = ft_rets t ->
  has_types vr R -> Forall val_wf vr -> has_types L (c_locals C) -> Forall val_wf L ->
  exists o', returns (length (ft_rets t)) vr o o' /\ after C (rev (ft_rets t) ++ R) s s' L o'.
Proof.
  intros [->|(A1 & A2 & A3 & A4 & A5 & A6)] E1 E2 HR HW HL WL; [exists Trap; split; [constructor|left; reflexivity]|].
  assert (G : forall o', returns (length (ft_rets t)) vr o o' -> fits C (rev (ft_rets t) ++ R) o' ->
     exists o', returns (length (ft_rets t)) vr o o' /\ after C (rev (ft_rets t) ++ R) s s' L o').
  { intros o' H1 H2. exists o'. split; [exact H1|]. right. do 5 (split; [assumption|]). exact H2. }
  destruct o as [X|k X|X|]; cbn [fits] in A6.
  - destruct A6 as [T W]. apply (G (Done (X ++ vr))); [constructor; rewrite (types_length _ _ T); apply rev_length|].
    split; [apply types_join; assumption|apply Forall_app; split; assumption].
  - destruct A6 as (ts & Y & Z & N & _). rewrite E1 in N. destruct k; discriminate N.
  - destruct A6 as (Y & Z & -> & T & W). rewrite E2 in T. pose proof (types_length _ _ T) as HN. rewrite rev_length in HN.
    apply (G (Done (Y ++ vr))).
    + replace (Y ++ vr) with (firstn (length (ft_rets t)) (Y ++ Z) ++ vr); [constructor; rewrite app_length; lia|].
      rewrite <- HN, firstn_app, firstn_all, PeanoNat.Nat.sub_diag, firstn_O, app_nil_r. reflexivity.
    + split; [apply types_join; assumption|apply Forall_app; split; assumption].
  - contradiction.
Qed.

(* a loop *)
Lemma conv_loops n : (forall j, (j <= n)%nat -> conv j) -> forall C body k outs s A W LS fr FS,
  (exists ts r, c_labels C = ts :: r /\ length ts = k /\ typed_seq C body ts outs /\ has_types A ts) -> code_ok body -> Forall val_wf A -> sound s C fr ->
  let m := mkmach s (A ++ W) (mklabel k (S (length FS)) (length W) KLoop body 0 :: LS) (fr :: FS) in
  unfinished n m \/ stray m \/
  exists s' L' o, loops_by both F hs (S (length FS)) (fr_module fr) k s (fr_locals fr) A body s' L' o /\ (forall R, o <> Jump 0 R) /\ after C outs s s' L' o.
Proof.
  induction n as [n IH] using lt_wf_ind. intros IC C body k outs s A W LS fr FS (ts & r & EL & EK & HT & HA) Hok WA HS m.
  destruct (IC n (le_n _) C body ts outs s A W (mklabel k (S (length FS)) (length W) KLoop body 0) LS fr FS HT Hok HA WA HS
    (conj eq_refl (PeanoNat.Nat.le_0_l _)) (le_n _)) as [U|[U|(s1 & L1 & o & HR & HO)]]; [left; exact U|right; left; exact U|].
  assert (D : (exists R, o = Jump 0 R) \/ forall R, o <> Jump 0 R) by (destruct o as [|[|]| |]; try (right; discriminate); left; eexists; reflexivity).
  destruct D as [[R ->]|D].
  2:{ right. right. exists s1, L1, o. split; [apply loop_end; assumption|]. split; assumption. }
  destruct HO as [HO|(A1 & A2 & A3 & A4 & A5 & A6)]; [discriminate HO|]. cbn [fits] in A6. destruct A6 as (ts' & X & Y & N & -> & TX & WX).
  rewrite EL in N. injection N as <-. pose proof (types_length _ _ TX) as HX.
  assert (EX : firstn k (X ++ Y) = X) by (rewrite <- EK, <- HX, firstn_app, firstn_all, PeanoNat.Nat.sub_diag, firstn_O, app_nil_r; reflexivity).
  destruct (simulation F hs) as [Sim _]. pose proof (Sim _ _ _ _ _ _ _ _ _ (forget _ _ _ _ _ _ _ _ _ HR)) as E. unfold P_run in E.
  specialize (E W (mklabel k (S (length FS)) (length W) KLoop body 0) LS fr FS (conj eq_refl (PeanoNat.Nat.le_0_l _)) (le_n _) eq_refl eq_refl eq_refl).
  cbn [ends] in E. specialize (E _ eq_refl (le_n _)). cbn [lb_arity lb_value lb_carry lb_frame skipn] in E.
  specialize (E ltac:(rewrite app_length; lia)). rewrite EX in E. rewrite !keep_all in E by reflexivity. destruct E as [k0 E].
  apply (go_on F host odd _ (S k0) n m _ E); [discriminate|]. intros Hk.
  destruct (IH (n - S k0)%nat ltac:(lia) (fun j Hj => IC j ltac:(lia)) C body k outs s1 X W LS (relocal fr L1) FS) as [U|[U|(s2 & L2 & o2 & HL2 & HJ & HO2)]].
  - exists ts, r. auto.
  - exact Hok.
  - exact WX.
  - apply (sound_later C s); assumption.
  - left. exact U.
  - right. left. exact U.
  - right. right. exists s2, L2, o2. split; [|split; [exact HJ|exact (after_later _ _ _ _ _ _ _ A3 HO2)]].
    eapply loop_again; [exact HR|rewrite app_length; lia|]. rewrite EX. exact HL2.
Qed.

(* a call *)
Lemma conv_called j : conv j -> forall C s a f A vr R W LB fr FS, sound s C fr -> LB <> [] ->
  nth_error (s_func s) a = Some f -> has_types A (ft_args (fi_type f)) -> Forall val_wf A -> has_types vr R -> Forall val_wf vr ->
  (exists m1, evaluate_call F host (Z.of_nat a) (mkmach s ((rev A ++ vr) ++ W) LB (fr :: FS)) = (Ok tt, m1) /\ k_label m1 <> [] /\
     (unfinished j m1 \/ stray m1)) \/
  exists s' o, called_by both F hs (S (length FS)) s (fr_locals fr) (rev A ++ vr) a s' (fr_locals fr) o /\
    after C (rev (ft_rets (fi_type f)) ++ R) s s' (fr_locals fr) o.
Proof.
  intros IC C s a f A vr R W LB fr FS (Ok_s & Hs & Hf & HWL) HLB N HA WA HR WR.
  assert (HL : has_types (fr_locals fr) (c_locals C)) by (destruct Hf as (? & ? & _ & _ & _ & H); exact H).
  pose proof (types_length _ _ HA) as LA.
  destruct f as [t h code|t hid]; cbn [fi_type] in *.
  - destruct (Compare_dec.le_lt_dec 1024 (S (length FS))) as [G|G].
    { right. exists s, Trap. split; [|left; reflexivity]. eapply call_deep; eassumption. }
    pose proof (nth_Forall _ _ _ _ (st_func s Hs) N) as (mi & C2 & Hmi & Hin & Hloc & Hlab & Hret & Hty).
    pose proof (call_enters F host s A vr W LB (fr :: FS) a t h code N LA ltac:(cbn [length]; lia)) as E. cbv zeta in E.
    set (fr' := mkframe _ _ _ _ _) in E. set (lb' := mklabel _ _ _ _ _ _) in E.
    assert (S' : sound s C2 fr').
    { split; [exact Ok_s|]. split; [exact Hs|]. unfold fr'. rewrite <- default_zero. split.
      - exists h, mi. split; [reflexivity|]. split; [exact Hmi|]. split; [exact Hin|]. cbn [fr_locals]. rewrite Hloc. apply types_join; [exact HA|apply zero_types].
      - cbn [fr_locals]. apply Forall_app. split; [exact WA|apply zero_locals_wf]. }
    destruct (IC C2 (fd_expr code) [] (rev (ft_rets t)) s [] (vr ++ W) lb' LB fr' (fr :: FS) Hty (nth_Forall _ _ _ _ (so_func s Ok_s) N) eq_refl (Forall_nil _) S'
      (conj eq_refl (PeanoNat.Nat.le_0_l _)) (le_n _)) as [U|[U|(s1 & L1 & o & HRun & HO)]].
    + left. eexists. split; [exact E|]. split; [discriminate|]. left. exact U.
    + left. eexists. split; [exact E|]. split; [discriminate|]. right. exact U.
    + right. destruct (give_back C C2 (fr_locals fr) t vr R s s1 L1 o HO Hlab Hret HR WR HL HWL) as (o' & H1 & H2).
      exists s1, o'. split; [|exact H2]. eapply call_wasm; try eassumption.
  - right. destruct (rmapl (into_all F) A) as [pargs|e] eqn:EP.
    2:{ exists s, Trap. split; [|left; reflexivity]. eapply call_outside_args; eassumption. }
    destruct (hs hid pargs s) as [r s'] eqn:EH.
    assert (HP : host hid pargs (mkmach s [] [] []) = (r, mkmach s' [] [] [])) by (unfold plain_host; cbn [k_store k_value k_label k_frame]; rewrite EH; reflexivity).
    destruct (HH hid pargs (mkmach s [] [] []) _ _ Hs HP) as (T1 & T2 & T3). cbn [k_store k_value k_label k_frame] in *.
    assert (MO : machine_ok (mkmach s [] [] [])) by (constructor; [exact Ok_s|constructor..]).
    destruct (HB hid pargs _ _ _ MO HP) as (B1 & _ & B3).
    destruct r as [rets|e].
    2:{ exists s', Trap. split; [|left; reflexivity]. eapply call_outside_trap; eassumption. }
    destruct (from_alls F (ft_rets t) rets) as [rs|e] eqn:ER.
    2:{ exists s', Trap. split; [|left; reflexivity]. eapply call_outside_rets; eassumption. }
    destruct (T3 rets eq_refl) as (_ & _ & _ & EL).
    pose proof (nth_Forall _ _ _ _ (st_func s Hs) N) as Et. cbn [func_typed] in Et.
    assert (HLr : length rets = length (ft_rets t)) by (rewrite Et; exact EL).
    exists s', (Done (rev rs ++ vr)). split; [eapply call_outside; eassumption|]. right.
    split; [exact (mo_store _ B1)|]. split; [exact T1|]. split; [exact T2|]. split; [exact HWL|]. split; [exact HL|].
    split; [apply types_join; [apply types_rev; exact (from_alls_types _ _ _ _ ER HLr)|exact HR]|].
    apply Forall_app. split; [|exact WR]. apply Forall_rev. exact (from_alls_gives F (ft_rets t) rets (B3 _ eq_refl) rs ER).
Qed.

Lemma straight_op o : is_control o = false -> straight o = true.
Proof. destruct o; intros H; try reflexivity; discriminate H. Qed.

(* one instruction *)
Lemma conv_one n : (forall j, (j < n)%nat -> conv j) -> forall C i A B R rest s va vr W lb LS fr FS,
  typed_inst C i A B -> inst_ok i -> has_types va A -> has_types vr R -> Forall val_wf va -> Forall val_wf vr -> sound s C fr ->
  at_code lb (i :: rest) -> (lb_value lb <= length W)%nat ->
  let m := mkmach s ((va ++ vr) ++ W) (lb :: LS) (fr :: FS) in
  unfinished n m \/ stray m \/
  exists s' L' o, one_by both F hs (S (length FS)) (fr_module fr) s (fr_locals fr) (va ++ vr) i s' L' o /\ after C (B ++ R) s s' L' o.
Proof.
  intros IC C i A B R rest s va vr W lb LS fr FS HTI Hok HA HR WA WR HS Hc Hv m.
  destruct n as [|n].
  { left. exists m. split; [reflexivity|discriminate]. }
  pose proof HS as (Ok_s & Hs & Hf & HWL).
  assert (HL : has_types (fr_locals fr) (c_locals C)) by (destruct Hf as (? & ? & _ & _ & _ & H); exact H).
  assert (NE : k_label m <> []) by discriminate.
  assert (HVW : (lb_value lb <= length (vr ++ W))%nat) by (rewrite app_length; lia).
  destruct i as [bt body|bt body|bt th el|o args]; [| | |destruct (is_control o) eqn:Ec].
  - (* block *) inversion HTI; subst. inversion Hok; subst.
    pose proof (typed_block_type _ _ _ _ _ Hf ltac:(eassumption)) as HBT. pose proof (types_length _ _ HA) as LA. rewrite rev_length in LA.
    eapply (go_step F host odd _ n m _ NE).
    { unfold m. rewrite <- app_assoc, (step_at F hs _ _ _ _ _ _ _ _ Hc). cbn [exec]. rewrite (bind_ok _ _ _ _ _ (bype_run (fr_module fr) _ _ _ _ _ _ _ eq_refl HBT)).
      apply enter_run; [exact HVW|exact LA]. }
    { discriminate. }
    destruct (IC n ltac:(lia) (in_block (rev (ft_rets t)) C) body (rev (ft_args t)) (rev (ft_rets t)) s va (vr ++ W)
      (mklabel (length (ft_rets t)) (length (fr :: FS)) (length (vr ++ W)) KBlock body 0) (goto lb (S (lb_index lb)) :: LS) fr FS) as [U|[U|(s1 & L1 & o & HRun & HO)]];
      try assumption; [apply sound_block, HS|split; [reflexivity|cbn; lia]|cbn [lb_value]; lia|left; exact U|right; left; exact U|right; right].
    destruct (leave C (rev (ft_rets t)) (rev (ft_rets t)) vr R s s1 L1 o HO HR WR (or_introl eq_refl)) as (o' & H1' & H2'). rewrite rev_length in H1'.
    exists s1, L1, o'. split; [|exact H2']. eapply one_block; eassumption.
  - (* loop *) inversion HTI; subst. inversion Hok; subst.
    pose proof (typed_block_type _ _ _ _ _ Hf ltac:(eassumption)) as HBT. pose proof (types_length _ _ HA) as LA. rewrite rev_length in LA.
    eapply (go_step F host odd _ n m _ NE).
    { unfold m. rewrite <- app_assoc, (step_at F hs _ _ _ _ _ _ _ _ Hc). cbn [exec]. rewrite (bind_ok _ _ _ _ _ (bype_run (fr_module fr) _ _ _ _ _ _ _ eq_refl HBT)).
      apply enter_run; [exact HVW|exact LA]. }
    { discriminate. }
    destruct (conv_loops n (fun j Hj => IC j ltac:(lia)) (in_block (rev (ft_args t)) C) body (length (ft_args t)) (rev (ft_rets t)) s va (vr ++ W)
      (goto lb (S (lb_index lb)) :: LS) fr FS) as [U|[U|(s1 & L1 & o & HRun & HJ & HO)]];
      [eexists _, _; split; [reflexivity|]; split; [apply rev_length|]; split; assumption|assumption|assumption|apply sound_block, HS|left; exact U|right; left; exact U|right; right].
    destruct (leave C (rev (ft_args t)) (rev (ft_rets t)) vr R s s1 L1 o HO HR WR (or_intror HJ)) as (o' & H1' & H2'). rewrite rev_length in H1'.
    exists s1, L1, o'. split; [|exact H2']. eapply one_loop; eassumption.
  - (* if *) inversion HTI; subst. inversion Hok; subst.
    pose proof (typed_block_type _ _ _ _ _ Hf ltac:(eassumption)) as HBT.
    apply types_cons in HA. destruct HA as (c & va' & -> & _ & HA). apply Forall_cons_iff in WA. destruct WA as [Wc WA].
    pose proof (types_length _ _ HA) as LA. rewrite rev_length in LA.
    destruct (low_signed c Wc) as (z & Ez & E0).
    eapply (go_step F host odd _ n m _ NE).
    { unfold m. cbn [app]. rewrite <- app_assoc, (step_at F hs _ _ _ _ _ _ _ _ Hc). cbn [exec]. rewrite (bind_ok _ _ _ _ _ (bype_run (fr_module fr) _ _ _ _ _ _ _ eq_refl HBT)).
      unfold bind at 1, popv. cbn [k_value]. unfold set_value. cbn [k_store k_label k_frame]. unfold bind at 1, lift. rewrite Ez, E0.
      apply enter_run; [exact HVW|exact LA]. }
    { discriminate. }
    destruct (IC n ltac:(lia) (in_block (rev (ft_rets t)) C) (if low 32 c =? 0 then el else th) (rev (ft_args t)) (rev (ft_rets t)) s va' (vr ++ W)
      (mklabel (length (ft_rets t)) (length (fr :: FS)) (length (vr ++ W)) KBlock (if low 32 c =? 0 then el else th) 0) (goto lb (S (lb_index lb)) :: LS) fr FS) as [U|[U|(s1 & L1 & o & HRun & HO)]];
      try assumption; [destruct (low 32 c =? 0); assumption|destruct (low 32 c =? 0); assumption|apply sound_block, HS|split; [reflexivity|cbn; lia]|cbn [lb_value]; lia|left; exact U|right; left; exact U|right; right].
    destruct (leave C (rev (ft_rets t)) (rev (ft_rets t)) vr R s s1 L1 o HO HR WR (or_introl eq_refl)) as (o' & H1' & H2'). rewrite rev_length in H1'.
    exists s1, L1, o'. split; [|exact H2']. cbn [app]. eapply one_if; eassumption.
  - inversion HTI; subst; try discriminate Ec;
      try (match goal with H : signature _ = Some _ |- _ => rewrite (pure_control _ _ H) in Ec; discriminate Ec end);
      try (match goal with H : mem_signature _ = Some _ |- _ => rewrite (memory_control _ _ H) in Ec; discriminate Ec end); clear Ec.
    + (* br *) right. right. exists s, (fr_locals fr), (Jump l (va ++ vr)). split; [apply one_br|]. right.
      do 3 (split; [first [assumption|apply same_refl]|]). do 2 (split; [assumption|]).
      apply types_app in HA. destruct HA as (us & w & -> & HU & _). apply Forall_app in WA.
      exists ts, us, (w ++ vr). split; [assumption|]. split; [symmetry; apply app_assoc|]. split; [exact HU|apply WA].
    + (* br_if *) apply types_cons in HA. destruct HA as (c & va' & -> & _ & HA). apply Forall_cons_iff in WA. destruct WA as [Wc WA].
      right. right. cbn [app]. eexists s, (fr_locals fr), _. split; [apply one_br_if, Wc|]. right.
      do 3 (split; [first [assumption|apply same_refl]|]). do 2 (split; [assumption|]). destruct (low 32 c =? 0); cbn [fits].
      * split; [apply types_join; assumption|apply Forall_app; split; assumption].
      * exists B, va', vr. auto.
    + (* br_table *) apply types_cons in HA. destruct HA as (c & va' & -> & _ & HA). apply Forall_cons_iff in WA. destruct WA as [Wc WA].
      right. right. cbn [app]. eexists s, (fr_locals fr), _. split; [apply one_br_table, Wc|]. right.
      do 3 (split; [first [assumption|apply same_refl]|]). do 2 (split; [assumption|]). cbn [fits].
      apply types_app in HA. destruct HA as (us & w & -> & HU & _). apply Forall_app in WA.
      exists ts, us, (w ++ vr). split; [|split; [symmetry; apply app_assoc|split; [exact HU|apply WA]]].
      match goal with H : Forall _ (?d :: ?ls) |- _ => rewrite Forall_forall in H; apply H end.
      destruct (nth_in_or_default (Z.to_nat (low 32 c)) ls d) as [I| ->]; [right; exact I|left; reflexivity].
    + (* return *) right. right. exists s, (fr_locals fr), (Back (va ++ vr)). split; [apply one_return|]. right.
      do 3 (split; [first [assumption|apply same_refl]|]). do 2 (split; [assumption|]).
      apply types_app in HA. destruct HA as (us & w & -> & HU & _). apply Forall_app in WA.
      exists us, (w ++ vr). split; [symmetry; apply app_assoc|]. split; [exact HU|apply WA].
    + (* call *)
      match goal with H : nth_error (c_funcs C) _ = _ |- _ => destruct (it_func _ _ _ (frame_instance _ _ _ Hf) _ _ H) as (a & f & Ha & Hf' & Tf) end.
      subst t. assert (EA : exists ar, va = rev ar) by (exists (rev va); symmetry; apply rev_involutive). destruct EA as (ar & EA). subst va. apply rev_types in HA. rewrite rev_involutive in HA.
      assert (War : Forall val_wf ar) by (rewrite <- (rev_involutive ar); apply Forall_rev, WA).
      assert (X : step F host m = evaluate_call F host (Z.of_nat a) (mkmach s ((rev ar ++ vr) ++ W) (goto lb (S (lb_index lb)) :: LS) (fr :: FS))).
      { unfold m. rewrite (step_at F hs _ _ _ _ _ _ _ _ Hc). cbn [exec]. unfold imm. unfold bind at 1, lift, arg_int. rewrite (py_index_0 [AInt (Z.of_nat i)] (AInt (Z.of_nat i)) eq_refl).
        cbn [rbind]. unfold bind at 1, mget. cbn [k_store]. unfold bind at 1, lift. rewrite (py_index_nth _ _ _ Ha). reflexivity. }
      destruct (conv_called n (IC n ltac:(lia)) C s a f ar vr R W (goto lb (S (lb_index lb)) :: LS) fr FS HS ltac:(discriminate) Hf' HA War HR WR) as [(m1 & E1 & N1 & U)|(s1 & o & H1 & H2)].
      * rewrite <- X in E1. apply (go_step F host odd _ n m m1 NE E1 N1). destruct U as [U|U]; [left|right; left]; exact U.
      * right. right. exists s1, (fr_locals fr), o. split; [|exact H2]. eapply one_call; eassumption.
    + (* call_indirect *) apply types_cons in HA. destruct HA as (c & va' & -> & _ & HA). apply Forall_cons_iff in WA. destruct WA as [Wc WA].
      match goal with H : nth_error (c_tabls C) _ = _ |- _ => destruct (it_tabl _ _ _ (frame_instance _ _ _ Hf) _ _ H) as (ta & x & Ha & Hx & Tx) end.
      match goal with H : nth_error (c_types C) _ = _ |- _ => rewrite <- (it_type _ _ _ (frame_instance _ _ _ Hf)) in H; rename H into Hty end.
      cbn [app] in *. assert (TR : forall e (P : Prop), (P -> e) -> P -> e) by auto. clear TR.
      assert (TRAP : (nth_error (ti_elem x) (Z.to_nat (low 32 c)) = None \/
         (exists u, nth_error (ti_elem x) (Z.to_nat (low 32 c)) = Some (null_ref u)) \/
         (exists u a f, nth_error (ti_elem x) (Z.to_nat (low 32 c)) = Some (ref_to u a) /\ Z.of_nat a < 2 ^ 31 /\
            nth_error (s_func s) a = Some f /\ fi_type f <> t)) ->
         exists s' L' o, one_by both F hs (S (length FS)) (fr_module fr) s (fr_locals fr) (c :: va' ++ vr) (IOp O_call_indirect [imm i; imm j]) s' L' o /\ after C (rev (ft_rets t) ++ R) s s' L' o).
      { intros H. exists s, (fr_locals fr), Trap. split; [|left; reflexivity]. eapply one_indirect_trap; eassumption. }
      destruct (nth_error (ti_elem x) (Z.to_nat (low 32 c))) as [r|] eqn:EN; [|right; right; apply TRAP; left; reflexivity].
      destruct (ref_cases (length (s_func s)) r) as [->|[(a & Hlt & ->)|[NN NR]]].
      * right. right. apply TRAP. right. left. exists T_func. reflexivity.
      * pose proof (st_many s Hs) as HM. unfold len in HM. assert (Hlt' : Z.of_nat a < 2 ^ 31) by lia.
        destruct (nth_error (s_func s) a) as [f|] eqn:Nf; [|apply nth_error_None in Nf; lia].
        destruct (ft_eqb (fi_type f) t) eqn:Eft.
        2:{ right. right. apply TRAP. right. right. exists T_func, a, f. split; [reflexivity|]. split; [exact Hlt'|]. split; [exact Nf|].
            intros E. apply ft_eqb_eq in E. congruence. }
        apply ft_eqb_eq in Eft. subst t.
        assert (EA : exists ar, va' = rev ar) by (exists (rev va'); symmetry; apply rev_involutive). destruct EA as (ar & EA). subst va'. apply rev_types in HA. rewrite rev_involutive in HA.
        assert (War : Forall val_wf ar) by (rewrite <- (rev_involutive ar); apply Forall_rev, WA).
        assert (X : step F host m = evaluate_call F host (Z.of_nat a) (mkmach s ((rev ar ++ vr) ++ W) (goto lb (S (lb_index lb)) :: LS) (fr :: FS))).
        { unfold m. rewrite (step_at F hs _ _ _ _ _ _ _ _ Hc). unfold imm. rewrite (indirect_run F host s c ((rev ar ++ vr) ++ W) _ fr FS _ j i ta x (fi_type f) c Ha Hx Hty Wc), EN.
          unfold bind at 1, lift at 1. rewrite ref_to_addr by exact Hlt'. unfold bind at 1, lift at 1. rewrite (py_index_nth _ _ _ Nf).
          unfold bind at 1, assert, lift. rewrite (proj2 (ft_eqb_eq _ _) eq_refl). reflexivity. }
        destruct (conv_called n (IC n ltac:(lia)) C s a f ar vr R W (goto lb (S (lb_index lb)) :: LS) fr FS HS ltac:(discriminate) Nf HA War HR WR) as [(m1 & E1 & N1 & U)|(s1 & o & H1 & H2)].
        -- rewrite <- X in E1. apply (go_step F host odd _ n m m1 NE E1 N1). destruct U as [U|U]; [left|right; left]; exact U.
        -- right. right. exists s1, (fr_locals fr), o. split; [|exact H2]. eapply one_indirect; try eassumption. reflexivity.
      * right. left. exists m. split; [exists O; reflexivity|]. apply Hodd. exists fr, i, j, c, ((va' ++ vr) ++ W), ta, x, r.
        split; [split; [exists lb, LS; split; [reflexivity|exact (at_code_nth _ _ _ Hc)]|exists FS; reflexivity]|].
        split; [reflexivity|]. do 3 (split; [assumption|]). split; [exact NN|exact NR].
  - (* straight-line code *)
    assert (W' : Forall val_wf (va ++ vr)) by (apply Forall_app; split; assumption).
    pose proof (t_basic F CF s Hs Ok_s (fr_module fr) C (frame_instance _ _ _ Hf) (fr_locals fr) HL vr o args A B va HTI Ec HA W') as Hb.
    inversion Hok as [| | |? ? Hop]; subst.
    pose proof (w_basic s Ok_s F (fr_module fr) o args Hop (mkb s (fr_locals fr) (va ++ vr)) (conj eq_refl (conj HWL W'))) as Hw.
    pose proof (proj2 (deep_basic F (fr_module fr) o args) s (fr_locals fr) (va ++ vr)) as Hd.
    specialize (Hd ltac:(rewrite app_length, (types_length _ _ HA); pose proof (typed_takes _ _ _ _ _ HTI Ec); lia)).
    destruct (Hmeans C o args A B R s va vr W lb LS fr FS rest HTI Ec Hok HA HR WA WR HS Hc) as [Hm|Hm].
    { right. left. exists m. split; [exists O; reflexivity|exact Hm]. }
    right. right. unfold TypeBasicFacts.ends in Hb. destruct (exec_basic F (fr_module fr) o args _) as [[[]|e] [s1 L1 V1]] eqn:EX; cbn [b_store b_locals b_value] in *.
    + destruct Hb as (vs & Ev & HT' & HL' & Hs' & Hsa). cbn [b_store b_locals b_value] in *. subst V1. destruct Hw as (P1 & P2 & P3 & P4). cbn [b_store b_locals b_value] in *.
      exists s1, L1, (Done (vs ++ vr)). split; [apply one_op; [apply straight_op, Ec|]; assert (BM : by_model F (fr_module fr) o args s (fr_locals fr) (va ++ vr) s1 L1 (Some (vs ++ vr))) by exact EX; split; [exact BM|exact (Hm _ _ _ BM)]|]. right.
      do 5 (split; [assumption|]). split; [apply types_join; assumption|assumption].
    + exists s1, L1, Trap. split; [|left; reflexivity]. apply one_op_trap; [apply straight_op, Ec|].
      assert (BM : by_model F (fr_module fr) o args s (fr_locals fr) (va ++ vr) s1 L1 None) by (exists e, V1; split; [exact EX|exact Hd]).
      split; [exact BM|exact (Hm _ _ _ BM)].
Qed.

Lemma converse n : conv n.
Proof.
  induction n as [n IH] using lt_wf_ind. intros C is ts outs s V W lb LS fr FS HT Hok HV WV HS Hc Hv m.
  destruct is as [|i is].
  { apply typed_end in HT. subst ts. right. right. exists s, (fr_locals fr), (Done V). split; [constructor|]. right.
    destruct HS as (Ok_s & Hs & (h & mi & _ & _ & _ & HL) & HWL). do 2 (split; [assumption|]). split; [apply same_refl|]. do 2 (split; [assumption|]). split; assumption. }
  apply typed_rest in HT. destruct HT as (A & B & R & -> & HTI & HTS). apply types_app in HV. destruct HV as (va & vr & -> & HA & HR).
  apply Forall_app in WV. destruct WV as [WA WR]. apply Forall_cons_iff in Hok. destruct Hok as [Hi His].
  destruct (conv_one n IH C i A B R is s va vr W lb LS fr FS HTI Hi HA HR WA WR HS Hc Hv) as [U|[U|(s1 & L1 & o & HO & HAf)]];
    [left; exact U|right; left; exact U|].
  destruct (is_done o) eqn:ED.
  2:{ right. right. exists s1, L1, o. split; [eapply run_stop; eassumption|]. destruct HAf as [->|HAf]; [left; reflexivity|]. right.
      destruct HAf as (A1 & A2 & A3 & A4 & A5 & A6). do 5 (split; [assumption|]). destruct o; try exact A6. discriminate ED. }
  destruct o as [V1| | |]; try discriminate ED. destruct HAf as [HAf|(A1 & A2 & A3 & A4 & A5 & A6 & A7)]; [discriminate HAf|].
  destruct (simulation F hs) as (_ & Sim & _). pose proof (Sim _ _ _ _ _ _ _ _ _ (forget_one _ _ _ _ _ _ _ _ _ HO) W lb LS fr FS is Hc Hv eq_refl eq_refl eq_refl) as E. cbn [ends] in E.
  destruct E as [k E].
  assert (K : k <> O).
  { intros ->. specialize (E O). cbn [Nat.add evaluate] in E. injection E as _ _ E _. destruct lb as [b1 b2 b3 b4 b5 b6]. unfold goto in E. cbn in E. injection E as E. lia. }
  apply (go_on F host odd _ k n m _ E); [discriminate|]. intros Hk.
  destruct (IH (n - k)%nat ltac:(lia) C is (B ++ R) outs s1 V1 W (goto lb (S (lb_index lb))) LS (relocal fr L1) FS HTS His A6 A7 (sound_later C s s1 fr L1 HS A1 A2 A3 A4 A5)
    (at_code_next _ _ _ Hc) Hv) as [U|[U|(s2 & L2 & o & HRun & HO2)]]; [left; exact U|right; left; exact U|].
  right. right. exists s2, L2, o. split; [|exact (after_later _ _ _ _ _ _ _ A3 HO2)]. eapply run_cons; [exact HO|exact HRun].
Qed.

End converse.

(* ---- invocations ---- *)
Section invocations.
Context {sg : nat -> functype} (F : fops) (CF : converts F) (hs : storehost).
Notation host := (plain_host hs).
Context (HB : well_behaved host) (HH : host_typed sg host).
Notation unfinished := (unfinished F host).
Lemma evaluate_finished n : forall k m, (n <= k)%nat -> ~ SpecConverse.unfinished F host n m -> evaluate F host k m = evaluate F host n m.
Proof.
  induction n as [|n IH]; intros k m Hk H.
  - cbn [evaluate]. apply evaluate_empty. destruct (k_label m) eqn:E; [reflexivity|]. exfalso. apply H. exists m. split; [reflexivity|congruence].
  - destruct k as [|k]; [lia|]. cbn [evaluate]. destruct (k_label m) as [|lb LS] eqn:E; [reflexivity|]. unfold bind.
    destruct (step F host m) as [[u|e] m1] eqn:ES; [|reflexivity]. apply IH; [lia|]. intros (m' & E1 & E2). apply H. exists m'. split; [|exact E2].
    cbn [evaluate]. rewrite E. unfold bind. rewrite ES. exact E1.
Qed.
Lemma unfinished_dec n m : unfinished n m \/ ~ unfinished n m.
Proof.
  destruct (evaluate F host n m) as [[[]|e] m'] eqn:E.
  - destruct (k_label m') eqn:EL; [right|left; exists m'; split; [exact E|congruence]]. intros (m2 & E1 & E2). rewrite E in E1. injection E1 as <-. contradiction.
  - right. intros (m2 & E1 & E2). congruence.
Qed.

Section function.
Context (s : store) (a : nat) (t : functype) (h : nat) (code : funcdesc) (args : list val).
Context (Ok_s : store_ok s) (Hs : store_typed sg s) (N : nth_error (s_func s) a = Some (FWasm t h code)).
Context (WA : Forall val_wf args) (HA : has_types args (ft_args t)).
Notation start := (starts s t h code args).
Notation runs s' L' o := (run F hs 2 (MRef h) s (args ++ default_locals (fd_locals code)) [] (fd_expr code) s' L' o).

Lemma run_results s' L' o R : runs s' L' o -> result (length (ft_rets t)) o (Some R) ->
  exists n, evaluate F host n start = (Ok tt, mkmach s' (rev R) [] [dummy]).
Proof.
  intros HR Hres. destruct (simulation F hs) as [Sim _]. specialize (Sim _ _ _ _ _ _ _ _ _ HR). unfold P_run in Sim.
  specialize (Sim [] (first_label t code) [] (first_frame t h code args) [dummy]
    (conj eq_refl (PeanoNat.Nat.le_0_l _)) (PeanoNat.Nat.le_0_l _) eq_refl eq_refl eq_refl).
  assert (X : reach F (plain_host hs) (mkmach s [] [first_label t code] [first_frame t h code args; dummy]) (mkmach s' (rev R) [] [dummy])).
  { inversion Hres as [R0 Hk|R0 Hk|R0 Hk|]; subst o R; cbn [ends] in Sim.
    - eapply reach_trans; [exact Sim|]. rewrite app_nil_r, rev_involutive. apply reach_step; [discriminate|].
      apply (step_end_func F hs s' R0 (first_label t code) [] (relocal (first_frame t h code args) L') [dummy]); [reflexivity|exact Hk].
    - rewrite rev_involutive. specialize (Sim (le_n _) Hk (le_n _)). cbn in Sim. rewrite app_nil_r in Sim. exact (reach1_weak _ _ _ _ Sim).
    - rewrite rev_involutive. specialize (Sim _ eq_refl (le_n _) Hk). cbn in Sim. rewrite app_nil_r in Sim. exact (reach1_weak _ _ _ _ Sim). }
  destruct X as [n0 X]. exists n0. rewrite starts_eq. specialize (X O). rewrite PeanoNat.Nat.add_0_r in X. exact X.
Qed.
Lemma run_traps s' L' o : runs s' L' o -> result (length (ft_rets t)) o None ->
  exists n e m', evaluate F host n start = (Err e, m') /\ k_store m' = s'.
Proof.
  intros HR Hres. destruct (simulation F hs) as [Sim _]. specialize (Sim _ _ _ _ _ _ _ _ _ HR). unfold P_run in Sim.
  specialize (Sim [] (first_label t code) [] (first_frame t h code args) [dummy]
    (conj eq_refl (PeanoNat.Nat.le_0_l _)) (PeanoNat.Nat.le_0_l _) eq_refl eq_refl eq_refl).
  inversion Hres; subst o. cbn [ends] in Sim. destruct Sim as (n0 & e & m' & E & HS). exists n0, e, m'. split; [|exact HS].
  rewrite starts_eq. specialize (E O). rewrite PeanoNat.Nat.add_0_r in E. exact E.
Qed.
Lemma ended n r m' : evaluate F host n start = (r, m') -> r <> Ok tt \/ k_label m' = [] -> ~ unfinished n start.
Proof. intros E H (m2 & E1 & E2). rewrite E in E1. injection E1 as -> ->. destruct H as [H|H]; contradiction. Qed.
Lemma same_end n1 n2 : ~ unfinished n1 start -> ~ unfinished n2 start -> evaluate F host n1 start = evaluate F host n2 start.
Proof.
  intros H1 H2. destruct (Compare_dec.le_lt_dec n1 n2) as [G|G]; [symmetry; apply evaluate_finished; assumption|apply evaluate_finished; [lia|assumption]].
Qed.
(* what an invocation returns *)
Lemma invocate_value n R s' : evaluate F host n start = (Ok tt, mkmach s' (rev R) [] [dummy]) ->
  invocate F host n (Z.of_nat a) args (mkmach s [] [] []) = (Ok R, mkmach s' [] [] []).
Proof.
  intros E. pose proof (starts_running s t h code args a Ok_s Hs N WA HA) as HR.
  pose proof (evaluate_typed F CF host HB HH _ n _ HR) as EV. rewrite E in EV. destruct EV as [(_ & _ & C & K) _].
  destruct (kont_done _ _ _ _ _ K) as [TV _]. cbn [en_types k_value] in TV.
  rewrite (invocate_starts F host n a args s t h code N HA), <- starts_eq, (bind_ok _ _ _ _ _ E).
  assert (HT : has_types R (ft_rets t)) by (rewrite <- (rev_involutive R); apply rev_types, TV).
  assert (HL : length (rev R) = length (ft_rets t)) by (rewrite rev_length; exact (types_length _ _ HT)).
  pose proof (popn_run (length (ft_rets t)) (rev R) [] s' [] [dummy] ltac:(lia)) as P. rewrite app_nil_r in P.
  rewrite (bind_ok _ _ _ _ _ P). rewrite <- HL, firstn_all, skipn_all, rev_involutive.
  unfold bind, assert, lift, py_assert. rewrite types_agree_refl by exact HT. reflexivity.
Qed.
Lemma invocate_fails n e m' : evaluate F host n start = (Err e, m') -> invocate F host n (Z.of_nat a) args (mkmach s [] [] []) = (Err e, m').
Proof. intros E. rewrite (invocate_starts F host n a args s t h code N HA), <- starts_eq. apply bind_err, E. Qed.
Lemma invocate_returned n R m' : invocate F host n (Z.of_nat a) args (mkmach s [] [] []) = (Ok R, m') -> ~ unfinished n start.
Proof.
  rewrite (invocate_starts F host n a args s t h code N HA), <- starts_eq. intros E (m1 & E1 & E2). rewrite (bind_ok _ _ _ _ _ E1) in E.
  assert (P : forall k m, k_label (snd (popn k m)) = k_label m).
  { induction k as [|k IH]; intros m; [reflexivity|]. cbn [popn]. unfold bind, popv. destruct (k_value m); [reflexivity|].
    specialize (IH (set_value m l)). destruct (popn k (set_value m l)) as [[x|x] mm]; exact IH. }
  specialize (P (length (ft_rets t)) m1). unfold bind in E. destruct (popn (length (ft_rets t)) m1) as [[x|x] mm]; [|discriminate E]. cbn [snd] in P.
  unfold assert, lift, py_assert in E. destruct (types_agree _ _); [|discriminate E]. unfold pop_frame in E. destruct (k_frame mm); [discriminate E|].
  unfold mget, set_frame in E. cbn [k_label k_frame k_value] in E. rewrite P in E. destruct (Nat.eqb _ _); [|discriminate E].
  destruct (k_label m1); [contradiction|]. discriminate E.
Qed.


Section meaning.
Context (means : meaning) (odd : machine -> Prop).
Notation stray := (meets F host odd).
Notation both := (fun mr o args s L V s' L' r => by_model F mr o args s L V s' L' r /\ means mr o args s L V s' L' r).
Notation runs2 s' L' o := (run_by both F hs 2 (MRef h) s (args ++ default_locals (fd_locals code)) [] (fd_expr code) s' L' o).
Context (Hmeans : forall C o args A B R s va vr W lb LS fr FS rest,
  typed_inst C (IOp o args) A B -> is_control o = false -> inst_ok (IOp o args) -> has_types va A -> has_types vr R ->
  Forall val_wf va -> Forall val_wf vr -> sound (sg := sg) s C fr -> at_code lb (IOp o args :: rest) ->
  odd (mkmach s ((va ++ vr) ++ W) (lb :: LS) (fr :: FS)) \/
  forall s' L' r, by_model F (fr_module fr) o args s (fr_locals fr) (va ++ vr) s' L' r ->
    means (fr_module fr) o args s (fr_locals fr) (va ++ vr) s' L' r).
Context (Hodd : forall m, astray m -> odd m).
Lemma start_means n : unfinished n start \/ stray start \/
  exists s' L' o r, runs2 s' L' o /\ result (length (ft_rets t)) o r.
Proof.
  pose proof (nth_Forall _ _ _ _ (st_func s Hs) N) as (mi & C2 & Hmi & Hin & Hloc & Hlab & Hret & Hty).
  rewrite starts_eq.
  assert (S' : sound (sg := sg) s C2 (first_frame t h code args)).
  { split; [exact Ok_s|]. split; [exact Hs|]. unfold first_frame. rewrite <- default_zero. split.
    - exists h, mi. split; [reflexivity|]. split; [exact Hmi|]. split; [exact Hin|]. cbn [fr_locals]. rewrite Hloc. apply types_join; [exact HA|apply zero_types].
    - cbn [fr_locals]. apply Forall_app. split; [exact WA|apply zero_locals_wf]. }
  destruct (converse F CF hs HB HH means odd Hmeans Hodd n C2 (fd_expr code) [] (rev (ft_rets t)) s [] [] (first_label t code) [] (first_frame t h code args) [dummy] Hty (nth_Forall _ _ _ _ (so_func s Ok_s) N)
     eq_refl (Forall_nil _) S' (conj eq_refl (PeanoNat.Nat.le_0_l _)) (le_n _)) as [U|[U|(s1 & L1 & o & HRun & HO)]]; [left; exact U|right; left; exact U|].
  right. right. exists s1, L1, o. destruct HO as [->|(_ & _ & _ & _ & _ & A6)]; [exists None; split; [exact HRun|constructor]|].
  destruct o as [X|k X|X|]; cbn [fits] in A6.
  - eexists. split; [exact HRun|]. constructor. rewrite (types_length _ _ (proj1 A6)). apply rev_length.
  - destruct A6 as (ts & Y & Z & E & _). rewrite Hlab in E. destruct k; discriminate E.
  - destruct A6 as (Y & Z & -> & T & W). eexists. split; [exact HRun|]. constructor. rewrite app_length, (types_length _ _ T), rev_length, Hret. lia.
  - contradiction.
Qed.
(* the forward direction *)
Lemma meant n : unfinished n start \/ stray start \/
  exists s' L' o r, runs2 s' L' o /\ result (length (ft_rets t)) o r /\
    match invocate F host n (Z.of_nat a) args (mkmach s [] [] []) with
    | (Ok R, m') => r = Some R /\ m' = mkmach s' [] [] []
    | (Err _, m') => r = None /\ k_store m' = s'
    end.
Proof.
  destruct (unfinished_dec n start) as [U|U]; [left; exact U|right].
  destruct (start_means n) as [G|[G|(s' & L' & o & r & HR & Hr)]]; [contradiction|left; exact G|right]. exists s', L', o, r.
  split; [exact HR|]. split; [exact Hr|]. destruct r as [R|].
  - destruct (run_results _ _ _ _ (forget _ _ _ _ _ _ _ _ _ _ _ _ HR) Hr) as (n0 & E). rewrite <- (same_end n n0 U (ended _ _ _ E (or_intror eq_refl))) in E.
    rewrite (invocate_value _ _ _ E). split; reflexivity.
  - destruct (run_traps _ _ _ (forget _ _ _ _ _ _ _ _ _ _ _ _ HR) Hr) as (n0 & e & m' & E & HS). rewrite <- (same_end n n0 U (ended _ _ _ E ltac:(left; discriminate))) in E.
    rewrite (invocate_fails _ _ _ E). split; [reflexivity|exact HS].
Qed.
End meaning.

Notation stray := (stray F host).
Lemma start_conv n : unfinished n start \/ stray start \/
  exists s' L' o r, runs s' L' o /\ result (length (ft_rets t)) o r.
Proof.
  destruct (start_means (fun _ _ _ _ _ _ _ _ _ => True) astray (fun C o ar A B R s va vr W lb LS fr FS rest _ _ _ _ _ _ _ _ _ => or_intror (fun _ _ _ _ => I)) (fun m H => H) n)
    as [U|[U|(s' & L' & o & r & HR & H)]]; [left; exact U|right; left; apply meets_astray, U|].
  right. right. exists s', L', o, r. split; [exact (forget _ _ _ _ _ _ _ _ _ _ _ _ HR)|exact H].
Qed.
Lemma structured n : unfinished n start \/ stray start \/
  exists s' L' o r, runs s' L' o /\ result (length (ft_rets t)) o r /\
    match invocate F host n (Z.of_nat a) args (mkmach s [] [] []) with
    | (Ok R, m') => r = Some R /\ m' = mkmach s' [] [] []
    | (Err _, m') => r = None /\ k_store m' = s'
    end.
Proof.
  destruct (meant (fun _ _ _ _ _ _ _ _ _ => True) astray (fun C o ar A B R s va vr W lb LS fr FS rest _ _ _ _ _ _ _ _ _ => or_intror (fun _ _ _ _ => I)) (fun m H => H) n)
    as [U|[U|(s' & L' & o & r & HR & H)]]; [left; exact U|right; left; apply meets_astray, U|].
  right. right. exists s', L', o, r. split; [exact (forget _ _ _ _ _ _ _ _ _ _ _ _ HR)|exact H].
Qed.
Lemma exactly : ~ stray start ->
  (forall R s', (exists n, invocate F host n (Z.of_nat a) args (mkmach s [] [] []) = (Ok R, mkmach s' [] [] [])) <->
     (exists L' o, runs s' L' o /\ result (length (ft_rets t)) o (Some R))) /\
  (forall s', (exists n e m', evaluate F host n start = (Err e, m') /\ k_store m' = s') <->
     (exists L' o, runs s' L' o /\ result (length (ft_rets t)) o None)) /\
  ((forall n, unfinished n start) <-> ~ exists s' L' o r, runs s' L' o /\ result (length (ft_rets t)) o r).
Proof.
  intros NS. split; [|split].
  - intros R s'. split.
    + intros (n & E). destruct (structured n) as [U|[U|(s1 & L1 & o & r & HR & Hr & HE)]]; [exfalso; exact (invocate_returned _ _ _ E U)|contradiction|].
      rewrite E in HE. destruct HE as [-> HE]. injection HE as <-. exists L1, o. split; assumption.
    + intros (L' & o & HR & Hr). destruct (run_results _ _ _ _ HR Hr) as (n & E). exists n. apply invocate_value, E.
  - intros s'. split.
    + intros (n & e & m' & E & <-). destruct (structured n) as [U|[U|(s1 & L1 & o & r & HR & Hr & HE)]];
        [exfalso; exact (ended _ _ _ E ltac:(left; discriminate) U)|contradiction|].
      rewrite (invocate_fails _ _ _ E) in HE. destruct HE as [-> <-]. exists L1, o. split; assumption.
    + intros (L' & o & HR & Hr). exact (run_traps _ _ _ HR Hr).
  - split.
    + intros H (s' & L' & o & r & HR & Hr).
      destruct r as [R|].
      * destruct (run_results _ _ _ _ HR Hr) as (n & E). exact (ended _ _ _ E (or_intror eq_refl) (H n)).
      * destruct (run_traps _ _ _ HR Hr) as (n & e & m' & E & _). exact (ended _ _ _ E ltac:(left; discriminate) (H n)).
    + intros H n. destruct (start_conv n) as [U|[U|(s' & L' & o & r & HR & Hr)]]; [exact U|contradiction|]. exfalso. apply H. exists s', L', o, r. split; assumption.
Qed.
End function.
End invocations.
