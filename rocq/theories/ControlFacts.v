(* The flat machine runs structured code as SpecControl.v says. *)
From Coq Require Import ZArith List Bool Lia ZifyBool ZifyNat.
From Verif Require Import Py Arith Floatops Val Opcode Numeric Syntax Store Basic Machine
  SpecInt SpecNum SpecMachine SpecControl PyFacts ArithFacts ValFacts StepFacts MemFacts BulkFacts.
Import ListNotations.
Open Scope Z_scope.

(* ---- straight-line code does not look below its operands ---- *)
Definition local_op {A} (c : B A) : Prop := forall s L V,
  match c (mkb s L V) with
  | (Ok a, b) => forall W, c (mkb s L (V ++ W)) = (Ok a, mkb (b_store b) (b_locals b) (b_value b ++ W))
  | (Err e, b) => e = EPop \/ forall W, exists L' V', c (mkb s L (V ++ W)) = (Err e, mkb (b_store b) L' V')
  end.
Lemma l_bind {A B'} (c : B A) (f : A -> B B') : local_op c -> (forall a, local_op (f a)) -> local_op (bind c f).
Proof.
  intros H1 H2 s L V. unfold bind. specialize (H1 s L V). destruct (c (mkb s L V)) as [[a|e] b].
  - destruct b as [s1 L1 V1]. specialize (H2 a s1 L1 V1). cbn [b_store b_locals b_value] in H1.
    destruct (f a (mkb s1 L1 V1)) as [[x|e] b2].
    + intros W. rewrite H1. apply H2.
    + destruct H2 as [H2|H2]; [left; exact H2|right]. intros W. rewrite H1. apply H2.
  - destruct H1 as [H1|H1]; [left; exact H1|right]. intros W. destruct (H1 W) as (L' & V' & ->). exists L', V'. reflexivity.
Qed.
Lemma l_lift {A} (r : res A) : local_op (lift r).
Proof. intros s L V. unfold lift. destruct r; [reflexivity|right; intros W; exists L, (V ++ W); reflexivity]. Qed.
Lemma l_ret {A} (a : A) : local_op (ret a).
Proof. intros s L V W. reflexivity. Qed.
Lemma l_fail {A} e : local_op (@fail _ A e).
Proof. intros s L V. right. intros W. exists L, (V ++ W). reflexivity. Qed.
Lemma l_assert c : local_op (assert c).
Proof. apply l_lift. Qed.
Lemma l_pop : local_op pop.
Proof. intros s L [|v V]; [left; reflexivity|intros W; reflexivity]. Qed.
Lemma l_top : local_op top.
Proof. intros s L [|v V]; [left; reflexivity|intros W; reflexivity]. Qed.
Lemma l_push v : local_op (push v).
Proof. intros s L V W. reflexivity. Qed.
Lemma l_get_store : local_op get_store.
Proof. intros s L V W. reflexivity. Qed.
Lemma l_put_store x : local_op (put_store x).
Proof. intros s L V W. reflexivity. Qed.
Lemma l_get_locals : local_op get_locals.
Proof. intros s L V W. reflexivity. Qed.
Lemma l_put_locals x : local_op (put_locals x).
Proof. intros s L V W. reflexivity. Qed.
Ltac lo := repeat first
  [ apply l_pop | apply l_top | apply l_push | apply l_get_store | apply l_put_store | apply l_get_locals | apply l_put_locals
  | apply l_lift | apply l_ret | apply l_fail | apply l_assert
  | progress unfold mem_load, mem_save, load_lane, store_lane, pop_u32, pushr, mod_addr, get_mem, get_tab, get_glob, get_elem,
      get_data, get_blob, put_mem, put_tab, put_glob, put_elem, put_blob
  | apply l_bind; [|intros]
  | match goal with |- local_op (if ?b then _ else _) => destruct b end ].
Lemma misc_local mr o args : local_op (exec_misc mr o args).
Proof. destruct o; cbn [exec_misc]; lo. Qed.
Lemma basic_local F mr o args : local_op (exec_basic F mr o args).
Proof.
  unfold exec_basic. destruct (num_op F o) as [[f|f|f|f]|]; cbn [exec_num]; [lo..|].
  destruct (load_op o) as [[n conv]|]; [lo|]. destruct (store_op o) as [n|]; [lo|]. apply misc_local.
Qed.

Lemma relocal_same fr : relocal fr (fr_locals fr) = fr.
Proof. destruct fr; reflexivity. Qed.
Lemma keep_app {A} n (X W : list A) : (n <= length W)%nat -> keep n (X ++ W) = keep n W.
Proof.
  intros H. unfold keep. rewrite app_length. replace (length X + length W - n)%nat with (length X + (length W - n))%nat by lia.
  rewrite skipn_app. replace (length X + (length W - n) - length X)%nat with (length W - n)%nat by lia.
  rewrite skipn_all2 by lia. reflexivity.
Qed.
Lemma keep_all {A} n (W : list A) : n = length W -> keep n W = W.
Proof. intros ->. unfold keep. rewrite PeanoNat.Nat.sub_diag. reflexivity. Qed.

Lemma at_code_nth lb i rest : at_code lb (i :: rest) -> nth_error (lb_instr lb) (lb_index lb) = Some i.
Proof.
  intros [H _]. revert i rest H. generalize (lb_instr lb). generalize (lb_index lb). induction n as [|n IH]; intros l i rest E.
  - cbn in E. subst l. reflexivity.
  - destruct l; [discriminate E|]. cbn in E. exact (IH _ _ _ E).
Qed.
Lemma at_code_next lb i rest : at_code lb (i :: rest) -> at_code (goto lb (S (lb_index lb))) rest.
Proof.
  intros H. pose proof (at_code_nth _ _ _ H) as N. destruct H as [H _]. split.
  - cbn [goto lb_instr lb_index]. revert i rest H N. generalize (lb_instr lb). generalize (lb_index lb).
    induction n as [|n IH]; intros l i rest E N.
    + cbn in E. subst l. reflexivity.
    + destruct l; [discriminate E|]. cbn in E. exact (IH _ _ _ E N).
  - cbn [goto lb_instr lb_index]. apply nth_error_Some. congruence.
Qed.
Lemma at_code_end lb : at_code lb [] -> goto lb (length (lb_instr lb)) = lb.
Proof.
  intros [H1 H2]. assert (L : length (skipn (lb_index lb) (lb_instr lb)) = O) by (rewrite H1; reflexivity).
  rewrite skipn_length in L. replace (length (lb_instr lb)) with (lb_index lb) by lia. destruct lb; reflexivity.
Qed.

Lemma popn_run n V W s LB FR : (n <= length V)%nat ->
  popn n (mkmach s (V ++ W) LB FR) = (Ok (rev (firstn n V)), mkmach s (skipn n V ++ W) LB FR).
Proof.
  revert V. induction n as [|n IH]; intros V H; [reflexivity|]. destruct V as [|v V]; [cbn in H; lia|].
  cbn [popn]. unfold bind at 1, popv. cbn [k_value app]. unfold set_value. cbn [k_store k_label k_frame].
  rewrite (bind_ok _ _ _ _ _ (IH V ltac:(cbn in H; lia))). reflexivity.
Qed.
Lemma br_run s V W LB FR k T : nth_error LB k = Some T -> (lb_value T <= length W)%nat -> (lb_arity T <= length V)%nat ->
  evaluate_br (Z.of_nat k) (mkmach s (V ++ W) LB FR) =
    (Ok tt, mkmach s (firstn (lb_arity T) V ++ keep (lb_value T) W)
              (match lb_carry T with KLoop => goto T 0 :: skipn (S k) LB | _ => skipn (S k) LB end)
              (keep (lb_frame T) FR)).
Proof.
  intros N H1 H2. assert (K : (k < length LB)%nat) by (apply nth_error_Some; congruence).
  unfold evaluate_br. unfold bind at 1, mget. cbn [k_label].
  rewrite (bind_ok _ _ _ tt (mkmach s (V ++ W) LB FR)) by (unfold assert, lift, py_assert, len; replace (Z.of_nat (length LB) >=? Z.of_nat k + 1) with true by lia; reflexivity).
  rewrite Nat2Z.id, N.
  rewrite (bind_ok _ _ _ tt (mkmach s (V ++ W) LB FR)).
  2:{ unfold assert, lift, py_assert. cbn [k_value]. rewrite app_length.
      replace (Nat.leb (lb_value T + lb_arity T) (length V + length W)) with true by (symmetry; apply PeanoNat.Nat.leb_le; lia). reflexivity. }
  rewrite (bind_ok _ _ _ _ _ (popn_run _ V W s LB FR H2)). unfold bind, mget, mput. cbn [k_store k_value k_label k_frame].
  rewrite rev_involutive, keep_app by exact H1. reflexivity.
Qed.
Lemma bype_run mr s V LB fr FS bt t : fr_module fr = mr -> block_type (mod_of s mr) bt t ->
  evaluate_bype bt (mkmach s V LB (fr :: FS)) = (Ok t, mkmach s V LB (fr :: FS)).
Proof.
  intros <- H. destruct bt as [|x|i]; cbn [block_type] in H.
  - subst t. reflexivity.
  - subst t. reflexivity.
  - destruct H as [Hi N]. unfold evaluate_bype, bind, top_frame, mget, lift. cbn [k_frame k_store].
    rewrite <- (Z2Nat.id i Hi). rewrite (py_index_nth _ _ _ N). reflexivity.
Qed.
Lemma enter_run s A X lb LB FR k t body : (lb_value lb <= length X)%nat -> length A = length (ft_args t) ->
  enter lb k t body (mkmach s (A ++ X) LB FR) =
    (Ok tt, mkmach s (A ++ X) (mklabel (match k with KLoop => length (ft_args t) | _ => length (ft_rets t) end)
              (length FR) (length X) k body 0 :: LB) FR).
Proof.
  intros H E. unfold enter, bind, mget. cbn [k_value]. rewrite app_length, E.
  unfold assert, lift, py_assert.
  replace (Nat.leb (lb_value lb + length (ft_args t)) (length (ft_args t) + length X)) with true by (symmetry; apply PeanoNat.Nat.leb_le; lia).
  unfold push_label, set_label. cbn [k_store k_value k_label k_frame].
  replace (length (ft_args t) + length X - length (ft_args t))%nat with (length X) by lia. reflexivity.
Qed.

Lemma default_zero d : zero_locals d = default_locals d.
Proof. unfold zero_locals, default_locals. rewrite flat_map_concat_map. reflexivity. Qed.
Lemma low_signed v : val_wf v -> exists c, into_i32 v = Ok c /\ (c =? 0) = (low 32 v =? 0).
Proof.
  intros H. exists (signed_of 32 (uval v mod 2 ^ 32)). split; [apply into_i32_ok, H|].
  change (low 32 v) with (uval v mod 2 ^ 32). set (x := uval v mod 2 ^ 32).
  assert (0 <= x < 2 ^ 32) by (apply Z.mod_pos_bound; reflexivity). unfold signed_of. change (2 ^ (32 - 1)) with 2147483648.
  change (2 ^ 32) with 4294967296 in *. destruct (Z.ltb_spec x 2147483648); lia.
Qed.

Lemma vt_eqb_eq a b : vt_eqb a b = true <-> a = b.
Proof. split; [destruct a, b; intros E; try reflexivity; discriminate E|intros ->; apply vt_eqb_refl]. Qed.
Lemma vts_eqb_eq a b : vts_eqb a b = true <-> a = b.
Proof.
  revert b. induction a as [|x a IH]; intros [|y b]; cbn; split; intros E; try reflexivity; try discriminate E.
  - apply andb_prop in E. destruct E as [E1 E2]. apply vt_eqb_eq in E1. apply IH in E2. subst. reflexivity.
  - injection E as -> ->. rewrite vt_eqb_refl. apply IH. reflexivity.
Qed.
Lemma ft_eqb_eq a b : ft_eqb a b = true <-> a = b.
Proof.
  destruct a as [a1 a2], b as [b1 b2]. unfold ft_eqb. cbn. split; intros E.
  - apply andb_prop in E. destruct E as [E1 E2]. apply vts_eqb_eq in E1, E2. subst. reflexivity.
  - injection E as -> ->. rewrite (proj2 (vts_eqb_eq b1 b1) eq_refl), (proj2 (vts_eqb_eq b2 b2) eq_refl). reflexivity.
Qed.
Lemma ref_to_addr u a : Z.of_nat a < 2 ^ 31 -> into_ref (ref_to u a) = Ok (Z.of_nat a).
Proof.
  intros H. apply (into_ref_from_ref u). change (2 ^ 31) with 2147483648 in H.
  rewrite from_ref_ok by (unfold srange; change (2 ^ (32 - 1)) with 2147483648; lia).
  rewrite Z.mod_small by (change (2 ^ 32) with 4294967296; lia). reflexivity.
Qed.
Lemma null_ref_addr u : into_ref (null_ref u) = Err EAssert.
Proof. reflexivity. Qed.

(* call_indirect, up to the call *)
Lemma indirect_run F host s c V LB fr FS lb j i ta tab ty (r : val) :
  nth_error (m_tabl (mod_of s (fr_module fr))) j = Some (Z.of_nat ta) -> nth_error (s_tabl s) ta = Some tab ->
  nth_error (m_type (mod_of s (fr_module fr))) i = Some ty -> val_wf c ->
  let m' := mkmach s V LB (fr :: FS) in
  exec F host lb fr (IOp O_call_indirect [AInt (Z.of_nat i); AInt (Z.of_nat j)]) (mkmach s (c :: V) LB (fr :: FS)) =
    match nth_error (ti_elem tab) (Z.to_nat (low 32 c)) with
    | None => (Err EIndex, m')
    | Some r => (let! addr := lift (into_ref r) in
                 let! func := lift (py_index (s_func s) addr) in
                 assert (ft_eqb (fi_type func) ty) ;;
                 evaluate_call F host addr) m'
    end.
Proof.
  intros H1 H2 H3 Hc m'. assert (R0 : 0 <= low 32 c) by (apply Z.mod_pos_bound; reflexivity).
  cbn [exec]. unfold bind at 1, mget. cbn [k_store].
  rewrite (bind_ok _ _ _ (Z.of_nat j) (mkmach s (c :: V) LB (fr :: FS))) by reflexivity.
  unfold bind at 1, lift at 1. rewrite (py_index_nth _ _ _ H1).
  unfold bind at 1, lift at 1. rewrite (py_index_nth _ _ _ H2).
  rewrite (bind_ok _ _ _ (Z.of_nat i) (mkmach s (c :: V) LB (fr :: FS))) by reflexivity.
  unfold bind at 1, lift at 1. rewrite (py_index_nth _ _ _ H3).
  unfold bind at 1, popv. cbn [k_value]. unfold set_value. cbn [k_store k_label k_frame].
  unfold bind at 1, lift at 1. rewrite into_u32_ok by exact Hc. change (uval c mod 2 ^ 32) with (low 32 c).
  unfold bind at 1, lift at 1. rewrite py_index_nonneg by exact R0.
  destruct (nth_error (ti_elem tab) (Z.to_nat (low 32 c))); reflexivity.
Qed.

Lemma popn_args A V W s LB FR n : length A = n ->
  popn n (mkmach s ((rev A ++ V) ++ W) LB FR) = (Ok A, mkmach s (V ++ W) LB FR).
Proof.
  intros <-. rewrite <- rev_length, <- app_assoc, (popn_run (length (rev A)) (rev A) (V ++ W)) by lia.
  rewrite firstn_all, skipn_all, rev_involutive. reflexivity.
Qed.
Lemma call_enters F host s A V W LB FR a t h code :
  nth_error (s_func s) a = Some (FWasm t h code) -> length A = length (ft_args t) -> (length FR < 1024)%nat ->
  let n := length (ft_rets t) in
  evaluate_call F host (Z.of_nat a) (mkmach s ((rev A ++ V) ++ W) LB FR) =
    (Ok tt, mkmach s ([] ++ V ++ W) (mklabel n (S (length FR)) (length (V ++ W)) KFunc (fd_expr code) 0 :: LB)
              (mkframe (MRef h) (A ++ default_locals (fd_locals code)) n (length LB) (length (V ++ W)) :: FR)).
Proof.
  intros N HA Hd. cbv zeta.
  unfold evaluate_call. unfold bind at 1, mget at 1. cbn [k_store]. unfold bind at 1, lift at 1. rewrite (py_index_nth _ _ _ N).
  cbn [fi_type]. rewrite (bind_ok _ _ _ _ _ (popn_args A V W s LB FR _ HA)). cbv zeta iota. unfold bind at 1, mget at 1. cbn [k_frame].
  rewrite (bind_ok _ _ _ tt (mkmach s (V ++ W) LB FR)) by (unfold assert, lift, py_assert; rewrite (proj2 (PeanoNat.Nat.ltb_lt _ _) Hd); reflexivity).
  rewrite default_zero. reflexivity.
Qed.

(* ---- running on ---- *)
Section sim.
Context (F : fops) (hs : storehost).
Notation host := (plain_host hs).
Notation reach := (reach F host).
Notation breaks := (breaks F host).
Notation reach1 := (reach1 F host).
Notation ends := (ends F host).
Lemma reach_refl m : reach m m.
Proof. exists O. reflexivity. Qed.
Lemma reach_trans a b c : reach a b -> reach b c -> reach a c.
Proof. intros [n H] [k G]. exists (n + k)%nat. intros j. rewrite <- PeanoNat.Nat.add_assoc, H. apply G. Qed.
Lemma reach_breaks a b s : reach a b -> breaks b s -> breaks a s.
Proof. intros [n H] (k & e & m' & G & E). exists (n + k)%nat, e, m'. split; [|exact E]. intros j. rewrite <- PeanoNat.Nat.add_assoc, H. apply G. Qed.
Lemma reach_step m m' : k_label m <> [] -> step F host m = (Ok tt, m') -> reach m m'.
Proof.
  intros H E. exists 1%nat. intros k. cbn [Nat.add evaluate]. destruct (k_label m); [contradiction|]. unfold bind. rewrite E. reflexivity.
Qed.
Lemma reach1_step m m' : k_label m <> [] -> step F host m = (Ok tt, m') -> reach1 m m'.
Proof.
  intros H E. exists O. intros k. cbn [Nat.add evaluate]. destruct (k_label m); [contradiction|]. unfold bind. rewrite E. reflexivity.
Qed.
Lemma reach1_weak m m' : reach1 m m' -> reach m m'.
Proof. intros [n H]. exists (S n). exact H. Qed.
Lemma reach1_after a b c : reach a b -> reach1 b c -> reach1 a c.
Proof.
  intros [n H] [k G]. exists (n + k)%nat. intros j. replace (S (n + k) + j)%nat with (n + (S k + j))%nat by lia. rewrite H. apply G.
Qed.
Lemma breaks_step m e m' : k_label m <> [] -> step F host m = (Err e, m') -> breaks m (k_store m').
Proof.
  intros H E. exists 1%nat, e, m'. split; [|reflexivity]. intros k. cbn [Nat.add evaluate]. destruct (k_label m); [contradiction|].
  unfold bind. rewrite E. reflexivity.
Qed.

Lemma ends_reach m m' W lb n LS fr FS s L o : reach m m' -> ends m' W lb n LS fr FS s L o -> ends m W lb n LS fr FS s L o.
Proof.
  intros R. destruct o; cbn [ends].
  - apply reach_trans, R.
  - intros H T H1 H2 H3. eapply reach1_after; [exact R|]. apply H; assumption.
  - intros H H1 H2 H3. eapply reach1_after; [exact R|]. apply H; assumption.
  - apply reach_breaks, R.
Qed.

Definition P_run (d : nat) (mr : modref) s L V is s' L' o : Prop :=
  forall W lb LS fr FS, at_code lb is -> (lb_value lb <= length W)%nat -> fr_module fr = mr -> fr_locals fr = L ->
    S (length FS) = d ->
    ends (mkmach s (V ++ W) (lb :: LS) (fr :: FS)) W lb (length (lb_instr lb)) LS fr FS s' L' o.
Definition P_one (d : nat) (mr : modref) s L V i s' L' o : Prop :=
  forall W lb LS fr FS rest, at_code lb (i :: rest) -> (lb_value lb <= length W)%nat -> fr_module fr = mr -> fr_locals fr = L ->
    S (length FS) = d ->
    ends (mkmach s (V ++ W) (lb :: LS) (fr :: FS)) W lb (S (lb_index lb)) LS fr FS s' L' o.
(* the loop's own label is on top *)
Definition P_loops (d : nat) (mr : modref) (n : nat) s L A body s' L' o : Prop :=
  forall W ar LS fr FS, fr_module fr = mr -> fr_locals fr = L -> S (length FS) = d -> ar = n ->
    let lb := mklabel ar d (length W) KLoop body 0 in
    (forall R, o <> Jump 0 R) /\
    ends (mkmach s (A ++ W) (lb :: LS) (fr :: FS)) W lb (length body) LS fr FS s' L' o.
(* after the instruction, the operands of the caller having been looked at only *)
Definition P_called (d : nat) s L V a s' L' o : Prop :=
  forall W LB fr FS, fr_locals fr = L -> S (length FS) = d ->
    L' = L /\
    match o with
    | Done V' => exists m1, evaluate_call F host (Z.of_nat a) (mkmach s (V ++ W) LB (fr :: FS)) = (Ok tt, m1) /\
        reach m1 (mkmach s' (V' ++ W) LB (fr :: FS))
    | Trap => exists r m1, evaluate_call F host (Z.of_nat a) (mkmach s (V ++ W) LB (fr :: FS)) = (r, m1) /\
        match r with Ok _ => breaks m1 s' | Err _ => k_store m1 = s' end
    | _ => False
    end.

Lemma ends_goto m W lb i n LS fr L1 FS s L o :
  ends m W (goto lb i) n LS (relocal fr L1) FS s L o -> ends m W lb n LS fr FS s L o.
Proof.
  destruct o; cbn [ends]; try (intros H; exact H). intros H T H1 H2 H3. destruct k as [|k].
  - injection H1 as <-. exact (H (goto lb i) eq_refl H2 H3).
  - exact (H T H1 H2 H3).
Qed.
Lemma ends_stop m W lb n n' LS fr FS s L o : is_done o = false -> ends m W lb n LS fr FS s L o -> ends m W lb n' LS fr FS s L o.
Proof. destruct o; cbn [is_done ends]; intros E H; [discriminate E|exact H..]. Qed.
Lemma step_at s V lb LS fr FS i rest : at_code lb (i :: rest) ->
  step F host (mkmach s V (lb :: LS) (fr :: FS)) =
    exec F host (goto lb (S (lb_index lb))) fr i (mkmach s V (goto lb (S (lb_index lb)) :: LS) (fr :: FS)).
Proof.
  intros H. apply at_code_nth in H. unfold step, bind, mget, top_frame. cbn [k_label k_frame]. rewrite (about_ne _ _ H), H. reflexivity.
Qed.
Lemma step_end s V lb LS fr FS : lb_carry lb <> KFunc ->
  step F host (mkmach s V (goto lb (length (lb_instr lb)) :: LS) (fr :: FS)) = (Ok tt, mkmach s V LS (fr :: FS)).
Proof.
  intros H. unfold step, bind, mget, top_frame. cbn [k_label k_frame goto lb_index lb_instr lb_carry]. rewrite PeanoNat.Nat.eqb_refl.
  unfold mput, set_label. cbn [k_store k_value k_frame]. destruct (lb_carry lb); try reflexivity. contradiction.
Qed.
Lemma step_end_func s V lb LS fr FS : lb_carry lb = KFunc -> length V = (fr_value fr + fr_arity fr)%nat ->
  step F host (mkmach s V (goto lb (length (lb_instr lb)) :: LS) (fr :: FS)) = (Ok tt, mkmach s V LS FS).
Proof.
  intros H E. unfold step, bind, mget, top_frame. cbn [k_label k_frame goto lb_index lb_instr lb_carry]. rewrite PeanoNat.Nat.eqb_refl.
  unfold mput, set_label. cbn [k_store k_value k_frame]. rewrite H. cbn [k_value]. rewrite E, PeanoNat.Nat.eqb_refl. reflexivity.
Qed.
(* leaving a block *)
Lemma block_exit m V W lb n LS fr FS s L o o' ar k kd body :
  kd <> KFunc -> (kd = KBlock -> ar = k) -> (kd = KLoop -> forall R, o <> Jump 0 R) -> leaves k V o o' ->
  let blk := mklabel ar (S (length FS)) (length (V ++ W)) kd body 0 in
  ends m (V ++ W) blk (length body) (goto lb n :: LS) fr FS s L o ->
  ends m W lb n LS fr FS s L o'.
Proof.
  intros Hk Ha Hl Lv blk E. destruct Lv as [R HR|R HR|j R|R|]; cbn [ends] in *.
  - eapply reach_trans; [exact E|]. rewrite <- app_assoc. apply reach_step; [discriminate|].
    exact (step_end s (R ++ V ++ W) blk (goto lb n :: LS) (relocal fr L) FS Hk).
  - assert (K : kd = KBlock). { destruct kd; [exfalso; exact (Hl eq_refl R eq_refl)|reflexivity|contradiction]. }
    specialize (Ha K). subst kd ar. specialize (E blk eq_refl (le_n _) HR). cbn [blk lb_arity lb_value lb_carry lb_frame skipn] in E.
    rewrite keep_all in E by reflexivity. rewrite keep_all in E by reflexivity. rewrite <- app_assoc. apply reach1_weak, E.
  - intros T N H1 H2. destruct j as [|j].
    + injection N as <-. specialize (E (goto lb n) eq_refl). cbn [goto lb_value lb_arity lb_carry lb_frame skipn] in E.
      rewrite app_length in E. specialize (E ltac:(lia) H2). rewrite keep_app in E by exact H1. exact E.
    + specialize (E T N). rewrite app_length in E. specialize (E ltac:(lia) H2). rewrite keep_app in E by exact H1. exact E.
  - intros H1 H2 H3. rewrite app_length in E. cbn [length] in E. specialize (E ltac:(lia) H2 ltac:(lia)).
    rewrite keep_app in E by exact H1.
    change (goto lb n :: LS) with ([goto lb n] ++ LS) in E. rewrite (keep_app (fr_label fr) [goto lb n] LS H3) in E. exact E.
  - exact E.
Qed.
Lemma simulation :
  (forall d mr s L V is s' L' o, run F hs d mr s L V is s' L' o -> P_run d mr s L V is s' L' o) /\
  (forall d mr s L V i s' L' o, one F hs d mr s L V i s' L' o -> P_one d mr s L V i s' L' o) /\
  (forall d mr n s L A body s' L' o, loops F hs d mr n s L A body s' L' o -> P_loops d mr n s L A body s' L' o) /\
  (forall d s L V a s' L' o, called F hs d s L V a s' L' o -> P_called d s L V a s' L' o).
Proof.
  apply structured_ind.
  - (* nil *) intros d mr s L V W lb LS fr FS Hc Hv Hm HL Hd. cbn [ends].
    subst L. rewrite relocal_same, (at_code_end _ Hc). apply reach_refl.
  - (* cons *) intros d mr s L V i is s1 L1 V1 s2 L2 o _ H1 _ H2 W lb LS fr FS Hc Hv Hm HL Hd.
    specialize (H1 W lb LS fr FS is Hc Hv Hm HL Hd). cbn [ends] in H1. eapply ends_reach; [exact H1|].
    eapply ends_goto. apply (H2 W (goto lb (S (lb_index lb))) LS (relocal fr L1) FS).
    + exact (at_code_next _ _ _ Hc).
    + exact Hv.
    + exact Hm.
    + reflexivity.
    + exact Hd.
  - (* stop *) intros d mr s L V i is s1 L1 o _ H1 Ho W lb LS fr FS Hc Hv Hm HL Hd.
    eapply ends_stop; [exact Ho|]. exact (H1 W lb LS fr FS is Hc Hv Hm HL Hd).
  - (* straight-line *) intros d mr s L V o args s' L' V' Ho E W lb LS fr FS rest Hc Hv Hm HL Hd. cbn [ends].
    apply reach_step; [discriminate|]. rewrite (step_at _ _ _ _ _ _ _ _ Hc).
    rewrite exec_op_basic by (destruct o; try discriminate Ho; reflexivity).
    unfold on_basic. cbn [k_frame k_store k_value]. rewrite Hm, HL.
    pose proof (basic_local F mr o args s L V) as B. cbn [by_model] in E. rewrite E in B. rewrite B. unfold relocal. rewrite Hm. reflexivity.
  - (* trap *) intros d mr s L V o args s' L' Ho (e & V' & E & He) W lb LS fr FS rest Hc Hv Hm HL Hd. cbn [ends].
    destruct (He W) as (L2 & V2 & B2).
    eapply (breaks_step _ e (mkmach s' V2 _ _)); [discriminate|]. rewrite (step_at _ _ _ _ _ _ _ _ Hc).
    rewrite exec_op_basic by (destruct o; try discriminate Ho; reflexivity).
    unfold on_basic. cbn [k_frame k_store k_value]. rewrite Hm, HL, B2. reflexivity.
  - (* block *) intros d mr s L A V bt t body s' L' o o' Hb HA _ H Lv W lb LS fr FS rest Hc Hv Hm HL Hd.
    rewrite <- app_assoc. eapply ends_reach.
    { apply reach_step; [discriminate|]. rewrite (step_at _ _ _ _ _ _ _ _ Hc). cbn [exec].
      rewrite (bind_ok _ _ _ _ _ (bype_run mr _ _ _ _ _ _ _ Hm Hb)). apply enter_run; [|exact HA].
      cbn [goto lb_value]. rewrite app_length. lia. }
    cbn [length]. rewrite Hd. rewrite <- Hd.
    eapply (block_exit _ V W lb _ LS fr FS s' L' o o' _ _ KBlock body); try exact Lv; try discriminate; [intros _; reflexivity|].
    cbv zeta. apply (H (V ++ W)); try assumption; [|cbn [lb_value]; lia]. split; [reflexivity|cbn; lia].
  - (* loop *) intros d mr s L A V bt t body s' L' o o' Hb HA _ H Lv W lb LS fr FS rest Hc Hv Hm HL Hd.
    rewrite <- app_assoc. eapply ends_reach.
    { apply reach_step; [discriminate|]. rewrite (step_at _ _ _ _ _ _ _ _ Hc). cbn [exec].
      rewrite (bind_ok _ _ _ _ _ (bype_run mr _ _ _ _ _ _ _ Hm Hb)). apply enter_run; [|exact HA].
      cbn [goto lb_value]. rewrite app_length. lia. }
    cbn [length]. destruct (H (V ++ W) _ (goto lb (S (lb_index lb)) :: LS) fr FS Hm HL Hd eq_refl) as [H1 H2]. rewrite <- Hd in H2.
    eapply (block_exit _ V W lb _ LS fr FS s' L' o o' _ _ KLoop body); try exact Lv; try discriminate; [intros _; exact H1|].
    cbv zeta. exact H2.
  - (* if *) intros d mr s L c A V bt t th el s' L' o o' Hcw Hb HA _ H Lv W lb LS fr FS rest Hc Hv Hm HL Hd.
    destruct (low_signed c Hcw) as (z & Ez & E0). rewrite <- E0 in H. 
    cbn [app]. rewrite <- app_assoc. eapply ends_reach.
    { apply reach_step; [discriminate|]. rewrite (step_at _ _ _ _ _ _ _ _ Hc). cbn [exec].
      rewrite (bind_ok _ _ _ _ _ (bype_run mr _ _ _ _ _ _ _ Hm Hb)).
      unfold bind at 1, popv. cbn [k_value]. unfold set_value. cbn [k_store k_label k_frame]. unfold bind at 1, lift. rewrite Ez.
      apply enter_run; [|exact HA]. cbn [goto lb_value]. rewrite app_length. lia. }
    cbn [length].
    eapply (block_exit _ V W lb _ LS fr FS s' L' o o' _ _ KBlock _); try exact Lv; try discriminate; [intros _; reflexivity|].
    cbv zeta. apply (H (V ++ W)); try assumption; [|cbn [lb_value]; lia]. split; [reflexivity|cbn; lia].
  - (* br *) intros d mr s L V k W lb LS fr FS rest Hc Hv Hm HL Hd. cbn [ends]. intros T N H1 H2.
    apply reach1_step; [discriminate|]. rewrite (step_at _ _ _ _ _ _ _ _ Hc). cbn [exec].
    unfold bind at 1, lift, arg_int, py_index. cbn [Z.ltb Z.compare nth_error Z.to_nat rbind].
    destruct k as [|k].
    + injection N as <-. subst L. rewrite relocal_same. exact (br_run s V W (goto lb (S (lb_index lb)) :: LS) (fr :: FS) 0 _ eq_refl H1 H2).
    + subst L. rewrite relocal_same. exact (br_run s V W (goto lb (S (lb_index lb)) :: LS) (fr :: FS) (S k) _ N H1 H2).
  - (* br_if *) intros d mr s L c V k Hcw W lb LS fr FS rest Hc Hv Hm HL Hd.
    destruct (low_signed c Hcw) as (z & Ez & E0). rewrite <- E0. subst L. cbn [app].
    assert (X : step F host (mkmach s (c :: V ++ W) (lb :: LS) (fr :: FS)) =
      (if z =? 0 then ret tt else evaluate_br (Z.of_nat k)) (mkmach s (V ++ W) (goto lb (S (lb_index lb)) :: LS) (fr :: FS))).
    { rewrite (step_at _ _ _ _ _ _ _ _ Hc). cbn [exec]. unfold bind at 1, popv. cbn [k_value]. unfold set_value. cbn [k_store k_label k_frame].
      unfold bind at 1, lift. rewrite Ez. destruct (z =? 0); reflexivity. }
    destruct (z =? 0); cbn [ends].
    + apply reach_step; [discriminate|]. rewrite X, relocal_same. reflexivity.
    + intros T N H1 H2. apply reach1_step; [discriminate|]. rewrite X, relocal_same. destruct k as [|k].
      * injection N as <-. exact (br_run s V W (goto lb (S (lb_index lb)) :: LS) (fr :: FS) 0 _ eq_refl H1 H2).
      * exact (br_run s V W (goto lb (S (lb_index lb)) :: LS) (fr :: FS) (S k) _ N H1 H2).
  - (* br_table *) intros d mr s L c V ks k Hcw W lb LS fr FS rest Hc Hv Hm HL Hd. cbn [ends]. intros T N H1 H2. subst L.
    set (j := nth (Z.to_nat (low 32 c)) ks k) in *.
    apply reach1_step; [discriminate|]. rewrite (step_at _ _ _ _ _ _ _ _ Hc). cbn [exec app].
    unfold bind at 1, popv. cbn [k_value]. unfold set_value. cbn [k_store k_label k_frame].
    unfold bind at 1, lift. rewrite into_u32_ok by exact Hcw. change (uval c mod 2 ^ 32) with (low 32 c).
    unfold bind at 1, lift, arg_int, py_index. cbn [Z.ltb Z.compare nth_error Z.to_nat rbind Pos.to_nat Pos.iter_op].
    change (nth_error [AList (map Z.of_nat ks); AInt (Z.of_nat k)] (Pos.to_nat 1)) with (Some (AInt (Z.of_nat k))). cbv iota beta.
    unfold bind at 1, lift, arg_list, py_index. cbn [Z.ltb Z.compare nth_error Z.to_nat rbind].
    assert (R0 : 0 <= low 32 c) by (apply Z.mod_pos_bound; reflexivity).
    assert (X : (if low 32 c <? len (map Z.of_nat ks) then lift (py_index (map Z.of_nat ks) (low 32 c)) else ret (Z.of_nat k))
       (mkmach s (V ++ W) (goto lb (S (lb_index lb)) :: LS) (fr :: FS)) =
       (Ok (Z.of_nat j), mkmach s (V ++ W) (goto lb (S (lb_index lb)) :: LS) (fr :: FS))).
    { unfold len. rewrite map_length. destruct (Z.ltb_spec (low 32 c) (Z.of_nat (length ks))) as [G|G].
      - unfold lift. rewrite (py_index_in _ _ (Z.of_nat k)) by (unfold len; rewrite map_length; lia). rewrite map_nth. reflexivity.
      - unfold ret, j. rewrite nth_overflow by lia. reflexivity. }
    rewrite (bind_ok _ _ _ _ _ X), relocal_same. clearbody j. destruct j as [|j].
    + injection N as <-. exact (br_run s V W (goto lb (S (lb_index lb)) :: LS) (fr :: FS) 0 _ eq_refl H1 H2).
    + exact (br_run s V W (goto lb (S (lb_index lb)) :: LS) (fr :: FS) (S j) _ N H1 H2).
  - (* return *) intros d mr s L V args W lb LS fr FS rest Hc Hv Hm HL Hd. cbn [ends]. intros H1 H2 H3.
    apply reach1_step; [discriminate|]. rewrite (step_at _ _ _ _ _ _ _ _ Hc). cbn [exec].
    unfold bind at 1, mget. cbn [k_value].
    rewrite (bind_ok _ _ _ tt (mkmach s (V ++ W) (goto lb (S (lb_index lb)) :: LS) (fr :: FS))).
    2:{ unfold assert, lift, py_assert. rewrite app_length.
        replace (Nat.leb (fr_value fr + fr_arity fr) (length V + length W)) with true by (symmetry; apply PeanoNat.Nat.leb_le; lia). reflexivity. }
    rewrite (bind_ok _ _ _ _ _ (popn_run _ V W _ _ _ H2)). unfold bind, pop_frame, mget, mput, set_frame. cbn [k_frame k_store k_value k_label].
    rewrite rev_involutive, keep_app by exact H1.
    change (goto lb (S (lb_index lb)) :: LS) with ([goto lb (S (lb_index lb))] ++ LS). rewrite (keep_app (fr_label fr) _ LS H3). reflexivity.
  - (* call *) intros d mr s L V j a s' L' o N _ H W lb LS fr FS rest Hc Hv Hm HL Hd.
    assert (X : step F host (mkmach s (V ++ W) (lb :: LS) (fr :: FS)) =
       evaluate_call F host (Z.of_nat a) (mkmach s (V ++ W) (goto lb (S (lb_index lb)) :: LS) (fr :: FS))).
    { rewrite (step_at _ _ _ _ _ _ _ _ Hc). cbn [exec]. unfold bind at 1, lift, arg_int. rewrite (py_index_0 [AInt (Z.of_nat j)] (AInt (Z.of_nat j)) eq_refl).
      cbn [rbind]. unfold bind at 1, mget. cbn [k_store]. unfold bind at 1, lift. rewrite Hm, (py_index_nth _ _ _ N). reflexivity. }
    destruct (H W (goto lb (S (lb_index lb)) :: LS) fr FS HL Hd) as [-> G]. subst L.
    destruct o; try contradiction; cbn [ends].
    + destruct G as (m1 & E & R). eapply reach_trans; [|rewrite relocal_same; exact R]. apply reach_step; [discriminate|]. rewrite X. exact E.
    + destruct G as (r & m1 & E & R). destruct r as [[]|e].
      * eapply reach_breaks; [|exact R]. apply reach_step; [discriminate|]. rewrite X. exact E.
      * rewrite <- R. eapply breaks_step; [discriminate|]. rewrite X. exact E.
  - (* call_indirect *) intros d mr s L c V i j ta tab ty u a f s' L' o N1 N2 N3 Hcw N4 Ha N5 Ht _ H W lb LS fr FS rest Hc Hv Hm HL Hd.
    assert (X : step F host (mkmach s (c :: V ++ W) (lb :: LS) (fr :: FS)) =
       evaluate_call F host (Z.of_nat a) (mkmach s (V ++ W) (goto lb (S (lb_index lb)) :: LS) (fr :: FS))).
    { rewrite (step_at _ _ _ _ _ _ _ _ Hc). rewrite <- Hm in N1, N3. rewrite (indirect_run F host s c (V ++ W) _ fr FS _ j i ta tab ty c N1 N2 N3 Hcw), N4.
      unfold bind at 1, lift at 1. rewrite ref_to_addr by exact Ha. unfold bind at 1, lift at 1. rewrite (py_index_nth _ _ _ N5).
      unfold bind at 1, assert, lift. rewrite (proj2 (ft_eqb_eq _ _) Ht). reflexivity. }
    destruct (H W (goto lb (S (lb_index lb)) :: LS) fr FS HL Hd) as [-> G]. subst L. cbn [app].
    destruct o; try contradiction; cbn [ends].
    + destruct G as (m1 & E & R). eapply reach_trans; [|rewrite relocal_same; exact R]. apply reach_step; [discriminate|]. rewrite X. exact E.
    + destruct G as (r & m1 & E & R). destruct r as [[]|e].
      * eapply reach_breaks; [|exact R]. apply reach_step; [discriminate|]. rewrite X. exact E.
      * rewrite <- R. eapply breaks_step; [discriminate|]. rewrite X. exact E.
  - (* its traps *) intros d mr s L c V i j ta tab ty N1 N2 N3 Hcw N4 W lb LS fr FS rest Hc Hv Hm HL Hd. cbn [ends app].
    assert (X : exists e, step F host (mkmach s (c :: V ++ W) (lb :: LS) (fr :: FS)) =
       (Err e, mkmach s (V ++ W) (goto lb (S (lb_index lb)) :: LS) (fr :: FS))).
    { rewrite (step_at _ _ _ _ _ _ _ _ Hc). rewrite <- Hm in N1, N3. rewrite (indirect_run F host s c (V ++ W) _ fr FS _ j i ta tab ty c N1 N2 N3 Hcw).
      destruct N4 as [N4|[[u N4]|(u & a & f & N4 & Ha & N5 & Ht)]]; rewrite N4.
      - eexists. reflexivity.
      - eexists. unfold bind at 1, lift at 1. rewrite null_ref_addr. reflexivity.
      - eexists. unfold bind at 1, lift at 1. rewrite ref_to_addr by exact Ha. unfold bind at 1, lift at 1. rewrite (py_index_nth _ _ _ N5).
        destruct (ft_eqb (fi_type f) ty) eqn:E; [apply ft_eqb_eq in E; contradiction|]. reflexivity. }
    destruct X as [e X]. refine (breaks_step _ e _ _ X). discriminate.
  - (* loop end *) intros d mr n s L A body s' L' o _ H Ho W ar LS fr FS Hm HL Hd ->. cbv zeta. split; [exact Ho|].
    apply (H W); try assumption; [|cbn [lb_value]; lia]. split; [reflexivity|cbn; lia].
  - (* again *) intros d mr n s L A body s1 L1 R s' L' o _ H1 HR _ H2 W ar LS fr FS Hm HL Hd ->.
    destruct (H2 W n LS (relocal fr L1) FS Hm eq_refl Hd eq_refl) as [G1 G2]. cbv zeta. split; [exact G1|].
    eapply ends_reach; [|exact (ends_goto _ _ (mklabel n d (length W) KLoop body 0) 0 _ _ fr L1 _ _ _ _ G2)].
    specialize (H1 W (mklabel n d (length W) KLoop body 0) LS fr FS). cbn [ends] in H1.
    specialize (H1 (conj eq_refl (PeanoNat.Nat.le_0_l _)) (le_n _) Hm HL Hd _ eq_refl (le_n _) HR). cbn [lb_arity lb_value lb_carry lb_frame skipn] in H1.
    rewrite keep_all in H1 by reflexivity. rewrite keep_all in H1 by (symmetry; exact Hd). apply reach1_weak, H1.
  - (* wasm function *) intros d s L A V a t h code s' L' o o' N HA Hdp _ H Rt W LB fr FS HL Hd. split; [reflexivity|].
    pose proof (call_enters F host s A V W LB (fr :: FS) a t h code N HA ltac:(cbn [length]; lia)) as C. cbv zeta in C.
    set (fr' := mkframe _ _ _ _ _) in C. set (lb' := mklabel _ _ _ _ _ _) in C.
    specialize (H (V ++ W) lb' LB fr' (fr :: FS) (conj eq_refl (PeanoNat.Nat.le_0_l _)) (le_n _) eq_refl eq_refl ltac:(cbn [length]; lia)).
    destruct Rt as [R HR|R HR|]; cbn [ends] in H.
    + eexists. split; [exact C|]. eapply reach_trans; [exact H|]. rewrite <- app_assoc. apply reach_step; [discriminate|].
      apply (step_end_func s' (R ++ V ++ W) lb' LB (relocal fr' L') (fr :: FS)); [reflexivity|].
      cbn [relocal fr' fr_value fr_arity]. rewrite app_length. lia.
    + eexists. split; [exact C|]. specialize (H (le_n _) HR (le_n _)). cbn [fr' fr_arity fr_value fr_label] in H.
      rewrite !keep_all in H by reflexivity. rewrite <- app_assoc. apply reach1_weak, H.
    + eexists (Ok tt), _. split; [exact C|]. exact H.
  - (* too deep *) intros d s L A V a t h code N HA Hdp W LB fr FS HL Hd. split; [reflexivity|].
    eexists (Err EAssert), (mkmach s (V ++ W) LB (fr :: FS)). split; [|reflexivity].
    unfold evaluate_call. unfold bind at 1, mget at 1. cbn [k_store]. unfold bind at 1, lift at 1. rewrite (py_index_nth _ _ _ N).
    cbn [fi_type]. rewrite (bind_ok _ _ _ _ _ (popn_args A V W s LB (fr :: FS) _ HA)). cbv zeta iota. unfold bind at 1, mget at 1. cbn [k_frame].
    apply bind_err. unfold assert, lift, py_assert. replace (Nat.ltb (length (fr :: FS)) 1024) with false; [reflexivity|].
    symmetry. apply PeanoNat.Nat.ltb_ge. cbn [length]. lia.
  - (* host function *) intros d s L A V a t hid pargs rets s' R N HA Hp Hh Hl HR W LB fr FS HL Hd. split; [reflexivity|].
    eexists. split; [|apply reach_refl].
    unfold evaluate_call. unfold bind at 1, mget at 1. cbn [k_store]. unfold bind at 1, lift at 1. rewrite (py_index_nth _ _ _ N).
    cbn [fi_type]. rewrite (bind_ok _ _ _ _ _ (popn_args A V W s LB (fr :: FS) _ HA)). cbv zeta iota.
    unfold bind at 1, lift at 1. rewrite Hp. unfold bind at 1, plain_host. cbn [k_store]. rewrite Hh. cbn [k_value k_label k_frame].
    unfold bind at 1, lift at 1. rewrite HR. unfold extend, set_value. cbn [k_store k_value k_label k_frame]. rewrite <- app_assoc. reflexivity.
  - (* host function, no arguments *) intros d s L A V a t hid e N HA Hp W LB fr FS HL Hd. split; [reflexivity|].
    eexists (Err e), (mkmach s (V ++ W) LB (fr :: FS)). split; [|reflexivity].
    unfold evaluate_call. unfold bind at 1, mget at 1. cbn [k_store]. unfold bind at 1, lift at 1. rewrite (py_index_nth _ _ _ N).
    cbn [fi_type]. rewrite (bind_ok _ _ _ _ _ (popn_args A V W s LB (fr :: FS) _ HA)). cbv zeta iota.
    unfold bind at 1, lift at 1. rewrite Hp. reflexivity.
  - (* host function, no results *) intros d s L A V a t hid pargs rets s' e N HA Hp Hh HR W LB fr FS HL Hd. split; [reflexivity|].
    eexists (Err e), (mkmach s' (V ++ W) LB (fr :: FS)). split; [|reflexivity].
    unfold evaluate_call. unfold bind at 1, mget at 1. cbn [k_store]. unfold bind at 1, lift at 1. rewrite (py_index_nth _ _ _ N).
    cbn [fi_type]. rewrite (bind_ok _ _ _ _ _ (popn_args A V W s LB (fr :: FS) _ HA)). cbv zeta iota.
    unfold bind at 1, lift at 1. rewrite Hp. unfold bind at 1, plain_host. cbn [k_store]. rewrite Hh. cbn [k_value k_label k_frame].
    unfold bind at 1, lift at 1. rewrite HR. reflexivity.
  - (* host function raising *) intros d s L A V a t hid pargs e s' N HA Hp Hh W LB fr FS HL Hd. split; [reflexivity|].
    eexists (Err e), (mkmach s' (V ++ W) LB (fr :: FS)). split; [|reflexivity].
    unfold evaluate_call. unfold bind at 1, mget at 1. cbn [k_store]. unfold bind at 1, lift at 1. rewrite (py_index_nth _ _ _ N).
    cbn [fi_type]. rewrite (bind_ok _ _ _ _ _ (popn_args A V W s LB (fr :: FS) _ HA)). cbv zeta iota.
    unfold bind at 1, lift at 1. rewrite Hp. apply bind_err. unfold plain_host. cbn [k_store]. rewrite Hh. reflexivity.
Qed.
End sim.

(* ---- a meaning that allows more has more runs ---- *)
Section mono.
Context (b b' : meaning) (Hb : forall mr o args s L V s' L' r, b mr o args s L V s' L' r -> b' mr o args s L V s' L' r) (F : fops) (hs : storehost).
Lemma run_mono :
  (forall d mr s L V is s' L' o, run_by b F hs d mr s L V is s' L' o -> run_by b' F hs d mr s L V is s' L' o) /\
  (forall d mr s L V i s' L' o, one_by b F hs d mr s L V i s' L' o -> one_by b' F hs d mr s L V i s' L' o) /\
  (forall d mr n s L A body s' L' o, loops_by b F hs d mr n s L A body s' L' o -> loops_by b' F hs d mr n s L A body s' L' o) /\
  (forall d s L V a s' L' o, called_by b F hs d s L V a s' L' o -> called_by b' F hs d s L V a s' L' o).
Proof.
  apply structured_ind; intros.
  - apply run_nil.
  - eapply run_cons; eassumption.
  - eapply run_stop; eassumption.
  - apply one_op; auto.
  - apply one_op_trap; auto.
  - eapply one_block; eassumption.
  - eapply one_loop; eassumption.
  - eapply one_if; eassumption.
  - apply one_br.
  - apply one_br_if; assumption.
  - apply one_br_table; assumption.
  - apply one_return.
  - eapply one_call; eassumption.
  - eapply one_indirect; eassumption.
  - eapply one_indirect_trap; eassumption.
  - apply loop_end; assumption.
  - eapply loop_again; eassumption.
  - eapply call_wasm; eassumption.
  - eapply call_deep; eassumption.
  - eapply call_outside; eassumption.
  - eapply call_outside_args; eassumption.
  - eapply call_outside_rets; eassumption.
  - eapply call_outside_trap; eassumption.
Qed.
End mono.
