(* The value instructions: the type of the result, and that nothing is raised except by the instructions that may trap. *)
From Coq Require Import ZArith List Bool Lia ZifyBool ZifyNat.
From Verif Require Import Py Arith Floatops Val Opcode Numeric Syntax Store Basic Machine
  SpecInt SpecNum SpecMachine SpecMem SpecRun SpecSimd SpecType PyFacts ArithFacts ValFacts LaneFacts NumFacts MemFacts WfFacts
  SimdFacts SimdMoveFacts SimdWideFacts.
Import ListNotations.
Open Scope Z_scope.

(* ---- result types ---- *)
Definition of_type (t : valtype) (v : val) : Prop := v_type v = t.
Lemma mk_val_type t d : gives (of_type t) (mk_val t d).
Proof. intros v E. unfold mk_val in E. destruct (len d =? blen); [|discriminate E]. apply Ok_inj in E. subst v. reflexivity. Qed.
Lemma from_i32_type n : gives (of_type T_i32) (from_i32 n).
Proof. apply gives_bind_any. intros b. apply mk_val_type. Qed.
Lemma from_i64_type n : gives (of_type T_i64) (from_i64 n).
Proof. apply gives_bind_any. intros b. apply mk_val_type. Qed.
Lemma from_u32_type n : gives (of_type T_i32) (from_u32 n).
Proof. apply gives_bind_any. intros b. apply mk_val_type. Qed.
Lemma from_u64_type n : gives (of_type T_i64) (from_u64 n).
Proof. apply gives_bind_any. intros b. apply mk_val_type. Qed.
Lemma from_f32_type F n : gives (of_type T_f32) (from_f32 F n).
Proof. apply mk_val_type. Qed.
Lemma from_f64_type n : gives (of_type T_f64) (from_f64 n).
Proof. apply mk_val_type. Qed.
Lemma from_v128_type n : gives (of_type T_v128) (from_v128 n).
Proof. apply gives_bind_any. intros b. apply mk_val_type. Qed.
Lemma from_lanes_type g w n : gives (of_type T_v128) (from_lanes g w n).
Proof. apply gives_bind_any. intros b. apply gives_bind_any. intros c. apply mk_val_type. Qed.
Lemma from_v128_f32_type F n : gives (of_type T_v128) (from_v128_f32 F n).
Proof. apply gives_bind_any. intros b. apply mk_val_type. Qed.
Lemma from_v128_f64_type n : gives (of_type T_v128) (from_v128_f64 n).
Proof. apply gives_bind_any. intros b. apply mk_val_type. Qed.
Lemma from_ref_type t n : gives (of_type t) (from_ref t n).
Proof. apply gives_bind_any. intros b. apply mk_val_type. Qed.
Lemma checked_type t wr rd b : gives (of_type t) (wr b) -> gives (of_type t) (checked wr rd b).
Proof.
  intros H. unfold checked. eapply gives_bind; [exact H|]. intros c Hc. apply gives_bind_any. intros x. apply gives_bind_any.
  intros _. apply gives_ok, Hc.
Qed.
Lemma from_all_type F t p : gives (of_type t) (from_all F t p).
Proof.
  destruct t, p; cbn [from_all]; try (intros v E; discriminate E);
    first [apply from_i32_type|apply from_i64_type|apply from_f32_type|apply from_f64_type|apply from_v128_type|apply from_ref_type
          |apply gives_bind_any; intros x; first [apply from_f32_type|apply from_f64_type]].
Qed.

Definition numop_typed (n : numop) (k : nat) (t : valtype) : Prop :=
  match n, k with
  | N0 f, 0%nat => forall args, gives (of_type t) (f args)
  | N1 f, 1%nat => forall args a, gives (of_type t) (f args a)
  | N2 f, 2%nat => forall args a b, gives (of_type t) (f args a b)
  | N3 f, 3%nat => forall args a b c, gives (of_type t) (f args a b c)
  | _, _ => False
  end.
Lemma op1_type {A R} (rd : val -> res A) f (wr : R -> res val) t : (forall x, gives (of_type t) (wr x)) -> numop_typed (op1 rd f wr) 1 t.
Proof. intros H args a. apply gives_bind_any. intros x. apply gives_bind_any. exact H. Qed.
Lemma op2_type {A B R} (rda : val -> res A) (rdb : val -> res B) f (wr : R -> res val) t :
  (forall x, gives (of_type t) (wr x)) -> numop_typed (op2 rda rdb f wr) 2 t.
Proof. intros H args a b. do 3 (apply gives_bind_any; intros ?). apply H. Qed.
Lemma op3_type {A B C R} (rda : val -> res A) (rdb : val -> res B) (rdc : val -> res C) f (wr : R -> res val) t :
  (forall x, gives (of_type t) (wr x)) -> numop_typed (op3 rda rdb rdc f wr) 3 t.
Proof. intros H args a b c. do 4 (apply gives_bind_any; intros ?). apply H. Qed.

Ltac twriter := first
  [ apply from_i32_type | apply from_i64_type | apply from_u32_type | apply from_u64_type
  | apply from_f32_type | apply from_f64_type | apply from_lanes_type | apply from_v128_type
  | apply from_v128_f32_type | apply from_v128_f64_type | apply mk_val_type | apply checked_type; twriter ].
Definition sig_of (n : option numop) (s : option (list valtype * valtype)) : Prop :=
  match s with
  | None => True
  | Some (ins, out) => match n with Some n => numop_typed n (length ins) out | None => False end
  end.
Ltac ttype := match goal with
  | |- sig_of _ None => exact I
  | |- sig_of (Some (op1 _ _ _)) _ => apply op1_type; intros x; twriter
  | |- sig_of (Some (op2 _ _ _ _)) _ => apply op2_type; intros x; twriter
  | |- sig_of (Some (op3 _ _ _ _ _)) _ => apply op3_type; intros x; twriter
  | |- sig_of (Some (N0 (fun args => wr0 _ _))) _ => intros args; apply gives_bind_any; intros x; twriter
  end.
Lemma pure_type F o : sig_of (num_op F o) (signature o).
Proof.
  unfold num_op. destruct o; cbn [num_scalar num_simd signature]; try ttype.
  all: intros args; apply gives_bind_any; intros n; apply gives_bind_any; intros v; apply gives_ok; reflexivity.
Qed.

(* ---- nothing is raised ---- *)
Definition total {A} (r : res A) : Prop := exists x, r = Ok x.
Lemma total_ok {A} (x : A) : total (Ok x).
Proof. exists x. reflexivity. Qed.
Lemma total_bind {A B} (Q : A -> Prop) (r : res A) (f : A -> res B) : total r -> gives Q r -> (forall x, Q x -> total (f x)) -> total (rbind r f).
Proof. intros [x E] HQ H. specialize (HQ x E). rewrite E. cbn [rbind]. apply H, HQ. Qed.
Lemma total_bind_any {A B} (r : res A) (f : A -> res B) : total r -> (forall x, total (f x)) -> total (rbind r f).
Proof. intros [x E] H. rewrite E. cbn [rbind]. apply H. Qed.
Lemma total_rmapl {A B} (f : A -> res B) l : (forall x, In x l -> total (f x)) -> total (rmapl f l).
Proof.
  induction l as [|x l IH]; intros H; cbn [rmapl]; [apply total_ok|].
  apply total_bind_any; [apply H; left; reflexivity|]. intros y. apply total_bind_any; [|intros ys; apply total_ok].
  apply IH. intros z Hz. apply H. right. exact Hz.
Qed.
Definition runs (args : list arg) (n : option numop) : Prop :=
  match n with
  | None => False
  | Some (N0 f) => total (f args)
  | Some (N1 f) => forall a, val_wf a -> total (f args a)
  | Some (N2 f) => forall a b, val_wf a -> val_wf b -> total (f args a b)
  | Some (N3 f) => forall a b c, val_wf a -> val_wf b -> val_wf c -> total (f args a b c)
  end.

(* the integer instructions, from the lemmas that give their exact results *)
Lemma runs_binop F o N f args : wasm_binop o = Some (N, f) -> (forall x y, f x y <> None) -> o <> O_i64_div_u -> runs args (num_op F o).
Proof.
  intros H Hf Hd. destruct (binop_ok F o N f H Hd) as (g & -> & E). intros a b Wa Wb. specialize (E args a b Wa Wb).
  specialize (Hf (low N a) (low N b)). destruct (f _ _); [eexists; exact E|congruence].
Qed.
Lemma runs_unop F o p args : wasm_unop o = Some p -> runs args (num_op F o).
Proof. destruct p as [N f]. intros H. destruct (unop_ok F o N f H) as (g & -> & E). intros a Wa. eexists. exact (E args a Wa). Qed.
Lemma runs_relop F o p args : wasm_relop o = Some p -> runs args (num_op F o).
Proof. destruct p as [N f]. intros H. destruct (relop_ok F o N f H) as (g & -> & E). intros a b Wa Wb. eexists. exact (E args a b Wa Wb). Qed.
Lemma runs_testop F o p args : wasm_testop o = Some p -> runs args (num_op F o).
Proof. destruct p as [N f]. intros H. destruct (testop_ok F o N f H) as (g & -> & E). intros a Wa. eexists. exact (E args a Wa). Qed.
Lemma runs_lane_unop F o p args : lane_unop o = Some p -> runs args (num_op F o).
Proof. destruct p as [N f]. intros H. destruct (lane_unop_ok F o N f H) as (g & -> & E). intros a Wa. eexists. exact (E args a Wa). Qed.
Lemma runs_lane_binop F o p args : lane_binop o = Some p -> runs args (num_op F o).
Proof. destruct p as [N f]. intros H. destruct (lane_binop_ok F o N f H) as (g & -> & E). intros a b Wa Wb. eexists. exact (E args a b Wa Wb). Qed.
Lemma runs_lane_relop F o p args : lane_relop o = Some p -> runs args (num_op F o).
Proof. destruct p as [N f]. intros H. destruct (lane_relop_ok F o N f H) as (g & -> & E). intros a b Wa Wb. eexists. exact (E args a b Wa Wb). Qed.
Lemma runs_lane_shift F o p args : lane_shift o = Some p -> runs args (num_op F o).
Proof. destruct p as [N f]. intros H. destruct (lane_shift_ok F o N f H) as (g & -> & E). intros a b Wa Wb. eexists. exact (E args a b Wa Wb). Qed.
Lemma runs_splat F o N args : splat_op o = Some N -> runs args (num_op F o).
Proof. intros H. destruct (splat_ok F o N H) as (g & -> & E). intros a Wa. eexists. exact (E args a Wa). Qed.
Lemma runs_extract F o N t f args : extract_op o = Some (N, t, f) -> lane_imm (128 / N) args -> runs args (num_op F o).
Proof. intros H (k & -> & Hk). destruct (extract_ok F o N t f k H Hk) as (g & -> & E). intros a Wa. eexists. exact (E a Wa). Qed.
Lemma runs_replace F o N args : replace_op o = Some N -> lane_imm (128 / N) args -> runs args (num_op F o).
Proof. intros H (k & -> & Hk). destruct (replace_ok F o N k H Hk) as (g & -> & E). intros a b Wa Wb. eexists. exact (E a b Wa Wb). Qed.
Lemma runs_shuffle F args : imm_ok O_i8x16_shuffle args -> runs args (num_op F O_i8x16_shuffle).
Proof. intros (ks & -> & L & R). destruct (shuffle_ok F ks L R) as (g & -> & E). intros a b Wa Wb. eexists. exact (E a b Wa Wb). Qed.
Lemma runs_swizzle F args : runs args (num_op F O_i8x16_swizzle).
Proof. destruct (swizzle_ok F) as (g & -> & E). intros a b Wa Wb. eexists. exact (E args a b Wa Wb). Qed.
Lemma runs_extend F o p args : extend_op o = Some p -> runs args (num_op F o).
Proof. destruct p as [[N f] h]. intros H. destruct (extend_ok F o N f h H) as (g & -> & E). intros a Wa. eexists. exact (E args a Wa). Qed.
Lemma runs_extmul F o p args : extmul_op o = Some p -> runs args (num_op F o).
Proof. destruct p as [[N f] h]. intros H. destruct (extmul_ok F o N f h H) as (g & -> & E). intros a b Wa Wb. eexists. exact (E args a b Wa Wb). Qed.
Lemma runs_pairwise F o p args : pairwise_op o = Some p -> runs args (num_op F o).
Proof. destruct p as [N f]. intros H. destruct (pairwise_ok F o N f H) as (g & -> & E). intros a Wa. eexists. exact (E args a Wa). Qed.
Lemma runs_dot F args : runs args (num_op F O_i32x4_dot_i16x8_s).
Proof. destruct (dot_ok F) as (g & -> & E). intros a b Wa Wb. eexists. exact (E args a b Wa Wb). Qed.
Lemma runs_narrow F o p args : narrow_op o = Some p -> runs args (num_op F o).
Proof. destruct p as [N f]. intros H. destruct (narrow_ok F o N f H) as (g & -> & E). intros a b Wa Wb. eexists. exact (E args a b Wa Wb). Qed.
Lemma runs_logic F o f args : logic_op o = Some f -> runs args (num_op F o).
Proof. intros H. destruct (logic_ok F o f H) as (g & -> & E). intros a b Wa Wb. eexists. exact (E args a b Wa Wb). Qed.
Lemma runs_not F args : runs args (num_op F O_v128_not).
Proof. destruct (not_ok F) as (g & -> & E). intros a Wa. eexists. exact (E args a Wa). Qed.
Lemma runs_bitselect F args : runs args (num_op F O_v128_bitselect).
Proof. destruct (bitselect_ok F) as (g & -> & E). intros a b c Wa Wb Wc. eexists. exact (E args a b c Wa Wb Wc). Qed.
Lemma runs_any_true F args : runs args (num_op F O_v128_any_true).
Proof. destruct (any_true_ok F) as (g & -> & E). intros a Wa. eexists. exact (E args a Wa). Qed.
Lemma runs_all_true F o p args : all_true_op o = Some p -> runs args (num_op F o).
Proof. intros H. destruct (all_true_ok F o p H) as (g & -> & E). intros a Wa. eexists. exact (E args a Wa). Qed.
Lemma runs_bitmask F o p args : bitmask_op o = Some p -> runs args (num_op F o).
Proof. intros H. destruct (bitmask_ok F o p H) as (g & -> & E). intros a Wa. eexists. exact (E args a Wa). Qed.

(* readers and writers *)
Lemma rd_i32 v : val_wf v -> total (into_i32 v).
Proof. intros H. rewrite into_i32_ok by exact H. apply total_ok. Qed.
Lemma rd_i64 v : val_wf v -> total (into_i64 v).
Proof. intros H. rewrite into_i64_ok by exact H. apply total_ok. Qed.
Lemma rd_u32 v : val_wf v -> total (into_u32 v).
Proof. intros H. rewrite into_u32_ok by exact H. apply total_ok. Qed.
Lemma rd_u64 v : val_wf v -> total (into_u64 v).
Proof. intros H. rewrite into_u64_ok by exact H. apply total_ok. Qed.
Lemma rd_f32 F v : val_wf v -> total (into_f32 F v).
Proof. intros H. rewrite into_f32_ok by exact H. apply total_ok. Qed.
Lemma rd_f64 v : val_wf v -> total (into_f64 v).
Proof. intros H. rewrite into_f64_ok by exact H. apply total_ok. Qed.
Lemma gv_i32 v : val_wf v -> gives (srange 32) (into_i32 v).
Proof. intros H. rewrite into_i32_ok by exact H. apply gives_ok. apply (sgn_range 32); [lia|]. apply Z.mod_pos_bound. reflexivity. Qed.
Lemma gv_i64 v : val_wf v -> gives (srange 64) (into_i64 v).
Proof. intros H. rewrite into_i64_ok by exact H. apply gives_ok. apply (sgn_range 64); [lia|]. apply Z.mod_pos_bound. reflexivity. Qed.
Lemma gv_u32 v : val_wf v -> gives (urange 32) (into_u32 v).
Proof. intros H. rewrite into_u32_ok by exact H. apply gives_ok. apply Z.mod_pos_bound. reflexivity. Qed.
Lemma gv_u64 v : val_wf v -> gives (urange 64) (into_u64 v).
Proof. intros H. rewrite into_u64_ok by exact H. apply gives_ok. apply Z.mod_pos_bound. reflexivity. Qed.
Lemma wr_f32 F n : total (from_f32 F n).
Proof. rewrite from_f32_ok. apply total_ok. Qed.
Lemma wr_f64 n : total (from_f64 n).
Proof. rewrite from_f64_ok. apply total_ok. Qed.
Lemma wr_i32 n : srange 32 n -> total (from_i32 n).
Proof. intros H. rewrite from_i32_ok by exact H. apply total_ok. Qed.
Lemma wr_i64 n : srange 64 n -> total (from_i64 n).
Proof. intros H. rewrite from_i64_ok by exact H. apply total_ok. Qed.
Lemma wr_u32 n : urange 32 n -> total (from_u32 n).
Proof. intros H. rewrite from_u32_ok by exact H. apply total_ok. Qed.
Lemma wr_u64 n : urange 64 n -> total (from_u64 n).
Proof. intros H. rewrite from_u64_ok by exact H. apply total_ok. Qed.
Lemma wr_bool b : total (from_i32 (b2z b)).
Proof. rewrite truth_val. apply total_ok. Qed.
Lemma wr_val t d : len d = 16 -> total (mk_val t d).
Proof. intros H. unfold mk_val. rewrite H. apply total_ok. Qed.

(* a computation that succeeds, with a result in P *)
Definition yields {A} (P : A -> Prop) (r : res A) : Prop := exists x, r = Ok x /\ P x.
Lemma yields_ok {A} (P : A -> Prop) x : P x -> yields P (Ok x).
Proof. intros H. exists x. split; [reflexivity|exact H]. Qed.
Lemma yields_bind {A B} (Q : A -> Prop) (P : B -> Prop) (r : res A) (f : A -> res B) :
  yields Q r -> (forall x, Q x -> yields P (f x)) -> yields P (rbind r f).
Proof. intros (x & -> & H) K. cbn [rbind]. apply K, H. Qed.
Lemma yields_total {A} (P : A -> Prop) (r : res A) : yields P r -> total r.
Proof. intros (x & E & _). exists x. exact E. Qed.
Lemma total_yields {A} (r : res A) : total r -> yields (fun _ => True) r.
Proof. intros (x & E). exists x. split; [exact E|exact I]. Qed.
Lemma total_after {A B} (Q : A -> Prop) (r : res A) (f : A -> res B) : yields Q r -> (forall x, Q x -> total (f x)) -> total (rbind r f).
Proof. intros (x & -> & H) K. cbn [rbind]. apply K, H. Qed.
Lemma yields_rmapl {A B} (P : A -> Prop) (Q : B -> Prop) (f : A -> res B) n l : (forall x, P x -> yields Q (f x)) -> Forall P l -> len l = n ->
  yields (fun r => len r = n /\ Forall Q r) (rmapl f l).
Proof.
  intros H HP L. assert (G : yields (fun r => length r = length l /\ Forall Q r) (rmapl f l)).
  { clear L. induction HP as [|x l Hx HP IH]; cbn [rmapl]; [apply yields_ok; split; [reflexivity|constructor]|].
    eapply yields_bind; [apply H, Hx|]. intros y Hy. eapply yields_bind; [exact IH|]. intros ys (L & F). apply yields_ok.
    split; [cbn [length]; congruence|constructor; assumption]. }
  destruct G as (r & E & G & F). exists r. split; [exact E|split; [|exact F]]. unfold len in *. lia.
Qed.

(* floats *)
Lemma of_int_runs F n : converts F -> - 2 ^ 63 <= n < 2 ^ 64 -> total (fl_of_int F n).
Proof. intros [H _] R. specialize (H n R). unfold fl_of_int. destruct (f_of_int F n); [apply total_ok|congruence]. Qed.
Lemma integral_runs F g x : converts F -> In g [fl_trunc; fl_floor; fl_ceil; fl_round] -> total (fl_integral F g x).
Proof.
  intros [_ H] Hg. unfold fl_integral. destruct (fl_isnan x) eqn:N; [apply total_ok|]. destruct (fl_isinf x) eqn:I; [apply total_ok|].
  cbn [orb]. destruct (H x N I) as (H1 & H2 & H3 & H4). unfold fl_of_int. destruct Hg as [<-|[<-|[<-|[<-|[]]]]];
    match goal with |- total match ?x with _ => _ end => destruct x end; (apply total_ok || congruence).
Qed.
Lemma inf_scaled x : fl_isinf x = true -> fl_scaled x = if fl_sign x then - 2 ^ 2098 else 2 ^ 2098.
Proof.
  unfold fl_isinf. rewrite andb_true_iff, !Z.eqb_eq. intros [E M]. unfold fl_scaled. rewrite E, M.
  destruct (fl_sign x); vm_compute; reflexivity.
Qed.
Lemma beyond n : n <= 2 ^ 64 -> n * fl_unit < 2 ^ 2098.
Proof.
  intros H. unfold fl_unit. apply Z.le_lt_trans with (2 ^ 64 * 2 ^ 1074); [apply Z.mul_le_mono_nonneg_r; [apply Z.pow_nonneg; lia|exact H]|].
  rewrite <- Z.pow_add_r by lia. apply Z.pow_lt_mono_r; lia.
Qed.
Lemma sat_runs lo hi a : - 2 ^ 64 <= lo -> lo <= 0 -> 0 < hi -> hi <= 2 ^ 64 -> fl_isnan a = false ->
  yields (fun n => lo <= n <= hi) (fl_sat_int lo hi a).
Proof.
  intros L1 L2 H1 H2 Na. unfold fl_sat_int, fl_gtb_int, fl_int. rewrite Na. cbn [negb andb].
  destruct (hi * fl_unit <? fl_scaled a) eqn:A.
  { replace (lo <? hi) with true by (symmetry; apply Z.ltb_lt; lia). apply yields_ok. lia. }
  destruct (lo * fl_unit <? fl_scaled a) eqn:B; [|apply yields_ok; lia].
  apply Z.ltb_ge in A. apply Z.ltb_lt in B. destruct (fl_isinf a) eqn:Ia.
  { exfalso. rewrite (inf_scaled a Ia) in A, B. pose proof (beyond hi H2). pose proof (beyond (- lo) ltac:(lia)).
    destruct (fl_sign a); lia. }
  apply yields_ok. unfold fl_trunc.
  assert (U : 0 < fl_unit) by reflexivity. generalize dependent fl_unit. generalize (fl_scaled a). clear - L2 H1. intros s u A B U.
  destruct (Z.le_gt_cases 0 s).
  - rewrite Z.quot_div_nonneg by lia. split; [pose proof (Z.div_pos s u); lia|]. apply Z.div_le_upper_bound; lia.
  - replace s with (- - s) by lia. rewrite Z.quot_opp_l by lia. rewrite Z.quot_div_nonneg by lia.
    assert (- s / u <= - lo) by (apply Z.div_le_upper_bound; lia). pose proof (Z.div_pos (- s) u). lia.
Qed.
Lemma denan a : fl_isnan (if fl_isnan a then fl_zero else a) = false.
Proof. destruct (fl_isnan a) eqn:E; [reflexivity|exact E]. Qed.

(* lanes *)
Lemma rd_lanes (sg : bool) w v : width_ok w -> val_wf v ->
  yields (fun l => len l = 16 / w /\ Forall (fun x => if sg then srange (8 * w) x else urange (8 * w) x) l) (into_sg sg w v).
Proof.
  intros Hw Wv. destruct (width_pos w Hw) as (W1 & _). rewrite into_sg_ok by assumption. apply yields_ok. split.
  - unfold len. rewrite map_length. apply (vlanes_len w v Hw).
  - apply Forall_map. eapply Forall_impl; [|apply (vlanes_urange (8 * w) v); lia]. intros x Hx. destruct sg; [|exact Hx].
    apply sgn_range; [lia|exact Hx].
Qed.
Lemma rd_vf32 F v : val_wf v -> yields (fun l => len l = 4) (into_v128_f32 F v).
Proof.
  intros W. unfold into_v128_f32. eapply yields_bind; [apply (rd_lanes false 4 v); [right; right; left; reflexivity|exact W]|].
  intros l (L & _). apply yields_ok. unfold len in *. rewrite map_length. exact L.
Qed.
Lemma rd_vf64 v : val_wf v -> yields (fun l => len l = 2) (into_v128_f64 v).
Proof.
  intros W. destruct (rd_lanes false 8 v ltac:(right; right; right; reflexivity) W) as (l & E & L & _). exists l. split; [exact E|exact L].
Qed.
Lemma rd_vi4 v : val_wf v -> yields (fun l => len l = 4 /\ Forall (srange 32) l) (into_v128_i 4 v).
Proof. intros W. exact (rd_lanes true 4 v ltac:(right; right; left; reflexivity) W). Qed.
Lemma rd_vu4 v : val_wf v -> yields (fun l => len l = 4 /\ Forall (urange 32) l) (into_v128_u 4 v).
Proof. intros W. exact (rd_lanes false 4 v ltac:(right; right; left; reflexivity) W). Qed.
Lemma concat_len {A} (f : A -> list Z) k l : (forall x, length (f x) = k) -> length (concat (map f l)) = (length l * k)%nat.
Proof. intros H. induction l as [|x l IH]; cbn [map concat length]; [reflexivity|]. rewrite app_length, H, IH. reflexivity. Qed.
Lemma wr_vf32 F l : len l = 4 -> total (from_v128_f32 F l).
Proof.
  intros L. unfold from_v128_f32. rewrite L. cbn [Z.eqb Pos.eqb py_assert rbind]. apply wr_val. unfold len in *.
  rewrite app_length, (concat_len _ 4) by (intros x; apply to_le_length). cbn [length zeros blen]. 
  change (length (zeros (blen - 16))) with 0%nat. lia.
Qed.
Lemma wr_vf64 l : len l = 2 -> total (from_v128_f64 l).
Proof.
  intros L. unfold from_v128_f64. rewrite L. cbn [Z.eqb Pos.eqb py_assert rbind]. apply wr_val. unfold len in *.
  rewrite app_length, (concat_len _ 8) by (intros x; apply to_le_length).
  change (length (zeros (blen - 16))) with 0%nat. lia.
Qed.
Lemma wr_vi (sg : bool) w l : width_ok w -> len l = 16 / w -> Forall (fun x => if sg then srange (8 * w) x else urange (8 * w) x) l ->
  total (from_sg sg w l).
Proof.
  intros Hw L H. eexists. apply (from_sg_ok sg w l (map (fun x => x mod 2 ^ (8 * w)) l) Hw L). clear L.
  induction H as [|x l Hx H IH]; cbn [map]; constructor; [|exact IH]. destruct sg; split; try exact Hx; try reflexivity.
  rewrite Z.mod_small by exact Hx. reflexivity.
Qed.
Lemma wr_vi4 l : len l = 4 -> Forall (srange 32) l -> total (from_v128_i 4 l).
Proof. intros L H. exact (wr_vi true 4 l ltac:(right; right; left; reflexivity) L H). Qed.
Lemma wr_vi8 l : len l = 2 -> Forall (srange 64) l -> total (from_v128_i 8 l).
Proof. intros L H. exact (wr_vi true 8 l ltac:(right; right; right; reflexivity) L H). Qed.
Lemma wr_vu4 l : len l = 4 -> Forall (urange 32) l -> total (from_v128_u 4 l).
Proof. intros L H. exact (wr_vi false 4 l ltac:(right; right; left; reflexivity) L H). Qed.
Lemma lanes2_runs (Q : Z -> Prop) n f a b : n = len a -> len a = len b -> (forall x y, Q (f x y)) ->
  yields (fun l => len l = n /\ Forall Q l) (lanes2 0 n (fun x y => Ok (f x y)) a b).
Proof.
  intros -> L H. rewrite lanes2_combine by (unfold len in *; lia). rewrite Z.sub_0_r. cbn [Z.to_nat skipn].
  unfold len in *. rewrite Nat2Z.id. rewrite firstn_all2 by (rewrite combine_length; lia).
  apply (yields_rmapl (fun _ => True)).
  - intros [x y] _. apply yields_ok, H.
  - apply Forall_forall. intros. exact I.
  - unfold len. rewrite combine_length. lia.
Qed.

Lemma op1_runs {A R} (P : A -> Prop) (Q : R -> Prop) args (rd : val -> res A) (f : list arg -> A -> res R) (wr : R -> res val) :
  (forall v, val_wf v -> yields P (rd v)) -> (forall a, P a -> yields Q (f args a)) -> (forall r, Q r -> total (wr r)) ->
  runs args (Some (op1 rd f wr)).
Proof. intros H1 H2 H3 v W. eapply total_after; [apply H1, W|]. intros a Ha. eapply total_after; [apply H2, Ha|]. exact H3. Qed.
Lemma op2_runs {A R} (P : A -> Prop) (Q : R -> Prop) args (rd : val -> res A) (f : list arg -> A -> A -> res R) (wr : R -> res val) :
  (forall v, val_wf v -> yields P (rd v)) -> (forall a b, P a -> P b -> yields Q (f args a b)) -> (forall r, Q r -> total (wr r)) ->
  runs args (Some (op2 rd rd f wr)).
Proof.
  intros H1 H2 H3 v w W1 W2. eapply total_after; [apply H1, W2|]. intros b Hb. eapply total_after; [apply H1, W1|]. intros a Ha.
  eapply total_after; [apply H2; assumption|]. exact H3.
Qed.
Definition any {A} (x : A) : Prop := True.
Lemma yields_gives {A} (P : A -> Prop) r : total r -> gives P r -> yields P r.
Proof. intros (x & E) H. exists x. split; [exact E|apply H, E]. Qed.
Lemma yi32 v : val_wf v -> yields (srange 32) (into_i32 v).
Proof. intros W. apply yields_gives; [apply rd_i32, W|apply gv_i32, W]. Qed.
Lemma yi64 v : val_wf v -> yields (srange 64) (into_i64 v).
Proof. intros W. apply yields_gives; [apply rd_i64, W|apply gv_i64, W]. Qed.
Lemma yu32 v : val_wf v -> yields (urange 32) (into_u32 v).
Proof. intros W. apply yields_gives; [apply rd_u32, W|apply gv_u32, W]. Qed.
Lemma yu64 v : val_wf v -> yields (urange 64) (into_u64 v).
Proof. intros W. apply yields_gives; [apply rd_u64, W|apply gv_u64, W]. Qed.
Lemma yf32 F v : val_wf v -> yields any (into_f32 F v).
Proof. intros W. apply total_yields, rd_f32, W. Qed.
Lemma yf64 v : val_wf v -> yields any (into_f64 v).
Proof. intros W. apply total_yields, rd_f64, W. Qed.
Lemma ydata v : val_wf v -> yields val_wf (Ok v).
Proof. apply yields_ok. Qed.
Lemma wf_len v : val_wf v -> len (v_data v) = 16.
Proof. intros W. unfold len. rewrite (proj1 W). reflexivity. Qed.
Lemma byte_op_runs f k d : len d = 16 -> 0 <= k < 16 -> yields (fun d' => len d' = 16) (byte_op f k d).
Proof.
  intros L K. unfold byte_op. rewrite (py_index_in d k 0) by lia. cbn [rbind]. rewrite py_setitem_in by lia. apply yields_ok.
  unfold len in *. rewrite upd_length. exact L.
Qed.
Ltac reader := first [exact yi32|exact yi64|exact yu32|exact yu64|exact (yf32 _)|exact yf64|exact rd_vi4|exact rd_vu4|exact (rd_vf32 _)|exact rd_vf64
  |exact ydata].
Lemma srange64 n : srange 64 n -> - 2 ^ 63 <= n < 2 ^ 64.
Proof. unfold srange. change (2 ^ (64 - 1)) with (2 ^ 63). lia. Qed.
Lemma urange64 n : urange 64 n -> - 2 ^ 63 <= n < 2 ^ 64.
Proof. unfold urange. lia. Qed.
Lemma srange32 n : srange 32 n -> - 2 ^ 63 <= n < 2 ^ 64.
Proof. unfold srange. change (2 ^ (32 - 1)) with (2 ^ 31). lia. Qed.
Lemma urange32 n : urange 32 n -> - 2 ^ 63 <= n < 2 ^ 64.
Proof. unfold urange. lia. Qed.
Lemma y_of_int F (P : Z -> Prop) n : converts F -> (P n -> - 2 ^ 63 <= n < 2 ^ 64) -> P n -> yields any (fl_of_int F n).
Proof. intros C H K. apply total_yields, of_int_runs; [exact C|apply H, K]. Qed.
Lemma y_integral F g x : converts F -> In g [fl_trunc; fl_floor; fl_ceil; fl_round] -> yields any (fl_integral F g x).
Proof. intros C H. apply total_yields, integral_runs; assumption. Qed.
Lemma sat_i4 a : fl_isnan a = false -> yields (srange 32) (fl_sat_int (i_min 4) (i_max 4) a).
Proof.
  intros N. destruct (sat_runs (i_min 4) (i_max 4) a ltac:(vm_compute; congruence) ltac:(vm_compute; congruence) eq_refl ltac:(vm_compute; congruence) N) as (n & E & R).
  exists n. split; [exact E|]. change (i_min 4) with (- 2 ^ 31) in R. change (i_max 4) with (2 ^ 31 - 1) in R.
  unfold srange. change (2 ^ (32 - 1)) with (2 ^ 31). lia.
Qed.
Lemma sat_u4 a : fl_isnan a = false -> yields (urange 32) (fl_sat_int (u_min 4) (u_max 4) a).
Proof.
  intros N. destruct (sat_runs (u_min 4) (u_max 4) a ltac:(vm_compute; congruence) ltac:(vm_compute; congruence) eq_refl ltac:(vm_compute; congruence) N) as (n & E & R).
  exists n. split; [exact E|]. change (u_min 4) with 0 in R. change (u_max 4) with (2 ^ 32 - 1) in R. unfold urange. lia.
Qed.
Lemma sat_i8 a : fl_isnan a = false -> yields (srange 64) (fl_sat_int (i_min 8) (i_max 8) a).
Proof.
  intros N. destruct (sat_runs (i_min 8) (i_max 8) a ltac:(vm_compute; congruence) ltac:(vm_compute; congruence) eq_refl ltac:(vm_compute; congruence) N) as (n & E & R).
  exists n. split; [exact E|]. change (i_min 8) with (- 2 ^ 63) in R. change (i_max 8) with (2 ^ 63 - 1) in R.
  unfold srange. change (2 ^ (64 - 1)) with (2 ^ 63). lia.
Qed.
Lemma sat_u8 a : fl_isnan a = false -> yields (urange 64) (fl_sat_int (u_min 8) (u_max 8) a).
Proof.
  intros N. destruct (sat_runs (u_min 8) (u_max 8) a ltac:(vm_compute; congruence) ltac:(vm_compute; congruence) eq_refl ltac:(vm_compute; congruence) N) as (n & E & R).
  exists n. split; [exact E|]. change (u_min 8) with 0 in R. change (u_max 8) with (2 ^ 64 - 1) in R. unfold urange. lia.
Qed.
Lemma mask_s32 (b : bool) : srange 32 (if b then -1 else 0).
Proof. destruct b; vm_compute; split; congruence. Qed.
Lemma mask_s64 (b : bool) : srange 64 (if b then -1 else 0).
Proof. destruct b; vm_compute; split; congruence. Qed.
Lemma nonan_all l : Forall (fun e => fl_isnan e = false) (map (fun e => if fl_isnan e then fl_zero else e) l).
Proof. apply Forall_map, Forall_forall. intros x _. apply denan. Qed.
Lemma anys {A} (l : list A) : Forall any l.
Proof. apply Forall_forall. intros. exact I. Qed.
Lemma len_map {A B} (f : A -> B) l n : len l = n -> len (map f l) = n.
Proof. unfold len. rewrite map_length. auto. Qed.
Lemma slice2 (P : Z -> Prop) l : len l = 4 -> Forall P l -> len (py_slice l 0 2) = 2 /\ Forall P (py_slice l 0 2).
Proof.
  intros L H. destruct l as [|a [|b [|c [|d [|e l]]]]]; cbn in L; try (unfold len in L; cbn [length] in L; lia).
  inversion_clear H. inversion_clear H1. split; [reflexivity|]. change (py_slice [a; b; c; d] 0 2) with [a; b]. auto.
Qed.

Lemma two_zeros (P : Z -> Prop) l : P 0 -> len l = 2 -> Forall P l -> len (l ++ [0; 0]) = 4 /\ Forall P (l ++ [0; 0]).
Proof.
  intros H L F. split; [unfold len in *; rewrite app_length; cbn [length]; lia|]. apply Forall_app. split; [exact F|]. auto.
Qed.
Lemma s32_s64 n : srange 32 n -> srange 64 n.
Proof. unfold srange. change (2 ^ (32 - 1)) with (2 ^ 31). change (2 ^ (64 - 1)) with (2 ^ 63). lia. Qed.
Lemma u32_s64 n : urange 32 n -> srange 64 n.
Proof. unfold srange, urange. change (2 ^ (64 - 1)) with (2 ^ 63). lia. Qed.

(* the float instructions, by the shape of their code *)
Ltac wr_any := first [apply wr_f32|apply wr_f64].
Ltac wr_lanes Lr := first [apply wr_vf32, Lr|apply wr_vf64, Lr].
Ltac int_range := first [apply srange32|apply urange32|apply srange64|apply urange64].
Ltac float_op CF Hi :=
  lazymatch goal with
  | |- runs _ (Some (N0 (fun _ => wr0 (arg_bytes _ _) _))) =>
      destruct Hi as (b & -> & R); cbn [runs]; unfold wr0; change (arg_bytes [ABytes b] 0) with (Ok b : res (list Z)); cbn [rbind];
      rewrite from_v128_ok by (unfold len in R; lia); apply total_ok
  | |- runs _ (Some (N0 _)) =>
      destruct Hi as (n & -> & R); cbn [runs]; unfold wr0; change (arg_int [AInt n] 0) with (Ok n : res Z); cbn [rbind];
      first [apply wr_i32, R|apply wr_i64, R
            |rewrite from_i32_ok by exact R; apply total_ok|rewrite from_i64_ok by exact R; apply total_ok]
  | |- runs _ (Some (op2 _ _ (fun _ _ _ => Ok (b2z _)) from_i32)) =>
      eapply (op2_runs _ (fun r => exists b, r = b2z b)); [reader|intros a b _ _; apply yields_ok; eexists; reflexivity
        |intros r (? & ->); apply wr_bool]
  | |- runs _ (Some (op2 _ _ (fun _ _ _ => Ok _) _)) =>
      eapply (op2_runs _ any); [reader|intros a b _ _; apply yields_ok, I|intros r _; wr_any]
  | |- runs _ (Some (op2 _ _ (fun _ _ _ => lanes2 _ _ _ _ _) (from_v128_i 4))) =>
      eapply op2_runs; [reader|intros a b La Lb; apply (lanes2_runs (srange 32)); [symmetry; exact La|congruence|intros; apply mask_s32]
        |intros r (Lr & Fr); apply wr_vi4; assumption]
  | |- runs _ (Some (op2 _ _ (fun _ _ _ => lanes2 _ _ _ _ _) (from_v128_i 8))) =>
      eapply op2_runs; [reader|intros a b La Lb; apply (lanes2_runs (srange 64)); [symmetry; exact La|congruence|intros; apply mask_s64]
        |intros r (Lr & Fr); apply wr_vi8; assumption]
  | |- runs _ (Some (op2 _ _ (fun _ _ _ => lanes2 _ _ _ _ _) _)) =>
      eapply op2_runs; [reader|intros a b La Lb; apply (lanes2_runs any); [symmetry; exact La|congruence|intros; exact I]
        |intros r (Lr & _); wr_lanes Lr]
  | |- runs _ (Some (op1 Ok (fun _ _ => byte_op _ _ _) _)) =>
      eapply op1_runs; [reader|intros a W; apply byte_op_runs; [apply wf_len, W|lia]|intros r Hr; apply wr_val, Hr]
  | |- runs _ (Some (op1 Ok _ _)) =>
      eapply (op1_runs _ (fun d => len d = 16)); [reader|intros a W; apply yields_ok, (wf_len _ W)|intros r Hr; apply wr_val, Hr]
  | |- runs _ (Some (op1 _ (fun _ _ => fl_integral _ _ _) _)) =>
      eapply op1_runs; [reader|intros a _; apply y_integral; [exact CF|cbn [In]; auto]|intros r _; wr_any]
  | |- runs _ (Some (op1 _ (fun _ _ => fl_of_int _ _) _)) =>
      eapply op1_runs; [reader|intros a Ha; eapply y_of_int; [exact CF| |exact Ha]; int_range|intros r _; wr_any]
  | |- runs _ (Some (op1 _ (fun _ _ => fl_sat_int (i_min 4) _ _) _)) =>
      eapply op1_runs; [reader|intros a _; apply sat_i4, denan|exact wr_i32]
  | |- runs _ (Some (op1 _ (fun _ _ => fl_sat_int (u_min 4) _ _) _)) =>
      eapply op1_runs; [reader|intros a _; apply sat_u4, denan|exact wr_u32]
  | |- runs _ (Some (op1 _ (fun _ _ => fl_sat_int (i_min 8) _ _) _)) =>
      eapply op1_runs; [reader|intros a _; apply sat_i8, denan|exact wr_i64]
  | |- runs _ (Some (op1 _ (fun _ _ => fl_sat_int (u_min 8) _ _) _)) =>
      eapply op1_runs; [reader|intros a _; apply sat_u8, denan|exact wr_u64]
  | |- runs _ (Some (op1 into_i64 _ from_i32)) =>
      eapply (op1_runs _ (srange 32)); [reader|intros a _; apply yields_ok, (i_fit_range 4); lia|exact wr_i32]
  | |- runs _ (Some (op1 into_i32 _ from_i64)) =>
      eapply (op1_runs _ (srange 64)); [reader|intros a Ha; apply yields_ok, s32_s64, Ha|exact wr_i64]
  | |- runs _ (Some (op1 into_u32 _ from_i64)) =>
      eapply (op1_runs _ (srange 64)); [reader|intros a Ha; apply yields_ok, u32_s64, Ha|exact wr_i64]
  | |- runs _ (Some (op1 _ (fun _ _ => rmapl (fun _ => fl_integral _ _ _) _) _)) =>
      eapply op1_runs; [reader|intros a La; apply (yields_rmapl any any); [intros x _; apply y_integral; [exact CF|cbn [In]; auto]|apply anys|exact La]
      |intros r (Lr & _); wr_lanes Lr]
  | |- runs _ (Some (op1 _ (fun _ _ => rmapl (fun _ => fl_of_int _ _) (py_slice _ _ _)) _)) =>
      eapply op1_runs; [reader|intros a (La & Fa); destruct (slice2 _ a La Fa) as (Ls & Fs); eapply yields_rmapl;
        [|exact Fs|exact Ls]; intros x Hx; eapply y_of_int; [exact CF| |exact Hx]; int_range|intros r (Lr & _); wr_lanes Lr]
  | |- runs _ (Some (op1 _ (fun _ _ => rmapl (fun _ => fl_of_int _ _) _) _)) =>
      eapply op1_runs; [reader|intros a (La & Fa); eapply yields_rmapl; [|exact Fa|exact La];
        intros x Hx; eapply y_of_int; [exact CF| |exact Hx]; int_range|intros r (Lr & _); wr_lanes Lr]
  | |- runs _ (Some (op1 _ (fun _ _ => Ok (map _ _)) (from_v128_f32 _))) =>
      eapply (op1_runs _ (fun l => len l = 4)); [reader|intros a La; apply yields_ok, (len_map _ _ _ La)|exact (wr_vf32 _)]
  | |- runs _ (Some (op1 _ (fun _ _ => Ok (map _ _)) from_v128_f64)) =>
      eapply (op1_runs _ (fun l => len l = 2)); [reader|intros a La; apply yields_ok, (len_map _ _ _ La)|exact wr_vf64]
  | |- runs _ (Some (op1 _ (fun _ _ => rmapl (fun _ => fl_sat_int (i_min 4) _ _) _) _)) =>
      eapply op1_runs; [reader|intros a La; eapply yields_rmapl; [exact sat_i4|apply nonan_all|apply len_map, La]
        |intros r (Lr & Fr); apply wr_vi4; assumption]
  | |- runs _ (Some (op1 _ (fun _ _ => rmapl (fun _ => fl_sat_int (u_min 4) _ _) _) _)) =>
      eapply op1_runs; [reader|intros a La; eapply yields_rmapl; [exact sat_u4|apply nonan_all|apply len_map, La]
        |intros r (Lr & Fr); apply wr_vu4; assumption]
  | |- runs _ (Some (op1 _ (fun _ _ => rbind (rmapl (fun _ => fl_sat_int (i_min 4) _ _) _) _) _)) =>
      eapply (op1_runs _ (fun l => len l = 4 /\ Forall (srange 32) l)); [reader
        |intros a La; eapply yields_bind; [eapply yields_rmapl; [exact sat_i4|apply nonan_all|apply len_map, La]|];
         intros c (Lc & Fc); apply yields_ok, (two_zeros (srange 32)); [vm_compute; split; congruence|exact Lc|exact Fc]
        |intros r (Lr & Fr); apply wr_vi4; assumption]
  | |- runs _ (Some (op1 _ (fun _ _ => rbind (rmapl (fun _ => fl_sat_int (u_min 4) _ _) _) _) _)) =>
      eapply (op1_runs _ (fun l => len l = 4 /\ Forall (urange 32) l)); [reader
        |intros a La; eapply yields_bind; [eapply yields_rmapl; [exact sat_u4|apply nonan_all|apply len_map, La]|];
         intros c (Lc & Fc); apply yields_ok, (two_zeros (urange 32)); [vm_compute; split; congruence|exact Lc|exact Fc]
        |intros r (Lr & Fr); apply wr_vu4; assumption]
  | |- runs _ (Some (op1 _ (fun _ _ => Ok (_ ++ [fl_zero; fl_zero])) _)) =>
      eapply (op1_runs _ (fun l => len l = 4)); [reader|intros a La; apply yields_ok; exact (proj1 (two_zeros any a I La (anys a)))|exact (wr_vf32 _)]
  | |- runs _ (Some (op1 _ (fun _ _ => Ok (py_slice _ _ _)) _)) =>
      eapply (op1_runs _ (fun l => len l = 2)); [reader|intros a La; apply yields_ok; exact (proj1 (slice2 any a La (anys a)))|exact wr_vf64]
  | |- runs _ (Some (op1 _ (fun _ _ => Ok _) _)) =>
      eapply (op1_runs _ any); [reader|intros a _; apply yields_ok, I|intros r _; wr_any]
  end.

Lemma pure_runs F o args : converts F -> signature o <> None -> may_trap o = false -> imm_ok o args -> runs args (num_op F o).
Proof.
  intros CF Hs Ht Hi.
  destruct (wasm_unop o) eqn:E1; [eapply runs_unop, E1|]. destruct (wasm_relop o) eqn:E2; [eapply runs_relop, E2|].
  destruct (wasm_testop o) eqn:E3; [eapply runs_testop, E3|]. destruct (lane_unop o) eqn:E4; [eapply runs_lane_unop, E4|].
  destruct (lane_binop o) eqn:E5; [eapply runs_lane_binop, E5|]. destruct (lane_relop o) eqn:E6; [eapply runs_lane_relop, E6|].
  destruct (lane_shift o) eqn:E7; [eapply runs_lane_shift, E7|]. destruct (splat_op o) eqn:E8; [eapply runs_splat, E8|].
  destruct (extend_op o) eqn:E9; [eapply runs_extend, E9|]. destruct (extmul_op o) eqn:E10; [eapply runs_extmul, E10|].
  destruct (pairwise_op o) eqn:E11; [eapply runs_pairwise, E11|]. destruct (narrow_op o) eqn:E12; [eapply runs_narrow, E12|].
  destruct (logic_op o) eqn:E13; [eapply runs_logic, E13|]. destruct (all_true_op o) eqn:E14; [eapply runs_all_true, E14|].
  destruct (bitmask_op o) eqn:E15; [eapply runs_bitmask, E15|].
  destruct o; try discriminate E1; try discriminate E2; try discriminate E3; try discriminate E4; try discriminate E5;
    try discriminate E6; try discriminate E7; try discriminate E8; try discriminate E9; try discriminate E10; try discriminate E11;
    try discriminate E12; try discriminate E13; try discriminate E14; try discriminate E15;
    try (exfalso; apply Hs; reflexivity); try discriminate Ht; clear E1 E2 E3 E4 E5 E6 E7 E8 E9 E10 E11 E12 E13 E14 E15 Hs Ht.
  all: lazymatch goal with
   | |- runs _ (num_op _ O_i8x16_shuffle) => apply runs_shuffle, Hi
   | |- runs _ (num_op _ O_i8x16_swizzle) => apply runs_swizzle
   | |- runs _ (num_op _ O_i32x4_dot_i16x8_s) => apply runs_dot
   | |- runs _ (num_op _ O_v128_not) => apply runs_not
   | |- runs _ (num_op _ O_v128_bitselect) => apply runs_bitselect
   | |- runs _ (num_op _ O_v128_any_true) => apply runs_any_true
   | |- runs _ (num_op _ ?o) =>
      let e := eval hnf in (wasm_binop o) in
      lazymatch e with
      | Some _ => eapply runs_binop; [reflexivity|intros ? ?; discriminate|discriminate]
      | None =>
        let e := eval hnf in (extract_op o) in
        lazymatch e with
        | Some _ => eapply runs_extract; [reflexivity|exact Hi]
        | None =>
          let e := eval hnf in (replace_op o) in
          lazymatch e with
          | Some _ => eapply runs_replace; [reflexivity|exact Hi]
          | None => unfold num_op; cbn [num_scalar num_simd]; float_op CF Hi
          end
        end
      end
   end.
Qed.
