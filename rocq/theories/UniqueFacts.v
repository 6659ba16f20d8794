(* The standard's runs are unique where no choice is made. *)
From Coq Require Import ZArith List Bool Reals Lia.
From Flocq Require Import Core IEEE754.BinarySingleNaN IEEE754.Binary IEEE754.Bits.
From Verif Require Import Py Arith Floatops Val Opcode Numeric Syntax Store Basic Machine SpecInt SpecNum SpecMachine SpecMem SpecRun SpecIeee SpecSimd SpecVecFloat
  SpecControl SpecType SpecConverse SpecStandard SpecCode SpecUnique Float StepFacts RunFacts SimdStepFacts TypeFacts TypeIeeeFacts ControlFacts ConverseFacts StandardFacts.
Import ListNotations.
Open Scope Z_scope.

(* ---- one float ---- *)
Lemma same_once {p e} (x a b : binary_float p e) : is_nan p e a = false -> same_float a x -> same_float b x -> a = b.
Proof. intros N [->|[H1 H2]] [->|[H3 H4]]; congruence. Qed.
Lemma extremum_once {p e} up (x y a b : binary_float p e) : is_nan p e a = false -> is_extremum up x y a -> is_extremum up x y b -> a = b.
Proof.
  unfold is_extremum. intros N H1 H2. destruct (is_nan p e x || is_nan p e y); [congruence|]. destruct (is_zero x && is_zero y); [congruence|].
  destruct (Bcompare p e x y) as [[]|]; try congruence; destruct H1, H2; congruence.
Qed.
Lemma rounds_single_once x s a b : rounds_to_single x s a -> rounds_to_single x s b -> a = b.
Proof.
  unfold rounds_to_single. destruct (Rlt_bool _ _); [|congruence]. intros (A1 & A2 & A3) (B1 & B2 & B3). apply B2R_Bsign_inj; congruence.
Qed.
Lemma rounds_double_once x s a b : rounds_to_double x s a -> rounds_to_double x s b -> a = b.
Proof.
  unfold rounds_to_double. destruct (Rlt_bool _ _); [|congruence]. intros (A1 & A2 & A3) (B1 & B2 & B3). apply B2R_Bsign_inj; congruence.
Qed.
Lemma demoted_once x a b : is_nan 24 128 a = false -> demoted x a -> demoted x b -> a = b.
Proof. intros N. destruct x; cbn [demoted]; try congruence; apply rounds_single_once. Qed.
Lemma promoted_once x a b : is_nan 53 1024 a = false -> promoted x a -> promoted x b -> a = b.
Proof. intros N. destruct x; cbn [promoted]; try congruence; intros (A1 & A2 & A3) (B1 & B2 & B3); apply B2R_Bsign_inj; congruence. Qed.
Lemma bits32_once a b : 0 <= a < 2 ^ 32 -> 0 <= b < 2 ^ 32 -> b32_of_bits a = b32_of_bits b -> a = b.
Proof. intros Ha Hb E. rewrite <- (bits_of_binary_float_of_bits 23 8 eq_refl eq_refl eq_refl a Ha), <- (bits_of_binary_float_of_bits 23 8 eq_refl eq_refl eq_refl b Hb). unfold b32_of_bits in E. now rewrite E. Qed.
Lemma bits64_once a b : 0 <= a < 2 ^ 64 -> 0 <= b < 2 ^ 64 -> b64_of_bits a = b64_of_bits b -> a = b.
Proof. intros Ha Hb E. rewrite <- (bits_of_binary_float_of_bits 52 11 eq_refl eq_refl eq_refl a Ha), <- (bits_of_binary_float_of_bits 52 11 eq_refl eq_refl eq_refl b Hb). unfold b64_of_bits in E. now rewrite E. Qed.

(* ---- a float or a vector of floats ---- *)
Lemma vlanes32_num z : 0 <= z < 2 ^ 32 -> vlanes 32 (num_val T_f32 z) = [z; 0; 0; 0].
Proof.
  intros H. transitivity (vlanes 32 (vec 32 [z; 0; 0; 0])); [|apply vlanes_vec; [lia|reflexivity|repeat constructor; cbv beta; lia]].
  unfold vec. cbn [join]. replace (z + 2 ^ 32 * (0 + 2 ^ 32 * (0 + 2 ^ 32 * (0 + 2 ^ 32 * 0)))) with z by lia. reflexivity.
Qed.
Lemma vlanes64_num z : 0 <= z < 2 ^ 64 -> vlanes 64 (num_val T_f64 z) = [z; 0].
Proof.
  intros H. transitivity (vlanes 64 (vec 64 [z; 0])); [|apply vlanes_vec; [lia|reflexivity|repeat constructor; cbv beta; lia]].
  unfold vec. cbn [join]. replace (z + 2 ^ 64 * (0 + 2 ^ 64 * 0)) with z by lia. reflexivity.
Qed.
Lemma single_once (Q : binary32 -> Prop) v w : (forall a b, is_nan 24 128 a = false -> Q a -> Q b -> a = b) ->
  nan_in 32 v = false -> is_single Q v -> is_single Q w -> v = w.
Proof.
  intros U N (z & Hz & -> & Q1) (y & Hy & -> & Q2). f_equal. apply bits32_once; [assumption..|]. apply U; [|assumption..].
  unfold nan_in in N. rewrite vlanes32_num in N by exact Hz. cbn [existsb] in N. apply orb_false_iff in N. exact (proj1 N).
Qed.
Lemma double_once (Q : binary64 -> Prop) v w : (forall a b, is_nan 53 1024 a = false -> Q a -> Q b -> a = b) ->
  nan_in 64 v = false -> is_double Q v -> is_double Q w -> v = w.
Proof.
  intros U N (z & Hz & -> & Q1) (y & Hy & -> & Q2). f_equal. apply bits64_once; [assumption..|]. apply U; [|assumption..].
  unfold nan_in in N. rewrite vlanes64_num in N by exact Hz. cbn [existsb] in N. apply orb_false_iff in N. exact (proj1 N).
Qed.
Lemma single_exact (Q : binary32 -> Prop) v w : (forall a b, Q a -> Q b -> a = b) -> is_single Q v -> is_single Q w -> v = w.
Proof. intros U (z & Hz & -> & Q1) (y & Hy & -> & Q2). f_equal. apply bits32_once; [assumption..|]. now apply U. Qed.
Lemma double_exact (Q : binary64 -> Prop) v w : (forall a b, Q a -> Q b -> a = b) -> is_double Q v -> is_double Q w -> v = w.
Proof. intros U (z & Hz & -> & Q1) (y & Hy & -> & Q2). f_equal. apply bits64_once; [assumption..|]. now apply U. Qed.

Lemma nth_same (l l' : list Z) : length l = length l' -> (forall k, (k < length l)%nat -> nth k l 0 = nth k l' 0) -> l = l'.
Proof. intros H1 H2. apply (nth_ext l l' 0 0); assumption. Qed.
(* the lanes of the first vector are no NaNs, where [strict] *)
Lemma lanes_once N (Q : list Z -> Prop) v w : N = 32 \/ N = 64 ->
  (forall l l', Forall (urange N) l -> Forall (urange N) l' -> (forall k, (k < length l)%nat -> lane_nan N (nth k l 0) = false) -> Q l -> Q l' -> l = l') ->
  nan_in N v = false -> has_lanes N Q v -> has_lanes N Q w -> v = w.
Proof.
  intros HN U E (l & L1 & R1 & Q1 & ->) (l' & L2 & R2 & Q2 & ->). f_equal. apply U; try assumption. intros k Hk.
  unfold nan_in in E. rewrite vlanes_vec in E by (assumption || lia). destruct (lane_nan N (nth k l 0)) eqn:X; [|reflexivity].
  assert (existsb (lane_nan N) l = true) by (apply existsb_exists; exists (nth k l 0); split; [apply nth_In, Hk|exact X]). congruence.
Qed.
Lemma lanes_exact N (Q : list Z -> Prop) v w : (forall l l', Forall (urange N) l -> Forall (urange N) l' -> Q l -> Q l' -> l = l') ->
  has_lanes N Q v -> has_lanes N Q w -> v = w.
Proof. intros U (l & L1 & R1 & Q1 & ->) (l' & L2 & R2 & Q2 & ->). f_equal. now apply U. Qed.
Lemma each1_once N (R : Z -> Z -> Prop) la l l' :
  (forall a r r', urange N r -> urange N r' -> lane_nan N r = false -> R a r -> R a r' -> r = r') ->
  Forall (urange N) l -> Forall (urange N) l' -> (forall k, (k < length l)%nat -> lane_nan N (nth k l 0) = false) ->
  each1 R la l -> each1 R la l' -> l = l'.
Proof.
  intros U F1 F2 E (A1 & A2) (B1 & B2). rewrite Forall_forall in F1, F2. apply nth_same; [lia|]. intros k Hk.
  apply (U (nth k la 0)); [apply F1, nth_In; lia|apply F2, nth_In; lia|now apply E|apply A2; lia|apply B2; lia].
Qed.
Lemma each2_once N (R : Z -> Z -> Z -> Prop) la lb l l' :
  (forall a b r r', urange N r -> urange N r' -> lane_nan N r = false -> R a b r -> R a b r' -> r = r') ->
  Forall (urange N) l -> Forall (urange N) l' -> (forall k, (k < length l)%nat -> lane_nan N (nth k l 0) = false) ->
  each2 R la lb l -> each2 R la lb l' -> l = l'.
Proof.
  intros U F1 F2 E (A0 & A1 & A2) (B0 & B1 & B2). rewrite Forall_forall in F1, F2. apply nth_same; [lia|]. intros k Hk.
  apply (U (nth k la 0) (nth k lb 0)); [apply F1, nth_In; lia|apply F2, nth_In; lia|now apply E|apply A2; lia|apply B2; lia].
Qed.
Lemma each1_exact N (R : Z -> Z -> Prop) la l l' : (forall a r r', urange N r -> urange N r' -> R a r -> R a r' -> r = r') ->
  Forall (urange N) l -> Forall (urange N) l' -> each1 R la l -> each1 R la l' -> l = l'.
Proof.
  intros U F1 F2 (A1 & A2) (B1 & B2). rewrite Forall_forall in F1, F2. apply nth_same; [lia|]. intros k Hk.
  apply (U (nth k la 0)); [apply F1, nth_In; lia|apply F2, nth_In; lia|apply A2; lia|apply B2; lia].
Qed.
Lemma each2_exact (f : Z -> Z -> Z) la lb l l' : each2 (fun a b r => r = f a b) la lb l -> each2 (fun a b r => r = f a b) la lb l' -> l = l'.
Proof. intros (A0 & A1 & A2) (B0 & B1 & B2). apply nth_same; [lia|]. intros k Hk. rewrite A2, B2 by lia. reflexivity. Qed.

(* ---- the instructions that compute, each under one of the operators ---- *)
Definition pred : Type := option val -> Prop.
Definition on {A} (x : option A) (f : A -> pred) (k : pred) : pred := match x with Some a => f a | None => k end.
Definition value (Q : val -> Prop) : pred := fun r => exists v, r = Some v /\ Q v.
Definition un (ops : list val) (f : val -> pred) : pred := match ops with [va] => f va | _ => fun _ => False end.
Definition bin (ops : list val) (f : val -> val -> pred) : pred := match ops with [vb; va] => f va vb | _ => fun _ => False end.
Definition ter (ops : list val) (f : val -> val -> val -> pred) : pred := match ops with [vc; vb; va] => f va vb vc | _ => fun _ => False end.
Definition exactly (v : val) : pred := fun r => r = Some v.
Definition const (t : valtype) (args : list arg) : pred := match args with [AInt n] => exactly (num_val t (wrapped t n)) | _ => fun _ => False end.
Definition num (args : list arg) : list Z := flat_map (fun a => match a with AInt n => [n] | _ => [] end) args.
Definition special (o : opc) (args : list arg) (ops : list val) : option pred :=
  match o with
  | O_i32_const => Some (const T_i32 args) | O_i64_const => Some (const T_i64 args)
  | O_f32_const => Some (const T_f32 args) | O_f64_const => Some (const T_f64 args)
  | O_v128_const => Some (match args with [ABytes b] => exactly (num_val T_v128 (le_of b)) | _ => fun _ => False end)
  | O_f32_sqrt => Some (un ops (fun va => value (is_single (fun r => same_float r (b32_sqrt mode_NE (single va))))))
  | O_f64_sqrt => Some (un ops (fun va => value (is_double (fun r => same_float r (b64_sqrt mode_NE (double va))))))
  | O_f32_demote_f64 => Some (un ops (fun va => value (is_single (demoted (double va)))))
  | O_f64_promote_f32 => Some (un ops (fun va => value (is_double (promoted (single va)))))
  | O_f32_copysign => Some (bin ops (fun va vb => exactly (num_val T_f32 (with_sign 32 (Z.testbit (low 32 vb) 31) (low 32 va)))))
  | O_f64_copysign => Some (bin ops (fun va vb => exactly (num_val T_f64 (with_sign 64 (Z.testbit (low 64 vb) 63) (low 64 va)))))
  | O_i8x16_shuffle => Some (bin ops (fun va vb => exactly (vec 8 (map (nth_lane (vlanes 8 va ++ vlanes 8 vb)) (num args)))))
  | O_i8x16_swizzle => Some (bin ops (fun va vb => exactly (vec 8 (map (fun k => if k <? 16 then nth_lane (vlanes 8 va) k else 0) (vlanes 8 vb)))))
  | O_i32x4_dot_i16x8_s => Some (bin ops (fun va vb => exactly (vec 32 (map (unsgn 32) (pair_sums (map2 (fun a b => sgn 16 a * sgn 16 b) (vlanes 16 va) (vlanes 16 vb)))))))
  | O_v128_not => Some (un ops (fun va => exactly (num_val T_v128 (2 ^ 128 - 1 - low 128 va))))
  | O_v128_bitselect => Some (ter ops (fun va vb vc => exactly (num_val T_v128 (Z.lor (Z.land (low 128 va) (low 128 vc)) (Z.ldiff (low 128 vb) (low 128 vc))))))
  | O_v128_any_true => Some (un ops (fun va => exactly (num_val T_i32 (truth (negb (low 128 va =? 0))))))
  | O_f32x4_sqrt => Some (un ops (fun va => value (has_lanes 32 (each1 (fun a r => same_float (b32_of_bits r) (b32_sqrt mode_NE (b32_of_bits a))) (vlanes 32 va)))))
  | O_f64x2_sqrt => Some (un ops (fun va => value (has_lanes 64 (each1 (fun a r => same_float (b64_of_bits r) (b64_sqrt mode_NE (b64_of_bits a))) (vlanes 64 va)))))
  | O_f32x4_demote_f64x2_zero => Some (un ops (fun va => value (has_lanes 32 (fun l => exists l2, l = l2 ++ [0; 0] /\ each1 (fun a r => demoted (b64_of_bits a) (b32_of_bits r)) (vlanes 64 va) l2))))
  | O_f64x2_promote_low_f32x4 => Some (un ops (fun va => value (has_lanes 64 (each1 (fun a r => promoted (b32_of_bits a) (b64_of_bits r)) (half false (vlanes 32 va))))))
  | O_ref_null => Some (match args with [AInt n] => fun r => exists t, n = vt_code t /\ r = Some (null_ref t) | _ => fun _ => False end)
  | O_ref_is_null => Some (un ops (fun r => exactly (num_val T_i32 (truth (null r)))))
  | O_select | O_select_type => Some (ter ops (fun va vb vc => exactly (if low 32 vc =? 0 then vb else va)))
  | _ => None
  end.
Definition table (o : opc) (args : list arg) (ops : list val) : pred :=
  on (wasm_binop o) (fun '(N, f) => bin ops (fun va vb r => r = option_map (num_val (int_type N)) (f (low N va) (low N vb)))) (
  on (wasm_unop o) (fun '(N, f) => un ops (fun va => exactly (num_val (int_type N) (f (low N va))))) (
  on (wasm_relop o) (fun '(N, f) => bin ops (fun va vb => exactly (num_val T_i32 (truth (f (low N va) (low N vb)))))) (
  on (wasm_testop o) (fun '(N, f) => un ops (fun va => exactly (num_val T_i32 (truth (f (low N va)))))) (
  on (reinterpret_op o) (fun t => un ops (fun va => exactly (num_val t (le_of (v_data va))))) (
  on (wasm_intcvt o) (fun '(N, t, f) => un ops (fun va => exactly (num_val t (f (low N va))))) (
  on (ieee_binop32 o) (fun f => bin ops (fun va vb => value (is_single (fun r => same_float r (f (single va) (single vb)))))) (
  on (ieee_binop64 o) (fun f => bin ops (fun va vb => value (is_double (fun r => same_float r (f (double va) (double vb)))))) (
  on (float_relop o) (fun '(N, f) => bin ops (fun va vb => exactly (num_val T_i32 (truth (f (float_compare N va vb)))))) (
  on (extremum_op o) (fun '(N, up) => bin ops (fun va vb => value (fun v => (N = 32 /\ is_single (is_extremum up (single va) (single vb)) v) \/ (N = 64 /\ is_double (is_extremum up (double va) (double vb)) v)))) (
  on (integral_op o) (fun '(N, md) => un ops (fun va => value (fun v => (N = 32 /\ is_single (fun r => same_float r (integral32 md (single va))) v) \/ (N = 64 /\ is_double (fun r => same_float r (integral64 md (double va))) v)))) (
  on (convert_op o) (fun '(N, sg, W) => un ops (fun va => value (fun v =>
    (W = 32 /\ is_single (rounds_to_single (IZR (source_int N sg va)) (source_int N sg va <? 0)) v) \/ (W = 64 /\ is_double (rounds_to_double (IZR (source_int N sg va)) (source_int N sg va <? 0)) v)))) (
  on (trunc_op o) (fun '(W, N, sg, sat) => un ops (fun va r => r = option_map (fun z => num_val (int_type N) (wrapped (int_type N) z)) (truncated N sg sat (float_magnitude W va)))) (
  on (sign_op o) (fun '(N, f) => un ops (fun va => exactly (num_val (float_type N) (with_sign N (f (Z.testbit (low N va) (N - 1))) (low N va) + beyond N va)))) (
  on (lane_unop o) (fun '(N, f) => un ops (fun va => exactly (vec N (map f (vlanes N va))))) (
  on (lane_binop o) (fun '(N, f) => bin ops (fun va vb => exactly (vec N (map2 f (vlanes N va) (vlanes N vb))))) (
  on (lane_shift o) (fun '(N, f) => bin ops (fun va vb => exactly (vec N (map (fun a => f a (low 32 vb)) (vlanes N va))))) (
  on (lane_relop o) (fun '(N, f) => bin ops (fun va vb => exactly (vec N (map2 (fun a b => all_ones N (f a b)) (vlanes N va) (vlanes N vb))))) (
  on (splat_op o) (fun N => un ops (fun va => exactly (vec N (repeat (low N va) (Z.to_nat (128 / N)))))) (
  on (extract_op o) (fun '(N, t, f) => un ops (fun va => match args with [AInt k] => exactly (num_val t (f (nth_lane (vlanes N va) k))) | _ => fun _ => False end)) (
  on (replace_op o) (fun N => bin ops (fun va vb => match args with [AInt k] => exactly (vec N (put_lane k (low N vb) (vlanes N va))) | _ => fun _ => False end)) (
  on (extend_op o) (fun '(M, sg, high) => un ops (fun va => exactly (vec (2 * M) (map (fun a => unsgn (2 * M) (as_int M sg a)) (half high (vlanes M va)))))) (
  on (extmul_op o) (fun '(M, sg, high) => bin ops (fun va vb => exactly (vec (2 * M) (map2 (fun a b => unsgn (2 * M) (as_int M sg a * as_int M sg b)) (half high (vlanes M va)) (half high (vlanes M vb)))))) (
  on (pairwise_op o) (fun '(M, sg) => un ops (fun va => exactly (vec (2 * M) (map (unsgn (2 * M)) (pair_sums (map (as_int M sg) (vlanes M va))))))) (
  on (narrow_op o) (fun '(N, sg) => bin ops (fun va vb => exactly (vec N (map (fun a => sat N sg (sgn (2 * N) a)) (vlanes (2 * N) va ++ vlanes (2 * N) vb))))) (
  on (logic_op o) (fun f => bin ops (fun va vb => exactly (num_val T_v128 (f (low 128 va) (low 128 vb))))) (
  on (all_true_op o) (fun N => un ops (fun va => exactly (num_val T_i32 (truth (forallb (fun a => negb (a =? 0)) (vlanes N va)))))) (
  on (bitmask_op o) (fun N => un ops (fun va => exactly (num_val T_i32 (join 1 (map (fun a => a / 2 ^ (N - 1)) (vlanes N va)))))) (
  on (vec_binop32 o) (fun f => bin ops (fun va vb => value (has_lanes 32 (each2 (fun a b r => same_float (b32_of_bits r) (f (b32_of_bits a) (b32_of_bits b))) (vlanes 32 va) (vlanes 32 vb))))) (
  on (vec_binop64 o) (fun f => bin ops (fun va vb => value (has_lanes 64 (each2 (fun a b r => same_float (b64_of_bits r) (f (b64_of_bits a) (b64_of_bits b))) (vlanes 64 va) (vlanes 64 vb))))) (
  on (vec_relop o) (fun '(N, f) => bin ops (fun va vb => exactly (vec N (map2 (fun a b => all_ones N (f (lane_compare N a b))) (vlanes N va) (vlanes N vb))))) (
  on (vec_extremum o) (fun '(N, up) => bin ops (fun va vb => value (has_lanes N (each2 (lane_extremum N up) (vlanes N va) (vlanes N vb))))) (
  on (vec_pick o) (fun '(N, c) => bin ops (fun va vb => value (has_lanes N (each2 (fun a b r => r = pick_lane N c a b) (vlanes N va) (vlanes N vb))))) (
  on (vec_integral o) (fun '(N, md) => un ops (fun va => value (fun v =>
    (N = 32 /\ has_lanes 32 (each1 (fun a r => same_float (b32_of_bits r) (integral32 md (b32_of_bits a))) (vlanes 32 va)) v) \/
    (N = 64 /\ has_lanes 64 (each1 (fun a r => same_float (b64_of_bits r) (integral64 md (b64_of_bits a))) (vlanes 64 va)) v)))) (
  on (vec_sign o) (fun '(N, f) => un ops (fun va => value (has_lanes N (each1 (fun a r => r = with_sign N (f (Z.testbit a (N - 1))) a) (vlanes N va))))) (
  on (vec_trunc32 o) (fun sg => un ops (fun va => exactly (vec 32 (map (fun a => saturated sg (magnitude_of (b32_of_bits a))) (vlanes 32 va))))) (
  on (vec_trunc64 o) (fun sg => un ops (fun va => exactly (vec 32 (map (fun a => saturated sg (magnitude_of (b64_of_bits a))) (vlanes 64 va) ++ [0; 0])))) (
  on (vec_convert32 o) (fun sg => un ops (fun va => value (has_lanes 32 (each1 (fun a r => rounds_to_single (IZR (as_int 32 sg a)) (as_int 32 sg a <? 0) (b32_of_bits r)) (vlanes 32 va))))) (
  on (vec_convert64 o) (fun sg => un ops (fun va => value (has_lanes 64 (each1 (fun a r => rounds_to_double (IZR (as_int 32 sg a)) (as_int 32 sg a <? 0) (b64_of_bits r)) (half false (vlanes 32 va)))))) (
  fun _ => False))))))))))))))))))))))))))))))))))))))).
Definition prescribed (o : opc) (args : list arg) (ops : list val) : pred :=
  match special o args ops with Some p => p | None => table o args ops end.

Lemma num_map ks : num (map AInt ks) = ks.
Proof. induction ks as [|k ks IH]; [reflexivity|]. cbn. f_equal. exact IH. Qed.
Ltac by_table H o := destruct o; try discriminate H; injection H; clear H; intros; subst.
Lemma computes_prescribed o args ops r : computes o args ops r -> prescribed o args ops r.
Proof.
  intros H. destruct H; unfold stands in *; subst; try (reflexivity || (eexists; split; [reflexivity|eassumption])).
  all: match goal with
    | H : wasm_intcvt _ = _, H' : _ = None |- _ => by_table H o; try discriminate H'; reflexivity
    | H : wasm_unop _ = _ |- _ => destruct o; try discriminate H; cbn in H; injection H as <- <-; reflexivity
    | H : wasm_binop ?o = Some _, H' : _ = _ |- prescribed ?o _ _ _ => by_table H o; hnf; rewrite H'; reflexivity
    | H : trunc_op ?o = Some _, H' : _ = _ |- prescribed ?o _ _ _ => by_table H o; hnf; rewrite H'; reflexivity
    | H : _ ?o = Some _, H' : ?p _ |- prescribed ?o _ _ _ =>
        lazymatch p with is_single _ => idtac | is_double _ => idtac | has_lanes _ _ => idtac end;
        by_table H o; try discriminate; hnf; eexists; (split; [reflexivity|]); first [exact H'|left; split; [reflexivity|exact H']|right; split; [reflexivity|exact H']]
    | H : _ ?o = Some _ |- prescribed ?o _ _ _ => by_table H o; reflexivity
    | |- _ => idtac end.
  - hnf. now rewrite num_map.
  - hnf. exists t. now split.
Qed.
