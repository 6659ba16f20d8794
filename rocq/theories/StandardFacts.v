(* Every straight-line instruction of validated code does what the standard says, known deviations apart. *)
From Coq Require Import ZArith List Bool Lia ZifyBool ZifyNat Reals Classical_Prop.
From Flocq Require Import Core IEEE754.BinarySingleNaN IEEE754.Binary IEEE754.Bits.
From Verif Require Import Py Arith Floatops Val Opcode Numeric Syntax Store Basic Machine SpecInt SpecNum SpecMachine SpecMem SpecRun
  SpecType SpecIeee SpecSimd SpecVecFloat SpecControl SpecStandard Float PyFacts ValFacts NumFacts StepFacts MemFacts BulkFacts IeeeFacts.
From Verif Require PropNum PropMem PropFloat PropSimd PropVecFloat.
Import ListNotations.
Open Scope Z_scope.

(* ---- values ---- *)
Lemma width_128 t : 0 < width t <= 128.
Proof. destruct t; cbn; lia. Qed.
Lemma low_num N t z : 0 <= N <= 128 -> low N (num_val t z) = z mod 2 ^ N.
Proof.
  intros H. unfold low, num_val. cbn [v_data]. rewrite le_of_to_le. change (8 * Z.of_nat 16) with 128.
  symmetry. apply Znumtheory.Zmod_div_mod; [lia|lia|]. exists (2 ^ (128 - N)). rewrite <- Z.pow_add_r by lia. f_equal. lia.
Qed.
Lemma stands_num t z : stands t z (num_val t z).
Proof. reflexivity. Qed.
Lemma single_num (P : binary32 -> Prop) z : 0 <= z < 2 ^ 32 -> P (b32_of_bits z) -> is_single P (num_val T_f32 z).
Proof.
  intros Hz H. exists z. now repeat split.
Qed.
Lemma double_num (P : binary64 -> Prop) z : 0 <= z < 2 ^ 64 -> P (b64_of_bits z) -> is_double P (num_val T_f64 z).
Proof.
  intros Hz H. exists z. now repeat split.
Qed.
Lemma le_bytes v : val_wf v -> to_le 16 (le_of (v_data v)) = v_data v.
Proof. intros [Hl Hb]. rewrite <- Hl. apply to_le_le_of, Hb. Qed.
Lemma stands_kept t v : v_type v = t -> val_wf v -> stands t (le_of (v_data v)) v.
Proof. intros <- H. unfold stands, num_val. rewrite (le_bytes v H). now destruct v. Qed.

(* ---- a turn that does what the standard says ---- *)
Definition good (host : hostcode) (m : machine) (fr : frame) (o : opc) (args : list arg) : Prop :=
  (exists s' L' V', step ieee host m = (Ok tt, with_locals (with_store (moved_on m V') s') L') /\
     does (fr_module fr) o args (k_store m) (fr_locals fr) (k_value m) s' L' (Some V')) \/
  (exists e V', step ieee host m = (Err e, moved_on m V') /\
     does (fr_module fr) o args (k_store m) (fr_locals fr) (k_value m) (k_store m) (fr_locals fr) None).

Section turn.
Context (host : hostcode) (m : machine) (fr : frame) (o : opc) (args : list arg).
Hypothesis Hr : about_to_run m (IOp o args) fr.
Notation mr := (fr_module fr).
Notation s := (k_store m).
Notation L := (fr_locals fr).

Lemma same_state V : moved_on m V = with_locals (with_store (moved_on m V) s) L.
Proof.
  destruct Hr as [_ (fs & Ef)]. unfold with_locals, with_store, moved_on. cbn. rewrite Ef. destruct fr; reflexivity.
Qed.
Lemma same_locals V s' : with_store (moved_on m V) s' = with_locals (with_store (moved_on m V) s') L.
Proof.
  destruct Hr as [_ (fs & Ef)]. unfold with_locals, with_store, moved_on. cbn. rewrite Ef. destruct fr; reflexivity.
Qed.
Lemma good_ok V' : step ieee host m = (Ok tt, moved_on m V') -> does mr o args s L (k_value m) s L (Some V') -> good host m fr o args.
Proof. intros H D. left. exists s, L, V'. rewrite <- same_state. auto. Qed.
Lemma good_store V' s' : step ieee host m = (Ok tt, with_store (moved_on m V') s') -> does mr o args s L (k_value m) s' L (Some V') ->
  good host m fr o args.
Proof. intros H D. left. exists s', L, V'. rewrite <- same_locals. auto. Qed.
Lemma good_trap V' : (exists e, step ieee host m = (Err e, moved_on m V')) -> does mr o args s L (k_value m) s L None ->
  good host m fr o args.
Proof. intros [e H] D. right. eauto. Qed.
Lemma good_value ops V v : k_value m = ops ++ V -> step ieee host m = (Ok tt, moved_on m (v :: V)) -> computes o args ops (Some v) ->
  good host m fr o args.
Proof. intros E H C. apply (good_ok _ H). rewrite E. apply d_computes, C. Qed.
Lemma good_stuck ops V V' : k_value m = ops ++ V -> (exists e, step ieee host m = (Err e, moved_on m V')) -> computes o args ops None ->
  good host m fr o args.
Proof. intros E H C. apply (good_trap _ H). rewrite E. apply d_computes_trap, C. Qed.
Lemma good_single ops V P : k_value m = ops ++ V -> pushes_single (step ieee host m) (moved_on m) V P ->
  (forall v, is_single P v -> computes o args ops (Some v)) -> good host m fr o args.
Proof. intros E (z & Hz & H & HP) C. apply (good_value ops V _ E H), C, single_num; assumption. Qed.
Lemma good_double ops V P : k_value m = ops ++ V -> pushes_double (step ieee host m) (moved_on m) V P ->
  (forall v, is_double P v -> computes o args ops (Some v)) -> good host m fr o args.
Proof. intros E (z & Hz & H & HP) C. apply (good_value ops V _ E H), C, double_num; assumption. Qed.
Lemma good_lanes N ops V (P Q : list Z -> Prop) : k_value m = ops ++ V -> pushes_lanes N (step ieee host m) (moved_on m) V P ->
  (forall l, P l -> Q l) ->
  (forall v, has_lanes N Q v -> computes o args ops (Some v)) -> good host m fr o args.
Proof.
  intros E (l & H1 & H2 & H & HP) PQ C. apply (good_value ops V _ E H), C. exists l. do 2 (split; [assumption|]). split; [apply PQ, HP|reflexivity].
Qed.
End turn.

(* ---- the tables cover the instructions that only compute ---- *)
Inductive kind : opc -> nat -> Prop :=
| k_c32 : kind O_i32_const 0
| k_c64 : kind O_i64_const 0
| k_cf32 : kind O_f32_const 0
| k_cf64 : kind O_f64_const 0
| k_c128 : kind O_v128_const 0
| k_binop o N f : wasm_binop o = Some (N, f) -> kind o 2
| k_unop o N f : wasm_unop o = Some (N, f) -> kind o 1
| k_relop o N f : wasm_relop o = Some (N, f) -> kind o 2
| k_testop o N f : wasm_testop o = Some (N, f) -> kind o 1
| k_intcvt o N t f : wasm_intcvt o = Some (N, t, f) -> kind o 1
| k_fbin32 o f : ieee_binop32 o = Some f -> kind o 2
| k_fbin64 o f : ieee_binop64 o = Some f -> kind o 2
| k_sqrt32 : kind O_f32_sqrt 1
| k_sqrt64 : kind O_f64_sqrt 1
| k_frel o N f : float_relop o = Some (N, f) -> kind o 2
| k_ext o N up : extremum_op o = Some (N, up) -> kind o 2
| k_int o N md : integral_op o = Some (N, md) -> kind o 1
| k_conv o N sg S : convert_op o = Some (N, sg, S) -> kind o 1
| k_demote : kind O_f32_demote_f64 1
| k_promote : kind O_f64_promote_f32 1
| k_trunc o S N sg sat : trunc_op o = Some (S, N, sg, sat) -> kind o 1
| k_sign o N f : sign_op o = Some (N, f) -> kind o 1
| k_cs32 : kind O_f32_copysign 2
| k_cs64 : kind O_f64_copysign 2
| k_lun o N f : lane_unop o = Some (N, f) -> kind o 1
| k_lbin o N f : lane_binop o = Some (N, f) -> kind o 2
| k_lsh o N f : lane_shift o = Some (N, f) -> kind o 2
| k_lrel o N f : lane_relop o = Some (N, f) -> kind o 2
| k_splat o N : splat_op o = Some N -> kind o 1
| k_extract o N t f : extract_op o = Some (N, t, f) -> kind o 1
| k_replace o N : replace_op o = Some N -> kind o 2
| k_shuffle : kind O_i8x16_shuffle 2
| k_swizzle : kind O_i8x16_swizzle 2
| k_extend o M sg h : extend_op o = Some (M, sg, h) -> kind o 1
| k_extmul o M sg h : extmul_op o = Some (M, sg, h) -> kind o 2
| k_pair o M sg : pairwise_op o = Some (M, sg) -> kind o 1
| k_dot : kind O_i32x4_dot_i16x8_s 2
| k_narrow o N sg : narrow_op o = Some (N, sg) -> kind o 2
| k_logic o f : logic_op o = Some f -> kind o 2
| k_not : kind O_v128_not 1
| k_bitselect : kind O_v128_bitselect 3
| k_any : kind O_v128_any_true 1
| k_all o N : all_true_op o = Some N -> kind o 1
| k_bitmask o N : bitmask_op o = Some N -> kind o 1
| k_vb32 o f : vec_binop32 o = Some f -> kind o 2
| k_vb64 o f : vec_binop64 o = Some f -> kind o 2
| k_vs32 : kind O_f32x4_sqrt 1
| k_vs64 : kind O_f64x2_sqrt 1
| k_vrel o N f : vec_relop o = Some (N, f) -> kind o 2
| k_vext o N up : vec_extremum o = Some (N, up) -> kind o 2
| k_vpick o N c : vec_pick o = Some (N, c) -> kind o 2
| k_vint o N md : vec_integral o = Some (N, md) -> kind o 1
| k_vsign o N f : vec_sign o = Some (N, f) -> kind o 1
| k_vt32 o sg : vec_trunc32 o = Some sg -> kind o 1
| k_vt64 o sg : vec_trunc64 o = Some sg -> kind o 1
| k_vc32 o sg : vec_convert32 o = Some sg -> kind o 1
| k_vc64 o sg : vec_convert64 o = Some sg -> kind o 1
| k_vdemote : kind O_f32x4_demote_f64x2_zero 1
| k_vpromote : kind O_f64x2_promote_low_f32x4 1.

Lemma pure_kind o ins out : signature o = Some (ins, out) -> kind o (length ins).
Proof.
  destruct o; intros H; try discriminate H; injection H as <- <-; cbn [length]; solve [econstructor; exact eq_refl].
Qed.

(* ---- pieces of the individual cases ---- *)
Lemma each2_weaken (P Q : Z -> Z -> Z -> Prop) la lb l :
  (forall k, P (nth k la 0) (nth k lb 0) (nth k l 0) -> Q (nth k la 0) (nth k lb 0) (nth k l 0)) -> each2 P la lb l -> each2 Q la lb l.
Proof. intros H (H1 & H2 & H3). split; [exact H1|]. split; [exact H2|]. intros k Hk. apply H, H3, Hk. Qed.
Lemma each1_weaken (P Q : Z -> Z -> Prop) la l :
  (forall k, P (nth k la 0) (nth k l 0) -> Q (nth k la 0) (nth k l 0)) -> each1 P la l -> each1 Q la l.
Proof. intros H (H1 & H2). split; [exact H1|]. intros k Hk. apply H, H2, Hk. Qed.

Lemma retype_const t n v : v = mkval t (to_le 16 (n mod 2 ^ width t)) -> stands t (wrapped t n) v.
Proof.
  intros ->. reflexivity.
Qed.
Lemma stands_bytes b : bytes b -> length b = 16%nat -> stands T_v128 (le_of b) (mkval T_v128 b).
Proof.
  intros Hb Hl. apply (stands_kept T_v128 (mkval T_v128 b)); [reflexivity|now split].
Qed.

Lemma intcvt_any F o N t f : wasm_intcvt o = Some (N, t, f) ->
  exists g, num_op F o = Some (N1 g) /\ forall args va, val_wf va -> exists v, g args va = Ok v /\ computes o args [va] (Some v).
Proof.
  assert (R : forall t (va : val), val_wf va -> exists v, mk_val t (v_data va) = Ok v /\ stands t (le_of (v_data va)) v).
  { clear. intros t va [Hl Hb]. exists (mkval t (v_data va)). split; [apply mk_val_ok, Hl|]. exact (stands_kept t (mkval t (v_data va)) eq_refl (conj Hl Hb)). }
  destruct o; cbn [wasm_intcvt]; intros H; try discriminate H;
    injection H as <- <- <-; eexists; (split; [reflexivity|]).
  4-7: intros args va Hv; match goal with |- exists v, ?e = _ /\ computes ?o _ _ _ =>
    match eval cbv in (reinterpret_op o) with Some ?t => destruct (R t va Hv) as (w & E3 & E4); exists w; split; [exact E3|eapply c_reinterpret; [reflexivity|exact E4]] end end.
  all: intros args va Hv; eexists; (split; [|eapply c_intcvt; [reflexivity|reflexivity|apply stands_num]]); revert args va Hv; rd.
  - apply enc_i32.
    assert (E : sgn 64 (low 64 va) mod 2 ^ 32 = low 64 va mod 2 ^ 32).
    { rewrite <- (sgn_mod 64 (low 64 va)) at 2 by k32. apply Znumtheory.Zmod_div_mod; [lia|lia|exists (2 ^ 32); reflexivity]. }
    pose proof (fit_enc 4 (sgn 64 (low 64 va)) ltac:(lia)) as X. change (8 * 4) with 32 in X. rewrite E in X. exact X.
  - apply enc_i64. split; [apply (srange_weaken 32); [lia|apply sgn_range; k32]|reflexivity].
  - apply enc_i64. pose proof (low_range 32 va ltac:(lia)) as R''. unfold urange in R''. apply small_enc; lia.
Qed.

Lemma ops1 (va V W : list val) : length va = 1%nat -> V = va ++ W -> Forall val_wf va -> exists a, va = [a] /\ V = a :: W /\ val_wf a.
Proof. intros Hl -> H. destruct va as [|a [|]]; try discriminate Hl. inversion H; subst. eauto. Qed.
Lemma ops2 (va V W : list val) : length va = 2%nat -> V = va ++ W -> Forall val_wf va ->
  exists a b, va = [b; a] /\ V = b :: a :: W /\ val_wf a /\ val_wf b.
Proof.
  intros Hl -> H. destruct va as [|b [|a [|]]]; try discriminate Hl. inversion H as [|? ? ? H']; subst. inversion H'; subst.
  exists a, b. auto.
Qed.
Lemma ops3 (va V W : list val) : length va = 3%nat -> V = va ++ W -> Forall val_wf va ->
  exists a b c, va = [c; b; a] /\ V = c :: b :: a :: W /\ val_wf a /\ val_wf b /\ val_wf c.
Proof.
  intros Hl -> H. destruct va as [|c [|b [|a [|]]]]; try discriminate Hl. inversion H as [|? ? ? H']; subst.
  inversion H' as [|? ? ? H'']; subst. inversion H''; subst. exists a, b, c. auto 6.
Qed.
Lemma ops0 (va V W : list val) : length va = 0%nat -> V = va ++ W -> va = [] /\ V = W.
Proof. intros Hl ->. destruct va; [auto|discriminate Hl]. Qed.

Lemma convert_shape o N sg S : convert_op o = Some (N, sg, S) -> (N = 32 \/ N = 64) /\ (S = 32 \/ S = 64).
Proof. destruct o; intros H; try discriminate H; injection H as <- <- <-; auto. Qed.
Lemma extremum_shape o N up : extremum_op o = Some (N, up) -> N = 32 \/ N = 64.
Proof. destruct o; intros H; try discriminate H; injection H as <- <-; auto. Qed.
Lemma integral_shape o N md : integral_op o = Some (N, md) -> N = 32 \/ N = 64.
Proof. destruct o; intros H; try discriminate H; injection H as <- <-; auto. Qed.
Lemma vec_integral_shape o N md : vec_integral o = Some (N, md) -> N = 32 \/ N = 64.
Proof. destruct o; intros H; try discriminate H; injection H as <- <-; auto. Qed.
Lemma vec_pick_shape o N c : vec_pick o = Some (N, c) -> N = 32 \/ N = 64.
Proof. destruct o; intros H; try discriminate H; injection H as <- <-; auto. Qed.
Lemma vec_sign_shape o N c : vec_sign o = Some (N, c) -> N = 32 \/ N = 64.
Proof. destruct o; intros H; try discriminate H; injection H as <- <-; auto. Qed.
Lemma sign_shape o N c : sign_op o = Some (N, c) -> N = 32 \/ N = 64.
Proof. destruct o; intros H; try discriminate H; injection H as <- <-; auto. Qed.
Lemma trunc_shape o S N sg sat : trunc_op o = Some (S, N, sg, sat) -> N = 32 \/ N = 64.
Proof. destruct o; intros H; try discriminate H; injection H as <- <- <- <-; auto. Qed.
Lemma extract_imm o N t f args : extract_op o = Some (N, t, f) -> imm_ok o args -> exists k, args = [AInt k] /\ 0 <= k < 128 / N.
Proof. destruct o; intros H; try discriminate H; injection H as <- <- <-; exact (fun x => x). Qed.
Lemma replace_imm o N args : replace_op o = Some N -> imm_ok o args -> exists k, args = [AInt k] /\ 0 <= k < 128 / N.
Proof. destruct o; intros H; try discriminate H; injection H as <-; exact (fun x => x). Qed.

Lemma pure_good host m fr o args ins out va V :
  about_to_run m (IOp o args) fr -> signature o = Some (ins, out) -> imm_ok o args -> inst_ok (IOp o args) ->
  k_value m = va ++ V -> length va = length ins -> Forall val_wf va ->
  amiss (fr_module fr) (k_store m) o args (k_value m) \/ good host m fr o args.
Proof.
  intros Hr Hs Hi Hok Hv Hl Hw. pose proof (pure_kind o ins out Hs) as K. rewrite <- Hl in K. clear Hs Hl ins out.
  remember (length va) as n eqn:Hl. symmetry in Hl. pose proof Hv as Hv0.
  destruct K.
  (* constants *)
  - destruct Hi as (z & -> & Hz). destruct (ops0 _ _ _ Hl Hv) as [-> Hv']. right. eapply (good_value host m fr _ _ Hr [] V); [exact Hv0| |].
    + rewrite (step_num0 ieee host m _ _ _ _ Hr eq_refl). change (arg_int [AInt z] 0) with (Ok z). cbn [wr0 rbind].
      rewrite (from_i32_ok z Hz), Hv'. reflexivity.
    + apply c_i32_const, retype_const. reflexivity.
  - destruct Hi as (z & -> & Hz). destruct (ops0 _ _ _ Hl Hv) as [-> Hv']. right. eapply (good_value host m fr _ _ Hr [] V); [exact Hv0| |].
    + rewrite (step_num0 ieee host m _ _ _ _ Hr eq_refl). change (arg_int [AInt z] 0) with (Ok z). cbn [wr0 rbind].
      rewrite (from_i64_ok z Hz), Hv'. reflexivity.
    + apply c_i64_const, retype_const. reflexivity.
  - destruct Hi as (z & -> & Hz). destruct (ops0 _ _ _ Hl Hv) as [-> Hv']. right. eapply (good_value host m fr _ _ Hr [] V); [exact Hv0| |].
    + rewrite (step_num0 ieee host m _ _ _ _ Hr eq_refl). change (arg_int [AInt z] 0) with (Ok z). cbn [wr0 rbind].
      rewrite (from_i32_ok z Hz), Hv'. reflexivity.
    + apply c_f32_const, retype_const. reflexivity.
  - destruct Hi as (z & -> & Hz). destruct (ops0 _ _ _ Hl Hv) as [-> Hv']. right. eapply (good_value host m fr _ _ Hr [] V); [exact Hv0| |].
    + rewrite (step_num0 ieee host m _ _ _ _ Hr eq_refl). change (arg_int [AInt z] 0) with (Ok z). cbn [wr0 rbind].
      rewrite (from_i64_ok z Hz), Hv'. reflexivity.
    + apply c_f64_const, retype_const. reflexivity.
  - destruct Hi as (z & -> & Hz). destruct (ops0 _ _ _ Hl Hv) as [-> Hv']. right. assert (Hz' : length z = 16%nat) by (unfold len in Hz; lia).
    assert (Hby : bytes z) by (inversion Hok as [| | |? ? [Hby _]]; subst; exact (Hby z (or_introl eq_refl))).
    eapply (good_value host m fr _ _ Hr [] V); [exact Hv0| |].
    + rewrite (step_num0 ieee host m _ _ _ _ Hr eq_refl). change (arg_bytes [ABytes z] 0) with (Ok z). cbn [wr0 rbind].
      rewrite (from_v128_ok z Hz'), Hv'. reflexivity.
    + apply c_v128_const, stands_bytes; assumption.
  - destruct (ops2 _ _ _ Hl Hv Hw) as (a & b & -> & Hv' & Ha & Hb). destruct (classic (o = O_i64_div_u)) as [->|Ho].
    + injection H as <- <-. pose proof (PropNum.C15_i64_div_u_partial ieee host m args fr a b V Hr Hv' Ha Hb) as X.
      destruct (Z.eqb_spec (low 64 b) 0) as [E|E]; [|destruct (Z.ltb_spec (low 64 a / low 64 b) (2 ^ 63)) as [E'|E']].
      * right. eapply (good_stuck host m fr _ _ [b; a] V V); [exact Hv0|eauto|].
        eapply c_binop_trap; [reflexivity|]. unfold idiv_u. rewrite E. reflexivity.
      * right. eapply (good_value host m fr _ _ Hr [b; a] V); [exact Hv0|exact X|].
        eapply c_binop; [reflexivity| |apply (stands_num T_i64)]. unfold idiv_u. destruct (Z.eqb_spec (low 64 b) 0); [contradiction|reflexivity].
      * left. rewrite Hv'. apply am_div_u; assumption.
    + right. pose proof (PropNum.C14_binary_instructions ieee host m o args fr N f a b V Hr H Ho Hv' Ha Hb) as X.
      destruct (f (low N a) (low N b)) as [r|] eqn:E.
      * eapply (good_value host m fr _ _ Hr [b; a] V); [exact Hv0|exact X|]. eapply c_binop; [exact H|exact E|apply stands_num].
      * eapply (good_stuck host m fr _ _ [b; a] V V); [exact Hv0|exact X|]. eapply c_binop_trap; eassumption.
  - right. destruct (ops1 _ _ _ Hl Hv Hw) as (a & -> & Hv' & Ha). eapply (good_value host m fr _ _ Hr [a] V); [exact Hv0|eapply (PropNum.C14_unary_instructions ieee host m); eassumption|eapply c_unop; (eassumption || apply stands_num)].
  - right. destruct (ops2 _ _ _ Hl Hv Hw) as (a & b & -> & Hv' & Ha & Hb). eapply (good_value host m fr _ _ Hr [b; a] V); [exact Hv0|eapply (PropNum.C14_comparisons ieee host m); eassumption|eapply c_relop; (eassumption || apply stands_num)].
  - right. destruct (ops1 _ _ _ Hl Hv Hw) as (a & -> & Hv' & Ha). eapply (good_value host m fr _ _ Hr [a] V); [exact Hv0|eapply (PropNum.C14_tests ieee host m); eassumption|eapply c_testop; (eassumption || apply stands_num)].
  - right. destruct (ops1 _ _ _ Hl Hv Hw) as (a & -> & Hv' & Ha). destruct (intcvt_any ieee o N t f H) as (g & G1 & G2). destruct (G2 args a Ha) as (v & G3 & G4).
    eapply (good_value host m fr _ _ Hr [a] V); [exact Hv0| |exact G4].
    rewrite (step_num1 ieee host m _ _ _ _ _ _ Hr G1 Hv'), G3. reflexivity.
  - right. destruct (ops2 _ _ _ Hl Hv Hw) as (a & b & -> & Hv' & Ha & Hb). eapply (good_single host m fr _ _ Hr [b; a] V); [exact Hv0|eapply PropFloat.C48_f32_arithmetic; eassumption|].
    intros v. apply c_f32_binop, H.
  - right. destruct (ops2 _ _ _ Hl Hv Hw) as (a & b & -> & Hv' & Ha & Hb). eapply (good_double host m fr _ _ Hr [b; a] V); [exact Hv0|eapply PropFloat.C77_f64_arithmetic; eassumption|].
    intros v. apply c_f64_binop, H.
  - right. destruct (ops1 _ _ _ Hl Hv Hw) as (a & -> & Hv' & Ha). eapply (good_single host m fr _ _ Hr [a] V); [exact Hv0|eapply PropFloat.C48_f32_sqrt; eassumption|].
    intros v. apply c_f32_sqrt.
  - right. destruct (ops1 _ _ _ Hl Hv Hw) as (a & -> & Hv' & Ha). eapply (good_double host m fr _ _ Hr [a] V); [exact Hv0|eapply PropFloat.C77_f64_sqrt; eassumption|].
    intros v. apply c_f64_sqrt.
  - right. destruct (ops2 _ _ _ Hl Hv Hw) as (a & b & -> & Hv' & Ha & Hb). eapply (good_value host m fr _ _ Hr [b; a] V); [exact Hv0|eapply (PropFloat.C76_float_comparisons host m); eassumption|eapply c_float_relop; (eassumption || apply stands_num)].
  - destruct (ops2 _ _ _ Hl Hv Hw) as (a & b & -> & Hv' & Ha & Hb). pose proof (PropFloat.C50_min_max_partial host m o args fr N up a b V Hr H Hv' Ha Hb) as X.
    destruct (extremum_shape _ _ _ H) as [-> | ->]; [change (32 =? 32) with true in X|change (64 =? 32) with false in X]; cbv iota in X.
    + destruct (opposite_zeros (single a) (single b)) eqn:E.
      * left. rewrite Hv'. eapply am_extremum; [exact H|exact E].
      * right. eapply (good_single host m fr _ _ Hr [b; a] V); [exact Hv0|exact (X eq_refl)|]. intros v. apply c_f32_extremum, H.
    + destruct (opposite_zeros (double a) (double b)) eqn:E.
      * left. rewrite Hv'. eapply am_extremum; [exact H|exact E].
      * right. eapply (good_double host m fr _ _ Hr [b; a] V); [exact Hv0|exact (X eq_refl)|]. intros v. apply c_f64_extremum, H.
  - destruct (ops1 _ _ _ Hl Hv Hw) as (a & -> & Hv' & Ha). destruct (classic (negative_zero N md (low N a))) as [Z|Z]; [left; rewrite Hv'; eapply am_integral; eassumption|right].
    pose proof (PropFloat.C51_rounding_partial host m o args fr N md a V Hr H Hv' Ha) as X.
    destruct (integral_shape _ _ _ H) as [-> | ->]; [change (32 =? 32) with true in X|change (64 =? 32) with false in X]; cbv iota in X.
    + eapply (good_single host m fr _ _ Hr [a] V (fun r => same_float r (integral32 md (single a)))); [exact Hv0| |intros v; apply c_f32_integral, H].
      destruct X as (z & X1 & X2 & [X3|[_ X3]]); [exists z; auto|]. contradiction.
    + eapply (good_double host m fr _ _ Hr [a] V (fun r => same_float r (integral64 md (double a)))); [exact Hv0| |intros v; apply c_f64_integral, H].
      destruct X as (z & X1 & X2 & [X3|[_ X3]]); [exists z; auto|]. contradiction.
  - destruct (ops1 _ _ _ Hl Hv Hw) as (a & -> & Hv' & Ha). destruct (convert_shape _ _ _ _ H) as [HN [-> | ->]].
    + destruct HN as [-> | ->].
      * right. eapply (good_single host m fr _ _ Hr [a] V); [exact Hv0|eapply PropFloat.C49_convert_i32; eassumption|]. intros v. apply c_f32_convert, H.
      * destruct (classic (exists k j, source_int 64 sg a = k * 2 ^ j /\ 0 <= j /\ Z.abs k < 2 ^ 53)) as [E|E].
        -- right. eapply (good_single host m fr _ _ Hr [a] V); [exact Hv0|eapply PropFloat.C49_convert_i64_partial; eassumption|]. intros v. apply c_f32_convert, H.
        -- left. rewrite Hv'. eapply am_convert; eassumption.
    + right. eapply (good_double host m fr _ _ Hr [a] V); [exact Hv0|eapply PropFloat.C78_convert_to_f64; eassumption|]. intros v. apply c_f64_convert, H.
  - right. destruct (ops1 _ _ _ Hl Hv Hw) as (a & -> & Hv' & Ha). eapply (good_single host m fr _ _ Hr [a] V (demoted (double a))); [exact Hv0|destruct (PropFloat.C78_demote host m args fr a V Hr Hv' Ha) as (z & X1 & X2 & X3); exists z; do 2 (split; [assumption|]); unfold demoted; destruct (double a); exact X3|].
    intros v. apply c_demote.
  - right. destruct (ops1 _ _ _ Hl Hv Hw) as (a & -> & Hv' & Ha). eapply (good_double host m fr _ _ Hr [a] V (promoted (single a))); [exact Hv0|destruct (PropFloat.C78_promote host m args fr a V Hr Hv' Ha) as (z & X1 & X2 & X3); exists z; do 2 (split; [assumption|]); unfold promoted; destruct (single a); exact X3|].
    intros v. apply c_promote.
  - right. destruct (ops1 _ _ _ Hl Hv Hw) as (a & -> & Hv' & Ha). pose proof (PropFloat.C52_truncation host m o args fr S N sg sat a V Hr H Hv' Ha) as X.
    destruct (truncated N sg sat (float_magnitude S a)) as [z|] eqn:E.
    + eapply (good_value host m fr _ _ Hr [a] V); [exact Hv0|exact X|]. eapply c_trunc; [exact H|exact E|].
      apply retype_const. destruct (trunc_shape _ _ _ _ _ H) as [-> | ->]; reflexivity.
    + eapply (good_stuck host m fr _ _ [a] V V); [exact Hv0|exact X|]. eapply c_trunc_trap; eassumption.
  - right. destruct (ops1 _ _ _ Hl Hv Hw) as (a & -> & Hv' & Ha). destruct (PropFloat.C53_sign_bit host m o args fr N f a V Hr H Hv' Ha) as (v & X1 & X2 & X3 & X4 & X5).
    eapply (good_value host m fr _ _ Hr [a] V); [exact Hv0|exact X1|]. eapply c_sign; [exact H|].
    assert (0 < 2 ^ N) by (destruct (sign_shape _ _ _ H) as [-> | ->]; lia).
    replace (with_sign _ _ _ + beyond N a) with (le_of (v_data v)); [apply stands_kept; assumption|].
    rewrite <- X4. unfold beyond, low. rewrite <- X5, Z.add_comm. apply Z.div_mod. lia.
  - destruct (ops2 _ _ _ Hl Hv Hw) as (a & b & -> & Hv' & Ha & Hb). destruct (is_nan 24 128 (single a)) eqn:E; [left; rewrite Hv'; apply am_copysign, E|right].
    eapply (good_value host m fr _ _ Hr [b; a] V); [exact Hv0|eapply PropFloat.C79_f32_copysign_partial; eassumption|apply c_f32_copysign, stands_num].
  - right. destruct (ops2 _ _ _ Hl Hv Hw) as (a & b & -> & Hv' & Ha & Hb). eapply (good_value host m fr _ _ Hr [b; a] V); [exact Hv0|eapply PropFloat.C79_f64_copysign; eassumption|apply c_f64_copysign, stands_num].
  - right. destruct (ops1 _ _ _ Hl Hv Hw) as (a & -> & Hv' & Ha). eapply (good_value host m fr _ _ Hr [a] V); [exact Hv0|eapply (PropSimd.C54_lane_unary ieee host m); eassumption|eapply c_lane_unop; eassumption].
  - right. destruct (ops2 _ _ _ Hl Hv Hw) as (a & b & -> & Hv' & Ha & Hb). eapply (good_value host m fr _ _ Hr [b; a] V); [exact Hv0|eapply (PropSimd.C54_lane_binary ieee host m); eassumption|eapply c_lane_binop; eassumption].
  - right. destruct (ops2 _ _ _ Hl Hv Hw) as (a & b & -> & Hv' & Ha & Hb). eapply (good_value host m fr _ _ Hr [b; a] V); [exact Hv0|eapply (PropSimd.C54_lane_shifts ieee host m); eassumption|eapply c_lane_shift; eassumption].
  - right. destruct (ops2 _ _ _ Hl Hv Hw) as (a & b & -> & Hv' & Ha & Hb). eapply (good_value host m fr _ _ Hr [b; a] V); [exact Hv0|eapply (PropSimd.C55_lane_comparisons ieee host m); eassumption|eapply c_lane_relop; eassumption].
  - right. destruct (ops1 _ _ _ Hl Hv Hw) as (a & -> & Hv' & Ha). eapply (good_value host m fr _ _ Hr [a] V); [exact Hv0|eapply (PropSimd.C56_splat ieee host m); eassumption|eapply c_splat; eassumption].
  - right. destruct (ops1 _ _ _ Hl Hv Hw) as (a & -> & Hv' & Ha). destruct (extract_imm _ _ _ _ _ H Hi) as (k & -> & Hk).
    eapply (good_value host m fr _ _ Hr [a] V); [exact Hv0|eapply (PropSimd.C56_extract_lane ieee host m); eassumption|eapply c_extract; (eassumption || apply stands_num)].
  - right. destruct (ops2 _ _ _ Hl Hv Hw) as (a & b & -> & Hv' & Ha & Hb). destruct (replace_imm _ _ _ H Hi) as (k & -> & Hk).
    eapply (good_value host m fr _ _ Hr [b; a] V); [exact Hv0|eapply (PropSimd.C56_replace_lane ieee host m); eassumption|eapply c_replace; eassumption].
  - right. destruct (ops2 _ _ _ Hl Hv Hw) as (a & b & -> & Hv' & Ha & Hb). destruct Hi as (ks & -> & Hk1 & Hk2).
    eapply (good_value host m fr _ _ Hr [b; a] V); [exact Hv0|eapply (PropSimd.C56_shuffle ieee host m); eassumption|apply c_shuffle].
  - right. destruct (ops2 _ _ _ Hl Hv Hw) as (a & b & -> & Hv' & Ha & Hb). eapply (good_value host m fr _ _ Hr [b; a] V); [exact Hv0|eapply (PropSimd.C56_swizzle ieee host m); eassumption|eapply c_swizzle; eassumption].
  - right. destruct (ops1 _ _ _ Hl Hv Hw) as (a & -> & Hv' & Ha). eapply (good_value host m fr _ _ Hr [a] V); [exact Hv0|eapply (PropSimd.C57_extend ieee host m); eassumption|eapply c_extend; eassumption].
  - right. destruct (ops2 _ _ _ Hl Hv Hw) as (a & b & -> & Hv' & Ha & Hb). eapply (good_value host m fr _ _ Hr [b; a] V); [exact Hv0|eapply (PropSimd.C57_extmul ieee host m); eassumption|eapply c_extmul; eassumption].
  - right. destruct (ops1 _ _ _ Hl Hv Hw) as (a & -> & Hv' & Ha). eapply (good_value host m fr _ _ Hr [a] V); [exact Hv0|eapply (PropSimd.C57_extadd_pairwise ieee host m); eassumption|eapply c_pairwise; eassumption].
  - right. destruct (ops2 _ _ _ Hl Hv Hw) as (a & b & -> & Hv' & Ha & Hb). eapply (good_value host m fr _ _ Hr [b; a] V); [exact Hv0|eapply (PropSimd.C57_dot_product ieee host m); eassumption|eapply c_dot; eassumption].
  - right. destruct (ops2 _ _ _ Hl Hv Hw) as (a & b & -> & Hv' & Ha & Hb). eapply (good_value host m fr _ _ Hr [b; a] V); [exact Hv0|eapply (PropSimd.C57_narrow ieee host m); eassumption|eapply c_narrow; eassumption].
  - right. destruct (ops2 _ _ _ Hl Hv Hw) as (a & b & -> & Hv' & Ha & Hb). eapply (good_value host m fr _ _ Hr [b; a] V); [exact Hv0|eapply (PropSimd.C58_logic ieee host m); eassumption|eapply c_logic; (eassumption || apply stands_num)].
  - right. destruct (ops1 _ _ _ Hl Hv Hw) as (a & -> & Hv' & Ha). eapply (good_value host m fr _ _ Hr [a] V); [exact Hv0|eapply (PropSimd.C58_not ieee host m); eassumption|eapply c_not; (eassumption || apply stands_num)].
  - right. destruct (ops3 _ _ _ Hl Hv Hw) as (a & b & c & -> & Hv' & Ha & Hb & Hc). eapply (good_value host m fr _ _ Hr [c; b; a] V); [exact Hv0|eapply (PropSimd.C58_bitselect ieee host m); eassumption|apply c_bitselect, stands_num].
  - right. destruct (ops1 _ _ _ Hl Hv Hw) as (a & -> & Hv' & Ha). eapply (good_value host m fr _ _ Hr [a] V); [exact Hv0|eapply (PropSimd.C58_any_true ieee host m); eassumption|eapply c_any_true; (eassumption || apply stands_num)].
  - right. destruct (ops1 _ _ _ Hl Hv Hw) as (a & -> & Hv' & Ha). eapply (good_value host m fr _ _ Hr [a] V); [exact Hv0|eapply (PropSimd.C58_all_true ieee host m); eassumption|eapply c_all_true; (eassumption || apply stands_num)].
  - right. destruct (ops1 _ _ _ Hl Hv Hw) as (a & -> & Hv' & Ha). eapply (good_value host m fr _ _ Hr [a] V); [exact Hv0|eapply (PropSimd.C58_bitmask ieee host m); eassumption|eapply c_bitmask; (eassumption || apply stands_num)].
  - right. destruct (ops2 _ _ _ Hl Hv Hw) as (a & b & -> & Hv' & Ha & Hb). eapply (good_lanes host m fr _ _ Hr 32 [b; a] V); [exact Hv0|eapply PropVecFloat.C80_f32x4_arithmetic; eassumption|intros l Hl'; exact Hl'|].
    intros v. apply c_f32x4_binop, H.
  - right. destruct (ops2 _ _ _ Hl Hv Hw) as (a & b & -> & Hv' & Ha & Hb). eapply (good_lanes host m fr _ _ Hr 64 [b; a] V); [exact Hv0|eapply PropVecFloat.C80_f64x2_arithmetic; eassumption|intros l Hl'; exact Hl'|].
    intros v. apply c_f64x2_binop, H.
  - right. destruct (ops1 _ _ _ Hl Hv Hw) as (a & -> & Hv' & Ha). eapply (good_lanes host m fr _ _ Hr 32 [a] V); [exact Hv0|eapply PropVecFloat.C80_f32x4_sqrt; eassumption|intros l Hl'; exact Hl'|].
    intros v. apply c_f32x4_sqrt.
  - right. destruct (ops1 _ _ _ Hl Hv Hw) as (a & -> & Hv' & Ha). eapply (good_lanes host m fr _ _ Hr 64 [a] V); [exact Hv0|eapply PropVecFloat.C80_f64x2_sqrt; eassumption|intros l Hl'; exact Hl'|].
    intros v. apply c_f64x2_sqrt.
  - right. destruct (ops2 _ _ _ Hl Hv Hw) as (a & b & -> & Hv' & Ha & Hb). eapply (good_value host m fr _ _ Hr [b; a] V); [exact Hv0|eapply (PropVecFloat.C81_vector_comparisons host m); eassumption|eapply c_vec_relop; eassumption].
  - destruct (ops2 _ _ _ Hl Hv Hw) as (a & b & -> & Hv' & Ha & Hb). destruct (classic (exists k, lane_opposite N (nth k (vlanes N a) 0) (nth k (vlanes N b) 0) = true)) as [[k E]|E];
      [left; rewrite Hv'; eapply am_vec_extremum; eassumption|right].
    eapply (good_lanes host m fr _ _ Hr N [b; a] V); [exact Hv0|eapply PropVecFloat.C82_min_max_partial; eassumption| |intros v; apply c_vec_extremum, H].
    intros l. apply each2_weaken. intros k X. apply X. destruct (lane_opposite _ _ _) eqn:Y; [|reflexivity]. exfalso. eauto.
  - destruct (ops2 _ _ _ Hl Hv Hw) as (a & b & -> & Hv' & Ha & Hb). destruct (vec_pick_shape _ _ _ H) as [-> | ->].
    + destruct (classic (exists k, lane_nan 32 (pick_lane 32 c (nth k (vlanes 32 a) 0) (nth k (vlanes 32 b) 0)) = true)) as [[k E]|E];
        [left; rewrite Hv'; eapply am_vec_pick; eassumption|right].
      eapply (good_lanes host m fr _ _ Hr 32 [b; a] V); [exact Hv0|eapply PropVecFloat.C82_pick_partial; eassumption| |intros v; apply c_vec_pick, H].
      intros l. apply each2_weaken. intros k X. cbv beta in X. destruct (lane_nan 32 (pick_lane 32 c _ _)) eqn:Y in X; [exfalso; eauto|exact X].
    + right. eapply (good_lanes host m fr _ _ Hr 64 [b; a] V); [exact Hv0|eapply PropVecFloat.C82_pick_partial; eassumption| |intros v; apply c_vec_pick, H].
      intros l. apply each2_weaken. intros k X. exact X.
  - destruct (ops1 _ _ _ Hl Hv Hw) as (a & -> & Hv' & Ha). destruct (classic (exists k, negative_zero N md (nth k (vlanes N a) 0))) as [[k E]|E];
      [left; rewrite Hv'; eapply am_vec_integral; eassumption|right].
    pose proof (PropVecFloat.C83_rounding_partial host m o args fr N md a V Hr H Hv' Ha) as X.
    destruct (vec_integral_shape _ _ _ H) as [-> | ->];
      (eapply (good_lanes host m fr _ _ Hr _ [a] V); [exact Hv0|exact X| |intros v; first [apply c_f32x4_integral, H | apply c_f64x2_integral, H]]);
      intros l; apply each1_weaken; intros k [Y|[_ Y]]; try exact Y; exfalso; apply E; exists k; exact Y.
  - destruct (ops1 _ _ _ Hl Hv Hw) as (a & -> & Hv' & Ha). destruct (vec_sign_shape _ _ _ H) as [-> | ->].
    + destruct (classic (exists k, lane_nan 32 (nth k (vlanes 32 a) 0) = true)) as [[k E]|E];
        [left; rewrite Hv'; eapply am_vec_sign; eassumption|right].
      eapply (good_lanes host m fr _ _ Hr 32 [a] V); [exact Hv0|eapply PropVecFloat.C84_sign_bit_partial; eassumption| |intros v; apply c_vec_sign, H].
      intros l. apply each1_weaken. intros k X. cbv beta in X. destruct (lane_nan 32 (nth k (vlanes 32 a) 0)) eqn:Y in X; [exfalso; eauto|exact X].
    + right. eapply (good_lanes host m fr _ _ Hr 64 [a] V); [exact Hv0|eapply PropVecFloat.C84_sign_bit_partial; eassumption| |intros v; apply c_vec_sign, H].
      intros l. apply each1_weaken. intros k X. exact X.
  - right. destruct (ops1 _ _ _ Hl Hv Hw) as (a & -> & Hv' & Ha). eapply (good_value host m fr _ _ Hr [a] V); [exact Hv0|eapply (PropVecFloat.C85_trunc_sat_f32x4 host m); eassumption|eapply c_vec_trunc32; eassumption].
  - right. destruct (ops1 _ _ _ Hl Hv Hw) as (a & -> & Hv' & Ha). eapply (good_value host m fr _ _ Hr [a] V); [exact Hv0|eapply (PropVecFloat.C85_trunc_sat_f64x2 host m); eassumption|eapply c_vec_trunc64; eassumption].
  - right. destruct (ops1 _ _ _ Hl Hv Hw) as (a & -> & Hv' & Ha). eapply (good_lanes host m fr _ _ Hr 32 [a] V); [exact Hv0|eapply PropVecFloat.C85_convert_f32x4; eassumption|intros l Hl'; exact Hl'|].
    intros v. apply c_vec_convert32, H.
  - right. destruct (ops1 _ _ _ Hl Hv Hw) as (a & -> & Hv' & Ha). eapply (good_lanes host m fr _ _ Hr 64 [a] V); [exact Hv0|eapply PropVecFloat.C85_convert_f64x2; eassumption|intros l Hl'; exact Hl'|].
    intros v. apply c_vec_convert64, H.
  - right. destruct (ops1 _ _ _ Hl Hv Hw) as (a & -> & Hv' & Ha). eapply (good_lanes host m fr _ _ Hr 32 [a] V); [exact Hv0|eapply PropVecFloat.C85_demote; eassumption|intros l Hl'; exact Hl'|].
    intros v. apply c_vec_demote.
  - right. destruct (ops1 _ _ _ Hl Hv Hw) as (a & -> & Hv' & Ha). eapply (good_lanes host m fr _ _ Hr 64 [a] V); [exact Hv0|eapply PropVecFloat.C85_promote; eassumption|intros l Hl'; exact Hl'|].
    intros v. apply c_vec_promote.
Qed.

(* ---- memory accesses ---- *)
Lemma mem_kind o ins outs : mem_signature o = Some (ins, outs) ->
  (exists n t f, wasm_load o = Some (n, t, f) /\ length ins = 1%nat) \/ (exists n, wasm_store o = Some n /\ length ins = 2%nat) \/
  (exists n, wasm_load_lane o = Some n /\ length ins = 2%nat) \/ (exists n, wasm_store_lane o = Some n /\ length ins = 2%nat).
Proof.
  destruct o; intros H; try discriminate H; injection H as <- <-;
    first [left; do 3 eexists; split; exact eq_refl | right; left; eexists; split; exact eq_refl
          | right; right; left; eexists; split; exact eq_refl | right; right; right; eexists; split; exact eq_refl].
Qed.
Lemma lane_fits o w k : lane_width o = Some w -> 0 <= k < 16 / w -> w * k + w <= 16.
Proof.
  intros H Hk. assert (w = 1 \/ w = 2 \/ w = 4 \/ w = 8).
  { destruct o; try discriminate H; injection H as <-; auto. }
  destruct H0 as [-> | [-> | [-> | ->]]]; cbn in Hk; lia.
Qed.

Lemma mem_good host m fr o args ins outs va V a x :
  about_to_run m (IOp o args) fr -> mem_signature o = Some (ins, outs) -> mem_imm o args ->
  k_value m = va ++ V -> length va = length ins -> Forall val_wf va ->
  the_memory m fr a x -> bytes (mi_data x) -> good host m fr o args.
Proof.
  intros Hr Hs [Hi Hk] Hv Hl Hw Hm Hb.
  destruct (mem_kind o ins outs Hs) as [(n & t & f & Ho & El)|[(n & Ho & El)|[(n & Ho & El)|(n & Ho & El)]]]; rewrite El in Hl.
  - destruct (ops1 _ _ _ Hl Hv Hw) as (i & -> & Hv' & Hwi).
    destruct (Hi n) as (al & off & -> & _ & _ & Hoff); [unfold access_width; rewrite Ho; reflexivity|].
    pose proof (PropMem.C17_load ieee host m o _ fr off n t f a x i V Hr Ho eq_refl (proj1 Hoff) Hm Hb Hv' Hwi) as X. cbv zeta in X.
    destruct (Z.leb_spec (low 32 i + off + n) (len (mi_data x))) as [E|E].
    + apply (good_ok host m fr _ _ Hr _ X). rewrite Hv'. eapply d_load; [exact Ho|exact Hm|exact E|apply stands_num].
    + apply (good_trap host m fr _ _ _ X). rewrite Hv'. eapply d_load_trap; eassumption.
  - destruct (ops2 _ _ _ Hl Hv Hw) as (i & v & -> & Hv' & Hwi & Hwv).
    destruct (Hi n) as (al & off & -> & _ & _ & Hoff).
    { unfold access_width. destruct o; try discriminate Ho; exact Ho. }
    pose proof (PropMem.C18_store ieee host m o _ fr off n a x v i V Hr Ho eq_refl (proj1 Hoff) Hm Hv' Hwv Hwi) as X. cbv zeta in X.
    destruct (Z.leb_spec (low 32 i + off + n) (len (mi_data x))) as [E|E].
    + destruct X as (d' & X1 & X2). apply (good_store host m fr _ _ Hr _ _ X2). rewrite Hv'. eapply d_store; eassumption.
    + apply (good_trap host m fr _ _ _ X). rewrite Hv'. eapply d_store_trap; eassumption.
  - destruct (ops2 _ _ _ Hl Hv Hw) as (i & v & -> & Hv' & Hwi & Hwv).
    assert (El' : lane_width o = Some n) by (unfold lane_width; rewrite Ho; reflexivity).
    destruct (Hk n El') as (al & off & k & -> & _ & _ & Hoff & Hkk). pose proof (lane_fits _ _ _ El' Hkk) as Hf.
    pose proof (PropMem.C17_load_lane ieee host m o _ fr off k n a x v i V Hr Ho eq_refl eq_refl (proj1 Hoff) (proj1 Hkk) Hf Hm Hb Hv' Hwv Hwi) as X.
    cbv zeta in X. destruct (Z.leb_spec (low 32 i + off + n) (len (mi_data x))) as [E|E].
    + apply (good_ok host m fr _ _ Hr _ X). rewrite Hv'. eapply d_load_lane; [exact Ho|exact Hm|exact E|apply stands_num].
    + apply (good_trap host m fr _ _ _ X). rewrite Hv'. eapply d_load_lane_trap; eassumption.
  - destruct (ops2 _ _ _ Hl Hv Hw) as (i & v & -> & Hv' & Hwi & Hwv).
    assert (El' : lane_width o = Some n) by (unfold lane_width; destruct o; try discriminate Ho; exact Ho).
    destruct (Hk n El') as (al & off & k & -> & _ & _ & Hoff & Hkk). pose proof (lane_fits _ _ _ El' Hkk) as Hf.
    pose proof (PropMem.C18_store_lane ieee host m o _ fr off k n a x v i V Hr Ho eq_refl eq_refl (proj1 Hoff) (proj1 Hkk) Hf Hm Hv' Hwv Hwi) as X.
    cbv zeta in X. destruct (Z.leb_spec (low 32 i + off + n) (len (mi_data x))) as [E|E].
    + destruct X as (d' & X1 & X2). apply (good_store host m fr _ _ Hr _ _ X2). rewrite Hv'. eapply d_store_lane; eassumption.
    + apply (good_trap host m fr _ _ _ X). rewrite Hv'. eapply d_store_lane_trap; eassumption.
Qed.

(* ---- data segments ---- *)
Lemma get_blob_nth s l V b : get_blob b (mkb s l V) = (Ok (nth b (s_blob s) []), mkb s l V).
Proof. reflexivity. Qed.
Lemma init_any F host m args fr j a mem da b vn vs vd V :
  about_to_run m (IOp O_memory_init args) fr -> nth_error args 0 = Some (AInt (Z.of_nat j)) ->
  the_memory m fr a mem -> nth_error (m_data (mod_of (k_store m) (fr_module fr))) j = Some (Z.of_nat da) ->
  nth_error (s_data (k_store m)) da = Some b ->
  k_value m = vn :: vs :: vd :: V -> val_wf vn -> val_wf vs -> val_wf vd ->
  let d := nth b (s_blob (k_store m)) [] in
  if (low 32 vs + low 32 vn <=? len d) && (low 32 vd + low 32 vn <=? len (mi_data mem))
  then exists d', overwritten (mi_data mem) d' (low 32 vd) (range_of d (low 32 vs) (low 32 vn)) /\
       step F host m = (Ok tt, with_store (moved_on m V) (with_mem (k_store m) a (mkmem (mi_type mem) d' (mi_size mem))))
  else exists e, step F host m = (Err e, moved_on m V).
Proof.
  intros Hr Ho [Hm Ha] Hda Hb Hv Hwn Hws Hwd d.
  pose proof (low_nonneg 32 vn ltac:(lia)). pose proof (low_nonneg 32 vs ltac:(lia)). pose proof (low_nonneg 32 vd ltac:(lia)).
  destruct (Z.leb_spec (low 32 vs + low 32 vn) (len d)) as [H2|H2];
    [destruct (Z.leb_spec (low 32 vd + low 32 vn) (len (mi_data mem))) as [H3|H3]|]; cbn [andb].
  1: { eexists. split; [apply over_range; assumption|].
    apply (misc_store F host m _ args fr _ _ _ Hr); try reflexivity. rewrite Hv. unfold exec_misc.
    erewrite bind_ok by exact (mod_addr_run _ _ _ _ m_mems 0 _ Hm).
    erewrite bind_ok by (apply get_mem_run, Ha).
    erewrite bind_ok by exact (arg_run _ _ _ args 0 _ Ho).
    erewrite bind_ok by (apply mod_addr_run, Hda).
    erewrite bind_ok by (apply get_data_run, Hb). erewrite bind_ok by apply get_blob_nth.
    erewrite bind_ok by (apply pop_u32_run, Hwn). erewrite bind_ok by (apply pop_u32_run, Hws).
    erewrite bind_ok by (apply pop_u32_run, Hwd). erewrite bind_ok by (apply assert_true; subst d; lia).
    erewrite bind_ok by (apply assert_true; lia). exact (put_mem_run _ _ _ a mem _ Ha). }
  all: exists EAssert; apply (misc_pure F host m _ args fr _ _ Hr); try reflexivity; rewrite Hv; unfold exec_misc.
  all: erewrite bind_ok by exact (mod_addr_run _ _ _ _ m_mems 0 _ Hm).
  all: erewrite bind_ok by (apply get_mem_run, Ha).
  all: erewrite bind_ok by exact (arg_run _ _ _ args 0 _ Ho).
  all: erewrite bind_ok by (apply mod_addr_run, Hda).
  all: erewrite bind_ok by (apply get_data_run, Hb); erewrite bind_ok by apply get_blob_nth.
  all: erewrite bind_ok by (apply pop_u32_run, Hwn); erewrite bind_ok by (apply pop_u32_run, Hws).
  all: erewrite bind_ok by (apply pop_u32_run, Hwd).
  - erewrite bind_ok by (apply assert_true; subst d; lia). erewrite bind_err by (apply assert_false; lia). reflexivity.
  - erewrite bind_err by (apply assert_false; subst d; lia). reflexivity.
Qed.
Lemma drop_any F host m args fr j da b :
  about_to_run m (IOp O_data_drop args) fr -> nth_error args 0 = Some (AInt (Z.of_nat j)) ->
  nth_error (m_data (mod_of (k_store m) (fr_module fr))) j = Some (Z.of_nat da) -> nth_error (s_data (k_store m)) da = Some b ->
  step F host m = (Ok tt, with_store (moved_on m (k_value m)) (set_s_blob (k_store m) (upd (s_blob (k_store m)) b []))).
Proof.
  intros Hr Ho Hda Hb. apply (misc_store F host m _ args fr _ _ _ Hr); try reflexivity. unfold exec_misc.
  erewrite bind_ok by exact (arg_run _ _ _ args 0 _ Ho).
  erewrite bind_ok by (apply mod_addr_run, Hda).
  erewrite bind_ok by (apply get_data_run, Hb). reflexivity.
Qed.
Lemma nth_upd_nil (D : list (list Z)) b c : nth c (upd D b []) [] = if Nat.eqb c b then [] else nth c D [].
Proof.
  pose proof (nth_error_upd D b [] c) as E. destruct (Nat.eqb_spec c b) as [H|H].
  - destruct (nth_error (upd D b []) c) as [x|] eqn:X.
    + rewrite (nth_error_nth _ _ _ X). destruct (Nat.ltb_spec b (length D)); congruence.
    + apply nth_overflow, nth_error_None, X.
  - destruct (nth_error D c) as [x|] eqn:X.
    + rewrite (nth_error_nth _ _ _ E), (nth_error_nth _ _ _ X). reflexivity.
    + rewrite !nth_overflow; [reflexivity|apply nth_error_None, X|apply nth_error_None, E].
Qed.

(* ---- all of them ---- *)
Lemma null_bit r : val_wf r -> exists x, py_index (v_data r) 4 = Ok x /\ (x =? 0) = null r.
Proof.
  intros Hr. destruct Hr as [Hl Hb]. exists (nth 4 (v_data r) 0). split.
  - apply (py_index_nth (v_data r) 4). apply nth_error_nth'. lia.
  - unfold null, low. f_equal.
    rewrite <- (to_le_le_of (v_data r) Hb) at 1. rewrite Hl, nth_to_le by lia. change (8 * Z.of_nat 4) with 32.
    change 256 with (2 ^ 8). change (2 ^ 40) with (2 ^ 32 * 2 ^ 8). generalize (le_of (v_data r)). intros z.
    rewrite Z.rem_mul_r by lia. rewrite (Z.mul_comm (2 ^ 32) ((z / 2 ^ 32) mod 2 ^ 8)), Z.div_add by lia.
    rewrite (Z.div_small (z mod 2 ^ 32)) by (apply Z.mod_pos_bound; lia). lia.
Qed.
Lemma len_le_nth {A} (l : list A) i : 0 <= i -> nth_error l (Z.to_nat i) = None -> len l <= i.
Proof. intros Hi H. apply nth_error_None in H. unfold len. lia. Qed.

Section all.
Context {sg : nat -> functype}.
Lemma all_good host m fr C o args A B va V :
  typed_inst C (IOp o args) A B -> is_control o = false -> inst_ok (IOp o args) -> about_to_run m (IOp o args) fr ->
  k_value m = va ++ V -> has_types va A -> Forall val_wf va ->
  store_ok (k_store m) -> store_typed sg (k_store m) -> instance_typed (k_store m) (mod_of (k_store m) (fr_module fr)) C ->
  has_types (fr_locals fr) (c_locals C) ->
  amiss (fr_module fr) (k_store m) o args (k_value m) \/ good host m fr o args.
Proof.
  intros Ht Hc Hok Hr Hv Hty Hw Hso Hst Hin Hlo.
  assert (Hl : length va = length A) by (unfold has_types in Hty; subst A; symmetry; apply map_length).
  pose proof Hv as Hv0. set (s := k_store m) in *. set (mr := fr_module fr) in *.
  assert (Mem : (0 < c_mems C)%nat -> exists a x, the_memory m fr a x /\ mem_wf x).
  { intros H. destruct (it_mems _ _ _ Hin 0%nat H) as (a & x & H1 & H2). exists a, x. split; [split; assumption|].
    pose proof (so_mems _ Hso) as X. rewrite Forall_forall in X. apply X. eapply nth_error_In, H2. }
  assert (Tab : forall i t, nth_error (c_tabls C) i = Some t -> exists a x, the_table m fr i a x /\ tt_type (ti_type x) = t /\
    len (ti_elem x) = ti_size x /\ 0 <= ti_size x < 2 ^ 31).
  { intros i t H. destruct (it_tabl _ _ _ Hin i t H) as (a & x & H1 & H2 & H3). exists a, x. split; [split; assumption|]. split; [exact H3|].
    pose proof (so_tabl _ Hso) as X. rewrite Forall_forall in X. destruct (X x (nth_error_In _ _ H2)) as [[X1 _] _].
    pose proof (st_tabl _ Hst) as Y. rewrite Forall_forall in Y. destruct (Y x (nth_error_In _ _ H2)) as [Y1 _].
    pose proof (len_nonneg (ti_elem x)). split; [exact X1|]. lia. }
  inversion Ht; subst; try discriminate Hc.
  - (* pure *) eapply pure_good; try eassumption. rewrite Hl. apply rev_length.
  - (* memory *) right. destruct (Mem ltac:(assumption)) as (a & x & Hm & Hx). eapply mem_good; try eassumption; [rewrite Hl; apply rev_length|apply Hx].
  - (* unreachable *) right. apply (good_trap host m fr _ _ (k_value m)); [|apply d_unreachable].
    eexists. rewrite (step_basic ieee host m _ _ fr Hr eq_refl). cbn. symmetry. f_equal. apply (same_state m fr _ _ Hr).
  - (* nop *) right. apply (good_ok host m fr _ _ Hr (k_value m)); [|apply d_nop].
    rewrite (step_basic ieee host m _ _ fr Hr eq_refl). cbn. symmetry. f_equal. apply (same_state m fr _ _ Hr).
  - (* drop *) right. destruct (ops1 _ _ _ Hl Hv Hw) as (a & -> & Hv' & Ha).
    apply (good_ok host m fr _ _ Hr V); [eapply PropMem.C32_drop; eassumption|]. rewrite Hv'. apply d_drop.
  - (* select *) right. destruct (ops3 _ _ _ Hl Hv Hw) as (a & b & c & -> & Hv' & Ha & Hb & Hcc).
    eapply (good_value host m fr _ _ Hr [c; b; a] V); [exact Hv0|eapply (PropMem.C32_select ieee host m); eassumption|apply c_select].
  - (* select with a type *) right. destruct (ops3 _ _ _ Hl Hv Hw) as (a & b & c & -> & Hv' & Ha & Hb & Hcc).
    unfold has_types in Hty. cbn [map] in Hty. injection Hty as T1 T2 T3.
    eapply (good_value host m fr _ _ Hr [c; b; a] V); [exact Hv0|eapply (PropMem.C32_select_type ieee host m _ fr t []); try eassumption; reflexivity|apply c_select_type].
  - (* local.get *) right. destruct (ops0 _ _ _ Hl Hv) as [-> Hv'].
    assert (exists v, nth_error (fr_locals fr) i = Some v) as [v Hx].
    { destruct (nth_error (fr_locals fr) i) eqn:E; [eauto|]. unfold has_types in Hlo. rewrite <- Hlo, nth_error_map, E in *. discriminate. }
    apply (good_ok host m fr _ _ Hr (v :: k_value m)); [eapply PropMem.C32_local_get; [eassumption|reflexivity|exact Hx]|]. apply d_local_get, Hx.
  - (* local.set *) right. destruct (ops1 _ _ _ Hl Hv Hw) as (v & -> & Hv' & Ha).
    assert (exists v, nth_error (fr_locals fr) i = Some v) as [x Hx].
    { destruct (nth_error (fr_locals fr) i) eqn:E; [eauto|]. unfold has_types in Hlo. rewrite <- Hlo, nth_error_map, E in *. discriminate. }
    destruct (PropMem.C32_local_set ieee host m _ fr i x v V Hr eq_refl Hx Hv') as (L' & X1 & X2).
    left. exists s, L', V. rewrite X2. split; [reflexivity|]. rewrite Hv'. apply d_local_set; [apply nth_error_Some; congruence|exact X1].
  - (* local.tee *) right. destruct (ops1 _ _ _ Hl Hv Hw) as (v & -> & Hv' & Ha).
    assert (exists v, nth_error (fr_locals fr) i = Some v) as [x Hx].
    { destruct (nth_error (fr_locals fr) i) eqn:E; [eauto|]. unfold has_types in Hlo. rewrite <- Hlo, nth_error_map, E in *. discriminate. }
    destruct (PropMem.C32_local_tee ieee host m _ fr i x v V Hr eq_refl Hx Hv') as (L' & X1 & X2).
    left. exists s, L', (v :: V). rewrite X2. split; [reflexivity|]. rewrite Hv'. apply d_local_tee; [apply nth_error_Some; congruence|exact X1].
  - (* global.get *) right. destruct (it_glob _ _ _ Hin _ _ _ ltac:(eassumption)) as (a & g & G1 & G2 & _).
    apply (good_ok host m fr _ _ Hr (gi_data g :: k_value m)); [eapply PropMem.C32_global_get; [eassumption|reflexivity|split; eassumption]|].
    eapply d_global_get. split; eassumption.
  - (* global.set *) right. destruct (ops1 _ _ _ Hl Hv Hw) as (v & -> & Hv' & Ha).
    destruct (it_glob _ _ _ Hin _ _ _ ltac:(eassumption)) as (a & g & G1 & G2 & _ & G3).
    pose proof (PropMem.C32_global_set ieee host m _ fr i a g v V Hr eq_refl (conj G1 G2) Hv') as X. rewrite G3 in X. cbn [Z.eqb Pos.eqb] in X.
    apply (good_store host m fr _ _ Hr _ _ X). rewrite Hv'. rewrite <- G3. apply d_global_set. split; assumption.
  - (* table.get *) right. destruct (ops1 _ _ _ Hl Hv Hw) as (v & -> & Hv' & Ha). destruct (Tab _ _ ltac:(eassumption)) as (a & x & Hx & _).
    pose proof (PropMem.C24_table_get ieee host m _ fr i a x v V Hr eq_refl Hx Hv' Ha) as X.
    destruct (nth_error (ti_elem x) (Z.to_nat (low 32 v))) as [r|] eqn:E.
    + apply (good_ok host m fr _ _ Hr _ X). rewrite Hv'. eapply d_table_get; eassumption.
    + apply (good_trap host m fr _ _ _ X). rewrite Hv'. eapply d_table_get_trap; [eassumption|]. apply len_le_nth; [apply low_nonneg; lia|exact E].
  - (* table.set *) right. destruct (ops2 _ _ _ Hl Hv Hw) as (v & r & -> & Hv' & Ha & Hb). destruct (Tab _ _ ltac:(eassumption)) as (a & x & Hx & Tx & _).
    unfold has_types in Hty. cbn [map] in Hty. injection Hty as T1 T2.
    pose proof (PropMem.C24_table_set ieee host m _ fr i a x r v V Hr eq_refl Hx Hv' Ha ltac:(congruence)) as X.
    destruct (Z.ltb_spec (low 32 v) (len (ti_elem x))) as [E|E].
    + destruct X as (l' & X1 & X2). apply (good_store host m fr _ _ Hr _ _ X2). rewrite Hv'. eapply d_table_set; eassumption.
    + apply (good_trap host m fr _ _ _ X). rewrite Hv'. eapply d_table_set_trap; eassumption.
  - (* table.size *) right. destruct (Tab _ _ ltac:(eassumption)) as (a & x & Hx & _ & Lx & Rx).
    pose proof (PropMem.C24_table_size ieee host m _ fr i a x Hr eq_refl Hx Rx) as X.
    apply (good_ok host m fr _ _ Hr _ X). eapply d_table_size; [eassumption|]. rewrite Lx. apply stands_num.
  - (* table.grow *) right. destruct (ops2 _ _ _ Hl Hv Hw) as (r & v & -> & Hv' & Ha & Hb). destruct (Tab _ _ ltac:(eassumption)) as (a & x & Hx & Tx & Lx & Rx).
    unfold has_types in Hty. cbn [map] in Hty. injection Hty as T1 T2.
    pose proof (PropMem.C24_table_grow ieee host m _ fr i a x v r V Hr eq_refl Hx Rx Hv' Hb ltac:(congruence)) as X. cbv zeta in X.
    destruct ((ti_size x + low 32 v <=? 1024) && _) eqn:E.
    + apply (good_store host m fr _ _ Hr _ _ X). rewrite Hv'. eapply d_table_grow; [eassumption|lia|lia|]. rewrite Lx. apply stands_num.
    + apply (good_ok host m fr _ _ Hr _ X). rewrite Hv'. apply d_table_grow_fails, stands_num.
  - (* table.fill *) right. destruct (ops3 _ _ _ Hl Hv Hw) as (vd & r & vn & -> & Hv' & Ha & Hb & Hn). destruct (Tab _ _ ltac:(eassumption)) as (a & x & Hx & _).
    pose proof (PropMem.C24_table_fill ieee host m _ fr i a x vn r vd V Hr eq_refl Hx Hv' Hn Ha) as X.
    destruct (Z.leb_spec (low 32 vd + low 32 vn) (len (ti_elem x))) as [E|E].
    + destruct X as (l' & X1 & X2). apply (good_store host m fr _ _ Hr _ _ X2). rewrite Hv'. eapply d_table_fill; eassumption.
    + apply (good_trap host m fr _ _ _ X). rewrite Hv'. eapply d_table_fill_trap; eassumption.
  - (* table.copy *) right. destruct (ops3 _ _ _ Hl Hv Hw) as (vd & vs & vn & -> & Hv' & Ha & Hb & Hn).
    destruct (Tab i _ ltac:(eassumption)) as (a & x & Hx & _). destruct (Tab j _ ltac:(eassumption)) as (b & y & Hy & _).
    pose proof (PropMem.C24_table_copy ieee host m _ fr i j a b x y vn vs vd V Hr eq_refl eq_refl Hx Hy Hv' Hn Hb Ha) as X.
    destruct ((low 32 vs + low 32 vn <=? len (ti_elem y)) && _) eqn:E.
    + destruct X as (l' & X1 & X2). apply (good_store host m fr _ _ Hr _ _ X2). rewrite Hv'. eapply d_table_copy; try eassumption; lia.
    + apply (good_trap host m fr _ _ _ X). rewrite Hv'. eapply d_table_copy_trap; try eassumption. lia.
  - (* table.init *) right. destruct (ops3 _ _ _ Hl Hv Hw) as (vd & vs & vn & -> & Hv' & Ha & Hb & Hn).
    destruct (Tab j _ ltac:(eassumption)) as (a & x & Hx & _). destruct (it_elem _ _ _ Hin i _ ltac:(eassumption)) as (b & e & E1 & E2 & _).
    pose proof (PropMem.C24_table_init ieee host m _ fr j i a b x e vn vs vd V Hr eq_refl eq_refl Hx (conj E1 E2) Hv' Hn Hb Ha) as X.
    destruct ((low 32 vs + low 32 vn <=? len (li_data e)) && _) eqn:E.
    + destruct X as (l' & X1 & X2). apply (good_store host m fr _ _ Hr _ _ X2). rewrite Hv'. eapply d_table_init; try eassumption; try (split; eassumption); lia.
    + apply (good_trap host m fr _ _ _ X). rewrite Hv'. eapply d_table_init_trap; try eassumption; try (split; eassumption). lia.
  - (* elem.drop *) right. destruct (it_elem _ _ _ Hin i _ ltac:(eassumption)) as (b & e & E1 & E2 & _).
    destruct (PropMem.C25_elem_drop ieee host m _ fr i b e Hr eq_refl (conj E1 E2)) as (E & X1 & X2 & X3).
    apply (good_store host m fr _ _ Hr _ _ X1). eapply d_elem_drop; try eassumption. split; eassumption.
  - (* memory.size *) right. destruct (Mem ltac:(assumption)) as (a & x & Hm & Hx).
    pose proof (PropMem.C20_memory_size ieee host m _ fr a x Hr Hm Hx) as X. apply (good_ok host m fr _ _ Hr _ X).
    eapply d_memory_size; [exact Hm|]. destruct Hx as [-> _]. rewrite Z.mul_comm, Z.div_mul by lia. apply stands_num.
  - (* memory.grow *) right. destruct (Mem ltac:(assumption)) as (a & x & Hm & Hx). destruct (ops1 _ _ _ Hl Hv Hw) as (v & -> & Hv' & Ha).
    pose proof (PropMem.C20_memory_grow ieee host m _ fr a x v V Hr Hm Hx Hv' Ha) as X. cbv zeta in X.
    destruct ((mi_size x + low 32 v <=? 1024) && _) eqn:E.
    + apply (good_store host m fr _ _ Hr _ _ X). rewrite Hv'. eapply d_memory_grow; [exact Hm|lia|lia|].
      destruct Hx as [-> _]. rewrite Z.mul_comm, Z.div_mul by lia. apply stands_num.
    + apply (good_ok host m fr _ _ Hr _ X). rewrite Hv'. apply d_memory_grow_fails, stands_num.
  - (* memory.fill *) right. destruct (Mem ltac:(assumption)) as (a & x & Hm & Hx). destruct (ops3 _ _ _ Hl Hv Hw) as (vd & r & vn & -> & Hv' & Ha & Hb & Hn).
    pose proof (PropMem.C23_memory_fill ieee host m _ fr a x vn r vd V Hr Hm Hv' Hn Hb Ha) as X.
    destruct (Z.leb_spec (low 32 vd + low 32 vn) (len (mi_data x))) as [E|E].
    + destruct X as (l' & X1 & X2). apply (good_store host m fr _ _ Hr _ _ X2). rewrite Hv'. eapply d_memory_fill; eassumption.
    + apply (good_trap host m fr _ _ _ X). rewrite Hv'. eapply d_memory_fill_trap; eassumption.
  - (* memory.copy *) right. destruct (Mem ltac:(assumption)) as (a & x & Hm & Hx). destruct (ops3 _ _ _ Hl Hv Hw) as (vd & vs & vn & -> & Hv' & Ha & Hb & Hn).
    pose proof (PropMem.C23_memory_copy ieee host m _ fr a x vn vs vd V Hr Hm Hv' Hn Hb Ha) as X.
    destruct ((low 32 vs + low 32 vn <=? len (mi_data x)) && _) eqn:E.
    + destruct X as (l' & X1 & X2). apply (good_store host m fr _ _ Hr _ _ X2). rewrite Hv'. eapply d_memory_copy; try eassumption; lia.
    + apply (good_trap host m fr _ _ _ X). rewrite Hv'. eapply d_memory_copy_trap; try eassumption. lia.
  - (* memory.init *) right. destruct (Mem ltac:(assumption)) as (a & x & Hm & Hx). destruct (ops3 _ _ _ Hl Hv Hw) as (vd & vs & vn & -> & Hv' & Ha & Hb & Hn).
    destruct (it_data _ _ _ Hin i ltac:(assumption)) as (da & b & D1 & D2).
    pose proof (init_any ieee host m _ fr i a x da b vn vs vd V Hr eq_refl Hm D1 D2 Hv' Hn Hb Ha) as X. cbv zeta in X.
    assert (HD : data_of s mr i da (nth b (s_blob s) [])) by (split; [exact D1|exists b; auto]).
    destruct ((low 32 vs + low 32 vn <=? len (nth b (s_blob (k_store m)) [])) && _) eqn:E.
    + destruct X as (l' & X1 & X2). apply (good_store host m fr _ _ Hr _ _ X2). rewrite Hv'.
      eapply d_memory_init; [exact Hm|exact HD|subst s; lia|lia|exact X1].
    + apply (good_trap host m fr _ _ _ X). rewrite Hv'. eapply d_memory_init_trap; [exact Hm|exact HD|subst s; lia].
  - (* data.drop *) destruct (it_data _ _ _ Hin i ltac:(assumption)) as (da & b & D1 & D2).
    destruct (classic (nth b (s_blob s) [] <> [] /\ exists a', a' <> da /\ nth_error (s_data s) a' = Some b)) as [[N (a' & N1 & N2)]|N].
    + left. eapply am_data_drop; eassumption.
    + right. apply (good_store host m fr _ _ Hr _ _ (drop_any ieee host m _ fr i da b Hr eq_refl D1 D2)).
      eapply d_data_drop; [split; [exact D1|exists b; split; [exact D2|reflexivity]]| |].
      * exists b. split; [exact D2|]. cbn [set_s_blob s_blob]. rewrite nth_upd_nil, Nat.eqb_refl. reflexivity.
      * intros a' d' Ha' (b' & H1 & H2). exists b'. split; [exact H1|]. cbn [set_s_blob s_blob]. rewrite nth_upd_nil.
        destruct (Nat.eqb_spec b' b) as [->|]; [|exact H2]. destruct d' as [|z d']; [reflexivity|]. exfalso. apply N. split; [fold s in H2; rewrite H2; discriminate|eauto].
  - (* ref.null *) right. destruct (ops0 _ _ _ Hl Hv) as [-> Hv'].
    eapply (good_value host m fr _ _ Hr [] V); [exact Hv0| |apply c_ref_null].
    rewrite (step_num0 ieee host m _ _ _ _ Hr eq_refl). rewrite Hv'. destruct t; reflexivity.
  - (* ref.is_null *) right. destruct (ops1 _ _ _ Hl Hv Hw) as (r & -> & Hv' & Ha). destruct (null_bit r Ha) as (x & X1 & X2).
    unfold has_types in Hty. cbn [map] in Hty. injection Hty as T1.
    eapply (good_value host m fr _ _ Hr [r] V); [exact Hv0| |apply c_ref_is_null, stands_num].
    rewrite (step_num1 ieee host m _ _ _ _ _ _ Hr eq_refl Hv'). cbn [op1 rbind]. rewrite T1.
    match goal with H : is_ref t = true |- _ => rewrite H end. cbn [py_assert rbind]. rewrite X1. cbn [rbind]. rewrite X2.
    destruct (null r); reflexivity.
  - (* ref.func *) right. destruct (ops0 _ _ _ Hl Hv) as [-> Hv']. destruct (it_func _ _ _ Hin i _ ltac:(eassumption)) as (a & f & F1 & F2 & _).
    apply (good_ok host m fr _ _ Hr (ref_to T_func a :: k_value m)); [|apply d_ref_func, F1].
    apply (misc_pure ieee host m _ _ fr _ _ Hr); try reflexivity. unfold exec_misc.
    erewrite bind_ok by exact (arg_run _ _ _ [imm i] 0 _ eq_refl). erewrite bind_ok by (apply mod_addr_run, F1).
    apply pushr_run. assert (len (s_func (k_store m)) < 2 ^ 31) by apply (st_many _ Hst).
    assert (a < length (s_func (k_store m)))%nat by (apply nth_error_Some; fold s; rewrite F2; discriminate).
    rewrite from_ref_ok by (unfold srange, len in *; change (2 ^ (32 - 1)) with (2 ^ 31); lia).
    rewrite Z.mod_small by (unfold len in *; lia). reflexivity.
Qed.
End all.
