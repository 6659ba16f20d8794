(* The initialisers that instantiation runs: constant expressions, element and data segments. *)
From Coq Require Import ZArith List Bool Lia ZifyBool ZifyNat.
From Verif Require Import Py Arith Floatops Val Opcode Numeric Syntax Store Basic Machine
  SpecInt SpecNum SpecMachine SpecMem SpecRun SpecControl SpecInst
  PyFacts ArithFacts ValFacts StepFacts LaneFacts MemFacts BulkFacts WfFacts RunFacts ControlFacts InstFacts.
Import ListNotations.
Open Scope Z_scope.

(* ---- straight-line code under one label ---- *)
Section straight.
Context (F : fops) (host : hostcode).
Fixpoint ops (mr : modref) (l : list (opc * list arg)) : B unit :=
  match l with [] => ret tt | (o, args) :: r => exec_basic F mr o args ;; ops mr r end.
Definition code_of (l : list (opc * list arg)) : list inst := map (fun '(o, args) => IOp o args) l.

Lemma any_step_at s V lb LS fr FS i rest : at_code lb (i :: rest) ->
  step F host (mkmach s V (lb :: LS) (fr :: FS)) =
    exec F host (goto lb (S (lb_index lb))) fr i (mkmach s V (goto lb (S (lb_index lb)) :: LS) (fr :: FS)).
Proof.
  intros H. apply at_code_nth in H. unfold step, bind, mget, top_frame. cbn [k_label k_frame]. rewrite (about_ne _ _ H), H. reflexivity.
Qed.
Lemma any_step_end s V lb LS fr FS : lb_carry lb <> KFunc ->
  step F host (mkmach s V (goto lb (length (lb_instr lb)) :: LS) (fr :: FS)) = (Ok tt, mkmach s V LS (fr :: FS)).
Proof.
  intros H. unfold step, bind, mget, top_frame. cbn [k_label k_frame goto lb_index lb_instr lb_carry]. rewrite PeanoNat.Nat.eqb_refl.
  unfold mput, set_label. cbn [k_store k_value k_frame]. destruct (lb_carry lb); try reflexivity. contradiction.
Qed.
Lemma step_straight s V lb LS fr FS o args rest : at_code lb (IOp o args :: rest) -> straight o = true ->
  step F host (mkmach s V (lb :: LS) (fr :: FS)) =
  let (r, b) := exec_basic F (fr_module fr) o args (mkb s (fr_locals fr) V) in
  (r, mkmach (b_store b) (b_value b) (goto lb (S (lb_index lb)) :: LS) (relocal fr (b_locals b) :: FS)).
Proof.
  intros Hc Ho. rewrite (any_step_at _ _ _ _ _ _ _ _ Hc). rewrite exec_op_basic by (destruct o; try discriminate Ho; reflexivity).
  unfold on_basic. cbn [k_frame k_store k_value k_label]. destruct (exec_basic _ _ _ _ _) as [r b]. reflexivity.
Qed.
Definition finish (fr : frame) (b : bstate) : machine := mkmach (b_store b) (b_value b) [] [relocal fr (b_locals b)].
Lemma eval_straight l : forall n s V lb fr,
  Forall (fun p => straight (fst p) = true) l -> at_code lb (code_of l) -> lb_carry lb = KBlock ->
  match ops (fr_module fr) l (mkb s (fr_locals fr) V) with
  | (Ok _, b) => if Nat.ltb (length l) n then evaluate F host n (mkmach s V [lb] [fr]) = (Ok tt, finish fr b)
                 else exists m', evaluate F host n (mkmach s V [lb] [fr]) = (Ok tt, m') /\ k_label m' <> []
  | (Err e, b) => (exists m', evaluate F host n (mkmach s V [lb] [fr]) = (Err e, m')) \/
                  (exists m', evaluate F host n (mkmach s V [lb] [fr]) = (Ok tt, m') /\ k_label m' <> [])
  end.
Proof.
  induction l as [|[o args] l IH]; intros n s V lb fr HS Hc Hk.
  - cbn [ops]. unfold ret at 1. destruct n as [|n]; [exists (mkmach s V [lb] [fr]); split; [reflexivity|discriminate]|]. cbn [Nat.ltb Nat.leb length].
    cbn [evaluate k_label]. unfold bind. rewrite <- (at_code_end lb Hc), any_step_end by (rewrite Hk; discriminate).
    unfold finish. cbn [b_store b_value b_locals]. rewrite relocal_same. destruct n; reflexivity.
  - apply Forall_cons_iff in HS. destruct HS as [Ho HS]. cbn [fst] in Ho. cbn [ops code_of map].
    destruct n as [|n].
    { cbn [Nat.ltb Nat.leb length]. assert (X : exists m', evaluate F host 0 (mkmach s V [lb] [fr]) = (Ok tt, m') /\ k_label m' <> [])
        by (exists (mkmach s V [lb] [fr]); split; [reflexivity|discriminate]).
      destruct (bind _ _ _) as [[]]; [exact X|right; exact X]. }
    cbn [evaluate k_label]. unfold bind. rewrite (step_straight _ _ _ _ _ _ _ _ _ Hc Ho).
    destruct (exec_basic F (fr_module fr) o args (mkb s (fr_locals fr) V)) as [[[]|e] [s1 L1 V1]].
    + cbn [b_store b_value b_locals]. specialize (IH n s1 V1 (goto lb (S (lb_index lb))) (relocal fr L1) HS (at_code_next _ _ _ Hc) Hk).
      cbn [relocal fr_module fr_locals] in IH. destruct (ops (fr_module fr) l (mkb s1 L1 V1)) as [[u|e] b].
      * cbn [length]. change (Nat.ltb (S (length l)) (S n)) with (Nat.ltb (length l) n). exact IH.
      * exact IH.
    + left. eexists. reflexivity.
Qed.
Lemma run_expr_from n e k s V FS : run_expr F host n e k (mkmach s V [] FS) =
  (evaluate F host n ;; let! m := mget in assert (Nat.eqb (length (k_frame m)) 1) ;; assert (Nat.eqb (length (k_label m)) 0) ;;
   assert (Nat.eqb (length (k_value m)) k)) (mkmach s V [mklabel 1 1 0 KBlock e 0] FS).
Proof. reflexivity. Qed.
Lemma run_straight l k n s V fr : Forall (fun p => straight (fst p) = true) l ->
  match ops (fr_module fr) l (mkb s (fr_locals fr) V) with
  | (Ok _, b) => if Nat.ltb (length l) n && Nat.eqb (length (b_value b)) k
                 then run_expr F host n (code_of l) k (mkmach s V [] [fr]) = (Ok tt, finish fr b)
                 else exists e m', run_expr F host n (code_of l) k (mkmach s V [] [fr]) = (Err e, m')
  | (Err _, b) => exists e m', run_expr F host n (code_of l) k (mkmach s V [] [fr]) = (Err e, m')
  end.
Proof.
  intros HS. pose proof (eval_straight l n s V (mklabel 1 1 0 KBlock (code_of l) 0) fr HS (conj eq_refl (PeanoNat.Nat.le_0_l _)) eq_refl) as P.
  assert (X : forall m', evaluate F host n (mkmach s V [mklabel 1 1 0 KBlock (code_of l) 0] [fr]) = (Ok tt, m') -> k_label m' <> [] ->
    exists e m', run_expr F host n (code_of l) k (mkmach s V [] [fr]) = (Err e, m')).
  { intros m' E N. rewrite run_expr_from.
    rewrite (bind_do _ _ _ _ _ E). rewrite (bind_do mget _ m' m' m' eq_refl). unfold bind at 1. rewrite assert_run. destruct (py_assert _); [|eexists _, _; reflexivity].
    unfold bind. rewrite assert_run. destruct (k_label m'); [contradiction|]. eexists _, _. reflexivity. }
  destruct (ops (fr_module fr) l (mkb s (fr_locals fr) V)) as [[u|e] b].
  - destruct (Nat.ltb (length l) n); cbn [andb].
    + destruct (Nat.eqb (length (b_value b)) k) eqn:K.
      * rewrite run_expr_from.
        rewrite (bind_do _ _ _ _ _ P). rewrite (bind_do mget _ _ _ _ eq_refl). unfold bind. rewrite !assert_run. cbn. rewrite K. reflexivity.
      * exists EAssert, (finish fr b). rewrite run_expr_from.
        rewrite (bind_do _ _ _ _ _ P). rewrite (bind_do mget _ _ _ _ eq_refl). unfold bind. rewrite !assert_run. cbn. rewrite K. reflexivity.
    + destruct P as (m' & E & N). exact (X m' E N).
  - destruct P as [(m' & E)|(m' & E & N)]; [|exact (X m' E N)]. exists e, m'.
    rewrite run_expr_from. apply bind_fail, E.
Qed.
Lemma run_straight_ok l k n s V fr m' : Forall (fun p => straight (fst p) = true) l ->
  run_expr F host n (code_of l) k (mkmach s V [] [fr]) = (Ok tt, m') ->
  exists b, ops (fr_module fr) l (mkb s (fr_locals fr) V) = (Ok tt, b) /\ length (b_value b) = k /\ m' = finish fr b.
Proof.
  intros HS E. pose proof (run_straight l k n s V fr HS) as P. destruct (ops (fr_module fr) l (mkb s (fr_locals fr) V)) as [[[]|e] b].
  - destruct (Nat.ltb (length l) n); cbn [andb] in P; [|destruct P as (? & ? & P); congruence].
    destruct (Nat.eqb_spec (length (b_value b)) k); [|destruct P as (? & ? & P); congruence].
    exists b. split; [reflexivity|split; [assumption|congruence]].
  - destruct P as (? & ? & P). congruence.
Qed.

(* ---- constant expressions ---- *)
Definition const_ops : list opc := [O_i32_const; O_i64_const; O_f32_const; O_f64_const; O_v128_const; O_ref_null; O_ref_func; O_global_get].
Lemma const_straight o : In o const_ops -> straight o = true.
Proof. cbn [const_ops In]. intros H. repeat (destruct H as [<-|H]; [reflexivity|]). contradiction. Qed.
Lemma pushr_ok r b b' : pushr r b = (Ok tt, b') -> exists v, r = Ok v /\ b' = mkb (b_store b) (b_locals b) (v :: b_value b).
Proof. unfold pushr, bind, lift, push. destruct r as [v|]; intros E; [|discriminate E]. injection E as <-. exists v. split; reflexivity. Qed.
Lemma const_op_run mr o args b b' : In o const_ops -> exec_basic F mr o args b = (Ok tt, b') ->
  exists v, b' = mkb (b_store b) (b_locals b) (v :: b_value b).
Proof.
  intros Ho E. assert (P : forall r, pushr r b = (Ok tt, b') -> exists v, b' = mkb (b_store b) (b_locals b) (v :: b_value b)).
  { intros r H. apply pushr_ok in H. destruct H as (v & _ & H). exists v. exact H. }
  cbn [const_ops In] in Ho. repeat (destruct Ho as [<-|Ho]; [cbn [exec_basic num_op exec_num] in E; try exact (P _ E)|]); [..|contradiction].
  - unfold exec_basic in E. cbn [num_op load_op store_op exec_misc] in E. nxt E b1 i. unfold lift in E0. injection E0 as _ <-.
    nxt E b1 a. unfold mod_addr in E0. nxt E0 b2 st. injection E1 as <- <-. unfold lift in E0. injection E0 as _ <-. exact (P _ E).
  - unfold exec_basic in E. cbn [num_op load_op store_op exec_misc] in E. nxt E b1 i. unfold lift in E0. injection E0 as _ <-.
    nxt E b1 a. unfold mod_addr in E0. nxt E0 b2 st. injection E1 as <- <-. unfold lift in E0. injection E0 as _ <-.
    nxt E b1 g. unfold get_glob in E0. nxt E0 b2 st. injection E1 as <- <-. unfold lift in E0. injection E0 as _ <-.
    unfold push in E. injection E as <-. eexists. reflexivity.
Qed.
Lemma const_run n e s fr v m' : constant e -> const_expr F host n e (mkmach s [] [] [fr]) = (Ok v, m') -> m' = mkmach s [] [] [fr].
Proof.
  intros (o & args & -> & Ho) E. unfold const_expr in E. nxt E m1 u. destruct u.
  change [IOp o args] with (code_of [(o, args)]) in E0.
  apply run_straight_ok in E0; [|repeat constructor; apply const_straight, Ho]. destruct E0 as (b & E0 & _ & ->).
  cbn [ops] in E0. nxt E0 b1 u. destruct u. injection E0 as <-. destruct (const_op_run _ _ _ _ _ Ho E1) as (w & ->).
  unfold popv, finish in E. cbn in E. injection E as _ <-. cbn. rewrite relocal_same. reflexivity.
Qed.
Lemma const_run_all {A} n (f : A -> list inst) l s fr vs m' : Forall (fun x => constant (f x)) l ->
  mapl (fun e => const_expr F host n (f e)) l (mkmach s [] [] [fr]) = (Ok vs, m') -> m' = mkmach s [] [] [fr].
Proof.
  revert vs m'. induction l as [|x l IH]; intros vs m' H E; [injection E as _ <-; reflexivity|]. apply Forall_cons_iff in H. destruct H as [Hx H].
  cbn [mapl] in E. nxt E m1 v. apply const_run in E0; [|exact Hx]. subst m1. nxt E m2 w. apply IH in E0; [|exact H]. subst m2. injection E as _ <-. reflexivity.
Qed.
Lemma head_run n md aux s ge m' :
  Forall (fun g => constant (gd_init g)) (md_glob md) -> Forall (fun e => Forall constant (ed_init e)) (md_elem md) ->
  inst_head F host n md aux (mkmach s [] [] []) = (Ok ge, m') -> m' = mkmach s [] [] [].
Proof.
  intros Hg He E. unfold inst_head in E. nxt E m1 u. unfold push_frame in E0. injection E0 as _ <-. cbn [k_store k_value k_label k_frame] in E.
  nxt E m2 g. cbn in E0. apply const_run_all in E0; [|exact Hg]. subst m2. nxt E m3 e0.
  assert (m3 = mkmach s [] [] [mkframe (MVal aux) [] 1 0 0]) as ->.
  { clear E Hg. revert e0 m3 E0. induction (md_elem md) as [|x l IH]; intros e0 m3 E; [injection E as _ <-; reflexivity|]. apply Forall_cons_iff in He. destruct He as [Hx He].
    cbn [mapl] in E. nxt E m1 v. apply (const_run_all n (fun x => x)) in E0; [|exact Hx]. subst m1. nxt E m2 w. apply (IH He) in E0. subst m2. injection E as _ <-. reflexivity. }
  nxt E m4 u0. injection E as _ <-. unfold pop_frame in E1. cbn in E1. injection E1 as _ <-. reflexivity.
Qed.

(* ---- element segments touch tables and element segments only ---- *)
Record same_rest (s s' : store) : Prop := mk_same_rest {
  sr_func : s_func s' = s_func s; sr_mems : s_mems s' = s_mems s; sr_glob : s_glob s' = s_glob s;
  sr_data : s_data s' = s_data s; sr_inst : s_inst s' = s_inst s; sr_blob : s_blob s' = s_blob s }.
Lemma same_refl s : same_rest s s.
Proof. split; reflexivity. Qed.
Lemma same_trans a b c : same_rest a b -> same_rest b c -> same_rest a c.
Proof. intros [] []. split; congruence. Qed.
Lemma u32_ok b n b' : pop_u32 b = (Ok n, b') -> exists v, b_value b = v :: b_value b' /\ b_store b' = b_store b /\ b_locals b' = b_locals b.
Proof.
  unfold pop_u32. intros E. nxt E b1 v. unfold lift in E. injection E as _ <-. unfold pop in E0. destruct (b_value b) as [|w V] eqn:EV; [discriminate E0|].
  injection E0 as -> <-. exists v. repeat split.
Qed.
Lemma table_init_ok mr args b b' : exec_basic F mr O_table_init args b = (Ok tt, b') ->
  same_rest (b_store b) (b_store b') /\ b_locals b' = b_locals b /\ length (b_value b) = (3 + length (b_value b'))%nat.
Proof.
  intros E. change (exec_basic F mr O_table_init args) with (exec_misc mr O_table_init args) in E. cbn [exec_misc] in E.
  nxt E b1 j. unfold lift in E0. injection E0 as _ <-.
  nxt E b1 a. unfold mod_addr in E0. nxt E0 b2 st. injection E1 as <- <-. unfold lift in E0. injection E0 as _ <-.
  nxt E b1 t. unfold get_tab in E0. nxt E0 b2 st. injection E1 as <- <-. unfold lift in E0. injection E0 as _ <-.
  nxt E b1 i. unfold lift in E0. injection E0 as _ <-.
  nxt E b1 ea. unfold mod_addr in E0. nxt E0 b2 st. injection E1 as <- <-. unfold lift in E0. injection E0 as _ <-.
  nxt E b1 e. unfold get_elem in E0. nxt E0 b2 st. injection E1 as <- <-. unfold lift in E0. injection E0 as _ <-.
  nxt E b1 x. apply u32_ok in E0. destruct E0 as (v1 & V1 & S1 & L1). nxt E b2 y. apply u32_ok in E0. destruct E0 as (v2 & V2 & S2 & L2).
  nxt E b3 z. apply u32_ok in E0. destruct E0 as (v3 & V3 & S3 & L3).
  nxt E b4 u. rewrite assert_run in E0. injection E0 as _ <-. nxt E b4 u0. rewrite assert_run in E0. injection E0 as _ <-.
  unfold put_tab in E. nxt E b4 st. injection E0 as <- <-. nxt E b4 l0. unfold lift in E0. injection E0 as _ <-. unfold put_store in E. injection E as <-.
  cbn [b_store b_locals b_value]. rewrite V1, V2, V3, L3, L2, L1, S3, S2, S1. split; [split; reflexivity|split; reflexivity].
Qed.
Lemma elem_drop_ok mr args b b' : exec_basic F mr O_elem_drop args b = (Ok tt, b') ->
  same_rest (b_store b) (b_store b') /\ b_locals b' = b_locals b /\ b_value b' = b_value b.
Proof.
  intros E. change (exec_basic F mr O_elem_drop args) with (exec_misc mr O_elem_drop args) in E. cbn [exec_misc] in E.
  nxt E b1 j. unfold lift in E0. injection E0 as _ <-.
  nxt E b1 a. unfold mod_addr in E0. nxt E0 b2 st. injection E1 as <- <-. unfold lift in E0. injection E0 as _ <-.
  nxt E b1 e. unfold get_elem in E0. nxt E0 b2 st. injection E1 as <- <-. unfold lift in E0. injection E0 as _ <-.
  unfold put_elem in E. nxt E b4 st. injection E0 as <- <-. nxt E b4 l0. unfold lift in E0. injection E0 as _ <-. unfold put_store in E. injection E as <-.
  cbn [b_store b_locals b_value]. split; [split; reflexivity|split; reflexivity].
Qed.
Lemma elem_code_ok n i e s fr m' : constant (ed_offset e) ->
  run_expr F host n (elem_code i e) 0 (mkmach s [] [] [fr]) = (Ok tt, m') -> exists s', same_rest s s' /\ m' = mkmach s' [] [] [fr].
Proof.
  intros (o & args & Eo & Ho) E. unfold elem_code in E. rewrite Eo in E.
  change (run_expr F host n (code_of [(o, args); (O_i32_const, [AInt 0]); (O_i32_const, [AInt (len (ed_init e))]);
    (O_table_init, [AInt i; AInt (ed_tidx e)]); (O_elem_drop, [AInt i])]) 0 (mkmach s [] [] [fr]) = (Ok tt, m')) in E.
  apply run_straight_ok in E; [|repeat constructor; apply const_straight, Ho]. destruct E as (b & E & Hl & ->).
  cbn [ops] in E. nxt E b1 u. destruct u. destruct (const_op_run _ _ _ _ _ Ho E0) as (v & ->). clear E0. cbn [b_store b_locals b_value] in E.
  nxt E b2 u. destruct u. apply const_op_run in E0; [|left; reflexivity]. destruct E0 as (v1 & ->). cbn [b_store b_locals b_value] in E.
  nxt E b2 u. destruct u. apply const_op_run in E0; [|left; reflexivity]. destruct E0 as (v2 & ->). cbn [b_store b_locals b_value] in E.
  nxt E b2 u. destruct u. apply table_init_ok in E0. destruct E0 as (R1 & L1 & N1). cbn [b_store b_locals b_value length] in R1, L1, N1.
  nxt E b3 u. destruct u. apply elem_drop_ok in E0. destruct E0 as (R2 & L2 & N2). injection E as <-.
  exists (b_store b3). split; [exact (same_trans _ _ _ R1 R2)|]. unfold finish. rewrite L2, L1, relocal_same.
  destruct (b_value b3); [reflexivity|discriminate Hl].
Qed.
Lemma elem_loop_ok n l s fr m' : Forall (fun '(i, e) => Z.land (ed_kind e) 1 = 0 -> constant (ed_offset e)) l ->
  elem_loop F host n l (mkmach s [] [] [fr]) = (Ok tt, m') -> exists s', same_rest s s' /\ m' = mkmach s' [] [] [fr].
Proof.
  revert s. induction l as [|[i e] l IH]; intros s H E; [injection E as <-; exists s; split; [apply same_refl|reflexivity]|].
  apply Forall_cons_iff in H. destruct H as [Hx H]. unfold elem_loop in E. cbn [forl] in E. nxt E m1 u. destruct u.
  assert (X : exists s', same_rest s s' /\ m1 = mkmach s' [] [] [fr]).
  { destruct (Z.eqb_spec (Z.land (ed_kind e) 1) 0) as [K|K]; cbn [negb] in E0; [exact (elem_code_ok _ _ _ _ _ _ (Hx K) E0)|].
    injection E0 as <-. exists s. split; [apply same_refl|reflexivity]. }
  destruct X as (s1 & R1 & ->). destruct (IH s1 H E) as (s2 & R2 & ->). exists s2. split; [exact (same_trans _ _ _ R1 R2)|reflexivity].
Qed.
Lemma drop_loop_ok n l s fr m' :
  drop_loop F host n l (mkmach s [] [] [fr]) = (Ok tt, m') -> exists s', same_rest s s' /\ m' = mkmach s' [] [] [fr].
Proof.
  revert s. induction l as [|[i e] l IH]; intros s E; [injection E as <-; exists s; split; [apply same_refl|reflexivity]|].
  unfold drop_loop in E. cbn [forl] in E. nxt E m1 u. destruct u.
  assert (X : exists s', same_rest s s' /\ m1 = mkmach s' [] [] [fr]).
  { destruct (negb _); [injection E0 as <-; exists s; split; [apply same_refl|reflexivity]|].
    change [IOp O_elem_drop [AInt i]] with (code_of [(O_elem_drop, [AInt i])]) in E0.
    apply run_straight_ok in E0; [|repeat constructor]. destruct E0 as (b & E0 & Hl & ->). cbn [ops] in E0. nxt E0 b1 u. destruct u. injection E0 as <-.
    apply elem_drop_ok in E1. destruct E1 as (R & L & V). cbn [b_store b_locals b_value] in *. exists (b_store b1). split; [exact R|].
    unfold finish. rewrite L, relocal_same, V. reflexivity. }
  destruct X as (s1 & R1 & ->). destruct (IH s1 E) as (s2 & R2 & ->). exists s2. split; [exact (same_trans _ _ _ R1 R2)|reflexivity].
Qed.

(* ---- data segments ---- *)
Lemma low_num t z : low 32 (num_val t z) = z mod 2 ^ 32.
Proof.
  unfold low, num_val. cbn [v_data]. rewrite le_of_to_le. change (2 ^ (8 * Z.of_nat 16)) with (2 ^ 32 * 2 ^ 96).
  rewrite Z.rem_mul_r by lia. rewrite Z.mul_comm, Z.mod_add by lia. apply Z.mod_mod. lia.
Qed.
Lemma const_i32_run mr c s L V : - 2 ^ 31 <= c < 2 ^ 31 ->
  exec_basic F mr O_i32_const [AInt c] (mkb s L V) = (Ok tt, mkb s L (num_val T_i32 (c mod 2 ^ 32) :: V)).
Proof.
  intros H. change (exec_basic F mr O_i32_const [AInt c]) with (pushr (from_i32 c)). rewrite from_i32_ok by (unfold srange; lia). reflexivity.
Qed.
Lemma offset_run mr s L V e c : Forall (fun g => val_wf (gi_data g)) (s_glob s) -> offset_of (global_value s (mod_of s mr)) e = Some c ->
  exists o args v, e = [IOp o args] /\ straight o = true /\ exec_basic F mr o args (mkb s L V) = (Ok tt, mkb s L (v :: V)) /\ val_wf v /\ low 32 v = c.
Proof.
  intros Hs H. unfold offset_of in H. destruct e as [|[? ?|? ?|? ? ?|o args] r]; try discriminate H.
  destruct o; try discriminate H; destruct args as [|[z|? |?] [|? ?]]; try discriminate H; destruct r; try discriminate H.
  - destruct (Z.leb_spec 0 z) as [Hz|]; [|discriminate H]. unfold global_value in H.
    destruct (nth_error (m_glob (mod_of s mr)) (Z.to_nat z)) as [a|] eqn:Ea; [|discriminate H].
    destruct (Z.leb_spec 0 a) as [Ha|]; [|discriminate H]. destruct (nth_error (s_glob s) (Z.to_nat a)) as [g|] eqn:Eg; [|discriminate H].
    cbn [option_map] in H. injection H as <-. exists O_global_get, [AInt z], (gi_data g).
    split; [reflexivity|]. split; [reflexivity|]. split; [|split; [|reflexivity]].
    + change (exec_basic F mr O_global_get [AInt z]) with (exec_misc mr O_global_get [AInt z]). cbn [exec_misc].
      rewrite (bind_do _ _ _ _ _ (arg_run s L V [AInt z] 0 z eq_refl)).
      rewrite <- (Z2Nat.id z Hz), (bind_do _ _ _ _ _ (mod_addr_run _ _ _ _ m_glob _ _ Ea)).
      rewrite <- (Z2Nat.id a Ha), (bind_do _ _ _ _ _ (get_glob_run s L V _ _ Eg)). reflexivity.
    + rewrite Forall_forall in Hs. apply Hs. eapply nth_error_In, Eg.
  - destruct (Z.leb_spec (- 2 ^ 31) z); [|discriminate H]. destruct (Z.ltb_spec z (2 ^ 31)); [|discriminate H]. cbn [andb] in H. assert (c = z mod 2 ^ 32) as -> by congruence. clear H.
    exists O_i32_const, [AInt z], (num_val T_i32 (z mod 2 ^ 32)). split; [reflexivity|]. split; [reflexivity|].
    split; [apply const_i32_run; lia|]. split; [apply mkval_wf|]. rewrite low_num. apply Z.mod_mod. lia.
Qed.
Definition spliced (mem : list Z) (c : Z) (d : list Z) : list Z := firstn (Z.to_nat c) mem ++ d ++ skipn (Z.to_nat (c + len d)) mem.
Lemma splice_slice (mem d : list Z) c : 0 <= c -> c + len d <= len mem ->
  py_slice_set mem c (c + len d) (py_slice d 0 (0 + len d)) = spliced mem c d.
Proof.
  intros H1 H2. pose proof (len_nonneg d). unfold py_slice_set, py_slice, spliced.
  assert (B : forall n x, 0 <= x <= n -> py_bound n x = x).
  { intros n x Hx. unfold py_bound. destruct (Z.ltb_spec x 0); [lia|]. apply Z.min_l. apply Hx. }
  rewrite !B by lia. rewrite Z.max_r by lia. rewrite Z.sub_0_r, Z.add_0_l. change (Z.to_nat 0) with O. cbn [skipn]. rewrite (firstn_all2 d) by (unfold len; lia). reflexivity.
Qed.
Lemma data_one n i s fr a mem b d off c :
  Forall (fun g => val_wf (gi_data g)) (s_glob s) -> (5 < n)%nat ->
  nth_error (m_mems (mod_of s (fr_module fr))) 0 = Some (Z.of_nat a) -> nth_error (s_mems s) a = Some mem ->
  (exists da, nth_error (m_data (mod_of s (fr_module fr))) i = Some (Z.of_nat da) /\ nth_error (s_data s) da = Some b) -> nth_error (s_blob s) b = Some d ->
  offset_of (global_value s (mod_of s (fr_module fr))) off = Some c -> len d < 2 ^ 31 ->
  if c + len d <=? len (mi_data mem)
  then run_expr F host n (data_code (Z.of_nat i) off (len d)) 0 (mkmach s [] [] [fr]) =
         (Ok tt, mkmach (with_blob (with_mem s a (mkmem (mi_type mem) (spliced (mi_data mem) c d) (mi_size mem))) b []) [] [] [fr])
  else exists e m', run_expr F host n (data_code (Z.of_nat i) off (len d)) 0 (mkmach s [] [] [fr]) = (Err e, m').
Proof.
  intros Hs Hn Ha Hm (da & Hda & Hdb) Hb Hoff Hlen.
  destruct (offset_run (fr_module fr) s (fr_locals fr) [] off c Hs Hoff) as (o & args & v & -> & Ho & Hv & Wv & Lv).
  pose proof (len_nonneg d) as Hd0. pose proof (low_nonneg 32 v ltac:(lia)) as Hc0. rewrite Lv in Hc0.
  unfold data_code. change ([IOp o args] ++ ?x) with (IOp o args :: x).
  set (l := [(o, args); (O_i32_const, [AInt 0]); (O_i32_const, [AInt (len d)]); (O_memory_init, [AInt (Z.of_nat i)]); (O_data_drop, [AInt (Z.of_nat i)])]).
  change (IOp o args :: _) with (code_of l).
  pose proof (run_straight l 0 n s [] fr ltac:(repeat constructor; exact Ho)) as P.
  assert (E : ops (fr_module fr) l (mkb s (fr_locals fr) []) =
    (exec_basic F (fr_module fr) O_memory_init [AInt (Z.of_nat i)] ;; exec_basic F (fr_module fr) O_data_drop [AInt (Z.of_nat i)] ;; ret tt)
      (mkb s (fr_locals fr) [num_val T_i32 (len d mod 2 ^ 32); num_val T_i32 (0 mod 2 ^ 32); v])).
  { unfold l. cbn [ops]. rewrite (bind_do _ _ _ _ _ Hv). rewrite (bind_do _ _ _ _ _ (const_i32_run _ 0 _ _ _ ltac:(lia))).
    rewrite (bind_do _ _ _ _ _ (const_i32_run _ (len d) _ _ _ ltac:(lia))). reflexivity. }
  rewrite E in P. clear E.
  change (exec_basic F (fr_module fr) O_memory_init [AInt (Z.of_nat i)]) with (exec_misc (fr_module fr) O_memory_init [AInt (Z.of_nat i)]) in P.
  change (exec_basic F (fr_module fr) O_data_drop [AInt (Z.of_nat i)]) with (exec_misc (fr_module fr) O_data_drop [AInt (Z.of_nat i)]) in P.
  assert (W0 : val_wf (num_val T_i32 (0 mod 2 ^ 32))) by apply mkval_wf. assert (W1 : val_wf (num_val T_i32 (len d mod 2 ^ 32))) by apply mkval_wf.
  assert (N0 : low 32 (num_val T_i32 (0 mod 2 ^ 32)) = 0) by reflexivity.
  assert (N1 : low 32 (num_val T_i32 (len d mod 2 ^ 32)) = len d) by (rewrite low_num, Z.mod_mod by lia; apply Z.mod_small; lia).
  set (v0 := num_val T_i32 (0 mod 2 ^ 32)) in *. set (v1 := num_val T_i32 (len d mod 2 ^ 32)) in *.
  set (st := mkb s (fr_locals fr) [v1; v0; v]) in *.
  assert (E : exec_misc (fr_module fr) O_memory_init [AInt (Z.of_nat i)] st =
    if c + len d <=? len (mi_data mem)
    then (Ok tt, mkb (with_mem s a (mkmem (mi_type mem) (spliced (mi_data mem) c d) (mi_size mem))) (fr_locals fr) [])
    else (Err EAssert, mkb s (fr_locals fr) [])).
  { cbn [exec_misc]. unfold st.
    rewrite (bind_do _ _ _ _ _ (mod_addr_run _ _ _ _ m_mems 0 _ Ha)). rewrite (bind_do _ _ _ _ _ (get_mem_run s _ _ _ _ Hm)).
    rewrite (bind_do _ _ _ _ _ (arg_run s _ _ [AInt (Z.of_nat i)] 0 _ eq_refl)).
    rewrite (bind_do _ _ _ _ _ (mod_addr_run _ _ _ _ m_data i _ Hda)). rewrite (bind_do _ _ _ _ _ (get_data_run s _ _ _ _ Hdb)).
    rewrite (bind_do _ _ _ _ _ (get_blob_run s _ _ _ _ Hb)).
    rewrite (bind_do _ _ _ _ _ (pop_u32_run s _ _ _ W1)), (bind_do _ _ _ _ _ (pop_u32_run s _ _ _ W0)), (bind_do _ _ _ _ _ (pop_u32_run s _ _ _ Wv)).
    rewrite N0, N1, Lv. rewrite (bind_do _ _ _ _ _ (assert_true s _ _ (0 + len d <=? len d) ltac:(lia))).
    destruct (Z.leb_spec (c + len d) (len (mi_data mem))) as [H|H].
    - rewrite (bind_do _ _ _ _ _ (assert_true s _ _ true eq_refl)). rewrite splice_slice by lia.
      exact (put_mem_run s _ _ a mem _ Hm).
    - rewrite (bind_fail (assert false) _ _ EAssert (mkb s (fr_locals fr) [])) by reflexivity. reflexivity. }
  destruct (Z.leb_spec (c + len d) (len (mi_data mem))) as [H|H].
  - rewrite (bind_do _ _ _ _ _ E) in P. cbn [exec_misc] in P. set (s1 := with_mem _ _ _) in *.
    unfold bind at 1 in P. rewrite (bind_do _ _ _ _ _ (arg_run s1 _ _ [AInt (Z.of_nat i)] 0 _ eq_refl)) in P.
    rewrite (bind_do _ _ _ _ _ (mod_addr_run s1 _ _ (fr_module fr) m_data i _ Hda)) in P. rewrite (bind_do _ _ _ _ _ (get_data_run s1 _ _ _ _ Hdb)) in P.
    rewrite put_blob_run in P. unfold ret in P. cbn [b_value b_store b_locals length] in P.
    replace (Nat.ltb (length l) n) with true in P by (symmetry; apply PeanoNat.Nat.ltb_lt; exact Hn). cbn [andb Nat.eqb] in P. rewrite P.
    unfold finish. cbn [b_value b_store b_locals]. rewrite relocal_same. reflexivity.
  - rewrite (bind_fail _ _ _ _ _ E) in P. exact P.
Qed.

Lemma even_land k : (Z.land k 1 =? 0) = Z.even k.
Proof.
  change (Z.land k 1) with (Z.land k (Z.ones 1)). rewrite Z.land_ones by lia. change (2 ^ 1) with 2. rewrite Zmod_odd, <- Z.negb_even.
  destruct (Z.even k); reflexivity.
Qed.
(* what the loop needs to know about segment number [i], description [e], bytearray [b] *)
Definition seg_ok (s : store) (mr : modref) (it : Z * (datadesc * nat)) : Prop :=
  let '(i, (e, b)) := it in
  exists j da d, i = Z.of_nat j /\ nth_error (m_data (mod_of s mr)) j = Some (Z.of_nat da) /\ nth_error (s_data s) da = Some b /\
    nth_error (s_blob s) b = Some d /\
    (active e = true -> len d < 2 ^ 31 /\ exists c, offset_of (global_value s (mod_of s mr)) (dd_offset e) = Some c).
Definition with_init (s : store) (a : nat) (mem : meminst) (d : list Z) (blobs : list (list Z)) : store :=
  mkstore (s_func s) (s_tabl s) (upd (s_mems s) a (mkmem (mi_type mem) d (mi_size mem))) (s_glob s) (s_elem s) (s_data s) (s_inst s) blobs.
Lemma emptied_nil bl : emptied [] bl bl.
Proof. intros b. reflexivity. Qed.
Lemma data_loop_run n fr l : forall s a mem,
  (5 < n)%nat -> Forall (fun g => val_wf (gi_data g)) (s_glob s) ->
  nth_error (m_mems (mod_of s (fr_module fr))) 0 = Some (Z.of_nat a) -> nth_error (s_mems s) a = Some mem ->
  Forall (seg_ok s (fr_module fr)) l -> NoDup (map (fun it => snd (snd it)) l) ->
  match write_all (segments (global_value s (mod_of s (fr_module fr))) (s_blob s) (map snd l)) (mi_data mem) with
  | Some d' => exists blobs', emptied (map snd l) (s_blob s) blobs' /\
      data_loop F host n l (mkmach s [] [] [fr]) = (Ok tt, mkmach (with_init s a mem d' blobs') [] [] [fr])
  | None => exists e m', data_loop F host n l (mkmach s [] [] [fr]) = (Err e, m')
  end.
Proof.
  induction l as [|[i [e b]] l IH]; intros s a mem Hn Hg Ha Hm Hok Hnd.
  - cbn [map segments flat_map write_all]. exists (s_blob s). split; [apply emptied_nil|]. unfold with_init.
    replace (upd (s_mems s) a _) with (s_mems s) by (symmetry; apply upd_same; rewrite Hm; destruct mem; reflexivity). destruct s; reflexivity.
  - apply Forall_cons_iff in Hok. destruct Hok as [Hi Hok]. cbn [map] in Hnd. inversion Hnd as [|? ? Hnin Hnd']; subst. cbn [snd] in Hnin.
    cbn [seg_ok] in Hi. destruct Hi as (j & da & d & -> & Hda & Hdb & Hb & Hact).
    unfold data_loop. cbn [forl map snd]. unfold segments. cbn [flat_map]. rewrite even_land. fold (active e).
    destruct (active e) eqn:Eact; cbn [negb].
    + destruct (Hact eq_refl) as (Hlen & c & Hc). rewrite Hc. cbn [app]. rewrite (nth_error_nth _ _ [] Hb). cbn [write_all].
      pose proof (data_one n j s fr a mem b d (dd_offset e) c Hg Hn Ha Hm (ex_intro _ da (conj Hda Hdb)) Hb Hc Hlen) as P.
      destruct (Z.leb_spec (c + len d) (len (mi_data mem))) as [Hfit|Hfit].
      2:{ destruct P as (x & m' & P). exists x, m'. apply bind_fail. rewrite (bind_do mget _ _ _ _ eq_refl). cbn [k_store]. rewrite (nth_error_nth _ _ [] Hb). exact P. }
      set (s1 := with_blob _ b []) in P. set (mem1 := mkmem (mi_type mem) (spliced (mi_data mem) c d) (mi_size mem)) in *.
      assert (Hnb : forall b', In b' (map (fun it => snd (snd it)) l) -> nth_error (s_blob s1) b' = nth_error (s_blob s) b').
      { intros b' Hin. cbn [s1 with_blob s_blob with_mem]. rewrite nth_error_upd. destruct (Nat.eqb_spec b' b) as [->|]; [contradiction|reflexivity]. }
      assert (Hm1 : nth_error (s_mems s1) a = Some mem1) by (cbn [s1 with_blob s_mems with_mem]; exact (nth_upd_same _ _ _ _ Hm)).
      assert (Hok1 : Forall (seg_ok s1 (fr_module fr)) l).
      { rewrite Forall_forall in Hok |- *. intros [i' [e' b']] Hin. specialize (Hok _ Hin). cbn [seg_ok] in *.
        destruct Hok as (j' & da' & d' & H1 & H2 & H3 & H4 & H5). exists j', da', d'. repeat split; try assumption.
        - rewrite Hnb; [exact H4|]. change b' with (snd (snd (i', (e', b')))). apply (in_map (fun it => snd (snd it))), Hin.
        - apply (H5 H).
        - exact (proj2 (H5 H)). }
      specialize (IH s1 a mem1 Hn Hg Ha Hm1 Hok1 Hnd').
      assert (Hseg : segments (global_value s1 (mod_of s1 (fr_module fr))) (s_blob s1) (map snd l) =
                     segments (global_value s (mod_of s (fr_module fr))) (s_blob s) (map snd l)).
      { unfold segments. rewrite !flat_map_concat_map, !map_map. f_equal. apply map_ext_in. intros [i' [e' b']] Hin. cbn [snd].
        change (global_value s1 (mod_of s1 (fr_module fr))) with (global_value s (mod_of s (fr_module fr))).
        assert (X : nth b' (s_blob s1) [] = nth b' (s_blob s) []).
        { rewrite <- !nth_default_eq. unfold nth_default. rewrite Hnb; [reflexivity|]. change b' with (snd (snd (i', (e', b')))). apply (in_map (fun it => snd (snd it))), Hin. }
        rewrite X. reflexivity. }
      rewrite Hseg in IH. unfold segments in IH. cbn [mem1 mi_data] in IH. unfold spliced in IH.
      assert (E : (let! m := mget in run_expr F host n (data_code (Z.of_nat j) (dd_offset e) (len (nth b (s_blob (k_store m)) []))) 0) (mkmach s [] [] [fr]) = (Ok tt, mkmach s1 [] [] [fr])).
      { rewrite (bind_do mget _ _ _ _ eq_refl). cbn [k_store]. rewrite (nth_error_nth _ _ [] Hb). exact P. }
      rewrite (bind_do _ _ _ _ _ E). clear E P.
      destruct (write_all _ _) as [d'|] in IH |- *.
      * destruct IH as (bl & Hbl & IH). exists bl. split.
        -- intros k. rewrite Hbl. cbn [existsb]. rewrite Eact. cbn [andb s1 with_blob s_blob with_mem]. rewrite nth_error_upd.
           destruct (Nat.eqb_spec k b) as [->|Hk]; cbn [orb]; [|reflexivity].
           assert (Hlt : (b < length (s_blob s))%nat) by (apply nth_error_Some; congruence). destruct (Nat.ltb_spec b (length (s_blob s))); [|lia]. rewrite Hb. cbn [option_map].
           destruct (existsb _ _); reflexivity.
        -- unfold data_loop in IH. rewrite IH. unfold with_init. cbn [s1 with_blob with_mem s_func s_tabl s_mems s_glob s_elem s_data s_inst mem1 mi_type mi_size].
           rewrite upd_upd. reflexivity.
      * exact IH.
    + cbn [app]. rewrite (bind_do (ret tt) _ _ tt _ eq_refl). specialize (IH s a mem Hn Hg Ha Hm Hok Hnd'). unfold segments in IH.
      destruct (write_all _ _) as [d'|] in IH |- *; [|exact IH]. destruct IH as (bl & Hbl & IH). exists bl. split; [|exact IH].
      intros k. rewrite Hbl. cbn [existsb]. rewrite Eact. reflexivity.
Qed.
End straight.

(* ---- the data of a whole module ---- *)
Lemma in_enum {A} (l : list A) i x : In (i, x) (combine (py_range (len l)) l) -> exists j, i = Z.of_nat j /\ nth_error l j = Some x.
Proof.
  unfold py_range, len. rewrite Nat2Z.id. assert (G : forall b, In (i, x) (combine (map Z.of_nat (seq b (length l))) l) -> exists j, i = Z.of_nat (b + j) /\ nth_error l j = Some x).
  { induction l as [|y l IH]; intros b H; [destruct H|]. cbn in H. destruct H as [H|H].
    - injection H as <- <-. exists O. split; [lia|reflexivity].
    - destruct (IH (S b) H) as (j & -> & Hj). exists (S j). split; [lia|exact Hj]. }
  intros H. destruct (G O H) as (j & -> & Hj). exists j. split; [lia|exact Hj].
Qed.
Lemma combine_nth_error {A B} (l : list A) (k : list B) j x y : nth_error (combine l k) j = Some (x, y) -> nth_error l j = Some x /\ nth_error k j = Some y.
Proof. revert k j. induction l as [|a l IH]; intros [|b k] [|j] H; cbn in *; try discriminate; [injection H as -> ->; split; reflexivity|apply IH, H]. Qed.
Lemma nth_fresh b n j : (j < n)%nat -> nth_error (fresh b n) j = Some (Z.of_nat (b + j)).
Proof.
  intros H. unfold fresh. apply map_nth_error. rewrite (nth_error_nth' _ O) by (rewrite seq_length; exact H). rewrite seq_nth by exact H. reflexivity.
Qed.
Lemma mem_new_blank t x : mem_new t = Ok x -> x = new_memory t.
Proof. intros H. rewrite (mem_new_facts _ _ H). unfold new_memory, zeros. do 3 f_equal. lia. Qed.
Lemma Forall2_map_eq {A B} (f : A -> B) (R : A -> B -> Prop) l k : (forall x y, R x y -> y = f x) -> Forall2 R l k -> k = map f l.
Proof. intros H. induction 1 as [|x y l k Hxy _ IH]; [reflexivity|]. cbn. rewrite (H _ _ Hxy), IH. reflexivity. Qed.

Definition data_items (L : loaded) : list (Z * (datadesc * nat)) := combine (py_range (len (md_data (l_desc L)))) (combine (md_data (l_desc L)) (l_blob L)).
Lemma segs_ok s L h mi D : nth_error (s_inst s) h = Some mi -> m_data mi = fresh (length D) (length (l_blob L)) -> s_data s = D ++ l_blob L -> blobs_ok s L ->
  (forall e, In e (md_data (l_desc L)) -> active e = true -> exists c, offset_of (global_value s mi) (dd_offset e) = Some c) ->
  Forall (seg_ok s (MRef h)) (data_items L) /\ NoDup (map (fun it => snd (snd it)) (data_items L)) /\ map snd (data_items L) = combine (md_data (l_desc L)) (l_blob L).
Proof.
  intros Hi Hd HD (B1 & B2 & B3) Ho. unfold data_items.
  replace (len (md_data (l_desc L))) with (len (combine (md_data (l_desc L)) (l_blob L))) by (unfold len; rewrite combine_length; lia).
  assert (M : map snd (combine (py_range (len (combine (md_data (l_desc L)) (l_blob L)))) (combine (md_data (l_desc L)) (l_blob L))) = combine (md_data (l_desc L)) (l_blob L)).
  { generalize (combine (md_data (l_desc L)) (l_blob L)). intros k. assert (X : length (py_range (len k)) = length k) by (unfold len; apply py_range_len).
    revert X. generalize (py_range (len k)). induction k as [|y k IH]; intros [|x l] X; try discriminate X; [reflexivity|]. cbn. f_equal. apply IH. injection X as X. exact X. }
  split; [|split; [|exact M]].
  - apply Forall_forall. intros [i [e b]] Hin. apply in_enum in Hin. destruct Hin as (j & -> & Hj). apply combine_nth_error in Hj. destruct Hj as [He Hb].
    rewrite Forall_forall in B3. destruct (B3 b (nth_error_In _ _ Hb)) as (d & Hbd & Hlen).
    assert (Hj : (j < length (l_blob L))%nat) by (apply nth_error_Some; congruence).
    exists j, (length D + j)%nat, d. rewrite (mod_of_ref _ _ _ Hi). split; [reflexivity|]. split; [rewrite Hd; apply nth_fresh, Hj|].
    split; [rewrite HD, nth_error_app2 by lia; rewrite <- Hb; f_equal; lia|]. split; [exact Hbd|]. intros Ha. split; [exact Hlen|].
    apply (Ho e); [exact (nth_error_In _ _ He)|exact Ha].
  - rewrite <- (map_map snd snd), M.
    assert (X : map snd (combine (md_data (l_desc L)) (l_blob L)) = l_blob L).
    { revert B1. generalize (l_blob L), (md_data (l_desc L)). intros l. induction l as [|y l IH]; intros [|x k] X; try discriminate X; [reflexivity|]. cbn. f_equal. apply IH. injection X as X. exact X. }
    rewrite X. exact B2.
Qed.

Section whole.
Context (F : fops) (host : hostcode).
Lemma pop_push s fr : pop_frame (mkmach s [] [] [fr]) = (Ok tt, mkmach s [] [] []).
Proof. reflexivity. Qed.

Record data_rest (s s' : store) : Prop := mk_data_rest {
  dr_func : s_func s' = s_func s; dr_tabl : s_tabl s' = s_tabl s; dr_glob : s_glob s' = s_glob s; dr_elem : s_elem s' = s_elem s;
  dr_data : s_data s' = s_data s; dr_inst : s_inst s' = s_inst s }.
Lemma dr_refl s : data_rest s s.
Proof. split; reflexivity. Qed.
Lemma dr_trans a b c : data_rest a b -> data_rest b c -> data_rest a c.
Proof. intros [] []. split; congruence. Qed.
Lemma memory_init_ok mr args b b' : exec_basic F mr O_memory_init args b = (Ok tt, b') ->
  data_rest (b_store b) (b_store b') /\ b_locals b' = b_locals b /\ length (b_value b) = (3 + length (b_value b'))%nat.
Proof.
  intros E. change (exec_basic F mr O_memory_init args) with (exec_misc mr O_memory_init args) in E. cbn [exec_misc] in E.
  nxt E b1 a. unfold mod_addr in E0. nxt E0 b2 st. injection E1 as <- <-. unfold lift in E0. injection E0 as _ <-.
  nxt E b1 t. unfold get_mem in E0. nxt E0 b2 st. injection E1 as <- <-. unfold lift in E0. injection E0 as _ <-.
  nxt E b1 i. unfold lift in E0. injection E0 as _ <-.
  nxt E b1 ea. unfold mod_addr in E0. nxt E0 b2 st. injection E1 as <- <-. unfold lift in E0. injection E0 as _ <-.
  nxt E b1 e. unfold get_data in E0. nxt E0 b2 st. injection E1 as <- <-. unfold lift in E0. injection E0 as _ <-.
  nxt E b1 d. unfold get_blob in E0. nxt E0 b2 st. injection E1 as <- <-. unfold lift in E0. injection E0 as _ <-.
  nxt E b1 x. apply u32_ok in E0. destruct E0 as (v1 & V1 & S1 & L1). nxt E b2 y. apply u32_ok in E0. destruct E0 as (v2 & V2 & S2 & L2).
  nxt E b3 z. apply u32_ok in E0. destruct E0 as (v3 & V3 & S3 & L3).
  nxt E b4 u. rewrite assert_run in E0. injection E0 as _ <-. nxt E b4 u0. rewrite assert_run in E0. injection E0 as _ <-.
  unfold put_mem in E. nxt E b4 st. injection E0 as <- <-. nxt E b4 l0. unfold lift in E0. injection E0 as _ <-. unfold put_store in E. injection E as <-.
  cbn [b_store b_locals b_value]. rewrite V1, V2, V3, L3, L2, L1, S3, S2, S1. split; [split; reflexivity|split; reflexivity].
Qed.
Lemma data_drop_ok mr args b b' : exec_basic F mr O_data_drop args b = (Ok tt, b') ->
  data_rest (b_store b) (b_store b') /\ b_locals b' = b_locals b /\ b_value b' = b_value b.
Proof.
  intros E. change (exec_basic F mr O_data_drop args) with (exec_misc mr O_data_drop args) in E. cbn [exec_misc] in E.
  nxt E b1 j. unfold lift in E0. injection E0 as _ <-.
  nxt E b1 a. unfold mod_addr in E0. nxt E0 b2 st. injection E1 as <- <-. unfold lift in E0. injection E0 as _ <-.
  nxt E b1 e. unfold get_data in E0. nxt E0 b2 st. injection E1 as <- <-. unfold lift in E0. injection E0 as _ <-.
  unfold put_blob in E. nxt E b4 st. injection E0 as <- <-. unfold put_store in E. injection E as <-.
  cbn [b_store b_locals b_value]. split; [split; reflexivity|split; reflexivity].
Qed.
Lemma data_loop_ok n l s fr m' : Forall (fun it => active (fst (snd it)) = true -> constant (dd_offset (fst (snd it)))) l ->
  data_loop F host n l (mkmach s [] [] [fr]) = (Ok tt, m') -> exists s', data_rest s s' /\ m' = mkmach s' [] [] [fr].
Proof.
  revert s. induction l as [|[i [e bb]] l IH]; intros s H E; [injection E as <-; exists s; split; [apply dr_refl|reflexivity]|].
  apply Forall_cons_iff in H. destruct H as [Hx H]. cbn [fst snd] in Hx. unfold data_loop in E. cbn [forl] in E. nxt E m1 u. destruct u.
  assert (X : exists s', data_rest s s' /\ m1 = mkmach s' [] [] [fr]).
  { rewrite even_land in E0. fold (active e) in E0. destruct (active e) eqn:K; cbn [negb] in E0; [|injection E0 as <-; exists s; split; [apply dr_refl|reflexivity]].
    rewrite (bind_do mget _ _ _ _ eq_refl) in E0. cbn [k_store] in E0. destruct (Hx eq_refl) as (o & args & Eo & Ho). unfold data_code in E0. rewrite Eo in E0.
    set (z := len _) in E0.
    change (run_expr F host n (code_of [(o, args); (O_i32_const, [AInt 0]); (O_i32_const, [AInt z]);
      (O_memory_init, [AInt i]); (O_data_drop, [AInt i])]) 0 (mkmach s [] [] [fr]) = (Ok tt, m1)) in E0.
    apply run_straight_ok in E0; [|repeat constructor; apply const_straight, Ho]. destruct E0 as (b & E0 & Hl & ->).
    cbn [ops] in E0. nxt E0 b1 u. destruct u. destruct (const_op_run _ _ _ _ _ _ Ho E1) as (v & ->). clear E1. cbn [b_store b_locals b_value] in E0.
    nxt E0 b2 u. destruct u. apply const_op_run in E1; [|left; reflexivity]. destruct E1 as (v1 & ->). cbn [b_store b_locals b_value] in E0.
    nxt E0 b2 u. destruct u. apply const_op_run in E1; [|left; reflexivity]. destruct E1 as (v2 & ->). cbn [b_store b_locals b_value] in E0.
    nxt E0 b2 u. destruct u. apply memory_init_ok in E1. destruct E1 as (R1 & L1 & N1). cbn [b_store b_locals b_value length] in R1, L1, N1.
    nxt E0 b3 u. destruct u. apply data_drop_ok in E1. destruct E1 as (R2 & L2 & N2). injection E0 as <-.
    exists (b_store b3). split; [exact (dr_trans _ _ _ R1 R2)|]. unfold finish. rewrite L2, L1, relocal_same.
    destruct (b_value b3); [reflexivity|discriminate Hl]. }
  destruct X as (s1 & R1 & ->). destruct (IH s1 H E) as (s2 & R2 & ->). exists s2. split; [exact (dr_trans _ _ _ R1 R2)|reflexivity].
Qed.

Lemma inst_data n L ext s h m' :
  well_behaved host -> store_ok s -> desc_ok (l_desc L) -> constants (l_desc L) -> md_star (l_desc L) < 0 -> blobs_ok s L -> (5 < n)%nat ->
  instance F host n L ext (mkmach s [] [] []) = (Ok h, m') ->
  exists mi, nth_error (s_inst (k_store m')) h = Some mi /\
    (k_value m' = [] /\ k_label m' = [] /\ k_frame m' = []) /\
    (exists fs gs, s_func (k_store m') = s_func s ++ fs /\ s_glob (k_store m') = s_glob s ++ gs /\ s_data (k_store m') = s_data s ++ l_blob L /\ s_inst (k_store m') = s_inst s ++ [mi]) /\
    (m_mems mi = imported 2 ext ++ fresh (length (s_mems s)) (length (md_mems (l_desc L))) /\
     m_glob mi = imported 3 ext ++ fresh (length (s_glob s)) (length (md_glob (l_desc L)))) /\
    forall a mem, nth_error (m_mems mi) 0 = Some (Z.of_nat a) -> nth_error (s_mems s ++ map new_memory (md_mems (l_desc L))) a = Some mem ->
      (forall e, In e (md_data (l_desc L)) -> active e = true -> exists c, offset_of (global_value (k_store m') mi) (dd_offset e) = Some c) ->
      exists d', write_all (segments (global_value (k_store m') mi) (s_blob s) (combine (md_data (l_desc L)) (l_blob L))) (mi_data mem) = Some d' /\
        s_mems (k_store m') = upd (s_mems s ++ map new_memory (md_mems (l_desc L))) a (mkmem (mi_type mem) d' (mi_size mem)) /\
        emptied (combine (md_data (l_desc L)) (l_blob L)) (s_blob s) (s_blob (k_store m')).
Proof.
  intros Hh Hs HD (C1 & C2 & C3 & C4) Hst HB Hn E. apply instance_ok in E. destruct E as (_ & _ & globin & elemin & m1 & m2 & E1 & E2 & _ & E3).
  assert (OK0 : inv s (mkmach s [] [] [])) by (apply (inv_here (mkmach s [] [] [])); split; [exact Hs|constructor..]).
  destruct (safe_ok _ _ _ _ _ _ (s_head s F host Hh n _ _ HD) OK0 E1) as (I1 & G1 & G2). cbn [fst snd] in G1, G2.
  apply head_run in E1; [|exact C1|exact C2]. subst m1.
  destruct (safe_ok _ _ _ _ _ _ (s_allocate s L ext globin elemin HD G1 G2) OK0 E2) as (I2 & _). destruct I2 as [[I2 _ _ _] _].
  destruct (allocate_ok _ _ _ _ _ _ _ E2) as (s2 & mi & fs & ts & ms & gs & es & A & ->). cbn [k_store set_store k_value k_label k_frame] in *.
  destruct A as [A1 A2 A3 A4 A5 A6 A7 A8 A9 A10 A11 A12 A13 A14 A15].
  unfold init_all in E3. nxt E3 m3 u. unfold push_frame in E0. injection E0 as _ <-. cbn [k_store k_value k_label k_frame set_store] in E3.
  nxt E3 m3 u0. destruct u0. apply elem_loop_ok in E0.
  2:{ apply Forall_forall. intros [i e] Hin K. apply in_combine_r in Hin. rewrite Forall_forall in C3. apply (C3 e Hin). rewrite <- even_land. apply Z.eqb_eq, K. }
  destruct E0 as (s3 & R3 & ->). nxt E3 m3 u0. destruct u0. apply drop_loop_ok in E0. destruct E0 as (s4 & R4 & ->). pose proof (same_trans _ _ _ R3 R4) as R. clear R3 R4.
  assert (Hi4 : nth_error (s_inst s4) h = Some mi). { rewrite (sr_inst _ _ R), A2, A1. apply nth_last. }
  nxt E3 m3 u0. destruct u0. fold (data_items L) in E0. pose proof E0 as E0'. apply data_loop_ok in E0'.
  2:{ apply Forall_forall. intros [i [e b]] Hin. apply in_combine_r, in_combine_l in Hin. rewrite Forall_forall in C4. apply (C4 e Hin). }
  destruct E0' as (s5 & R5 & ->). nxt E3 m4 u0. destruct u0. unfold start_it in E1. destruct (Z.geb_spec (md_star (l_desc L)) 0); [lia|]. injection E1 as <-.
  nxt E3 m5 u0. injection E3 as <-. rewrite pop_push in E1. injection E1 as _ <-. cbn [k_store k_value k_label k_frame].
  exists mi. rewrite (dr_inst _ _ R5). split; [exact Hi4|]. split; [repeat split|].
  split. { exists fs, gs. rewrite (dr_func _ _ R5), (dr_glob _ _ R5), (dr_data _ _ R5), (sr_func _ _ R), (sr_glob _ _ R), (sr_data _ _ R), (sr_inst _ _ R), A2. repeat split. }
  split; [split; assumption|].
  intros a mem Ha Hm Ho.
  assert (Hms : s_mems s4 = s_mems s ++ map new_memory (md_mems (l_desc L))).
  { rewrite (sr_mems _ _ R), A2. cbn [s_mems k_store set_store]. f_equal. refine (Forall2_map_eq new_memory _ _ _ _ A13); exact mem_new_blank. }
  assert (Hbl : s_blob s4 = s_blob s) by (rewrite (sr_blob _ _ R), A2; reflexivity).
  assert (Hgv : global_value s5 mi = global_value s4 mi) by (unfold global_value; rewrite (dr_glob _ _ R5); reflexivity).
  rewrite Hgv in *.
  destruct (segs_ok s4 L h mi (s_data s)) as (K1 & K2 & K3); try assumption.
  { rewrite (sr_data _ _ R), A2. reflexivity. }
  { unfold blobs_ok. rewrite Hbl. exact HB. }
  pose proof (data_loop_run F host n (mkframe (MRef h) [] 0 0 0) (data_items L) s4 a mem Hn) as P. cbn [fr_module] in P.
  rewrite (mod_of_ref _ _ _ Hi4), K3, Hms, Hbl in P. specialize (P ltac:(rewrite (sr_glob _ _ R); apply I2) Ha Hm K1 K2).
  destruct (write_all _ _) as [d'|] in P |- *.
  - destruct P as (bl & P1 & P2). rewrite P2 in E0. injection E0 as E0. exists d'. rewrite <- E0. unfold with_init. cbn [s_mems s_blob]. rewrite Hms. repeat split. exact P1.
  - destruct P as (x & mm & P). rewrite P in E0. discriminate E0.
Qed.
(* modules without globals, element segments and start function: exactly when instantiation works *)
Lemma inst_exact n L ext s a mem :
  allocatable L ext -> Forall (fun b => 0 <= e_data b) ext -> Forall (fun a => forall i, im_desc a = ImpFunc i -> 0 <= i) (md_imps (l_desc L)) ->
  Forall2 (fits s (l_desc L)) (md_imps (l_desc L)) ext ->
  Forall (fun g => val_wf (gi_data g)) (s_glob s) -> md_star (l_desc L) < 0 -> blobs_ok s L -> (5 < n)%nat ->
  nth_error (imported 2 ext ++ fresh (length (s_mems s)) (length (md_mems (l_desc L)))) 0 = Some (Z.of_nat a) ->
  nth_error (s_mems s ++ map new_memory (md_mems (l_desc L))) a = Some mem ->
  (forall e, In e (md_data (l_desc L)) -> active e = true -> exists c, offset_of (imported_value s ext) (dd_offset e) = Some c) ->
  match write_all (segments (imported_value s ext) (s_blob s) (combine (md_data (l_desc L)) (l_blob L))) (mi_data mem) with
  | Some d' => exists s', instance F host n L ext (mkmach s [] [] []) = (Ok (length (s_inst s)), mkmach s' [] [] []) /\
      s_mems s' = upd (s_mems s ++ map new_memory (md_mems (l_desc L))) a (mkmem (mi_type mem) d' (mi_size mem)) /\
      s_glob s' = s_glob s /\ emptied (combine (md_data (l_desc L)) (l_blob L)) (s_blob s) (s_blob s') /\ length (s_inst s') = S (length (s_inst s))
  | None => exists e m', instance F host n L ext (mkmach s [] [] []) = (Err e, m')
  end.
Proof.
  intros HA Hb Hf Hfit Hg Hst HB Hn Ha Hm Ho. set (gv := imported_value s ext) in *.
  pose proof HA as (_ & _ & _ & N1 & N2 & _).
  rewrite instance_phases. assert (HL : length (md_imps (l_desc L)) = length ext) by (clear -Hfit; induction Hfit; cbn; congruence). rewrite (bind_do _ _ _ tt (mkmach s [] [] [])).
  2:{ rewrite assert_run. f_equal. apply assert_ok, Z.eqb_eq. unfold len. rewrite HL. reflexivity. }
  rewrite (bind_do _ _ _ tt (mkmach s [] [] [])).
  2:{ destruct (checks_run (l_desc L) _ _ (mkmach s [] [] []) HL Hb Hf) as [[_ H]|[H _]]; [exact H|contradiction]. }
  rewrite (bind_do mget _ _ _ _ eq_refl). cbv zeta. cbn [k_store].
  rewrite (bind_do _ _ _ ([], []) (mkmach s [] [] [])).
  2:{ unfold inst_head. rewrite N1, N2. reflexivity. }
  cbn [fst snd]. destruct (allocate_total L ext (mkmach s [] [] []) HA) as (h & m2 & E2). rewrite (bind_do _ _ _ _ _ E2).
  destruct (allocate_ok _ _ _ _ _ _ _ E2) as (s2 & mi & fs & ts & ms & gs & es & A & ->). cbn [k_store set_store k_value k_label k_frame] in *.
  destruct A as [A1 A2 A3 A4 A5 A6 A7 A8 A9 A10 A11 A12 A13 A14 A15]. rewrite (bind_do mget _ _ _ _ eq_refl). cbn [k_store].
  assert (Hi : nth_error (s_inst s2) h = Some mi) by (rewrite A2, A1; apply nth_last).
  rewrite (bind_do _ _ _ tt (mkmach s2 [] [] [])).
  2:{ rewrite assert_run. f_equal. apply assert_ok, Zs_eqb_eq. rewrite (mod_of_ref _ _ mi) by exact Hi. rewrite A4. unfold aux_funcs, len. rewrite range_fresh. reflexivity. }
  unfold init_all. rewrite !bind_assoc. rewrite (bind_do _ _ _ tt (mkmach s2 [] [] [mkframe (MRef h) [] 0 0 0])) by reflexivity.
  rewrite !bind_assoc. rewrite (bind_do _ _ _ tt (mkmach s2 [] [] [mkframe (MRef h) [] 0 0 0])) by (rewrite N2; reflexivity).
  rewrite !bind_assoc. rewrite (bind_do _ _ _ tt (mkmach s2 [] [] [mkframe (MRef h) [] 0 0 0])) by (rewrite N2; reflexivity).
  rewrite !bind_assoc. fold (data_items L).
  assert (Hms : s_mems s2 = s_mems s ++ map new_memory (md_mems (l_desc L))).
  { rewrite A2. cbn [s_mems k_store set_store]. f_equal. refine (Forall2_map_eq new_memory _ _ _ _ A13); exact mem_new_blank. }
  assert (gs = []) as -> by (rewrite N1 in A14; inversion A14; reflexivity). rewrite N1 in A7. cbn in A7. rewrite app_nil_r in A2 at 4 || idtac.
  assert (Hgs : s_glob s2 = s_glob s) by (rewrite A2; cbn [s_glob]; apply app_nil_r).
  assert (Hbl : s_blob s2 = s_blob s) by (rewrite A2; reflexivity).
  assert (Hgv : forall j, 0 <= j -> global_value s2 mi j = gv j).
  { intros j Hj. unfold global_value, gv, imported_value. rewrite A7, Hgs, app_nil_r. destruct (nth_error (imported 3 ext) (Z.to_nat j)) as [x|] eqn:Ex; [|reflexivity].
    assert (0 <= x). { clear -Hb Ex. revert Ex. generalize (Z.to_nat j). induction ext as [|y l IH]; intros k E; [destruct k; discriminate E|]. apply Forall_cons_iff in Hb. destruct Hb as [H1 H2].
      cbn in E. destruct (e_kind y =? 3); [|exact (IH H2 k E)]. destruct k; [injection E as <-; exact H1|exact (IH H2 k E)]. }
    destruct (Z.leb_spec 0 x); [reflexivity|lia]. }
  assert (Hoff : forall e, offset_of (global_value s2 mi) e = offset_of gv e).
  { intros e. unfold offset_of. destruct e as [|[| | |o args] [|]]; try reflexivity; try (destruct args as [|[] []]; destruct o; reflexivity).
    destruct args as [|x [|]]; try (destruct o; reflexivity); destruct x as [z| | | |] || destruct x as [z| | |] || destruct x as [z| |] || destruct x as [z|]; try (destruct o; reflexivity). destruct o; try reflexivity. destruct (Z.leb_spec 0 z); [rewrite Hgv by assumption; reflexivity|reflexivity]. }
  destruct (segs_ok s2 L h mi (s_data s)) as (K1 & K2 & K3); try assumption.
  { rewrite A2. reflexivity. }
  { unfold blobs_ok. rewrite Hbl. exact HB. }
  { intros e H1 H2. rewrite Hoff. apply Ho; assumption. }
  pose proof (data_loop_run F host n (mkframe (MRef h) [] 0 0 0) (data_items L) s2 a mem Hn) as P. cbn [fr_module] in P.
  rewrite (mod_of_ref _ _ _ Hi), K3, Hms, Hbl in P. rewrite A6 in P. specialize (P ltac:(rewrite Hgs; exact Hg) Ha Hm K1 K2).
  replace (segments (global_value s2 mi) (s_blob s) (combine (md_data (l_desc L)) (l_blob L))) with (segments gv (s_blob s) (combine (md_data (l_desc L)) (l_blob L))) in P.
  2:{ unfold segments. apply flat_map_ext. intros [e b]. rewrite Hoff. reflexivity. }
  destruct (write_all _ _) as [d'|] in P |- *.
  - destruct P as (bl & P1 & P2). rewrite (bind_do _ _ _ _ _ P2). rewrite !bind_assoc. unfold start_it. destruct (Z.geb_spec (md_star (l_desc L)) 0); [lia|].
    rewrite (bind_do (ret tt) _ _ _ _ eq_refl). rewrite !bind_assoc. rewrite (bind_do _ _ _ _ _ (pop_push _ _)). rewrite (bind_do (ret tt) _ _ _ _ eq_refl).
    exists (with_init s2 a mem d' bl). split; [rewrite A1; reflexivity|]. unfold with_init. cbn [s_mems s_glob s_blob s_inst]. rewrite Hms. repeat split; [exact Hgs|exact P1|].
    rewrite A2. cbn [s_inst]. rewrite app_length. cbn. lia.
  - destruct P as (x & mm & P). exists x, mm. apply bind_fail. exact P.
Qed.

Lemma no_active n l m : Forall (fun it => active (fst (snd it)) = false) l -> data_loop F host n l m = (Ok tt, m).
Proof.
  induction l as [|[i [e b]] l IH]; intros H; [reflexivity|]. apply Forall_cons_iff in H. destruct H as [Hx H]. cbn [fst snd] in Hx.
  unfold data_loop. cbn [forl]. rewrite even_land. fold (active e). rewrite Hx. cbn [negb]. rewrite (bind_do (ret tt) _ _ _ _ eq_refl). apply IH, H.
Qed.
Lemma no_active_elems n l m : Forall (fun e => Z.land (ed_kind e) 1 <> 0 /\ Z.land (ed_kind e) 3 <> 3) (map snd l) ->
  elem_loop F host n l m = (Ok tt, m) /\ drop_loop F host n l m = (Ok tt, m).
Proof.
  induction l as [|[i e] l IH]; intros H; [split; reflexivity|]. cbn [map snd] in H. apply Forall_cons_iff in H. destruct H as [[H1 H2] H].
  destruct (IH H) as [I1 I2]. unfold elem_loop, drop_loop. cbn [forl]. apply Z.eqb_neq in H1, H2. rewrite H1, H2. cbn [negb]. rewrite !(bind_do (ret tt) _ _ _ _ eq_refl). split; assumption.
Qed.
Lemma init_nothing n L h m : Forall (fun e => Z.land (ed_kind e) 1 <> 0 /\ Z.land (ed_kind e) 3 <> 3) (md_elem (l_desc L)) ->
  Forall (fun d => active d = false) (md_data (l_desc L)) -> md_star (l_desc L) < 0 ->
  init_all F host n L h m = (Ok tt, m).
Proof.
  intros H1 H2 H3. unfold init_all. destruct m as [s V B R]. rewrite (bind_do _ _ _ tt (mkmach s V B (mkframe (MRef h) [] 0 0 0 :: R))) by reflexivity.
  destruct (no_active_elems n (enum (md_elem (l_desc L))) (mkmach s V B (mkframe (MRef h) [] 0 0 0 :: R))) as [E1 E2].
  { apply Forall_forall. intros e He. apply in_map_iff in He. destruct He as ([i e'] & <- & He). apply in_combine_r in He. rewrite Forall_forall in H1. apply H1, He. }
  rewrite (bind_do _ _ _ _ _ E1), (bind_do _ _ _ _ _ E2).
  rewrite (bind_do _ _ _ tt (mkmach s V B (mkframe (MRef h) [] 0 0 0 :: R))).
  2:{ apply no_active. apply Forall_forall. intros [i [e b]] He. apply in_combine_r, in_combine_l in He. rewrite Forall_forall in H2. apply H2, He. }
  unfold start_it. destruct (Z.geb_spec (md_star (l_desc L)) 0); [lia|]. rewrite (bind_do (ret tt) _ _ _ _ eq_refl). reflexivity.
Qed.
Lemma inst_extends n L ext s h m' : constants (l_desc L) ->
  Forall (fun e => Z.land (ed_kind e) 1 <> 0 /\ Z.land (ed_kind e) 3 <> 3) (md_elem (l_desc L)) ->
  Forall (fun d => active d = false) (md_data (l_desc L)) -> md_star (l_desc L) < 0 ->
  instance F host n L ext (mkmach s [] [] []) = (Ok h, m') -> extends s (k_store m').
Proof.
  intros (C1 & C2 & _) H1 H2 H3 E. apply instance_ok in E. destruct E as (_ & _ & globin & elemin & m1 & m2 & E1 & E2 & _ & E3).
  apply head_run in E1; [|exact C1|exact C2]. subst m1. rewrite init_nothing in E3 by assumption. injection E3 as <-. exact (allocate_extends _ _ _ _ _ _ _ E2).
Qed.
Lemma inst_accept n L ext m : simple_module (l_desc L) ext -> plain_imports (l_desc L) ext ->
  Forall2 (fits (k_store m) (l_desc L)) (md_imps (l_desc L)) ext ->
  Forall (fun d => active d = false) (md_data (l_desc L)) -> md_star (l_desc L) < 0 ->
  exists h m', instance F host n L ext m = (Ok h, m').
Proof.
  intros HA (Hb & Hf) Hfit Hd Hst. pose proof HA as (_ & _ & _ & N1 & N2 & _).
  rewrite instance_phases. assert (HL : length (md_imps (l_desc L)) = length ext) by (clear -Hfit; induction Hfit; cbn; congruence).
  rewrite (bind_do _ _ _ tt m).
  2:{ rewrite assert_run. f_equal. apply assert_ok, Z.eqb_eq. unfold len. rewrite HL. reflexivity. }
  rewrite (bind_do _ _ _ tt m).
  2:{ destruct (checks_run (l_desc L) _ _ m HL Hb Hf) as [[_ H]|[H _]]; [exact H|contradiction]. }
  rewrite (bind_do mget _ _ _ _ eq_refl). cbv zeta.
  rewrite (bind_do _ _ _ ([], []) m). 2:{ unfold inst_head. rewrite N1, N2. destruct m; reflexivity. }
  cbn [fst snd]. destruct (allocate_total L ext m HA) as (h & m2 & E2). rewrite (bind_do _ _ _ _ _ E2).
  destruct (allocate_ok _ _ _ _ _ _ _ E2) as (s2 & mi & fs & ts & ms & gs & es & A & ->).
  destruct A as [A1 A2 A3 A4 _ _ _ _ _ _ _ _ _ _ _]. rewrite (bind_do mget _ _ _ _ eq_refl).
  assert (Hi : nth_error (s_inst s2) h = Some mi) by (rewrite A2, A1; apply nth_last).
  rewrite (bind_do _ _ _ tt (set_store m s2)).
  2:{ rewrite assert_run. f_equal. apply assert_ok, Zs_eqb_eq. rewrite (mod_of_ref _ _ mi) by exact Hi. rewrite A4. unfold aux_funcs, len. rewrite range_fresh. reflexivity. }
  rewrite (bind_do _ _ _ tt (set_store m s2)). 2:{ apply init_nothing; try assumption. rewrite N2. constructor. }
  exists h, (set_store m s2). reflexivity.
Qed.

(* ---- a freshly loaded module ---- *)
Lemma load_blobs md s : Forall (fun d => len (dd_init d) < 2 ^ 31) (md_data md) ->
  let L := mkloaded md (seq (length (s_blob s)) (length (md_data md))) in
  let s1 := set_s_blob s (s_blob s ++ map dd_init (md_data md)) in
  load_module md (mkmach s [] [] []) = (Ok L, mkmach s1 [] [] []) /\ blobs_ok s1 L /\
  forall gv, (forall e, In e (md_data md) -> active e = true -> exists c, offset_of (fun _ => None) (dd_offset e) = Some c) ->
    segments gv (s_blob s1) (combine (md_data md) (l_blob L)) = own_segments md.
Proof.
  intros H L s1. split; [reflexivity|]. split.
  - split; [apply seq_length|]. split; [apply seq_NoDup|]. apply Forall_forall. intros b Hb. apply in_seq in Hb. cbn [s1 set_s_blob s_blob].
    destruct (nth_error (md_data md) (b - length (s_blob s))) as [d|] eqn:E; [|apply nth_error_None in E; lia]. exists (dd_init d).
    split; [rewrite nth_error_app2 by lia; apply map_nth_error, E|]. rewrite Forall_forall in H. apply H. eapply nth_error_In, E.
  - intros gv Ho. unfold segments, own_segments. cbn [s1 set_s_blob s_blob L l_blob].
    assert (G : forall l pre, (forall e, In e l -> active e = true -> exists c, offset_of (fun _ => None) (dd_offset e) = Some c) ->
      flat_map (fun '(e, b) => if active e then match offset_of gv (dd_offset e) with Some c => [(c, nth b (pre ++ map dd_init l) [])] | None => [] end else [])
        (combine l (seq (length pre) (length l))) =
      flat_map (fun e => if active e then match offset_of (fun _ => None) (dd_offset e) with Some c => [(c, dd_init e)] | None => [] end else []) l).
    { induction l as [|e l IH]; intros pre Hl; [reflexivity|]. cbn [length seq combine flat_map map]. f_equal.
      - destruct (active e) eqn:Ea; [|reflexivity]. destruct (Hl e (or_introl eq_refl) Ea) as (c & Ec). rewrite Ec.
        assert (Eg : offset_of gv (dd_offset e) = Some c).
        { revert Ec. unfold offset_of. destruct (dd_offset e) as [|[| | |o args] r]; try discriminate. destruct o; try discriminate; destruct args as [|[z|?|?] [|]]; try discriminate; destruct r; try discriminate.
          - destruct (0 <=? z); discriminate.
          - intros X; exact X. }
        rewrite Eg. rewrite app_nth2, PeanoNat.Nat.sub_diag by lia. reflexivity.
      - replace (S (length pre)) with (length (pre ++ [dd_init e])) by (rewrite app_length; cbn; lia).
        rewrite <- (IH (pre ++ [dd_init e])). 2:{ intros x Hx. apply Hl. right. exact Hx. }
        rewrite <- app_assoc. reflexivity. }
    apply G, Ho.
Qed.
Lemma fresh_copy n md mt ext s L m1 h m' :
  well_behaved host -> store_ok s -> desc_ok md -> constants md -> md_star md < 0 -> (5 < n)%nat ->
  Forall (fun d => len (dd_init d) < 2 ^ 31) (md_data md) ->
  (forall e, In e (md_data md) -> active e = true -> exists c, offset_of (fun _ => None) (dd_offset e) = Some c) ->
  imported 2 ext = [] -> md_mems md = [mt] ->
  load_module md (mkmach s [] [] []) = (Ok L, m1) -> instance F host n L ext m1 = (Ok h, m') ->
  exists x, nth_error (s_mems (k_store m')) (length (s_mems s)) = Some x /\
    write_all (own_segments md) (repeat 0 (Z.to_nat (65536 * l_n mt))) = Some (mi_data x).
Proof.
  intros Hh Hs HD HC Hst Hn Hd Ho Hi Hm El E. destruct (load_blobs md s Hd) as (P1 & P2 & P3). rewrite P1 in El. injection El as <- <-.
  apply inst_data in E; try assumption.
  2:{ destruct Hs. split; try assumption. cbn [s_blob set_s_blob]. apply Forall_app. split; [assumption|]. destruct HD as (_ & _ & _ & _ & D). apply Forall_forall. intros d Hin.
      apply in_map_iff in Hin. destruct Hin as (e & <- & Hin). rewrite Forall_forall in D. apply (D e Hin). }
  destruct E as (mi & E1 & _ & _ & (E2 & _) & E3). cbn [l_desc l_blob] in *. rewrite Hi, Hm in E2.
  destruct (E3 (length (s_mems s)) (new_memory mt)) as (d' & W1 & W2 & _).
  - rewrite E2. reflexivity.
  - rewrite Hm. cbn [s_mems set_s_blob map]. rewrite nth_error_app2, PeanoNat.Nat.sub_diag by lia. reflexivity.
  - intros e H1 H2. destruct (Ho e H1 H2) as (c & Ec). exists c. revert Ec. unfold offset_of.
    destruct (dd_offset e) as [|[| | |o args] r]; try discriminate. destruct o; try discriminate; destruct args as [|[z|?|?] [|]]; try discriminate; destruct r; try discriminate.
    + destruct (0 <=? z); discriminate.
    + intros X; exact X.
  - rewrite W2, Hm. cbn [map]. exists (mkmem (mi_type (new_memory mt)) d' (mi_size (new_memory mt))). cbn [s_mems set_s_blob].
    split; [|rewrite P3 in W1 by exact Ho; exact W1]. apply nth_upd_same with (new_memory mt). rewrite nth_error_app2, PeanoNat.Nat.sub_diag by lia. reflexivity.
Qed.
End whole.
