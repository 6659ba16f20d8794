(* Invocations, call_indirect and the depth of the frame stack. *)
From Coq Require Import ZArith List Bool Lia ZifyBool ZifyNat.
From Verif Require Import Py Arith Floatops Val Opcode Numeric Syntax Store Basic Machine
  SpecInt SpecNum SpecMachine SpecControl PyFacts ArithFacts ValFacts StepFacts MemFacts BulkFacts ControlFacts.
Import ListNotations.
Open Scope Z_scope.

(* ---- the outermost invocation ---- *)
Lemma types_agree_refl ts vs : map v_type vs = ts -> types_agree ts vs = true.
Proof.
  intros <-. unfold types_agree. induction vs as [|v vs IH]; [reflexivity|]. cbn [map combine forallb].
  rewrite vt_eqb_refl. exact IH.
Qed.
Lemma types_agree_eq ts vs : length ts = length vs -> types_agree ts vs = true -> map v_type vs = ts.
Proof.
  revert vs. induction ts as [|t ts IH]; intros [|v vs] Hl; try discriminate Hl; [reflexivity|].
  unfold types_agree. cbn [combine forallb map]. intros E. apply andb_prop in E. destruct E as [E1 E2].
  apply vt_eqb_eq in E1. rewrite (IH vs); [congruence|injection Hl; auto|exact E2].
Qed.
Lemma invocate_starts F host n a args s t h code :
  nth_error (s_func s) a = Some (FWasm t h code) -> map v_type args = ft_args t ->
  invocate F host n (Z.of_nat a) args (mkmach s [] [] []) =
    (evaluate F host n ;;
     let! rets := popn (length (ft_rets t)) in
     assert (types_agree (ft_rets t) rets) ;;
     pop_frame ;;
     let! m := mget in
     assert (Nat.eqb (length (k_frame m)) 0) ;;
     assert (Nat.eqb (length (k_label m)) 0) ;;
     assert (Nat.eqb (length (k_value m)) 0) ;;
     ret rets) (mkmach s [] [first_label t code] [first_frame t h code args; dummy]).
Proof.
  intros N HA. unfold invocate. unfold bind at 1, mget at 1. cbn [k_store]. unfold bind at 1, lift at 1. rewrite (py_index_nth _ _ _ N).
  rewrite (bind_ok _ _ _ tt (mkmach s [] [] [])) by (unfold assert, lift, py_assert; rewrite types_agree_refl by exact HA; reflexivity).
  unfold first_frame. rewrite <- default_zero. reflexivity.
Qed.
Lemma evaluate_empty F host n m : k_label m = [] -> evaluate F host n m = (Ok tt, m).
Proof. intros E. destruct n; cbn [evaluate]; [reflexivity|]. rewrite E. reflexivity. Qed.
Lemma invocation_ok F hs s a t h code args s' L' o R :
  nth_error (s_func s) a = Some (FWasm t h code) -> map v_type args = ft_args t ->
  run F hs 2 (MRef h) s (args ++ default_locals (fd_locals code)) [] (fd_expr code) s' L' o ->
  result (length (ft_rets t)) o (Some R) -> map v_type R = ft_rets t ->
  exists n0, forall n, (n0 <= n)%nat ->
    invocate F (plain_host hs) n (Z.of_nat a) args (mkmach s [] [] []) = (Ok R, mkmach s' [] [] []).
Proof.
  intros N HA HR Hres HT. destruct (simulation F hs) as [Sim _]. specialize (Sim _ _ _ _ _ _ _ _ _ HR). unfold P_run in Sim.
  specialize (Sim [] (first_label t code) [] (first_frame t h code args) [dummy]
    (conj eq_refl (PeanoNat.Nat.le_0_l _)) (PeanoNat.Nat.le_0_l _) eq_refl eq_refl eq_refl).
  assert (X : reach F (plain_host hs) (mkmach s [] [first_label t code] [first_frame t h code args; dummy]) (mkmach s' (rev R) [] [dummy])).
  { inversion Hres as [R0 Hk|R0 Hk|R0 Hk|]; subst o R; cbn [ends] in Sim.
    - eapply reach_trans; [exact Sim|]. rewrite app_nil_r, rev_involutive. apply reach_step; [discriminate|].
      apply (step_end_func F hs s' R0 (first_label t code) [] (relocal (first_frame t h code args) L') [dummy]); [reflexivity|exact Hk].
    - rewrite rev_involutive. specialize (Sim (le_n _) Hk (le_n _)). cbn in Sim. rewrite app_nil_r in Sim. exact (reach1_weak _ _ _ _ Sim).
    - rewrite rev_involutive. specialize (Sim _ eq_refl (le_n _) Hk). cbn in Sim. rewrite app_nil_r in Sim. exact (reach1_weak _ _ _ _ Sim). }
  destruct X as [n0 X]. exists n0. intros n Hn. rewrite (invocate_starts F (plain_host hs) n a args s t h code N HA).
  replace n with (n0 + (n - n0))%nat by lia. rewrite (bind_ok _ _ _ _ _ (eq_trans (X _) (evaluate_empty F (plain_host hs) (n - n0) (mkmach s' (rev R) [] [dummy]) eq_refl))).
  assert (HL : length (rev R) = length (ft_rets t)) by (rewrite rev_length, <- HT, map_length; reflexivity).
  pose proof (popn_run (length (ft_rets t)) (rev R) [] s' [] [dummy] ltac:(lia)) as P. rewrite app_nil_r in P.
  rewrite (bind_ok _ _ _ _ _ P). rewrite <- HL, firstn_all, skipn_all, rev_involutive.
  unfold bind, assert, lift, py_assert. rewrite types_agree_refl by exact HT. reflexivity.
Qed.
Lemma invocation_trap F hs s a t h code args s' L' o :
  nth_error (s_func s) a = Some (FWasm t h code) -> map v_type args = ft_args t ->
  run F hs 2 (MRef h) s (args ++ default_locals (fd_locals code)) [] (fd_expr code) s' L' o ->
  result (length (ft_rets t)) o None ->
  exists n0 e m', k_store m' = s' /\ forall n, (n0 <= n)%nat ->
    invocate F (plain_host hs) n (Z.of_nat a) args (mkmach s [] [] []) = (Err e, m').
Proof.
  intros N HA HR Hres. destruct (simulation F hs) as [Sim _]. specialize (Sim _ _ _ _ _ _ _ _ _ HR). unfold P_run in Sim.
  specialize (Sim [] (first_label t code) [] (first_frame t h code args) [dummy]
    (conj eq_refl (PeanoNat.Nat.le_0_l _)) (PeanoNat.Nat.le_0_l _) eq_refl eq_refl eq_refl).
  inversion Hres; subst o. cbn [ends] in Sim. destruct Sim as (n0 & e & m' & E & Hs). exists n0, e, m'. split; [exact Hs|].
  intros n Hn. rewrite (invocate_starts F (plain_host hs) n a args s t h code N HA).
  replace n with (n0 + (n - n0))%nat by lia. apply bind_err. apply E.
Qed.

(* ---- a successful invocation ---- *)
Lemma popn_length n m r m' : popn n m = (Ok r, m') -> length r = n.
Proof.
  revert m r m'. induction n as [|n IH]; intros m r m' E; [injection E as <- <-; reflexivity|].
  cbn [popn] in E. unfold bind in E. destruct (popv m) as [[v|?] m1]; [|discriminate E].
  destruct (popn n m1) as [[vs|?] m2] eqn:E2; [|discriminate E]. injection E as <- <-. rewrite app_length, (IH _ _ _ E2). cbn. lia.
Qed.
Lemma bind_inv {S A B'} (c : ST S A) (f : A -> ST S B') s b s' : bind c f s = (Ok b, s') ->
  exists a s1, c s = (Ok a, s1) /\ f a s1 = (Ok b, s').
Proof. unfold bind. destruct (c s) as [[a|e] s1]; [|discriminate]. intros E. exists a, s1. split; [reflexivity|exact E]. Qed.
Lemma assert_inv {S} c (s : S) u s' : assert c s = (Ok u, s') -> c = true /\ s' = s.
Proof. unfold assert, lift, py_assert. destruct c; intros E; [injection E as _ <-; auto|discriminate E]. Qed.
Lemma invocate_clean F host n addr args m rets m' : invocate F host n addr args m = (Ok rets, m') ->
  k_value m' = [] /\ k_label m' = [] /\ k_frame m' = [] /\
  exists t h code, py_index (s_func (k_store m)) addr = Ok (FWasm t h code) /\ map v_type rets = ft_rets t.
Proof.
  unfold invocate. intros E. unfold bind at 1, mget at 1 in E.
  apply bind_inv in E. destruct E as (f & m1 & E1 & E). unfold lift in E1. injection E1 as E1 <-.
  destruct f as [t h code|t hid]; [|discriminate E].
  apply bind_inv in E. destruct E as (u1 & m1 & _ & E). apply bind_inv in E. destruct E as (u2 & m2 & _ & E).
  apply bind_inv in E. destruct E as (u3 & m3 & _ & E). apply bind_inv in E. destruct E as (u4 & m4 & _ & E).
  apply bind_inv in E. destruct E as (u5 & m5 & _ & E). apply bind_inv in E. destruct E as (r & m6 & Er & E).
  apply bind_inv in E. destruct E as (u7 & m7 & Et & E). apply assert_inv in Et. destruct Et as [Et ->].
  apply bind_inv in E. destruct E as (u8 & m8 & _ & E). unfold bind at 1, mget in E.
  apply bind_inv in E. destruct E as (u9 & m9 & E9 & E). apply assert_inv in E9. destruct E9 as [E9 ->].
  apply bind_inv in E. destruct E as (ua & ma & Ea & E). apply assert_inv in Ea. destruct Ea as [Ea ->].
  apply bind_inv in E. destruct E as (ub & mb & Eb & E). apply assert_inv in Eb. destruct Eb as [Eb ->].
  injection E as <- <-. apply popn_length in Er.
  assert (Z0 : forall A (l : list A), Nat.eqb (length l) 0 = true -> l = []) by (intros A [|x l] H; [reflexivity|discriminate H]).
  split; [exact (Z0 _ _ Eb)|]. split; [exact (Z0 _ _ Ea)|]. split; [exact (Z0 _ _ E9)|].
  exists t, h, code. split; [exact E1|]. apply types_agree_eq; [congruence|exact Et].
Qed.

(* ---- call_indirect ---- *)
Lemma indirect_step F host m i j fr ta tab ty c V :
  about_to_run m (IOp O_call_indirect [AInt (Z.of_nat i); AInt (Z.of_nat j)]) fr ->
  nth_error (m_tabl (mod_of (k_store m) (fr_module fr))) j = Some (Z.of_nat ta) -> nth_error (s_tabl (k_store m)) ta = Some tab ->
  nth_error (m_type (mod_of (k_store m) (fr_module fr))) i = Some ty -> k_value m = c :: V -> val_wf c ->
  step F host m =
    match nth_error (ti_elem tab) (Z.to_nat (low 32 c)) with
    | None => (Err EIndex, moved_on m V)
    | Some r => (let! addr := lift (into_ref r) in
                 let! func := lift (py_index (s_func (k_store m)) addr) in
                 assert (ft_eqb (fi_type func) ty) ;;
                 evaluate_call F host addr) (moved_on m V)
    end.
Proof.
  intros H H1 H2 H3 Hv Hc. destruct (step_inst F host m _ fr H) as (lb & ls & El & ->). destruct H as [_ (fs & Ef)].
  unfold moved_on. rewrite Hv, Ef. exact (indirect_run F host _ c V _ fr fs _ j i ta tab ty c H1 H2 H3 Hc).
Qed.
Lemma indirect_traps F host m i j fr ta tab ty c V :
  about_to_run m (IOp O_call_indirect [AInt (Z.of_nat i); AInt (Z.of_nat j)]) fr ->
  nth_error (m_tabl (mod_of (k_store m) (fr_module fr))) j = Some (Z.of_nat ta) -> nth_error (s_tabl (k_store m)) ta = Some tab ->
  nth_error (m_type (mod_of (k_store m) (fr_module fr))) i = Some ty -> k_value m = c :: V -> val_wf c ->
  (len (ti_elem tab) <= low 32 c \/
   (exists u, nth_error (ti_elem tab) (Z.to_nat (low 32 c)) = Some (null_ref u)) \/
   (exists u a f, nth_error (ti_elem tab) (Z.to_nat (low 32 c)) = Some (ref_to u a) /\ Z.of_nat a < 2 ^ 31 /\
      nth_error (s_func (k_store m)) a = Some f /\ fi_type f <> ty)) ->
  exists e, step F host m = (Err e, moved_on m V).
Proof.
  intros H H1 H2 H3 Hv Hc D. rewrite (indirect_step F host m i j fr ta tab ty c V H H1 H2 H3 Hv Hc).
  destruct D as [D|[[u D]|(u & a & f & D & Ha & N & Ht)]].
  - rewrite (proj2 (nth_error_None _ _)) by (unfold len in D; lia). eexists. reflexivity.
  - rewrite D. eexists. unfold bind at 1, lift at 1. rewrite null_ref_addr. reflexivity.
  - rewrite D. eexists. unfold bind at 1, lift at 1. rewrite ref_to_addr by exact Ha. unfold bind at 1, lift at 1. rewrite (py_index_nth _ _ _ N).
    destruct (ft_eqb (fi_type f) ty) eqn:E; [apply ft_eqb_eq in E; contradiction|]. reflexivity.
Qed.
Lemma indirect_enters F host m i j fr ta tab ty c A V u a h code :
  about_to_run m (IOp O_call_indirect [AInt (Z.of_nat i); AInt (Z.of_nat j)]) fr ->
  nth_error (m_tabl (mod_of (k_store m) (fr_module fr))) j = Some (Z.of_nat ta) -> nth_error (s_tabl (k_store m)) ta = Some tab ->
  nth_error (m_type (mod_of (k_store m) (fr_module fr))) i = Some ty -> k_value m = c :: rev A ++ V -> val_wf c ->
  nth_error (ti_elem tab) (Z.to_nat (low 32 c)) = Some (ref_to u a) -> Z.of_nat a < 2 ^ 31 ->
  nth_error (s_func (k_store m)) a = Some (FWasm ty h code) -> length A = length (ft_args ty) -> (length (k_frame m) < 1024)%nat ->
  let m1 := moved_on m V in let n := length (ft_rets ty) in
  step F host m = (Ok tt, mkmach (k_store m) V
    (mklabel n (S (length (k_frame m))) (length V) KFunc (fd_expr code) 0 :: k_label m1)
    (mkframe (MRef h) (A ++ default_locals (fd_locals code)) n (length (k_label m)) (length V) :: k_frame m)).
Proof.
  intros H H1 H2 H3 Hv Hc D Ha N HA Hd. cbv zeta. rewrite (indirect_step F host m i j fr ta tab ty c _ H H1 H2 H3 Hv Hc), D.
  unfold bind at 1, lift at 1. rewrite ref_to_addr by exact Ha. unfold bind at 1, lift at 1. rewrite (py_index_nth _ _ _ N).
  unfold bind at 1, assert, lift. rewrite (proj2 (ft_eqb_eq _ _) eq_refl). cbn [py_assert].
  destruct H as [(lb & ls & El & _) (fs & Ef)]. unfold moved_on. rewrite El. cbn [k_label length].
  pose proof (call_enters F host (k_store m) A V []
    (mklabel (lb_arity lb) (lb_frame lb) (lb_value lb) (lb_carry lb) (lb_instr lb) (S (lb_index lb)) :: ls) (k_frame m) a ty h code N HA Hd) as C.
  cbv zeta in C. rewrite !app_nil_r in C. exact C.
Qed.
Lemma indirect_only F host m i j fr ta tab ty c V m' :
  about_to_run m (IOp O_call_indirect [AInt (Z.of_nat i); AInt (Z.of_nat j)]) fr ->
  nth_error (m_tabl (mod_of (k_store m) (fr_module fr))) j = Some (Z.of_nat ta) -> nth_error (s_tabl (k_store m)) ta = Some tab ->
  nth_error (m_type (mod_of (k_store m) (fr_module fr))) i = Some ty -> k_value m = c :: V -> val_wf c ->
  step F host m = (Ok tt, m') ->
  exists r addr f, nth_error (ti_elem tab) (Z.to_nat (low 32 c)) = Some r /\ into_ref r = Ok addr /\
    py_index (s_func (k_store m)) addr = Ok f /\ fi_type f = ty.
Proof.
  intros H H1 H2 H3 Hv Hc E. rewrite (indirect_step F host m i j fr ta tab ty c V H H1 H2 H3 Hv Hc) in E.
  destruct (nth_error (ti_elem tab) (Z.to_nat (low 32 c))) as [r|]; [|discriminate E].
  apply bind_inv in E. destruct E as (addr & m1 & E1 & E). injection E1 as E1 <-.
  apply bind_inv in E. destruct E as (f & m1 & E2 & E). injection E2 as E2 <-.
  apply bind_inv in E. destruct E as (u & m1 & E3 & E). apply assert_inv in E3. destruct E3 as [E3 ->]. apply ft_eqb_eq in E3.
  exists r, addr, f. auto.
Qed.

(* ---- the depth of the frame stack ---- *)
Section depth.
Context (F : fops) (host : hostcode) (D : nat).
Definition shallow (m : machine) : Prop := (length (k_frame m) <= D)%nat.
Context (H1024 : (1024 <= D)%nat) (Hhost : forall hid args m, shallow m -> shallow (snd (host hid args m))).
Definition stays {A} (c : M A) : Prop := forall m, shallow m -> shallow (snd (c m)).
Lemma st_bind {A B'} (c : M A) (f : A -> M B') : stays c -> (forall a, stays (f a)) -> stays (bind c f).
Proof. intros H1 H2 m Hm. unfold bind. specialize (H1 m Hm). destruct (c m) as [[a|e] m1]; [apply H2|]; exact H1. Qed.
Lemma st_lift {A} (r : res A) : stays (lift r).
Proof. intros m Hm. exact Hm. Qed.
Lemma st_ret {A} (a : A) : stays (ret a).
Proof. intros m Hm. exact Hm. Qed.
Lemma st_fail {A} e : stays (@fail _ A e).
Proof. intros m Hm. exact Hm. Qed.
Lemma st_assert c : stays (assert c).
Proof. intros m Hm. exact Hm. Qed.
Lemma st_mget : stays mget.
Proof. intros m Hm. exact Hm. Qed.
Lemma st_top : stays top_frame.
Proof. intros m Hm. unfold top_frame. destruct (k_frame m) eqn:E; exact Hm. Qed.
Lemma st_popv : stays popv.
Proof. intros m Hm. unfold popv. destruct (k_value m); exact Hm. Qed.
Lemma st_extend l : stays (extend l).
Proof. intros m Hm. exact Hm. Qed.
Lemma st_label l : stays (push_label l).
Proof. intros m Hm. exact Hm. Qed.
Lemma st_pop_frame : stays pop_frame.
Proof. clear H1024 Hhost. intros m Hm. unfold pop_frame. destruct (k_frame m) eqn:E; cbn [snd]; [exact Hm|]. unfold shallow in *. rewrite E in Hm. cbn in *. lia. Qed.
Lemma st_popn n : stays (popn n).
Proof. induction n as [|n IH]; [apply st_ret|]. cbn [popn]. apply st_bind; [apply st_popv|intros]. apply st_bind; [exact IH|intros]. apply st_ret. Qed.
Lemma keep_le {A} n (l : list A) : (length (keep n l) <= length l)%nat.
Proof. unfold keep. rewrite skipn_length. lia. Qed.
Lemma st_br l : stays (evaluate_br l).
Proof.
  unfold evaluate_br. apply st_bind; [apply st_mget|intros m0]. apply st_bind; [apply st_assert|intros _].
  destruct (nth_error _ _) as [lb|]; [|apply st_fail]. apply st_bind; [apply st_assert|intros _].
  apply st_bind; [apply st_popn|intros rets]. intros m Hm. unfold bind, mget, mput. cbn [snd]. unfold shallow in *. cbn [k_frame].
  pose proof (keep_le (lb_frame lb) (k_frame m)). lia.
Qed.
Lemma st_call a : stays (evaluate_call F host a).
Proof.
  unfold evaluate_call. apply st_bind; [apply st_mget|intros m0]. apply st_bind; [apply st_lift|intros f].
  apply st_bind; [apply st_popn|intros args]. cbv zeta. destruct f as [t h code|t hid].
  - intros m Hm. unfold bind at 1, mget at 1. unfold bind at 1, assert, lift, py_assert.
    destruct (Nat.ltb_spec (length (k_frame m)) 1024); [|exact Hm].
    unfold shallow. cbn. lia.
  - apply st_bind; [apply st_lift|intros p]. apply st_bind; [intros m Hm; apply Hhost, Hm|intros r].
    apply st_bind; [apply st_lift|intros r']. apply st_extend.
Qed.
Lemma st_basic {A} (f : modref -> B A) : stays (on_basic f).
Proof.
  intros m Hm. unfold on_basic. destruct (k_frame m) as [|fr fs] eqn:E; [exact Hm|]. destruct (f _ _) as [r b].
  unfold shallow in *. rewrite E in Hm. exact Hm.
Qed.
Lemma st_enter lb k t body : stays (enter lb k t body).
Proof. unfold enter. apply st_bind; [apply st_mget|intros m0]. apply st_bind; [apply st_assert|intros _]. apply st_label. Qed.
Lemma st_bype bt : stays (evaluate_bype bt).
Proof.
  destruct bt; cbn [evaluate_bype]; [apply st_ret|apply st_ret|]. apply st_bind; [apply st_top|intros f].
  apply st_bind; [apply st_mget|intros m0]. apply st_lift.
Qed.
Lemma st_return fr : stays (let! m := mget in
      assert (Nat.leb (fr_value fr + fr_arity fr) (length (k_value m))) ;;
      let! rets := popn (fr_arity fr) in
      pop_frame ;;
      let! m := mget in
      mput (mkmach (k_store m) (rev rets ++ keep (fr_value fr) (k_value m)) (keep (fr_label fr) (k_label m)) (k_frame m))).
Proof.
  apply st_bind; [apply st_mget|intros m0]. apply st_bind; [apply st_assert|intros _]. apply st_bind; [apply st_popn|intros r].
  apply st_bind; [apply st_pop_frame|intros _]. intros m Hm. exact Hm.
Qed.
Ltac st := repeat first [ apply st_br | apply st_call | apply st_basic | apply st_enter | apply st_bype | apply st_popv | apply st_mget
  | apply st_lift | apply st_ret | apply st_fail | apply st_assert | apply st_return
  | apply st_bind; [|intros] | match goal with |- stays (if ?b then _ else _) => destruct b end ].
Lemma st_exec lb fr i : stays (exec F host lb fr i).
Proof. destruct i as [bt body|bt body|bt th el|o args]; cbn [exec]; [st..|]. destruct o; st. Qed.
Lemma st_step : stays (step F host).
Proof.
  unfold step. apply st_bind; [apply st_mget|intros m]. destruct (k_label m) as [|lb ls]; [apply st_fail|].
  apply st_bind; [apply st_top|intros fr]. destruct (Nat.eqb _ _).
  - intros m0 H0. unfold bind at 1, mget at 1, bind at 1, mput at 1. destruct (lb_carry lb); [exact H0|exact H0|].
    refine (st_bind mget _ st_mget _ _ _); [|exact H0]. intros m1. apply st_bind; [apply st_assert|intros _]. apply st_pop_frame.
  - destruct (nth_error _ _) as [i|]; [|apply st_fail]. cbv zeta. intros m0 H0. unfold bind at 1, mget at 1, bind at 1, mput at 1.
    apply st_exec. exact H0.
Qed.
Lemma st_evaluate n : stays (evaluate F host n).
Proof.
  induction n as [|n IH]; [apply st_ret|]. intros m Hm. cbn [evaluate]. destruct (k_label m); [exact Hm|].
  exact (st_bind _ _ st_step (fun _ => IH) m Hm).
Qed.
End depth.

Lemma invocate_depth F host :
  (forall hid args m, (length (k_frame m) <= 1024)%nat -> (length (k_frame (snd (host hid args m))) <= 1024)%nat) ->
  forall n addr args m, (length (k_frame m) <= 1022)%nat -> (length (k_frame (snd (invocate F host n addr args m))) <= 1024)%nat.
Proof.
  intros Hh n addr args m Hm. change (shallow 1024 (snd (invocate F host n addr args m))).
  assert (H0 : shallow 1024 m) by (unfold shallow; lia).
  unfold invocate. unfold bind at 1, mget at 1. unfold bind at 1, lift at 1. destruct (py_index _ _) as [f|e]; [|exact H0].
  destruct f as [t h code|t hid]; [|exact H0]. unfold bind at 1, assert at 1, lift at 1, py_assert.
  destruct (types_agree _ _); [|exact H0].
  unfold bind at 1, push_frame at 1, bind at 1, push_frame at 1, bind at 1, push_label at 1. apply st_bind.
  - apply st_evaluate; [lia|exact Hh].
  - intros _. apply st_bind; [apply st_popn|intros r]. apply st_bind; [apply st_assert|intros _]. apply st_bind; [apply st_pop_frame|intros _].
    apply st_bind; [apply st_mget|intros m1]. repeat (apply st_bind; [apply st_assert|intros _]). apply st_ret.
  - unfold shallow. cbn. lia.
Qed.

(* a call at the limit *)
Lemma call_at_limit F host m j fr a t h code V A :
  about_to_run m (IOp O_call [AInt (Z.of_nat j)]) fr ->
  nth_error (m_func (mod_of (k_store m) (fr_module fr))) j = Some (Z.of_nat a) ->
  nth_error (s_func (k_store m)) a = Some (FWasm t h code) -> k_value m = rev A ++ V -> length A = length (ft_args t) ->
  (1024 <= length (k_frame m))%nat ->
  step F host m = (Err EAssert, moved_on m V).
Proof.
  intros H N1 N2 Hv HA Hd. destruct (step_inst F host m _ fr H) as (lb & ls & El & ->). cbn [exec].
  unfold bind at 1, lift, arg_int. rewrite (py_index_0 [AInt (Z.of_nat j)] (AInt (Z.of_nat j)) eq_refl).
  cbn [rbind]. unfold bind at 1, mget. cbn [moved_on k_store]. unfold bind at 1, lift. rewrite (py_index_nth _ _ _ N1).
  unfold evaluate_call. unfold bind at 1, mget at 1. cbn [moved_on k_store]. unfold bind at 1, lift at 1. rewrite (py_index_nth _ _ _ N2).
  cbn [fi_type]. rewrite Hv.
  pose proof (popn_args A V [] (k_store m) (k_label (moved_on m V)) (k_frame m) _ HA) as P. rewrite !app_nil_r in P.
  unfold moved_on in *. cbn [k_label] in P.
  rewrite (bind_ok _ _ _ _ _ P). cbv zeta iota. unfold bind at 1, mget at 1. cbn [k_frame].
  apply bind_err. unfold assert, lift, py_assert. replace (Nat.ltb (length (k_frame m)) 1024) with false; [reflexivity|].
  symmetry. apply PeanoNat.Nat.ltb_ge. lia.
Qed.

(* ---- br to the label of the invoked function ---- *)
Lemma br_out F host m fr s V LS t code x :
  about_to_run m (IOp O_br [AInt (Z.of_nat (length LS))]) fr ->
  k_store m = s -> k_value m = V -> k_label m = LS ++ [mklabel (length (ft_rets t)) 1 0 KFunc (fd_expr code) x] ->
  k_frame m = [fr; dummy] -> (length (ft_rets t) <= length V)%nat ->
  step F host m = (Ok tt, mkmach s (firstn (length (ft_rets t)) V) [] [dummy]).
Proof.
  intros H Hs Hv Hl Hf Hn. destruct (step_inst F host m _ fr H) as (lb & ls & El & ->). cbn [exec].
  unfold bind at 1, lift, arg_int. rewrite (py_index_0 [AInt _] (AInt _) eq_refl). cbn [rbind].
  destruct LS as [|l0 LS].
  - cbn [app length] in Hl. unfold moved_on. rewrite Hl, Hs, Hv, Hf.
    pose proof (br_run s V [] [mklabel (length (ft_rets t)) 1 0 KFunc (fd_expr code) (S x)] [fr; dummy] 0 _ eq_refl (le_n _) Hn) as B.
    rewrite app_nil_r in B. cbn [lb_arity lb_value lb_carry lb_frame skipn] in B. 
    cbn [length]. cbn [lb_arity lb_frame lb_value lb_carry lb_instr lb_index]. rewrite B. cbn. rewrite app_nil_r. reflexivity.
  - unfold moved_on. rewrite Hl, Hs, Hv, Hf. cbn [app].
    set (T := mklabel (length (ft_rets t)) 1 0 KFunc (fd_expr code) x).
    pose proof (br_run s V [] (mklabel (lb_arity l0) (lb_frame l0) (lb_value l0) (lb_carry l0) (lb_instr l0) (S (lb_index l0)) :: LS ++ [T]) [fr; dummy] (length (l0 :: LS)) T) as B.
    cbn [length nth_error] in B. rewrite nth_error_app2, PeanoNat.Nat.sub_diag in B by lia. specialize (B eq_refl (le_n _) Hn).
    rewrite app_nil_r in B. cbn [length]. rewrite B. cbn [T lb_arity lb_value lb_carry lb_frame]. rewrite skipn_cons, skipn_app, skipn_all2 by lia.
    replace (S (length LS) - length LS)%nat with 1%nat by lia. cbn. rewrite app_nil_r. reflexivity.
Qed.

(* ---- an invocation refused before it starts ---- *)
Lemma refused F host n h nm args m e :
  match find_export (mod_of (k_store m) (MRef h)) nm with
  | Err _ => True
  | Ok x => match py_index (s_func (k_store m)) (e_data x) with
            | Err _ => True
            | Ok f => length args <> length (ft_args (fi_type f)) \/ from_alls F (ft_args (fi_type f)) args = Err e \/
                      (exists t hid, f = FHost t hid)
            end
  end -> exists e', rt_invocate F host n h nm args m = (Err e', m).
Proof.
  unfold rt_invocate. unfold bind at 1, mget at 1. unfold bind at 1, lift at 1.
  destruct (find_export _ _) as [x|e1]; [|intros _; eexists; reflexivity].
  unfold bind at 1, lift at 1. destruct (py_index (s_func (k_store m)) (e_data x)) as [f|e1] eqn:Ef; [|intros _; eexists; reflexivity].
  intros H. unfold bind at 1, assert, lift at 1, py_assert, len.
  destruct (Z.eqb_spec (Z.of_nat (length (ft_args (fi_type f)))) (Z.of_nat (length args))) as [El|El]; [|eexists; reflexivity].
  unfold bind at 1, lift at 1. destruct H as [H|[H|(t & hid & ->)]]; [lia| |].
  - rewrite H. eexists. reflexivity.
  - destruct (from_alls F _ args); [|eexists; reflexivity]. unfold bind at 1, invocate at 1. unfold bind at 1, mget at 1.
    unfold bind at 1, lift at 1. rewrite Ef. eexists. reflexivity.
Qed.
