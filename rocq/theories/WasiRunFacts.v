(* Facts about runs with the WASI functions bound. *)
From Coq Require Import ZArith List Bool Lia.
From Verif Require Import Py Floatops Val Opcode Numeric Syntax Store Basic Machine Utf8 Os Wasi WasiRun
  SpecInt SpecNum SpecMachine SpecControl SpecType SpecWasi SpecWasiRun PyFacts ValFacts ControlFacts MemFacts SpecWasiMore WasiFacts WasiTableFacts WasiMoreFacts WasiPropFacts WasiKeepFacts.
Import ListNotations.
Open Scope Z_scope.

Definition plug (F : fops) (t : functype) (call : M (list pyval)) : M unit :=
  let! rets := call in let! rets := lift (from_alls F (ft_rets t) rets) in extend rets.

Lemma mbind_ok {A B} (e : M A) (f : A -> M B) m a m1 : e m = (Ok a, m1) -> bind e f m = f a m1.
Proof. intros H. unfold bind. now rewrite H. Qed.
Lemma mbind_err {A B} (e : M A) (f : A -> M B) m x m1 : e m = (Err x, m1) -> bind e f m = (Err x, m1).
Proof. intros H. unfold bind. now rewrite H. Qed.

Lemma callee_exec F host lb fr o args m : o = O_call \/ o = O_call_indirect ->
  exec F host lb fr (IOp o args) m = (let! addr := callee fr o args in evaluate_call F host addr) m.
Proof.
  intros [-> | ->]; cbn [exec callee]; unfold bind.
  - destruct (lift (arg_int args 0) m) as [[?|?] ?]; [|reflexivity]. cbn [mget].
    now destruct (lift _ m0) as [[?|?] ?].
  - destruct (mget m) as [[?|?] ?]; [|reflexivity].
    destruct (lift (arg_int args 1) _) as [[?|?] ?]; [|reflexivity].
    destruct (lift (py_index _ _) _) as [[?|?] ?]; [|reflexivity].
    destruct (lift (py_index _ _) _) as [[?|?] ?]; [|reflexivity].
    destruct (lift (arg_int args 0) _) as [[?|?] ?]; [|reflexivity].
    destruct (lift (py_index _ _) _) as [[?|?] ?]; [|reflexivity].
    destruct (popv _) as [[?|?] ?]; [|reflexivity].
    destruct (lift (into_u32 _) _) as [[?|?] ?]; [|reflexivity].
    destruct (lift (py_index _ _) _) as [[?|?] ?]; [|reflexivity].
    destruct (lift (into_ref _) _) as [[?|?] ?]; [|reflexivity].
    destruct (lift (py_index _ _) _) as [[?|?] ?]; [|reflexivity].
    now destruct (assert _ _) as [[?|?] ?].
Qed.
Lemma callee_other F host host' lb fr i m : (forall o args, i = IOp o args -> o <> O_call /\ o <> O_call_indirect) ->
  exec F host lb fr i m = exec F host' lb fr i m.
Proof.
  intros H. destruct i as [| | |o args]; try reflexivity. destruct (H o args eq_refl).
  destruct o; try reflexivity; congruence.
Qed.
Lemma callee_none fr o args m : o <> O_call -> o <> O_call_indirect -> callee fr o args m = (Err EAttr, m).
Proof. intros H1 H2. destruct o; try reflexivity; congruence. Qed.
Lemma is_call_dec (o : opc) : (o = O_call \/ o = O_call_indirect) \/ (o <> O_call /\ o <> O_call_indirect).
Proof. destruct o; (left; left; reflexivity) || (left; right; reflexivity) || (right; split; discriminate). Qed.

Lemma host_turn_spec F m :
  match host_turn F m with
  | Some (hid, ps, t, m2) => forall host, step F host m = plug F t (host hid ps) m2
  | None => forall host host', step F host m = step F host' m
  end.
Proof.
  unfold host_turn, step. destruct (k_label m) as [|lb ls] eqn:EL.
  { intros. unfold bind, mget. now rewrite EL. }
  destruct (k_frame m) as [|fr frs] eqn:EF.
  { intros. unfold bind, mget, top_frame. rewrite EL. unfold bind, mget. now rewrite EF. }
  assert (HS : forall host, (let! m0 := mget in
      match k_label m0 with
      | [] => fail EIndex
      | lb0 :: ls0 =>
        let! fr0 := top_frame in
        if Nat.eqb (lb_index lb0) (length (lb_instr lb0)) then
          let! m1 := mget in mput (set_label m1 ls0) ;;
          match lb_carry lb0 with
          | KFunc => let! m2 := mget in assert (Nat.eqb (length (k_value m2)) (fr_value fr0 + fr_arity fr0)) ;; pop_frame
          | _ => ret tt
          end
        else match nth_error (lb_instr lb0) (lb_index lb0) with
          | None => fail EIndex
          | Some i =>
            let lb' := mklabel (lb_arity lb0) (lb_frame lb0) (lb_value lb0) (lb_carry lb0) (lb_instr lb0) (S (lb_index lb0)) in
            let! m1 := mget in mput (set_label m1 (lb' :: ls0)) ;; exec F host lb' fr0 i
          end
      end) m = 
      (if Nat.eqb (lb_index lb) (length (lb_instr lb)) then
          let! m1 := mget in mput (set_label m1 ls) ;;
          match lb_carry lb with
          | KFunc => let! m2 := mget in assert (Nat.eqb (length (k_value m2)) (fr_value fr + fr_arity fr)) ;; pop_frame
          | _ => ret tt
          end
        else match nth_error (lb_instr lb) (lb_index lb) with
          | None => fail EIndex
          | Some i =>
            let lb' := mklabel (lb_arity lb) (lb_frame lb) (lb_value lb) (lb_carry lb) (lb_instr lb) (S (lb_index lb)) in
            let! m1 := mget in mput (set_label m1 (lb' :: ls)) ;; exec F host lb' fr i
          end) m).
  { intros host. unfold bind at 1. unfold mget at 1. cbv iota beta. rewrite EL. unfold bind at 1.
    unfold top_frame. unfold bind at 1. unfold mget at 1. rewrite EF. reflexivity. }
  destruct (Nat.eqb (lb_index lb) (length (lb_instr lb))). { intros. now rewrite !HS. }
  destruct (nth_error (lb_instr lb) (lb_index lb)) as [i|]. 2:{ intros. now rewrite !HS. }
  set (lb' := mklabel _ _ _ _ _ _) in *. cbv zeta in HS.
  assert (HS2 : forall host, (let! m1 := mget in mput (set_label m1 (lb' :: ls)) ;; exec F host lb' fr i) m =
     exec F host lb' fr i (set_label m (lb' :: ls))) by reflexivity.
  destruct i as [| | |o args]; try (intros; rewrite !HS, !HS2; reflexivity).
  destruct (is_call_dec o) as [HC|[H1 H2]].
  2:{ rewrite callee_none by assumption. intros. rewrite !HS, !HS2. apply callee_other. intros ? ? [= <- <-]. now split. }
  destruct (callee fr o args (set_label m (lb' :: ls))) as [[addr|x] m1] eqn:EC.
  2:{ intros. rewrite !HS, !HS2, !callee_exec by exact HC. now rewrite !(mbind_err _ _ _ _ _ EC). }
  assert (HS3 : forall host, exec F host lb' fr (IOp o args) (set_label m (lb' :: ls)) = evaluate_call F host addr m1).
  { intros host. rewrite callee_exec by exact HC. now apply mbind_ok. }
  assert (HS4 : forall host, evaluate_call F host addr m1 = match py_index (s_func (k_store m1)) addr with
    | Err e => (Err e, m1)
    | Ok (FWasm t h code) => evaluate_call F (fun _ _ m => (Err (EHost 0), m)) addr m1
    | Ok (FHost t hid) => match popn (length (ft_args t)) m1 with
      | (Err e, m2) => (Err e, m2)
      | (Ok vs, m2) => match rmapl (into_all F) vs with Err e => (Err e, m2) | Ok ps => plug F t (host hid ps) m2 end
      end
    end).
  { intros host. unfold evaluate_call. unfold bind at 1. cbn [mget]. unfold bind at 1.
    destruct (py_index (s_func (k_store m1)) addr) as [[t h code|t hid]|e] eqn:EP; cbn [lift]; [| |reflexivity].
    - unfold bind, mget, lift. rewrite ?EP. reflexivity.
    - unfold bind at 1. cbn [fi_type]. destruct (popn (length (ft_args t)) m1) as [[vs|e] m2]; [|reflexivity].
      unfold bind at 1. destruct (rmapl (into_all F) vs) as [ps|e]; reflexivity. }
  destruct (py_index (s_func (k_store m1)) addr) as [[t h code|t hid]|e]; try (intros; rewrite !HS, !HS2, !HS3, HS4; symmetry; now rewrite HS4).
  destruct (popn (length (ft_args t)) m1) as [[vs|e] m2]; [|intros; rewrite !HS, !HS2, !HS3, HS4; symmetry; now rewrite HS4].
  destruct (rmapl (into_all F) vs) as [ps|e]; [|intros; rewrite !HS, !HS2, !HS3, HS4; symmetry; now rewrite HS4].
  intros. now rewrite HS, HS2, HS3, HS4.
Qed.

Lemma host_turn_at F m hid ps t m2 : host_turn F m = Some (hid, ps, t, m2) ->
  exists o args fr, about_to_run m (IOp o args) fr /\ (o = O_call \/ o = O_call_indirect).
Proof.
  unfold host_turn. destruct (k_label m) as [|lb ls] eqn:EL; [discriminate|]. destruct (k_frame m) as [|fr frs] eqn:EF; [discriminate|].
  destruct (Nat.eqb _ _); [discriminate|]. destruct (nth_error (lb_instr lb) (lb_index lb)) as [[| | |o args]|] eqn:EN; try discriminate.
  intros H. exists o, args, fr. split; [split; [now exists lb, ls|now exists frs]|].
  destruct (is_call_dec o) as [C|[C1 C2]]; [exact C|]. now rewrite callee_none in H.
Qed.

(* ---- histories ---- *)
Section hist.
Variables (F : fops) (Os : os).
Definition hist {A} (e : W A) : Prop := forall w, exists h, snd (e w) = history Os w h.
Lemma history_app w h1 h2 : history Os w (h1 ++ h2) = history Os (history Os w h1) h2.
Proof. unfold history. apply fold_left_app. Qed.
Lemma hist_ret {A} (a : A) : hist (ret a).
Proof. intros w. now exists []. Qed.
Lemma hist_fail {A} x : hist (fail x : W A).
Proof. intros w. now exists []. Qed.
Lemma hist_lift {A} (r : res A) : hist (lift r).
Proof. intros w. now exists []. Qed.
Lemma hist_bind {A B} (e : W A) (f : A -> W B) : hist e -> (forall a, hist (f a)) -> hist (bind e f).
Proof.
  intros H K w. unfold bind. destruct (H w) as [h E]. destruct (e w) as [[a|x] w1]; cbn [snd] in *; [|now exists h].
  destruct (K a w1) as [h' E']. exists (h ++ h'). now rewrite history_app, <- E.
Qed.
Lemma with_eq w m : with_mach w m = history Os w [Elsewhere m (w_pipes w)].
Proof. reflexivity. Qed.
Lemma hist_mach {A} (e : M A) : hist (mach e).
Proof. intros w. unfold mach. destruct (e (w_mach w)) as [r m]. eexists. apply with_eq. Qed.
Lemma hist_call f args : hist (wasi_call Os f args).
Proof. intros w. now exists [Call f args]. Qed.
Lemma hist_host hid ps : hist (wasi_host Os hid ps).
Proof.
  unfold wasi_host. destruct (nth_error wasi_methods hid) as [[[nm t] f]|]; [|apply hist_fail].
  apply hist_bind; [apply hist_lift|]. intros zs. apply hist_bind; [apply hist_call|]. intros rs. apply hist_ret.
Qed.
Lemma hist_turn : hist (wturn F Os).
Proof.
  intros w. unfold wturn. destruct (host_turn F (w_mach w)) as [[[[hid ps] t] m]|]; [|apply hist_mach].
  match goal with |- exists h, snd (?e _) = _ => assert (hist e) as H end.
  { apply hist_bind; [apply hist_host|]. intros rets. apply hist_bind; [apply hist_lift|]. intros rs. apply hist_mach. }
  destruct (H (with_mach w m)) as [h E]. exists (Elsewhere m (w_pipes w) :: h). rewrite E. reflexivity.
Qed.
Lemma hist_evaluate n : hist (wevaluate F Os n).
Proof.
  induction n as [|n IH]; cbn [wevaluate]; [apply hist_ret|]. intros w. destruct (k_label (w_mach w)); [now exists []|].
  apply hist_bind; [apply hist_turn|intros _; exact IH].
Qed.
Lemma hist_forl {A} (f : A -> W unit) l : (forall x, hist (f x)) -> hist (forl f l).
Proof. intros H. induction l; cbn [forl]; [apply hist_ret|apply hist_bind; [apply H|now intros _]]. Qed.
Lemma hist_mapl {A B} (f : A -> W B) l : (forall x, hist (f x)) -> hist (mapl f l).
Proof.
  intros H. induction l; cbn [mapl]; [apply hist_ret|]. apply hist_bind; [apply H|]. intros y. apply hist_bind; [assumption|].
  intros ys. apply hist_ret.
Qed.
Ltac h_tac := repeat match goal with
  | |- hist (ret _) => apply hist_ret
  | |- hist (fail _) => apply hist_fail
  | |- hist (lift _) => apply hist_lift
  | |- hist (mach _) => apply hist_mach
  | |- hist (wevaluate _ _ _) => apply hist_evaluate
  | |- hist (bind _ _) => apply hist_bind; [|intros ?]
  | |- hist (forl _ _) => apply hist_forl; intros ?
  | |- hist (mapl _ _) => apply hist_mapl; intros ?
  | |- hist (if ?b then _ else _) => destruct b
  | |- hist (match ?b with _ => _ end) => destruct b
  | _ => progress cbv zeta
  end.
Lemma hist_invocate n a args : hist (winvocate F Os n a args).
Proof. unfold winvocate. h_tac. Qed.
Lemma hist_rt_invocate n h nm args : hist (wrt_invocate F Os n h nm args).
Proof. unfold wrt_invocate. h_tac. apply hist_invocate. Qed.
Lemma hist_run_expr n e k : hist (wrun_expr F Os n e k).
Proof. unfold wrun_expr. h_tac. Qed.
Lemma hist_const_expr n e : hist (wconst_expr F Os n e).
Proof. unfold wconst_expr. h_tac. apply hist_run_expr. Qed.
Lemma hist_instance n L ext : hist (winstance F Os n L ext).
Proof. unfold winstance. h_tac; try apply hist_const_expr; apply hist_run_expr. Qed.
Lemma hist_rt_instance n imps L : hist (wrt_instance F Os n imps L).
Proof. unfold wrt_instance. h_tac. apply hist_instance. Qed.
Lemma hist_main_try n h : hist (main_try F Os n h).
Proof.
  intros w. unfold main_try. destruct (hist_rt_invocate n h n_start [] w) as [l E]. destruct (wrt_invocate F Os n h n_start [] w) as [r w1].
  destruct (main_outcome (r, w_mach w1)) as [r' m]. cbn [snd] in *. exists (l ++ [Elsewhere m (w_pipes w1)]). now rewrite history_app, <- E.
Qed.
End hist.

(* ---- the calls ---- *)
Lemma turn_cases F Os w :
  (exists r m, wturn F Os w = (r, with_mach w m)) \/
  (exists o args fr f zs m r m', about_to_run (w_mach w) (IOp o args) fr /\ (o = O_call \/ o = O_call_indirect) /\
     wturn F Os w = (r, with_mach (snd (wasi_call Os f zs (with_mach w m))) m')).
Proof.
  unfold wturn. destruct (host_turn F (w_mach w)) as [[[[hid ps] t] m]|] eqn:E.
  2:{ left. unfold mach. destruct (step F _ (w_mach w)) as [r m]. now exists r, m. }
  destruct (host_turn_at _ _ _ _ _ _ E) as (o & args & fr & AB & HO). unfold wasi_host.
  destruct (nth_error wasi_methods hid) as [[[nm t'] f]|]; [|left; now exists (Err EIndex), m].
  unfold bind, lift, ret. destruct (rmapl as_int ps) as [zs|x]; [|left; now exists (Err x), m].
  right. exists o, args, fr, f, zs, m. destruct (wasi_call Os f zs (with_mach w m)) as [[rs|x] w1]; cbn [snd].
  2:{ exists (Err x), (w_mach w1). repeat (split; [assumption|]). now destruct w1. }
  destruct (from_alls F (ft_rets t) (map PInt rs)) as [vs|x].
  2:{ exists (Err x), (w_mach w1). repeat (split; [assumption|]). now destruct w1. }
  unfold mach. destruct (extend vs (w_mach w1)) as [r m']. exists r, m'. now repeat (split; [assumption|]).
Qed.
Lemma other_turn F Os host w : (forall h h', step F h (w_mach w) = step F h' (w_mach w)) -> wturn F Os w = mach (step F host) w.
Proof.
  intros H. pose proof (host_turn_spec F (w_mach w)) as T. unfold wturn. destruct (host_turn F (w_mach w)) as [[[[hid ps] t] m2]|].
  - exfalso. pose proof (H (fun _ _ m => (Err EAttr, m)) (fun _ _ m => (Err EIndex, m))) as E. rewrite !T in E. unfold plug, bind in E. apply (f_equal fst) in E. discriminate E.
  - unfold mach. now rewrite (T (fun _ _ m => (Err (EHost 0), m)) host).
Qed.
Lemma host_turn_call F m hid t A m' : calls_host m hid t A m' -> Forall val_wf (k_value m) -> length A = length (ft_args t) ->
  host_turn F m = match rmapl (into_all F) A with Ok ps => Some (hid, ps, t, m') | Err _ => None end.
Proof.
  intros C WF HA. destruct m as [s V0 L0 FS0].
  destruct C as [fr k a V [(lb & ls & EL & EN) (fs & EF)] Hk Ha EV|fr i j c ta tab u a V [(lb & ls & EL & EN) (fs & EF)] H1 H2 H3 H4 H5 H6 EV];
    cbn [k_store k_value k_label k_frame] in *; subst V0 L0 FS0; unfold host_turn, moved_on; cbn [k_store k_value k_label k_frame];
    (replace (Nat.eqb (lb_index lb) (length (lb_instr lb))) with false
      by (symmetry; apply Nat.eqb_neq; assert (nth_error (lb_instr lb) (lb_index lb) <> None) as Q by congruence; apply nth_error_Some in Q; lia));
    rewrite EN; cbn [callee set_label k_store k_value k_frame]; unfold bind, mget, lift; cbn [k_store k_value k_label k_frame].
  - unfold arg_int. cbn [nth_error]. cbn. rewrite (py_index_nth _ _ _ Hk). cbn [k_store]. rewrite (py_index_nth _ _ _ Ha).
    pose proof (popn_args A V [] s (mklabel (lb_arity lb) (lb_frame lb) (lb_value lb) (lb_carry lb) (lb_instr lb) (S (lb_index lb)) :: ls) (fr :: fs) _ HA) as P.
    rewrite !app_nil_r in P. unfold set_label. cbn [k_store k_value k_label k_frame]. rewrite P. reflexivity.
  - change (arg_int [AInt (Z.of_nat i); AInt (Z.of_nat j)] 0) with (Ok (Z.of_nat i)).
    change (arg_int [AInt (Z.of_nat i); AInt (Z.of_nat j)] 1) with (Ok (Z.of_nat j)).
    unfold set_label. cbv iota beta. cbn [k_store k_value k_label k_frame].
    rewrite (py_index_nth _ _ _ H1), (py_index_nth _ _ _ H2), (py_index_nth _ _ _ H3). unfold popv. cbn [k_value].
    assert (Wc : val_wf c) by (now apply Forall_inv in WF). rewrite (into_u32_ok c Wc). change (uval c mod 2 ^ 32) with (low 32 c).
    unfold set_label, set_value. cbn [k_store k_value k_label k_frame].
    assert (0 <= low 32 c) as L0 by (apply Z.mod_pos_bound; reflexivity). rewrite <- (Z2Nat.id (low 32 c)) by exact L0.
    rewrite (py_index_nth _ _ _ H4), (ref_to_addr _ _ H5), (py_index_nth _ _ _ H6). cbn [fi_type]. unfold assert, lift.
    rewrite (proj2 (ft_eqb_eq _ _) eq_refl). cbn [py_assert]. unfold ret. cbn [k_store]. rewrite (py_index_nth _ _ _ H6).
    pose proof (popn_args A V [] s (mklabel (lb_arity lb) (lb_frame lb) (lb_value lb) (lb_carry lb) (lb_instr lb) (S (lb_index lb)) :: ls) (fr :: fs) _ HA) as P.
    rewrite !app_nil_r in P. rewrite P. reflexivity.
Qed.

Lemma into_number F v : val_wf v -> v_type v = T_i32 \/ v_type v = T_i64 -> into_all F v = Ok (PInt (as_number v)).
Proof.
  intros W [E|E]; unfold into_all, as_number; rewrite E; [rewrite (into_i32_ok v W)|rewrite (into_i64_ok v W)]; reflexivity.
Qed.
Lemma into_numbers F A : Forall val_wf A -> Forall (fun v => v_type v = T_i32 \/ v_type v = T_i64) A ->
  rmapl (into_all F) A = Ok (map PInt (map as_number A)).
Proof.
  induction 1 as [|v A W _ IH]; intros T; [reflexivity|]. cbn [rmapl map]. rewrite (into_number F v W (Forall_inv T)). cbn [rbind].
  now rewrite (IH (Forall_inv_tail T)).
Qed.
Lemma ints_back l : rmapl as_int (map PInt l) = Ok l.
Proof. induction l as [|x l IH]; [reflexivity|]. cbn [map rmapl as_int rbind]. now rewrite IH. Qed.
Lemma methods_types hid nm t f : nth_error wasi_methods hid = Some (nm, t, f) ->
  Forall (fun x => x = T_i32 \/ x = T_i64) (ft_args t) /\ (ft_rets t = [T_i32] \/ f = F_proc_exit).
Proof.
  intros H. apply nth_error_In in H.
  assert (Forall (fun e => Forall (fun x => x = T_i32 \/ x = T_i64) (ft_args (snd (fst e))) /\ (ft_rets (snd (fst e)) = [T_i32] \/ snd e = F_proc_exit)) wasi_methods) as K.
  { unfold wasi_methods. repeat (apply Forall_cons || apply Forall_nil). all: cbn [fst snd ft_args ft_rets]; (split; [repeat constructor; (left; reflexivity) || (right; reflexivity)|]); (left; reflexivity) || (right; reflexivity). }
  exact (proj1 (Forall_forall _ _) K _ H).
Qed.
Lemma number_types A ts : has_types A ts -> Forall (fun x => x = T_i32 \/ x = T_i64) ts -> Forall (fun v => v_type v = T_i32 \/ v_type v = T_i64) A.
Proof. unfold has_types. intros <-. induction A as [|v A IH]; intros H; [constructor|]. constructor; [exact (Forall_inv H)|apply IH, (Forall_inv_tail H)]. Qed.
Lemma calls_values m hid t A m' : calls_host m hid t A m' -> exists V pre, k_value m = pre ++ rev A ++ V.
Proof. intros [fr k a V _ _ _ E|fr i j c ta tab u a V _ _ _ _ _ _ _ E]; [now exists V, []|now exists V, [c]]. Qed.
Lemma calls_wf m hid t A m' : calls_host m hid t A m' -> Forall val_wf (k_value m) -> Forall val_wf A.
Proof.
  intros C W. destruct (calls_values _ _ _ _ _ C) as (V & pre & E). rewrite E in W. apply Forall_app in W. destruct W as [_ W]. apply Forall_app in W.
  destruct W as [W _]. apply Forall_rev in W. now rewrite rev_involutive in W.
Qed.
Lemma call_result Os f args w rs w' : wasi_call Os f args w = (Ok rs, w') -> exists e, rs = [e] /\ 0 <= e <= 76.
Proof.
  intros H. assert (SF : False -> forall log c, reply_bytes (Os log c)) by easy.
  pose proof (call_keeps False Os (fun _ => True) SF (fun _ _ => I) f args (fun _ _ => I) w ltac:(easy)) as (_ & _ & K). rewrite H in K. exact (K rs eq_refl).
Qed.
Lemma exit_never Os args w rs w' : wasi_call Os F_proc_exit args w <> (Ok rs, w').
Proof. destruct args as [|x [|y args]]; cbn [wasi_call]; try discriminate. unfold proc_exit, bind, self. destruct (p_return_on_exit (w_self w)); discriminate. Qed.
Lemma from_errno F e : 0 <= e <= 76 -> from_alls F [T_i32] [PInt e] = Ok [num_val T_i32 e].
Proof.
  intros H. assert (srange 32 e) as R by (unfold srange; change (2 ^ (32 - 1)) with 2147483648; lia). unfold from_alls. cbn [combine rmapl from_all].
  rewrite (from_i32_ok e R). cbn [rbind]. unfold num_val. repeat f_equal. rewrite !Z.mod_small; [reflexivity|..]; (change (2 ^ 128) with 340282366920938463463374607431768211456 || change (2 ^ 32) with 4294967296); lia.
Qed.
Lemma call_turn F Os w hid nm t f A m' : calls_host (w_mach w) hid t A m' -> nth_error wasi_methods hid = Some (nm, t, f) ->
  Forall val_wf (k_value (w_mach w)) -> has_types A (ft_args t) ->
  match wasi_call Os f (map as_number A) (with_mach w m') with
  | (Ok rs, w1) => exists e, rs = [e] /\ 0 <= e <= 76 /\ wturn F Os w = (Ok tt, pushed w1 (num_val T_i32 e))
  | (Err e, w1) => wturn F Os w = (Err e, w1)
  end.
Proof.
  intros C N W T. destruct (methods_types _ _ _ _ N) as [MT MR].
  assert (HA : length A = length (ft_args t)) by (unfold has_types in T; rewrite <- T; now rewrite map_length).
  unfold wturn. rewrite (host_turn_call F _ _ _ _ _ C W HA), (into_numbers F A (calls_wf _ _ _ _ _ C W) (number_types _ _ T MT)).
  unfold bind, wasi_host. rewrite N. unfold bind, lift. rewrite ints_back.
  destruct (wasi_call Os f (map as_number A) (with_mach w m')) as [[rs|e] w1] eqn:E; [|reflexivity].
  destruct (call_result _ _ _ _ _ _ E) as (e & -> & He). exists e. split; [reflexivity|]. split; [exact He|].
  destruct MR as [MR | ->]; [|now destruct (exit_never _ _ _ _ _ E)]. rewrite MR. cbn [map]. unfold ret. rewrite (from_errno F e He).
  unfold mach, extend, bind, mget, mput. unfold pushed. reflexivity.
Qed.

(* ---- sockets ---- *)
Definition calm (l : list event) : Prop := Forall (fun ev => ~ socket_request (fst ev)) l.
Lemma sock_dec f args : sock_fun f = true -> sock_call f args \/ forall Os w, wasi_call Os f args w = (Err EIndex, w).
Proof. destruct f; try discriminate; intros _; (do 10 (try (destruct args as [|? args]; try (right; reflexivity); try (left; exact I)))). Qed.
Lemma call_calm Os w f args : reached Os w -> calm (w_log w) -> calm (w_log (snd (wasi_call Os f args w))).
Proof.
  intros R C. destruct (sock_fun f) eqn:EF.
  - destruct (sock_dec f args EF) as [S|E]; [|now rewrite E]. destruct (sockets_unusable Os w f args R S) as (e & E & _). now rewrite E.
  - assert (SF : False -> forall log c, reply_bytes (Os log c)) by easy.
    pose proof (call_keeps False Os (fun c => ~ socket_request c) SF ltac:(intros []; cbn; tauto) f args ltac:(congruence) w ltac:(easy)) as (_ & (evs & E & K) & _).
    rewrite E. unfold calm. apply Forall_app. now split.
Qed.
Lemma preopen_calm Os cwd l : forall w, calm (w_log w) -> calm (w_log (snd (preopen Os cwd l w))).
Proof.
  induction l as [|(k, v) l IH]; intros w C; cbn [preopen]; [exact C|].
  unfold ask_int. unfold bind at 1. unfold bind at 1. unfold ask. destruct (Os _ _) as [|z|b|d|s|ls|i|r1 r2|e];
    try (constructor; [exact (fun x => x)|exact C]). unfold ret.
  unfold bind at 1. unfold self at 1. unfold bind at 1. unfold set_fd. unfold bind at 1. unfold self, set_self.
  apply IH. cbn [w_log]. constructor; [exact (fun x => x)|exact C].
Qed.
Lemma reached_calm Os w : reached Os w -> calm (w_log w).
Proof.
  intros (cwd & ((((h0 & n0) & (h1 & n1)) & (h2 & n2)) & args & dirs & envs & w0 & h & L & ->)).
  set (w1 := snd (new_preview1 Os cwd _ args dirs envs w0)).
  assert (calm (w_log w1)) as C1.
  { unfold w1, new_preview1. cbn zeta. unfold bind at 1. unfold set_self at 1. apply preopen_calm. cbn [w_log]. rewrite L. constructor. }
  induction h as [|x h IH] using rev_ind; [exact C1|]. rewrite history_app. destruct x as [f a|m p]; [|exact IH].
  change (history Os (history Os w1 h) [Call f a]) with (snd (wasi_call Os f a (history Os w1 h))). apply call_calm; [|exact IH].
  eexists _, _, _, _, _, w0, h. split; [exact L|reflexivity].
Qed.
Lemma close_calm Os l : forall i w, calm (w_log w) -> calm (w_log (snd (close_from Os i l w))).
Proof.
  induction l as [|f l IH]; intros i w C; cbn [close_from]; [exact C|]. unfold bind at 1. destruct (wasm_type f =? T_CHARACTER_DEVICE); [now apply IH|].
  destruct (host_open f); [|now apply IH]. unfold ask_unit, ask, bind, ret.
  destruct (Os _ _) as [|z|b|d|s|ls|j|r1 r2|e]; try (constructor; [exact (fun x => x)|exact C]).
  - unfold put_file, bind, self, lift. cbn [w_self]. destruct (py_setitem _ _ _); [|constructor; [exact (fun x => x)|exact C]]. unfold set_fd, bind, self, set_self.
    apply IH. constructor; [exact (fun x => x)|exact C].
Qed.
Lemma rewind_log i w : w_log (snd (rewind i w)) = w_log w.
Proof. unfold rewind. now destruct (nth_error (w_pipes w) i). Qed.
Lemma rewinds_log l : forall w, w_log (snd (forl (fun f => match pipe f with Some i => rewind i | None => ret tt end) l w)) = w_log w.
Proof.
  induction l as [|x l IH]; intros w; cbn [forl]; [reflexivity|]. unfold bind. destruct (pipe x) as [i|].
  - pose proof (rewind_log i w) as E. destruct (rewind i w) as [[u|e] w1]; cbn [snd] in *; [now rewrite IH|exact E].
  - apply IH.
Qed.
Lemma finally_calm Os w : calm (w_log w) -> calm (w_log (snd (main_finally Os w))).
Proof.
  intros C. unfold main_finally, bind, self. set (l1 := py_slice _ 1 3). pose proof (rewinds_log l1 w) as E. destruct (forl _ l1 w) as [[u|e] w1]; cbn [snd] in *.
  - apply close_calm. now rewrite E.
  - now rewrite E.
Qed.

(* ---- whole programs ---- *)
Lemma main_end F Os n h w : exists l, snd (main_try F Os n h w) = history Os w l /\ snd (run_main F Os n h w) = snd (main_finally Os (history Os w l)).
Proof.
  destruct (hist_main_try F Os n h w) as [l E]. exists l. split; [exact E|]. unfold run_main. destruct (main_try F Os n h w) as [r w1]. cbn [snd] in E. rewrite <- E.
  now destruct (main_finally Os w1) as [[u|e] w2].
Qed.
Definition ends Os {A} (e : W A) : Prop := forall w, exists h, snd (e w) = history Os w h \/ snd (e w) = snd (main_finally Os (history Os w h)).
Lemma ends_bind Os {A B} (e : W A) (f : A -> W B) : hist Os e -> (forall a, ends Os (f a)) -> ends Os (bind e f).
Proof.
  intros H K w. unfold bind. destruct (H w) as [h E]. destruct (e w) as [[a|x] w1]; cbn [snd] in *; [|exists h; now left].
  destruct (K a w1) as (h' & D). exists (h ++ h'). now rewrite history_app, <- E.
Qed.
Lemma program_end F Os cwd std args dirs envs n md w :
  let w1 := snd (new_preview1 Os cwd std args dirs envs w) in
  let w' := snd (wasi_program F Os cwd std args dirs envs n md w) in
  exists h, w' = history Os w1 h \/ w' = snd (main_finally Os (history Os w1 h)).
Proof.
  cbv zeta. unfold wasi_program. match goal with |- context [bind (new_preview1 _ _ _ _ _ _) ?f] => assert (forall a, ends Os (f a)) as K end.
  { intros _. apply ends_bind; [apply hist_mach|]. intros imps. apply ends_bind; [apply hist_mach|]. intros L. apply ends_bind; [apply hist_rt_instance|]. intros h w2.
    destruct (main_end F Os n h w2) as (l & _ & E). exists l. now right. }
  match goal with |- context [bind _ ?f] => set (g := f) in * end. unfold bind.
  destruct (new_preview1 Os cwd std args dirs envs w) as [[u|e] w1]; cbn [snd]; [apply (K u w1)|exists []; now left].
Qed.
Lemma program_calm F Os cwd std args dirs envs n md w : w_log w = [] ->
  calm (w_log (snd (wasi_program F Os cwd std args dirs envs n md w))).
Proof.
  intros L. destruct (program_end F Os cwd std args dirs envs n md w) as (h & [E|E]); rewrite E; [|apply finally_calm]; apply (reached_calm Os); eexists _, _, _, _, _, w, h; (split; [exact L|reflexivity]).
Qed.
Lemma program_live F init Os cwd h0 n0 h1 n1 h2 n2 args dirs envs n md w :
  sane init Os -> In h0 init -> In h1 init -> In h2 init -> h0 <> h1 -> h0 <> h2 -> h1 <> h2 -> w_log w = [] ->
  only_live init (w_log (snd (wasi_program F Os cwd (h0, n0, (h1, n1), (h2, n2)) args dirs envs n md w))).
Proof.
  intros SN I0 I1 I2 N1 N2 N3 L. destruct (program_end F Os cwd (h0, n0, (h1, n1), (h2, n2)) args dirs envs n md w) as (h & [E|E]); rewrite E.
  - pose proof (new_ok init Os cwd h0 n0 h1 n1 h2 n2 args dirs envs w SN I0 I1 I2 N1 N2 N3 L) as (T & O). exact (proj2 (inv_history init Os h SN _ T O)).
  - now apply whole_run.
Qed.
