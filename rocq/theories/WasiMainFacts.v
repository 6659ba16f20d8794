(* Preview1.main: exit statuses. *)
From Coq Require Import ZArith List Bool Lia ZifyBool ZifyNat.
From Verif Require Import Py Arith Floatops Val Opcode Numeric Syntax Store Basic Machine Utf8 Os Wasi SpecInt SpecMachine SpecControl SpecMem SpecFormat SpecWasi
  PyFacts ValFacts StepFacts MemFacts BulkFacts ControlFacts CallFacts.
Import ListNotations.
Open Scope Z_scope.

Lemma proc_exit_raises Os w c : p_return_on_exit (w_self w) = true -> wasi_call Os F_proc_exit [c] w = (Err (ESystemExit c), w).
Proof. intros H. cbn [wasi_call]. unfold proc_exit, bind, self. now rewrite H. Qed.
Lemma returns_empty F host n h m c m' : wasi_main F host n h m = (Ok c, m') -> k_value m' = [] /\ k_label m' = [] /\ k_frame m' = [].
Proof.
  unfold wasi_main, main_outcome. destruct (rt_invocate F host n h n_start [] m) as [[rets|e] m1] eqn:E.
  - intros H. injection H as <- <-. unfold rt_invocate in E. unfold bind at 1, mget at 1 in E.
    apply bind_inv in E. destruct E as (x & m2 & E1 & E). apply bind_inv in E. destruct E as (f & m3 & E2 & E).
    apply bind_inv in E. destruct E as (u & m4 & E3 & E). apply bind_inv in E. destruct E as (vs & m5 & E4 & E).
    apply bind_inv in E. destruct E as (rs & m6 & E5 & E). apply invocate_clean in E5. destruct E5 as (A & B & C & _).
    unfold lift in E. injection E as _ <-. now repeat split.
  - destruct e; intros H; try discriminate; injection H as _ <-; now repeat split.
Qed.
Lemma raises_empty F host n h m e m' : wasi_main F host n h m = (Err e, m') -> (forall c, e <> EExit c) ->
  k_value m' = [] /\ k_label m' = [] /\ k_frame m' = [].
Proof.
  unfold wasi_main, main_outcome. destruct (rt_invocate F host n h n_start [] m) as [[rets|e1] m1]; [discriminate|].
  destruct e1; intros H N; try discriminate; injection H as <- <-; try (now repeat split). exfalso. now apply (N c).
Qed.
(* _start is the function at [a] with code [code]; what its invocation starts with *)
Lemma start_main F host h m e a t hm code : find_export (mod_of (k_store m) (MRef h)) n_start = Ok e -> e_data e = Z.of_nat a ->
  nth_error (s_func (k_store m)) a = Some (FWasm t hm code) -> ft_args t = [] -> forall n x m2,
  evaluate F host n (mkmach (k_store m) (k_value m) (first_label t code :: k_label m) (first_frame t hm code [] :: dummy :: k_frame m)) = (Err x, m2) ->
  rt_invocate F host n h n_start [] m = (Err x, m2).
Proof.
  intros E Ea Ef Et n x m2 EV. unfold rt_invocate.
  rewrite (bind_ok mget _ m m m eq_refl).
  rewrite (bind_ok _ _ m e m) by (unfold lift; now rewrite E).
  rewrite (bind_ok _ _ m (FWasm t hm code) m) by (unfold lift; rewrite Ea; now rewrite (py_index_nth _ _ _ Ef)). cbn [fi_type].
  rewrite (bind_ok _ _ m tt m) by (rewrite Et; reflexivity).
  rewrite (bind_ok _ _ m [] m) by (rewrite Et; reflexivity).
  apply bind_err. unfold invocate.
  rewrite (bind_ok mget _ m m m eq_refl).
  rewrite (bind_ok _ _ m (FWasm t hm code) m) by (unfold lift; rewrite Ea; now rewrite (py_index_nth _ _ _ Ef)).
  rewrite (bind_ok _ _ m tt m) by (rewrite Et; reflexivity).
  rewrite (bind_ok (push_frame _) _ m tt _ eq_refl). rewrite (bind_ok (push_frame _) _ _ tt _ eq_refl). rewrite (bind_ok (push_label _) _ _ tt _ eq_refl).
  apply bind_err. rewrite <- EV. unfold first_frame, first_label. now rewrite <- default_zero.
Qed.
Lemma exit_status F host h m e a t hm code m1 c m2 : find_export (mod_of (k_store m) (MRef h)) n_start = Ok e -> e_data e = Z.of_nat a ->
  nth_error (s_func (k_store m)) a = Some (FWasm t hm code) -> ft_args t = [] ->
  reach F host (mkmach (k_store m) (k_value m) (first_label t code :: k_label m) (first_frame t hm code [] :: dummy :: k_frame m)) m1 ->
  k_label m1 <> [] -> step F host m1 = (Err (ESystemExit c), m2) ->
  exists n0, forall n, (n0 <= n)%nat -> wasi_main F host n h m = (Ok c, mkmach (k_store m2) [] [] []).
Proof.
  intros E Ea Ef Et (n1 & R) L S. exists (n1 + 1)%nat. intros n Hn. unfold wasi_main.
  rewrite (start_main F host h m e a t hm code E Ea Ef Et n (ESystemExit c) m2); [reflexivity|].
  replace n with (n1 + Datatypes.S (n - n1 - 1))%nat by lia. rewrite R. cbn [evaluate].
  destruct (k_label m1); [easy|]. unfold bind. now rewrite S.
Qed.
Lemma host_raises F host m j fr a t hid A V pargs e m' :
  about_to_run m (IOp O_call [AInt (Z.of_nat j)]) fr ->
  nth_error (m_func (mod_of (k_store m) (fr_module fr))) j = Some (Z.of_nat a) ->
  nth_error (s_func (k_store m)) a = Some (FHost t hid) -> k_value m = rev A ++ V -> length A = length (ft_args t) ->
  rmapl (into_all F) A = Ok pargs -> host hid pargs (moved_on m V) = (Err e, m') ->
  step F host m = (Err e, m').
Proof.
  intros H N1 N2 Hv HA Hp Hh. destruct (step_inst F host m _ fr H) as (lb & ls & El & ->). cbn [exec].
  unfold bind at 1, lift, arg_int. rewrite (py_index_0 [AInt (Z.of_nat j)] (AInt (Z.of_nat j)) eq_refl).
  cbn [rbind]. unfold bind at 1, mget. cbn [moved_on k_store]. unfold bind at 1, lift. rewrite (py_index_nth _ _ _ N1).
  unfold evaluate_call. unfold bind at 1, mget at 1. cbn [moved_on k_store]. unfold bind at 1, lift at 1. rewrite (py_index_nth _ _ _ N2).
  cbn [fi_type]. rewrite Hv.
  pose proof (popn_args A V [] (k_store m) (k_label (moved_on m V)) (k_frame m) _ HA) as P. rewrite !app_nil_r in P.
  unfold moved_on in *. cbn [k_label] in P.
  rewrite (bind_ok _ _ _ _ _ P). cbv zeta iota. unfold bind at 1, lift at 1. rewrite Hp. unfold bind. now rewrite Hh.
Qed.
Lemma reads_status F v : v_type v = T_i32 -> val_wf v -> rmapl (into_all F) [v] = Ok [PInt (signed_of 32 (low 32 v))].
Proof. intros T W. cbn [rmapl]. unfold into_all. rewrite T, (into_i32_ok v W). reflexivity. Qed.
