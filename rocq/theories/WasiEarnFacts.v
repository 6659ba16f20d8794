(* Success of a WASI function means that its work was done (C140). *)
From Coq Require Import ZArith List Bool Lia.
From Verif Require Import Py Syntax Store Val Machine Utf8 Os Wasi SpecWasiAsk WasiAskFacts SpecWasiEarn.
From Verif Require WasiLeaveFacts.
Import ListNotations.
Open Scope Z_scope.

Section pass.
Context (Os : os) (P : oscall -> Prop) (p : preview1).
Notation any := (fun _ : oscall => True).
Notation grows := (asks any).
Definition did {A} (e : W A) : Prop := forall w v w', e w = (Ok v, w') -> granted P w w'.
Definition earns0 (e : W (list Z)) : Prop := forall w w', e w = (Ok [E_SUCCESS], w') -> granted P w w'.
(* the same, started with the descriptors [p] *)
Definition earns (e : W (list Z)) : Prop := forall w w', w_self w = p -> e w = (Ok [E_SUCCESS], w') -> granted P w w'.
Lemma granted_l a b c : granted P a b -> asked_only any b c -> granted P a c.
Proof. intros (e1 & q & r & E1 & H1 & H2 & H3) (e2 & E2 & _). exists (e2 ++ e1), q, r. split; [now rewrite E2, E1, app_assoc|]. split; [apply in_app_iff; now right|]. now split. Qed.
Lemma granted_r a b c : asked_only any a b -> granted P b c -> granted P a c.
Proof. intros (e1 & E1 & _) (e2 & q & r & E2 & H1 & H2 & H3). exists (e2 ++ e1), q, r. split; [now rewrite E2, E1, app_assoc|]. split; [apply in_app_iff; now left|]. now split. Qed.
Lemma earns_any e : earns0 e -> earns e. Proof. intros H w w' _. apply H. Qed.
Lemma earns0_l {A} (e : W A) f : did e -> (forall a, grows (f a)) -> earns0 (bind e f).
Proof.
  intros H K w w' E. unfold bind in E. destruct (e w) as [[a|x] w1] eqn:E1; [|discriminate E]. specialize (H _ _ _ E1). specialize (K a w1). rewrite E in K. exact (granted_l _ _ _ H K).
Qed.
Lemma earns0_r {A} (e : W A) f : grows e -> (forall a, earns0 (f a)) -> earns0 (bind e f).
Proof.
  intros H K w w' E. unfold bind in E. specialize (H w). destruct (e w) as [[a|x] w1] eqn:E1; [|discriminate E]. exact (granted_r _ _ _ H (K a _ _ E)).
Qed.
Lemma earns_r {A} (e : W A) f : grows e -> WasiLeaveFacts.lv true false true e -> (forall a, earns (f a)) -> earns (bind e f).
Proof.
  intros H L K w w' EP E. unfold bind in E. specialize (H w). destruct (L w) as (_ & L' & _). destruct (e w) as [[a|x] w1] eqn:E1; [|discriminate E].
  refine (granted_r _ _ _ H (K a _ _ _ E)). now rewrite <- EP, <- (L' eq_refl).
Qed.
Lemma earns_file x f : (forall a, py_index (p_fd p) x = Ok a -> earns (f a)) -> earns (bind (the_file x) f).
Proof.
  intros K w w' EP E. unfold the_file, bind, self, lift in E. rewrite EP in E. destruct (py_index (p_fd p) x) as [a|] eqn:E1; [|discriminate E]. exact (K a eq_refl _ _ EP E).
Qed.
Lemma earns_ret n : n <> 0 -> earns (ret [n]).
Proof. intros H w w' _ E. injection E as E _. destruct (H E). Qed.
Lemma earns_fail x : earns (fail x). Proof. intros w w' _ E. discriminate E. Qed.
Lemma granted_one c r w : P c -> (forall e, r <> RFail e) -> granted P w (mkworld (w_self w) ((c, r) :: w_log w) (w_pipes w) (w_mach w)).
Proof. intros H1 H2. exists [(c, r)], c, r. split; [reflexivity|]. split; [now left|]. now split. Qed.
Lemma did_unit c : P c -> did (ask_unit Os c).
Proof. intros H w v w' E. unfold ask_unit, bind, ask in E. destruct (Os (w_log w) c) eqn:EO; try discriminate E. injection E as _ <-. apply granted_one; [exact H|discriminate]. Qed.
Lemma did_int c : P c -> did (ask_int Os c).
Proof. intros H w v w' E. unfold ask_int, bind, ask in E. destruct (Os (w_log w) c) eqn:EO; try discriminate E. injection E as _ <-. apply granted_one; [exact H|discriminate]. Qed.
Lemma did_bytes c : P c -> did (ask_bytes Os c).
Proof. intros H w v w' E. unfold ask_bytes, bind, ask in E. destruct (Os (w_log w) c) eqn:EO; try discriminate E. injection E as _ <-. apply granted_one; [exact H|discriminate]. Qed.
Lemma did_names c : P c -> did (ask_names Os c).
Proof. intros H w v w' E. unfold ask_names, bind, ask in E. destruct (Os (w_log w) c) eqn:EO; try discriminate E. injection E as _ <-. apply granted_one; [exact H|discriminate]. Qed.
Lemma did_stat c : P c -> did (ask_stat Os c).
Proof. intros H w v w' E. unfold ask_stat, bind, ask in E. destruct (Os (w_log w) c) eqn:EO; try discriminate E. injection E as _ <-. apply granted_one; [exact H|discriminate]. Qed.
Lemma earns_try c handler k : P c -> (forall e n, handler e = Some n -> n <> 0) -> (forall r, grows (k r)) -> earns (ask_try Os c handler k).
Proof.
  intros H HN HK w w' _ E. unfold ask_try, bind, ask in E. set (w1 := mkworld _ _ _ _) in E. set (r0 := Os (w_log w) c) in *.
  assert (HK' : forall r, (forall e, r <> RFail e) -> r0 = r -> k r w1 = (Ok [E_SUCCESS], w') -> granted P w w').
  { intros r HR E0 E1. specialize (HK r w1). rewrite E1 in HK. refine (granted_l _ w1 _ _ HK). subst w1. rewrite E0. apply granted_one; [exact H|exact HR]. }
  destruct r0 as [| | | | | | | |e] eqn:ER; try (refine (HK' _ _ eq_refl E); discriminate).
  exfalso. destruct (handler e) as [n|] eqn:EH; [injection E as E _; exact (HN _ _ EH E)|discriminate E].
Qed.
End pass.
Ltac g_step := first [match goal with |- asks _ (ask _ _) => apply asks_ask; exact I end | WasiAskFacts.a_step].
Ltac g_loop := first [apply asks_put_strings | apply asks_gather | apply asks_files | apply asks_total | apply asks_scatter].
Lemma readdir_grows Os a host l bufend : forall dirent cookie, asks (fun _ => True) (readdir_loop Os a host l bufend dirent cookie).
Proof. induction l as [|nm l IH]; intros; cbn [readdir_loop]; cbn zeta; repeat (g_step; cbn beta zeta). apply IH. Qed.
Ltac g_tac := cbn zeta; repeat (first [apply readdir_grows | g_loop | g_step]; cbn beta zeta).
Ltac l_tac := cbn zeta; repeat (first [apply WasiLeaveFacts.lv_gather | apply WasiLeaveFacts.lv_total | WasiLeaveFacts.a_step]; cbn beta zeta).
Ltac s_tac := cbn; repeat split; try (unfold on); eauto.
Ltac d_tac := first [apply did_unit | apply did_int | apply did_bytes | apply did_names | apply did_stat]; solve [s_tac].
Ltac h_tac := intros e n; destruct e; try discriminate; try (let X := fresh in intros X; injection X as <-; discriminate);
  match goal with |- (if ?b then _ else _) = _ -> _ => destruct b; try discriminate; let X := fresh in intros X; injection X as <-; discriminate end.
Ltac e_step := match goal with
  | |- earns _ _ (ret _) => apply earns_ret; discriminate
  | |- earns _ _ (fail _) => apply earns_fail
  | |- earns _ _ (os_raise _) => unfold os_raise
  | |- earns _ _ (unless_badf _ _) => unfold unless_badf
  | |- earns _ _ (unless_dir _ _) => unfold unless_dir
  | |- earns _ _ (need _ _ _) => unfold need
  | |- earns _ _ (unless_sock _ _) => unfold unless_sock
  | |- earns _ _ (unless_escp _ _ _) => unfold unless_escp
  | |- earns _ _ (ask_try _ _ _ _) => apply earns_try; [solve [s_tac]|h_tac|intros ?; solve [g_tac]]
  | |- earns _ _ (bind (the_file _) _) => apply earns_file; intros ? ?
  | |- earns _ _ (bind (put_file _ _) _) => apply earns_any; apply earns0_r; [solve [g_tac]|intros ?]; apply earns0_l; [solve [d_tac]|intros ?; solve [g_tac]]
  | |- earns _ _ (bind _ _) => first [apply earns_any; apply earns0_l; [solve [d_tac]|intros ?; solve [g_tac]] | apply earns_r; [solve [g_tac]|solve [l_tac]|intros ?]]
  | |- earns _ _ (if ?b then _ else _) => destruct b
  | |- earns _ _ (match ?x with _ => _ end) => destruct x
  end.
Lemma call_earns Os p f args : works_for f -> f <> F_fd_datasync -> f <> F_clock_time_get -> earns (the_work p f args) p (wasi_call Os f args).
Proof.
  intros HW N1 N2. cbn [works_for In] in HW. unfold works_for in HW. cbn [In] in HW.
  repeat (destruct HW as [<-|HW]); try congruence; try contradiction;
    (do 10 (try (destruct args as [|? args]; try (apply earns_fail)))); cbn [wasi_call].
  all: unfold fd_sync, fd_fdstat_set_flags, fd_filestat_get, fd_filestat_set_size, fd_filestat_set_times, fd_readdir, fd_seek, fd_tell,
     path_create_directory, path_filestat_get, path_filestat_set_times, path_link, path_open, path_readlink, path_remove_directory, path_rename, path_symlink,
     path_unlink_file, random_get, sock_recv, sock_send, sock_shutdown; cbn zeta; repeat (e_step; cbn beta zeta).
Qed.
Lemma asks_none {A} (e : W A) w : asks (fun _ => False) e -> w_log (snd (e w)) = w_log w.
Proof. intros H. destruct (H w) as (evs & E & K). destruct evs as [|ev evs]; [exact E|]. inversion K as [|? ? K1]. contradiction. Qed.
Lemma clock_unknown Os id p t w : ~ 0 <= id <= 3 -> w_log (snd (wasi_call Os F_clock_time_get [id; p; t] w)) = w_log w.
Proof.
  intros H. apply asks_none. cbn [wasi_call]. unfold clock_time_get, help_time. replace ((0 <=? id) && (id <=? 3)) with false by lia. repeat (WasiAskFacts.a_step; cbn beta zeta).
Qed.
Lemma clock_known Os q id p t : 0 <= id <= 3 -> earns (the_work q F_clock_time_get [id; p; t]) q (wasi_call Os F_clock_time_get [id; p; t]).
Proof.
  intros H. cbn [wasi_call]. unfold clock_time_get, help_time. replace ((0 <=? id) && (id <=? 3)) with true by lia. repeat (e_step; cbn beta zeta).
Qed.
