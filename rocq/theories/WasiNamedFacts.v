(* A call works only on the host descriptors behind the descriptors it is given. *)
From Coq Require Import ZArith List Bool Lia ZifyBool ZifyNat.
From Verif Require Import Py Syntax Store Val Machine Utf8 Os Wasi SpecMem SpecFormat SpecWasi PyFacts MemFacts
  WasiFacts WasiTableFacts WasiGrowFacts WasiCallFacts WasiRun SpecWasiRun.
Import ListNotations.
Open Scope Z_scope.

Section pass.
Variables (Os : os) (L : list Z) (H : Z -> Prop).
Hypothesis NN : Forall (fun fd => 0 <= fd) L.
Definition good (w : world) : Prop := forall fd f, In fd L -> nth_error (p_fd (w_self w)) (Z.to_nat fd) = Some f -> H (host_fd f).
Definition nk {A} (e : W A) (P : A -> Prop) : Prop := forall w, good w ->
  good (snd (e w)) /\ (exists evs, w_log (snd (e w)) = evs ++ w_log w /\ Forall (fun ev => Forall H (uses (fst ev))) evs) /\
  (forall a, fst (e w) = Ok a -> P a).
Lemma nk_id {A} (e : W A) (P : A -> Prop) : (forall w, w_self (snd (e w)) = w_self w /\ w_log (snd (e w)) = w_log w) ->
  (forall w a, good w -> fst (e w) = Ok a -> P a) -> nk e P.
Proof.
  intros E K w Hw. destruct (E w) as (E1 & E2). split; [unfold good; now rewrite E1|]. split; [exists []; split; [now rewrite E2|constructor]|].
  intros a. now apply K.
Qed.
Lemma nk_ret {A} (a : A) (P : A -> Prop) : P a -> nk (ret a) P.
Proof. intros K. apply nk_id; [easy|]. intros w a' _ E. apply Ok_inj in E. now subst. Qed.
Lemma nk_fail {A} e P : nk (fail e : W A) P.
Proof. now apply nk_id. Qed.
Lemma nk_still {A} (e : W A) : still e -> nk e (fun _ => True).
Proof. intros S. apply nk_id; [|easy]. intros w. exact (S w). Qed.
Lemma nk_file fd : In fd L -> nk (the_file fd) (fun f => H (host_fd f)).
Proof.
  intros I. apply nk_id; [easy|]. intros w f G E. unfold the_file, bind, self, lift in E. cbn [fst] in E. pose proof (proj1 (Forall_forall _ _) NN fd I) as P. cbn in P.
  unfold py_index in E. replace (fd <? 0) with false in E by lia. cbn zeta in E. replace (fd <? 0) with false in E by lia.
  destruct (nth_error (p_fd (w_self w)) (Z.to_nat fd)) eqn:N; [|discriminate]. apply Ok_inj in E. subst f. exact (G fd _ I N).
Qed.
Lemma nk_put fd f : H (host_fd f) -> nk (put_file fd f) (fun _ => True).
Proof.
  intros K w G. unfold put_file, bind, self, lift. unfold py_setitem. cbn zeta. set (i := if fd <? 0 then _ else _). destruct (_ || _).
  - split; [exact G|]. split; [exists []; split; [reflexivity|constructor]|easy].
  - unfold set_fd, bind, self, set_self. cbn [fst snd w_log]. split; [|split; [exists []; split; [reflexivity|constructor]|easy]].
    intros d g I N. cbn [w_self p_fd] in N. rewrite nth_error_upd in N. destruct (Nat.eqb_spec (Z.to_nat d) (Z.to_nat i)).
    + destruct (Nat.ltb _ _); [|discriminate]. now injection N as <-.
    + exact (G d g I N).
Qed.
Lemma nk_bind {A B} (e : W A) (f : A -> W B) P R : nk e P -> (forall a, P a -> nk (f a) R) -> nk (bind e f) R.
Proof.
  intros E K w Hw. unfold bind. destruct (E w Hw) as (H1 & (ev & H2 & H3) & H4). destruct (e w) as [[a|x] w1]; cbn [fst snd] in *.
  2:{ split; [exact H1|]. split; [now exists ev|easy]. }
  destruct (K a (H4 a eq_refl) w1 H1) as (K1 & (ev' & K2 & K3) & K4). split; [exact K1|]. split; [|exact K4].
  exists (ev' ++ ev). split; [now rewrite K2, H2, app_assoc|]. apply Forall_app. now split.
Qed.
Lemma nk_ask c : Forall H (uses c) -> nk (ask Os c) (fun _ => True).
Proof.
  intros HQ w Hw. unfold ask. cbn [fst snd w_log]. split; [exact Hw|]. split; [|easy].
  exists [(c, Os (w_log w) c)]. split; [reflexivity|]. now repeat constructor.
Qed.
Lemma nk_try c handler k (P : list Z -> Prop) : Forall H (uses c) -> (forall n, P [n]) -> (forall r, nk (k r) P) -> nk (ask_try Os c handler k) P.
Proof.
  intros HQ HP HK. unfold ask_try. eapply nk_bind; [exact (nk_ask c HQ)|]. cbn beta. intros r _.
  destruct r; try (now apply HK). destruct (handler e) as [n|] eqn:E; [apply nk_ret, HP|apply nk_fail].
Qed.
Lemma nk_ask_unit c : Forall H (uses c) -> nk (ask_unit Os c) (fun _ => True).
Proof. intros HQ. eapply nk_bind; [exact (nk_ask c HQ)|]. intros [] _; try apply nk_fail. now apply nk_ret. Qed.
Lemma nk_ask_int c : Forall H (uses c) -> nk (ask_int Os c) (fun _ => True).
Proof. intros HQ. eapply nk_bind; [exact (nk_ask c HQ)|]. intros [] _; try apply nk_fail. now apply nk_ret. Qed.
Lemma nk_ask_names c : Forall H (uses c) -> nk (ask_names Os c) (fun _ => True).
Proof. intros HQ. eapply nk_bind; [exact (nk_ask c HQ)|]. intros [] _; try apply nk_fail. now apply nk_ret. Qed.
Lemma nk_ask_stat c : Forall H (uses c) -> nk (ask_stat Os c) (fun _ => True).
Proof. intros HQ. eapply nk_bind; [exact (nk_ask c HQ)|]. intros [] _; try apply nk_fail. now apply nk_ret. Qed.
Lemma nk_ask_bool c : Forall H (uses c) -> nk (ask_bool Os c) (fun _ => True).
Proof. intros HQ. eapply nk_bind; [exact (nk_ask c HQ)|]. intros [] _; now apply nk_ret. Qed.
Lemma nk_ask_bytes c : Forall H (uses c) -> nk (ask_bytes Os c) (fun _ => True).
Proof. intros HQ. eapply nk_bind; [exact (nk_ask c HQ)|]. intros [] Hr; try apply nk_fail. now apply nk_ret. Qed.
Lemma nk_any {A} (e : W A) P : nk e P -> nk e (fun _ => True).
Proof. intros K w Hw. destruct (K w Hw) as (H1 & H2 & _). split; [exact H1|split; [exact H2|easy]]. Qed.

Ltac h_tac := cbn [uses]; repeat first [assumption | apply Forall_nil | apply Forall_cons].
Ltac n_post e := match e with the_file _ => constr:(fun f => H (host_fd f)) end.
Ltac in_L := first [assumption | (match goal with HL : forall fd, In fd _ -> In fd L |- _ => apply HL; cbn; tauto end)].
Ltac n_step :=
  match goal with
  | |- nk (ret _) _ => apply nk_ret; cbn beta; try exact I
  | |- nk (fail _) _ => apply nk_fail
  | |- nk (os_raise _) _ => apply nk_fail
  | |- nk (the_file _) (fun _ => True) => apply nk_still, still_file
  | |- nk (the_file _) _ => apply nk_file; in_L
  | |- nk (put_file _ _) _ => apply nk_put; assumption
  | |- nk (ask _ _) _ => apply nk_ask; h_tac
  | |- nk (ask_try _ _ _ _) _ => apply nk_try; [h_tac|intros; exact I|intros ?]
  | |- nk (ask_unit _ _) _ => apply nk_ask_unit; h_tac
  | |- nk (ask_int _ _) _ => apply nk_ask_int; h_tac
  | |- nk (ask_bytes _ _) _ => apply nk_ask_bytes; h_tac
  | |- nk (ask_names _ _) _ => apply nk_ask_names; h_tac
  | |- nk (ask_stat _ _) _ => apply nk_ask_stat; h_tac
  | |- nk (ask_bool _ _) _ => apply nk_ask_bool; h_tac
  | |- nk (bind ?e _) _ => (let P := n_post e in apply (nk_bind e _ P); [|let a := fresh "f" in let K := fresh "Hf" in intros a K; cbn beta in K]) ||
                              (apply (nk_bind e _ (fun _ => True)); [|intros ? _])
  | |- nk (if ?b then _ else _) _ => destruct b
  | |- nk (match ?x with _ => _ end) _ => destruct x
  | |- nk (help_time _ _) _ => unfold help_time
  | |- nk (help_idir _) _ => unfold help_idir
  | |- nk (help_perm _ _) _ => unfold help_perm
  | |- nk (help_sock _) _ => unfold help_sock
  | |- nk (stream_read _ _ _ _) _ => unfold stream_read
  | |- nk (stream_write _ _ _ _) _ => unfold stream_write
  | |- nk (unless_badf _ _) _ => unfold unless_badf
  | |- nk (unless_dir _ _) _ => unfold unless_dir
  | |- nk (need _ _ _) _ => unfold need
  | |- nk (unless_sock _ _) _ => unfold unless_sock
  | |- nk (unless_escp _ _ _) _ => unfold unless_escp
  | |- nk (get_str _ _ _) _ => unfold get_str
  | |- nk _ (fun _ => True) => apply nk_still; first [apply still_lift | apply still_self | apply still_mem | apply still_read | apply still_write | apply still_pipe_read | apply still_pipe_write
      | apply still_put_strings | apply still_put_stat | apply still_gather | apply still_iov_total | apply still_scatter | apply still_put_event | apply still_help_pipe ]
  end.
Ltac n_tac := cbn zeta; repeat (n_step; cbn beta zeta).
Lemma nk_pread a h n : H h -> forall ptr offs, nk (pread_loop Os a h n ptr offs) (fun _ => True).
Proof. intros K. induction n as [|n IH]; intros; cbn [pread_loop]; n_tac. apply IH. Qed.
Lemma nk_read_loop a fd f n : H (host_fd f) -> forall ptr size, nk (read_loop Os a fd f n ptr size) (fun _ => True).
Proof. intros K. induction n as [|n IH]; intros; cbn [read_loop]; n_tac. apply IH. Qed.
Lemma nk_readdir a host l bufend : forall dirent cookie, nk (readdir_loop Os a host l bufend dirent cookie) (fun _ => True).
Proof. induction l as [|nm l IH]; intros; cbn [readdir_loop]; n_tac. apply IH. Qed.
Ltac n_loop := first [(apply nk_pread; assumption) | (apply nk_read_loop; assumption) | apply nk_readdir].
Lemma nk_call f args : (forall fd, In fd (descriptors f args) -> In fd L) -> f <> F_poll_oneoff -> f <> F_path_open ->
  nk (wasi_call Os f args) (fun _ => True).
Proof.
  intros HL N1 N2.
  destruct f; try congruence; (do 10 (try (destruct args as [|? args]; try (apply nk_fail)))); cbn [wasi_call]; cbn [descriptors] in HL; clear N1 N2.
  all: unfold args_get, args_sizes_get, clock_res_get, clock_time_get, environ_get, environ_sizes_get, fd_advise, fd_allocate, fd_close,
     fd_datasync, fd_fdstat_get, fd_fdstat_set_flags, fd_fdstat_set_rights, fd_filestat_get, fd_filestat_set_size, fd_filestat_set_times, fd_pread,
     fd_prestat_dir_name, fd_prestat_get, fd_pwrite, fd_read, fd_readdir, fd_renumber, fd_seek, fd_sync, fd_tell, fd_write,
     path_create_directory, path_filestat_get, path_filestat_set_times, path_link, path_readlink, path_remove_directory, path_rename, path_symlink,
     path_unlink_file, proc_exit, proc_raise, random_get, sched_yield, sock_accept, sock_recv, sock_send, sock_shutdown, put_sizes;
     repeat (n_tac; try n_loop).
Qed.
Lemma nk_append g {A} (k : W A) (P : A -> Prop) : H (host_fd g) -> nk k P -> nk (let! p := self in set_fd (p_fd p ++ [g]) ;; k) P.
Proof.
  intros HG K w G. unfold bind at 1. unfold self at 1. unfold bind at 1. unfold set_fd, bind at 1, self, set_self.
  apply K. intros fd f I N. cbn [w_self p_fd] in N. destruct (Nat.lt_ge_cases (Z.to_nat fd) (length (p_fd (w_self w)))) as [LT|GE].
  - rewrite nth_error_app1 in N by exact LT. exact (G fd f I N).
  - rewrite nth_error_app2 in N by exact GE. destruct (Z.to_nat fd - length (p_fd (w_self w)))%nat as [|[|?]]; [now injection N as <-|discriminate N|discriminate N].
Qed.
Lemma nk_opened a h b0 q0 g fd x8 : H h -> (forall b q i, host_fd (g b q i) = h) ->
  nk (let! isdir := ask_bool Os (OsIsdir h) in
      let '(b, q) := if isdir : bool then (Z.land b0 (Z.lnot R_FD_SEEK), Z.land q0 (Z.lnot R_FD_SEEK)) else (b0, q0) in
      let! isfile := ask_bool Os (OsIsfile h) in
      let '(b, q) := if isfile : bool then (Z.land b (Z.lnot path_rights), Z.land q (Z.lnot path_rights)) else (b, q) in
      let! i := ask_stat Os (OsStatFd h) in
      let! p := self in
      set_fd (p_fd p ++ [g b q i]) ;; put_u32 a x8 fd ;; ret [E_SUCCESS]) (fun _ => True).
Proof.
  intros K E. apply (nk_bind _ _ (fun _ => True)); [n_tac|]. intros isdir _. destruct (if isdir then _ else _) as [b q].
  apply (nk_bind _ _ (fun _ => True)); [n_tac|]. intros isfile _. destruct (if isfile then _ else _) as [b' q'].
  apply (nk_bind _ _ (fun _ => True)); [n_tac|]. intros i _. apply nk_append; [now rewrite E|]. unfold put_u32. n_tac.
Qed.
End pass.

(* as nk, but the requests may also use what they open *)
Definition nk' (L : list Z) (H : Z -> Prop) {A} (e : W A) : Prop := forall w, good L H w ->
  exists evs, w_log (snd (e w)) = evs ++ w_log w /\ own H evs.
Lemma own_all (H : Z -> Prop) evs : Forall (fun ev => Forall H (uses (fst ev))) evs -> own H evs.
Proof.
  induction 1 as [|[c r] evs K _ IH]; [exact I|]. split; [|exact IH]. cbn [fst] in K. eapply Forall_impl; [|exact K]. intros h Hh. now left.
Qed.
Lemma own_app (H : Z -> Prop) evs evs0 : Forall (fun ev => Forall H (uses (fst ev))) evs -> own H evs0 -> own H (evs ++ evs0).
Proof.
  induction 1 as [|[c r] evs K _ IH]; intros O; [exact O|]. split; [|now apply IH]. cbn [fst] in K. eapply Forall_impl; [|exact K]. intros h Hh. now left.
Qed.
Lemma own_late H evs1 evs2 : own H evs1 -> Forall (fun ev => Forall H (uses (fst ev))) evs2 -> own H (evs1 ++ evs2).
Proof.
  induction evs1 as [|[c r] evs1 IH]; intros O K; [now apply own_all|]. destruct O as [O1 O2]. split; [|now apply IH].
  eapply Forall_impl; [|exact O1]. intros h [Hh|(a & b & c' & d & I)]; [now left|]. right. exists a, b, c', d. apply in_or_app. now left.
Qed.
Lemma nk'_of L H {A} (e : W A) P : nk L H e P -> nk' L H e.
Proof. intros K w G. destruct (K w G) as (_ & (evs & E & F) & _). exists evs. split; [exact E|now apply own_all]. Qed.
Lemma nk'_bind L H {A B} (e : W A) (f : A -> W B) P : nk L H e P -> (forall a, P a -> nk' L H (f a)) -> nk' L H (bind e f).
Proof.
  intros E K w G. unfold bind. destruct (E w G) as (H1 & (ev & H2 & H3) & H4). destruct (e w) as [[a|x] w1]; cbn [fst snd] in *.
  2:{ exists ev. split; [exact H2|now apply own_all]. }
  destruct (K a (H4 a eq_refl) w1 H1) as (ev' & K2 & K3). exists (ev' ++ ev). split; [now rewrite K2, H2, app_assoc|]. now apply own_late.
Qed.
Lemma nk'_open L (H : Z -> Prop) Os c handler (k : reply -> W (list Z)) nm fl md d : c = OsOpen nm fl md d -> Forall H (uses c) ->
  (forall h, nk L (fun x => H x \/ x = h) (k (RInt h)) (fun _ => True)) -> (forall r, (forall h, r <> RInt h) -> nk' L H (k r)) ->
  nk' L H (ask_try Os c handler k).
Proof.
  intros E U K1 K2 w G. unfold ask_try, bind, ask. set (w1 := mkworld _ _ _ _). assert (own H [(c, Os (w_log w) c)]) as O1.
  { split; [|exact I]. eapply Forall_impl; [|exact U]. intros h Hh. now left. }
  assert (forall e : W (list Z), nk' L H e -> exists evs, w_log (snd (e w1)) = evs ++ w_log w /\ own H evs) as X.
  { intros e N. destruct (N w1 G) as (evs & E1 & E2). exists (evs ++ [(c, Os (w_log w) c)]). rewrite E1. cbn [w_log w1]. rewrite <- app_assoc. split; [reflexivity|].
    apply own_late; [exact E2|]. repeat constructor. exact U. }
  destruct (Os (w_log w) c) as [|h|b|x|s|l|i|r1 r2|e] eqn:R; try (apply X, K2; discriminate).
  - destruct (K1 h w1) as (_ & (evs & E1 & E2) & _).
    { intros fd f I N. left. exact (G fd f I N). }
    exists (evs ++ [(c, RInt h)]). rewrite E1. cbn [w_log w1]. rewrite <- app_assoc. split; [reflexivity|].
    clear - E2 E U. induction evs as [|[c' r'] evs IH]; [cbn [app]; split; [|exact I]; eapply Forall_impl; [|exact U]; intros x Hx; now left|].
    cbn [app own]. apply Forall_inv in E2 as E3. apply Forall_inv_tail in E2. split; [|now apply IH]. cbn [fst] in E3. eapply Forall_impl; [|exact E3].
    intros x [Hx| ->]; [now left|]. right. exists nm, fl, md, d. apply in_or_app. right. left. now rewrite E.
  - destruct (handler e); apply X; eapply nk'_of; [now apply (nk_ret L H _ (fun _ => True))|apply (nk_fail L H _ (fun _ => True))].
Qed.
Lemma nk'_badf L H fd k : nk' L H k -> nk' L H (unless_badf fd k).
Proof. intros K. apply (nk'_bind _ _ _ _ (fun _ => True)); [apply nk_still, still_self|]. intros p _. destruct (help_badf p fd); [|exact K]. eapply nk'_of. now apply (nk_ret L H _ (fun _ => True)). Qed.
Lemma nk'_need L H fd r k : nk' L H k -> nk' L H (need fd r k).
Proof.
  intros K. apply (nk'_bind _ _ _ _ (fun _ => True)); [apply nk_still; unfold help_perm; apply still_bind; [apply still_file|intros; apply still_ret]|]. intros p _.
  destruct p; [|exact K]. eapply nk'_of. now apply (nk_ret L H _ (fun _ => True)).
Qed.
Lemma nk'_dir L H fd k : nk' L H k -> nk' L H (unless_dir fd k).
Proof.
  intros K. apply (nk'_bind _ _ _ _ (fun _ => True)); [apply nk_still; unfold help_idir; apply still_bind; [apply still_file|intros; apply still_ret]|]. intros p _.
  destruct p; [|exact K]. eapply nk'_of. now apply (nk_ret L H _ (fun _ => True)).
Qed.

Lemma nk'_path_open L (H : Z -> Prop) Os x0 x1 x2 x3 x4 x5 x6 x7 x8 : Forall (fun fd => 0 <= fd) L -> In x0 L ->
  nk' L H (path_open Os x0 x1 x2 x3 x4 x5 x6 x7 x8).
Proof.
  intros NN I0. unfold path_open. apply nk'_badf, nk'_need. apply (nk'_bind _ _ _ _ (fun _ => True)); [apply nk_still, still_mem|]. intros a _.
  apply (nk'_bind _ _ _ _ (fun f => H (host_fd f))); [now apply nk_file|]. intros f Hf.
  apply (nk'_bind _ _ _ _ (fun _ => True)).
  { apply nk_still. unfold get_str. apply still_bind; [apply still_read|intros; apply still_lift]. }
  intros nm _. cbn zeta. assert (forall n, nk' L H (ret [n] : W (list Z))) as R. { intros n. eapply nk'_of. now apply (nk_ret L H _ (fun _ => True)). }
  destruct (existsb _ nm); [apply R|]. unfold unless_escp. 
  destruct (help_escp _ nm); [apply R|].
  destruct (has x4 8 && _); [apply R|]. apply (nk'_bind _ _ _ _ (fun _ => True)); [apply nk_still, still_self|]. intros p _.
  eapply nk'_open; [reflexivity| |..].
  - cbn [uses]. now repeat constructor.
  - intros h. cbn beta iota. apply (nk_opened Os L (fun x => H x \/ x = h) a h x5 x6 (fun b q i => mkfile h (open_flags x1 x4 x5 x7) (normpath (path_join (host_name f) nm)) true None (len (p_fd p)) x7 (normpath (path_join (wasm_name f) nm)) b q true (help_wasm_type i))); [now right|reflexivity].
  - intros r N. destruct r; try (eapply nk'_of, (nk_fail L H _ (fun _ => True))). now destruct (N z).
Qed.
Lemma open_or_not w fd : (exists e, is_open w fd e) \/ not_open w fd.
Proof.
  destruct (Z.le_decidable 0 fd) as [P|P]; [|right; intros e ((O & _) & _); contradiction].
  destruct (nth_error (p_fd (w_self w)) (Z.to_nat fd)) as [e|] eqn:E; [|right; intros e ((_ & O) & _); congruence].
  destruct (wasm_open e) eqn:W; [left; exists e; repeat split; assumption|]. right. intros e' ((_ & O) & O'). congruence.
Qed.
Theorem only_named Os w f args : f <> F_poll_oneoff ->
  exists evs, w_log (snd (wasi_call Os f args w)) = evs ++ w_log w /\ own (named w f args) evs.
Proof.
  intros N. assert (Forall (fun fd => exists e, is_open w fd e) (descriptors f args) \/ exists fd, In fd (descriptors f args) /\ not_open w fd) as [A|(fd & I & C)].
  { induction (descriptors f args) as [|fd l IH]; [left; constructor|]. destruct IH as [IH|(d & I & C)].
    - destruct (open_or_not w fd) as [O|O]; [left; now constructor|]. right. exists fd. split; [now left|exact O].
    - right. exists d. split; [now right|exact C]. }
  2:{ rewrite (bad_descriptor Os w f args fd C I). exists []. split; [reflexivity|exact Logic.I]. }
  assert (Forall (fun fd => 0 <= fd) (descriptors f args)) as NN.
  { eapply Forall_impl; [|exact A]. intros fd (e & O). apply O. }
  assert (good (descriptors f args) (named w f args) w) as G.
  { intros fd e I E. destruct (proj1 (Forall_forall _ _) A fd I) as (e' & O). exists fd, e'. split; [exact I|]. split; [exact O|].
    destruct O as ((O1 & O2) & _). congruence. }
  assert (nk' (descriptors f args) (named w f args) (wasi_call Os f args)) as K; [|exact (K w G)].
  assert (f = F_path_open \/ f <> F_path_open) as [->|NP] by (destruct f; (left; reflexivity) || (right; discriminate)).
  2:{ eapply nk'_of. now apply nk_call. }
  do 10 (try (destruct args as [|? args]; try (eapply nk'_of, (nk_fail _ _ _ (fun _ => True))))). cbn [wasi_call]. apply nk'_path_open; [exact NN|]. cbn. tauto.
Qed.
