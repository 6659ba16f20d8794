(* Which requests the WASI functions make (C137). *)
From Coq Require Import ZArith List Bool Lia.
From Verif Require Import Py Syntax Store Val Machine Utf8 Os Wasi SpecWasiAsk.
Import ListNotations.
Open Scope Z_scope.

Lemma asked_refl P w w' : w_log w' = w_log w -> asked_only P w w'.
Proof. intros E. exists []. split; [exact E|constructor]. Qed.
Lemma asked_trans P a b c : asked_only P a b -> asked_only P b c -> asked_only P a c.
Proof. intros (e1 & E1 & F1) (e2 & E2 & F2). exists (e2 ++ e1). split; [now rewrite E2, E1, app_assoc|]. apply Forall_app. now split. Qed.
Lemma asked_mono (P P' : oscall -> Prop) a b : (forall c, P c -> P' c) -> asked_only P a b -> asked_only P' a b.
Proof. intros H (e & E & K). exists e. split; [exact E|]. eapply Forall_impl; [|exact K]. intros x. apply H. Qed.
Section pass.
Context (Os : os) (Q : oscall -> Prop).
Definition asks {A} (e : W A) : Prop := forall w, asked_only Q w (snd (e w)).
Lemma asks_id {A} (e : W A) : (forall w, w_log (snd (e w)) = w_log w) -> asks e.
Proof. intros H w. apply asked_refl, H. Qed.
Lemma asks_bind {A B} (e : W A) (f : A -> W B) : asks e -> (forall a, asks (f a)) -> asks (bind e f).
Proof. intros H K w. unfold bind. specialize (H w). destruct (e w) as [[a|x] w1]; cbn [snd] in *; [|exact H]. exact (asked_trans _ _ _ _ H (K a w1)). Qed.
Lemma asks_ret {A} (a : A) : asks (ret a). Proof. now apply asks_id. Qed.
Lemma asks_fail {A} x : asks (fail x : W A). Proof. now apply asks_id. Qed.
Lemma asks_lift {A} (r : res A) : asks (lift r). Proof. now apply asks_id. Qed.
Lemma asks_assert c : asks (assert c). Proof. now apply asks_id. Qed.
Lemma asks_self : asks self. Proof. now apply asks_id. Qed.
Lemma asks_set p : asks (set_self p). Proof. now apply asks_id. Qed.
Lemma asks_mem : asks the_mem. Proof. apply asks_id. intros w. unfold the_mem. now destruct (k_frame (w_mach w)). Qed.
Lemma asks_read {A} a (f : meminst -> res A) : asks (read_mem a f). Proof. now apply asks_id. Qed.
Lemma asks_write a f : asks (write_mem a f).
Proof. apply asks_id. intros w. unfold write_mem. destruct (py_index _ a) as [x|]; [|reflexivity]. cbn [rbind]. destruct (f x) as [y|]; [|reflexivity]. cbn [rbind]. now destruct (py_setitem _ _ _). Qed.
Lemma asks_pipe_read i n : asks (pipe_read i n).
Proof. apply asks_id. intros w. unfold pipe_read. destruct (nth_error (w_pipes w) i) as [b|]; [|reflexivity]. now destruct (bio_read b n). Qed.
Lemma asks_pipe_write i d : asks (pipe_write i d).
Proof. apply asks_id. intros w. unfold pipe_write. destruct (nth_error (w_pipes w) i) as [b|]; [|reflexivity]. now destruct (bio_write b d). Qed.
Lemma asks_ask c : Q c -> asks (ask Os c).
Proof. intros H w. eexists [_]. split; [reflexivity|]. constructor; [exact H|constructor]. Qed.
Lemma asks_mapl {A B} (f : A -> W B) l : (forall a, asks (f a)) -> asks (mapl f l).
Proof. intros H. induction l as [|a l IH]; cbn [mapl]; [apply asks_ret|]. apply asks_bind; [apply H|]. intros b. apply asks_bind; [exact IH|]. intros bs. apply asks_ret. Qed.
End pass.
Ltac a_step := match goal with
  | |- asks _ (ret _) => apply asks_ret
  | |- asks _ (fail _) => apply asks_fail
  | |- asks _ (lift _) => apply asks_lift
  | |- asks _ (assert _) => apply asks_assert
  | |- asks _ self => apply asks_self
  | |- asks _ (set_self _) => apply asks_set
  | |- asks _ the_mem => apply asks_mem
  | |- asks _ (read_mem _ _) => apply asks_read
  | |- asks _ (write_mem _ _) => apply asks_write
  | |- asks _ (pipe_read _ _) => apply asks_pipe_read
  | |- asks _ (pipe_write _ _) => apply asks_pipe_write
  | |- asks _ (ask _ _) => apply asks_ask; reflexivity
  | |- asks _ (bind _ _) => apply asks_bind; [|intros ?]
  | |- asks _ (mapl _ _) => apply asks_mapl; intros ?
  | |- asks _ (if ?b then _ else _) => destruct b
  | |- asks _ (match ?x with _ => _ end) => destruct x
  | |- asks _ (the_file _) => unfold the_file
  | |- asks _ (get_u8 _ _) => unfold get_u8
  | |- asks _ (get_u32 _ _) => unfold get_u32
  | |- asks _ (get_u64 _ _) => unfold get_u64
  | |- asks _ (get_bytes _ _ _) => unfold get_bytes
  | |- asks _ (put_u8 _ _ _) => unfold put_u8
  | |- asks _ (put_u16 _ _ _) => unfold put_u16
  | |- asks _ (put_u32 _ _ _) => unfold put_u32
  | |- asks _ (put_u64 _ _ _) => unfold put_u64
  | |- asks _ (put_bytes _ _ _) => unfold put_bytes
  | |- asks _ (ask_try _ _ _ _) => unfold ask_try
  | |- asks _ (ask_unit _ _) => unfold ask_unit
  | |- asks _ (ask_int _ _) => unfold ask_int
  | |- asks _ (ask_bytes _ _) => unfold ask_bytes
  | |- asks _ (ask_names _ _) => unfold ask_names
  | |- asks _ (ask_stat _ _) => unfold ask_stat
  | |- asks _ (ask_bool _ _) => unfold ask_bool
  | |- asks _ (os_raise _) => unfold os_raise
  | |- asks _ (put_file _ _) => unfold put_file
  | |- asks _ (set_fd _) => unfold set_fd
  | |- asks _ (get_str _ _ _) => unfold get_str
  | |- asks _ (put_stat _ _ _ _) => unfold put_stat
  | |- asks _ (put_event _ _ _ _) => unfold put_event
  | |- asks _ (help_time _ _) => unfold help_time
  | |- asks _ (help_idir _) => unfold help_idir
  | |- asks _ (help_perm _ _) => unfold help_perm
  | |- asks _ (help_pipe _) => unfold help_pipe
  | |- asks _ (help_sock _) => unfold help_sock
  | |- asks _ (stream_read _ _ _ _) => unfold stream_read
  | |- asks _ (stream_write _ _ _ _) => unfold stream_write
  | |- asks _ (unless_badf _ _) => unfold unless_badf
  | |- asks _ (unless_dir _ _) => unfold unless_dir
  | |- asks _ (need _ _ _) => unfold need
  | |- asks _ (unless_sock _ _) => unfold unless_sock
  | |- asks _ (unless_escp _ _ _) => unfold unless_escp
  end.
Ltac a_tac := cbn zeta; repeat (a_step; cbn beta zeta).
Section loops.
Context (Os : os).
Notation by_fun f := (asks (fun c => may_ask f c = true)).
Lemma asks_put_strings Q a l : forall ptr buf, asks Q (put_strings a l ptr buf).
Proof. induction l as [|e l IH]; intros; cbn [put_strings]; a_tac. apply IH. Qed.
Lemma asks_pread a h n : forall ptr offs, by_fun F_fd_pread (pread_loop Os a h n ptr offs).
Proof. induction n as [|n IH]; intros; cbn [pread_loop]; a_tac. apply IH. Qed.
Lemma asks_gather Q a n : forall ptr acc, asks Q (gather a n ptr acc).
Proof. induction n as [|n IH]; intros; cbn [gather]; a_tac. apply IH. Qed.
Lemma asks_read_loop a fd f n : forall ptr size, by_fun F_fd_read (read_loop Os a fd f n ptr size).
Proof. induction n as [|n IH]; intros; cbn [read_loop]; a_tac. apply IH. Qed.
Lemma asks_readdir a host l bufend : forall dirent cookie, by_fun F_fd_readdir (readdir_loop Os a host l bufend dirent cookie).
Proof. induction l as [|nm l IH]; intros; cbn [readdir_loop]; a_tac. apply IH. Qed.
Lemma asks_collect a n : forall addr s, by_fun F_poll_oneoff (poll_collect Os a n addr s).
Proof. induction n as [|n IH]; intros; cbn [poll_collect]; a_tac; apply IH. Qed.
Lemma asks_clocks a l : forall outs neve, by_fun F_poll_oneoff (poll_clocks Os a l outs neve).
Proof. induction l as [|(((u, c), d), e) l IH]; intros; cbn [poll_clocks]; a_tac; apply IH. Qed.
Lemma asks_files Q a l r k : forall outs neve, asks Q (poll_files a l r k outs neve).
Proof. induction l as [|(u, c) l IH]; intros; cbn [poll_files]; a_tac; apply IH. Qed.
Lemma asks_total Q a n : forall ptr acc, asks Q (iov_total a n ptr acc).
Proof. induction n as [|n IH]; intros; cbn [iov_total]; a_tac. apply IH. Qed.
Lemma asks_scatter Q a n d : forall ptr offs, asks Q (scatter a n ptr d offs).
Proof. induction n as [|n IH]; intros; cbn [scatter]; a_tac; apply IH. Qed.
Ltac a_loop := first [apply asks_put_strings | apply asks_pread | apply asks_gather | apply asks_read_loop | apply asks_readdir
  | apply asks_collect | apply asks_clocks | apply asks_files | apply asks_total | apply asks_scatter].
Lemma call_asks f args : by_fun f (wasi_call Os f args).
Proof.
  destruct f; (do 10 (try (destruct args as [|? args]; try (apply asks_fail)))); cbn [wasi_call].
  all: unfold args_get, args_sizes_get, clock_res_get, clock_time_get, environ_get, environ_sizes_get, fd_advise, fd_allocate, fd_close,
     fd_datasync, fd_fdstat_get, fd_fdstat_set_flags, fd_fdstat_set_rights, fd_filestat_get, fd_filestat_set_size, fd_filestat_set_times, fd_pread,
     fd_prestat_dir_name, fd_prestat_get, fd_pwrite, fd_read, fd_readdir, fd_renumber, fd_seek, fd_sync, fd_tell, fd_write,
     path_create_directory, path_filestat_get, path_filestat_set_times, path_link, path_open, path_readlink, path_remove_directory, path_rename, path_symlink,
     path_unlink_file, poll_oneoff, proc_exit, proc_raise, random_get, sched_yield, sock_accept, sock_recv, sock_send, sock_shutdown, put_sizes;
     repeat (a_tac; try a_loop).
Qed.
End loops.
