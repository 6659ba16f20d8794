(* What the WASI functions leave as it was (C138). *)
From Coq Require Import ZArith List Bool Lia.
From Verif Require Import Py Syntax Store Val Machine Utf8 Os Wasi SpecWasiLeave.
Import ListNotations.
Open Scope Z_scope.

Section pass.
Context (Os : os) (a b c : bool).
(* without the flag, the part stays as it was *)
Definition lv_ok (w w' : world) : Prop :=
  (a = false -> k_store (w_mach w') = k_store (w_mach w)) /\ (b = false -> w_self w' = w_self w) /\ (c = false -> w_pipes w' = w_pipes w).
Lemma lv_trans x y z : lv_ok x y -> lv_ok y z -> lv_ok x z.
Proof. intros (A1 & A2 & A3) (B1 & B2 & B3). unfold lv_ok. repeat split; intros E; [rewrite B1|rewrite B2|rewrite B3]; auto. Qed.
Definition lv {A} (e : W A) : Prop := forall w, lv_ok w (snd (e w)).
Lemma lv_id {A} (e : W A) : (forall w, k_store (w_mach (snd (e w))) = k_store (w_mach w) /\ w_self (snd (e w)) = w_self w /\ w_pipes (snd (e w)) = w_pipes w) -> lv e.
Proof. intros H w. destruct (H w) as (H1 & H2 & H3). repeat split; intros _; assumption. Qed.
Lemma lv_bind {A B} (e : W A) (f : A -> W B) : lv e -> (forall a, lv (f a)) -> lv (bind e f).
Proof. intros H K w. unfold bind. specialize (H w). destruct (e w) as [[v|x] w1]; cbn [snd] in *; [|exact H]. exact (lv_trans _ _ _ H (K v w1)). Qed.
Lemma lv_ret {A} (v : A) : lv (ret v). Proof. now apply lv_id. Qed.
Lemma lv_fail {A} x : lv (fail x : W A). Proof. now apply lv_id. Qed.
Lemma lv_lift {A} (r : res A) : lv (lift r). Proof. now apply lv_id. Qed.
Lemma lv_assert v : lv (assert v). Proof. now apply lv_id. Qed.
Lemma lv_self : lv self. Proof. now apply lv_id. Qed.
Lemma lv_set p : b = true -> lv (set_self p). Proof. intros E w. repeat split; try reflexivity. congruence. Qed.
Lemma lv_mem : lv the_mem. Proof. apply lv_id. intros w. unfold the_mem. now destruct (k_frame (w_mach w)). Qed.
Lemma lv_read {A} x (f : meminst -> res A) : lv (read_mem x f). Proof. now apply lv_id. Qed.
Lemma lv_write x f : a = true -> lv (write_mem x f).
Proof.
  intros E w. split; [congruence|]. unfold write_mem. destruct (py_index _ x) as [y|]; [|split; reflexivity]. cbn [rbind]. destruct (f y) as [z|]; [|split; reflexivity]. cbn [rbind].
  destruct (py_setitem _ _ _); split; reflexivity.
Qed.
Lemma lv_pipe_read i n : c = true -> lv (pipe_read i n).
Proof. intros E w. unfold pipe_read. destruct (nth_error (w_pipes w) i) as [x|]; [|repeat split]. destruct (bio_read x n). repeat split; congruence. Qed.
Lemma lv_pipe_write i d : c = true -> lv (pipe_write i d).
Proof. intros E w. unfold pipe_write. destruct (nth_error (w_pipes w) i) as [x|]; [|repeat split]. destruct (bio_write x d). repeat split; congruence. Qed.
Lemma lv_ask q : lv (ask Os q). Proof. now apply lv_id. Qed.
Lemma lv_mapl {A B} (f : A -> W B) l : (forall v, lv (f v)) -> lv (mapl f l).
Proof. intros H. induction l as [|v l IH]; cbn [mapl]; [apply lv_ret|]. apply lv_bind; [apply H|]. intros u. apply lv_bind; [exact IH|]. intros us. apply lv_ret. Qed.
End pass.
Ltac a_step := match goal with
  | |- lv _ _ _ (ret _) => apply lv_ret
  | |- lv _ _ _ (fail _) => apply lv_fail
  | |- lv _ _ _ (lift _) => apply lv_lift
  | |- lv _ _ _ (assert _) => apply lv_assert
  | |- lv _ _ _ self => apply lv_self
  | |- lv _ _ _ (set_self _) => apply lv_set; reflexivity
  | |- lv _ _ _ the_mem => apply lv_mem
  | |- lv _ _ _ (read_mem _ _) => apply lv_read
  | |- lv _ _ _ (write_mem _ _) => apply lv_write; reflexivity
  | |- lv _ _ _ (pipe_read _ _) => apply lv_pipe_read; reflexivity
  | |- lv _ _ _ (pipe_write _ _) => apply lv_pipe_write; reflexivity
  | |- lv _ _ _ (ask _ _) => apply lv_ask
  | |- lv _ _ _ (bind _ _) => apply lv_bind; [|intros ?]
  | |- lv _ _ _ (mapl _ _) => apply lv_mapl; intros ?
  | |- lv _ _ _ (if ?b then _ else _) => destruct b
  | |- lv _ _ _ (match ?x with _ => _ end) => destruct x
  | |- lv _ _ _ (the_file _) => unfold the_file
  | |- lv _ _ _ (get_u8 _ _) => unfold get_u8
  | |- lv _ _ _ (get_u32 _ _) => unfold get_u32
  | |- lv _ _ _ (get_u64 _ _) => unfold get_u64
  | |- lv _ _ _ (get_bytes _ _ _) => unfold get_bytes
  | |- lv _ _ _ (put_u8 _ _ _) => unfold put_u8
  | |- lv _ _ _ (put_u16 _ _ _) => unfold put_u16
  | |- lv _ _ _ (put_u32 _ _ _) => unfold put_u32
  | |- lv _ _ _ (put_u64 _ _ _) => unfold put_u64
  | |- lv _ _ _ (put_bytes _ _ _) => unfold put_bytes
  | |- lv _ _ _ (ask_try _ _ _ _) => unfold ask_try
  | |- lv _ _ _ (ask_unit _ _) => unfold ask_unit
  | |- lv _ _ _ (ask_int _ _) => unfold ask_int
  | |- lv _ _ _ (ask_bytes _ _) => unfold ask_bytes
  | |- lv _ _ _ (ask_names _ _) => unfold ask_names
  | |- lv _ _ _ (ask_stat _ _) => unfold ask_stat
  | |- lv _ _ _ (ask_bool _ _) => unfold ask_bool
  | |- lv _ _ _ (os_raise _) => unfold os_raise
  | |- lv _ _ _ (put_file _ _) => unfold put_file
  | |- lv _ _ _ (set_fd _) => unfold set_fd
  | |- lv _ _ _ (get_str _ _ _) => unfold get_str
  | |- lv _ _ _ (put_stat _ _ _ _) => unfold put_stat
  | |- lv _ _ _ (put_event _ _ _ _) => unfold put_event
  | |- lv _ _ _ (help_time _ _) => unfold help_time
  | |- lv _ _ _ (help_idir _) => unfold help_idir
  | |- lv _ _ _ (help_perm _ _) => unfold help_perm
  | |- lv _ _ _ (help_pipe _) => unfold help_pipe
  | |- lv _ _ _ (help_sock _) => unfold help_sock
  | |- lv _ _ _ (stream_read _ _ _ _) => unfold stream_read
  | |- lv _ _ _ (stream_write _ _ _ _) => unfold stream_write
  | |- lv _ _ _ (unless_badf _ _) => unfold unless_badf
  | |- lv _ _ _ (unless_dir _ _) => unfold unless_dir
  | |- lv _ _ _ (need _ _ _) => unfold need
  | |- lv _ _ _ (unless_sock _ _) => unfold unless_sock
  | |- lv _ _ _ (unless_escp _ _ _) => unfold unless_escp
  end.
Ltac a_tac := cbn zeta; repeat (a_step; cbn beta zeta).
Section loops.
Context (Os : os).
Notation by_fun f := (lv (fills_memory f) (sets_descriptors f) (moves_streams f)).
Lemma lv_put_strings y z a l : forall ptr buf, lv true y z (put_strings a l ptr buf).
Proof. induction l as [|e l IH]; intros; cbn [put_strings]; a_tac. apply IH. Qed.
Lemma lv_pread a h n : forall ptr offs, by_fun F_fd_pread (pread_loop Os a h n ptr offs).
Proof. induction n as [|n IH]; intros; cbn [pread_loop]; a_tac. apply IH. Qed.
Lemma lv_gather x y z a n : forall ptr acc, lv x y z (gather a n ptr acc).
Proof. induction n as [|n IH]; intros; cbn [gather]; a_tac. apply IH. Qed.
Lemma lv_read_loop a fd f n : forall ptr size, by_fun F_fd_read (read_loop Os a fd f n ptr size).
Proof. induction n as [|n IH]; intros; cbn [read_loop]; a_tac. apply IH. Qed.
Lemma lv_readdir a host l bufend : forall dirent cookie, by_fun F_fd_readdir (readdir_loop Os a host l bufend dirent cookie).
Proof. induction l as [|nm l IH]; intros; cbn [readdir_loop]; a_tac. apply IH. Qed.
Lemma lv_collect a n : forall addr s, by_fun F_poll_oneoff (poll_collect Os a n addr s).
Proof. induction n as [|n IH]; intros; cbn [poll_collect]; a_tac; apply IH. Qed.
Lemma lv_clocks a l : forall outs neve, by_fun F_poll_oneoff (poll_clocks Os a l outs neve).
Proof. induction l as [|(((u, c), d), e) l IH]; intros; cbn [poll_clocks]; a_tac; apply IH. Qed.
Lemma lv_files y z a l r k : forall outs neve, lv true y z (poll_files a l r k outs neve).
Proof. induction l as [|(u, c) l IH]; intros; cbn [poll_files]; a_tac; apply IH. Qed.
Lemma lv_total x y z a n : forall ptr acc, lv x y z (iov_total a n ptr acc).
Proof. induction n as [|n IH]; intros; cbn [iov_total]; a_tac. apply IH. Qed.
Lemma lv_scatter y z a n d : forall ptr offs, lv true y z (scatter a n ptr d offs).
Proof. induction n as [|n IH]; intros; cbn [scatter]; a_tac; apply IH. Qed.
Ltac a_loop := first [apply lv_put_strings | apply lv_pread | apply lv_gather | apply lv_read_loop | apply lv_readdir
  | apply lv_collect | apply lv_clocks | apply lv_files | apply lv_total | apply lv_scatter].
Lemma call_leaves f args : by_fun f (wasi_call Os f args).
Proof.
  destruct f; (do 10 (try (destruct args as [|? args]; try (apply lv_fail)))); cbn [wasi_call].
  all: unfold args_get, args_sizes_get, clock_res_get, clock_time_get, environ_get, environ_sizes_get, fd_advise, fd_allocate, fd_close,
     fd_datasync, fd_fdstat_get, fd_fdstat_set_flags, fd_fdstat_set_rights, fd_filestat_get, fd_filestat_set_size, fd_filestat_set_times, fd_pread,
     fd_prestat_dir_name, fd_prestat_get, fd_pwrite, fd_read, fd_readdir, fd_renumber, fd_seek, fd_sync, fd_tell, fd_write,
     path_create_directory, path_filestat_get, path_filestat_set_times, path_link, path_open, path_readlink, path_remove_directory, path_rename, path_symlink,
     path_unlink_file, poll_oneoff, proc_exit, proc_raise, random_get, sched_yield, sock_accept, sock_recv, sock_send, sock_shutdown, put_sizes;
     repeat (a_tac; try a_loop).
Qed.
End loops.
