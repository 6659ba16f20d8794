(* A WASI function that reports an error has changed nothing (C141). *)
From Coq Require Import ZArith List Bool Lia.
From Verif Require Import Py Syntax Store Val Machine Utf8 Os Wasi SpecWasiErr.
From Verif Require Import WasiLeaveFacts.
Import ListNotations.
Open Scope Z_scope.

Definition still {A} (e : W A) : Prop := lv false false false e.
Definition wins (e : W (list Z)) : Prop := forall w v w', e w = (Ok v, w') -> v = [E_SUCCESS].
Definition spares (e : W (list Z)) : Prop := forall w v w', e w = (Ok v, w') -> v <> [E_SUCCESS] -> unmoved w w'.
Lemma still_unmoved {A} (e : W A) w : still e -> unmoved w (snd (e w)).
Proof. intros H. destruct (H w) as (H1 & H2 & H3). split; [now apply H1|]. split; [now apply H2|now apply H3]. Qed.
Lemma unmoved_trans x y z : unmoved x y -> unmoved y z -> unmoved x z.
Proof. intros (A1 & A2 & A3) (B1 & B2 & B3). split; [now rewrite B1|]. split; [now rewrite B2|now rewrite B3]. Qed.
Lemma spares_bind {A} (e : W A) f : still e -> (forall a, spares (f a)) -> spares (bind e f).
Proof.
  intros H K w v w' E N. unfold bind in E. pose proof (still_unmoved e w H) as U. destruct (e w) as [[a|x] w1] eqn:E1; [|discriminate E].
  exact (unmoved_trans _ _ _ U (K a _ _ _ E N)).
Qed.
Lemma spares_ret v : spares (ret v). Proof. intros w v' w' E _. injection E as _ <-. repeat split. Qed.
Lemma spares_fail x : spares (fail x). Proof. intros w v' w' E _. discriminate E. Qed.
Lemma spares_wins e : wins e -> spares e. Proof. intros H w v w' E N. destruct (N (H _ _ _ E)). Qed.
Lemma wins_bind {A} (e : W A) f : (forall a, wins (f a)) -> wins (bind e f).
Proof. intros K w v w' E. unfold bind in E. destruct (e w) as [[a|x] w1]; [|discriminate E]. exact (K _ _ _ _ E). Qed.
Lemma wins_ret : wins (ret [E_SUCCESS]). Proof. intros w v w' E. now injection E as <- _. Qed.
Lemma wins_fail x : wins (fail x). Proof. intros w v w' E. discriminate E. Qed.
Lemma still_collect Os a n : forall addr s, still (poll_collect Os a n addr s).
Proof. unfold still. induction n as [|n IH]; intros; cbn [poll_collect]; a_tac; apply IH. Qed.
Ltac l_tac := unfold still; cbn zeta; repeat (first [apply still_collect | apply lv_gather | apply lv_total | a_step]; cbn beta zeta).
Ltac w_step := match goal with
  | |- wins (bind _ _) => apply wins_bind; intros ?
  | |- wins (ret _) => apply wins_ret
  | |- wins (fail _) => apply wins_fail
  | |- wins (os_raise _) => unfold os_raise
  | |- wins (put_sizes _ _ _) => unfold put_sizes
  | |- wins (if ?b then _ else _) => destruct b
  | |- wins (match ?x with _ => _ end) => destruct x
  end.
Ltac s_step := match goal with
  | |- spares (ret _) => apply spares_ret
  | |- spares (fail _) => apply spares_fail
  | |- spares (os_raise _) => unfold os_raise
  | |- spares (put_sizes _ _ _) => unfold put_sizes
  | |- spares (unless_badf _ _) => unfold unless_badf
  | |- spares (unless_dir _ _) => unfold unless_dir
  | |- spares (need _ _ _) => unfold need
  | |- spares (unless_sock _ _) => unfold unless_sock
  | |- spares (unless_escp _ _ _) => unfold unless_escp
  | |- spares (ask_try _ _ _ _) => unfold ask_try
  | |- spares (bind _ _) => first [apply spares_bind; [solve [l_tac]|intros ?] | apply spares_wins; cbn zeta; solve [repeat (w_step; cbn beta zeta)]]
  | |- spares (if ?b then _ else _) => destruct b
  | |- spares (match ?x with _ => _ end) => destruct x
  end.
Lemma call_spares Os f args : spares (wasi_call Os f args).
Proof.
  destruct f; (do 10 (try (destruct args as [|? args]; try (apply spares_fail)))); cbn [wasi_call].
  all: unfold args_get, args_sizes_get, clock_res_get, clock_time_get, environ_get, environ_sizes_get, fd_advise, fd_allocate, fd_close,
     fd_datasync, fd_fdstat_get, fd_fdstat_set_flags, fd_fdstat_set_rights, fd_filestat_get, fd_filestat_set_size, fd_filestat_set_times, fd_pread,
     fd_prestat_dir_name, fd_prestat_get, fd_pwrite, fd_read, fd_readdir, fd_renumber, fd_seek, fd_sync, fd_tell, fd_write,
     path_create_directory, path_filestat_get, path_filestat_set_times, path_link, path_open, path_readlink, path_remove_directory, path_rename, path_symlink,
     path_unlink_file, poll_oneoff, proc_exit, proc_raise, random_get, sched_yield, sock_accept, sock_recv, sock_send, sock_shutdown, put_sizes; cbn zeta; repeat (s_step; cbn beta zeta).
Qed.
