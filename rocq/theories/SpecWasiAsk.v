(* What each WASI function may ask of the operating system. *)
From Coq Require Import ZArith List Bool.
From Verif Require Import Py Floatops Val Syntax Store Machine Os Wasi WasiRun.
Import ListNotations.
Open Scope Z_scope.

Definition may_ask (f : wfun) (c : oscall) : bool :=
  match f, c with
  | F_clock_time_get, OsTime _
  | F_fd_allocate, (OsStatFd _ | OsLseek _ _ _ | OsWrite _ _)
  | (F_fd_close | F_fd_renumber), OsClose _
  | F_fd_sync, OsFsync _
  | F_fd_fdstat_set_flags, OsSetfl _ _
  | F_fd_filestat_get, OsStat _ _ _
  | F_fd_filestat_set_size, OsTruncate _ _
  | F_fd_filestat_set_times, (OsStatFd _ | OsTime _ | OsUtimeFd _ _ _)
  | F_fd_pread, OsPread _ _ _
  | F_fd_pwrite, OsPwrite _ _ _
  | F_fd_read, OsRead _ _
  | F_fd_write, OsWrite _ _
  | F_fd_readdir, (OsListdir _ | OsStat _ _ _)
  | (F_fd_seek | F_fd_tell), OsLseek _ _ _
  | F_path_create_directory, OsMkdir _ _
  | F_path_filestat_get, OsStat _ _ _
  | F_path_filestat_set_times, (OsStat _ _ _ | OsTime _ | OsUtime _ _ _ _ _)
  | F_path_link, OsLink _ _ _ _ _
  | F_path_open, (OsOpen _ _ _ _ | OsIsdir _ | OsIsfile _ | OsStatFd _)
  | F_path_readlink, OsReadlink _ _
  | F_path_remove_directory, OsRmdir _ _
  | F_path_rename, OsRename _ _ _ _
  | F_path_symlink, OsSymlink _ _ _
  | F_path_unlink_file, OsUnlink _ _
  | F_poll_oneoff, (OsTime _ | OsSelect _ _ _)
  | F_random_get, OsRandom _
  | F_sock_accept, OsAccept _ _
  | F_sock_recv, OsRecv _ _ _
  | F_sock_send, OsSend _ _
  | F_sock_shutdown, OsShutdown _ _ => true
  | _, _ => false
  end.
(* [w'] has asked nothing since [w] but requests in [P]; the log has the newest first. *)
Definition asked_only (P : oscall -> Prop) (w w' : world) : Prop :=
  exists evs, w_log w' = evs ++ w_log w /\ Forall (fun ev => P (fst ev)) evs.
(* a request that one of the WASI functions of [G] may make *)
Definition asked_by (G : funcinst -> Prop) (c : oscall) : Prop :=
  exists t hid nm ty f, G (FHost t hid) /\ nth_error wasi_methods hid = Some (nm, ty, f) /\ may_ask f c = true.
