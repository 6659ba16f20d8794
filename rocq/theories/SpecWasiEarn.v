(* What a WASI function must have got from the operating system when it reports success. *)
From Coq Require Import ZArith List Bool.
From Verif Require Import Py Floatops Val Syntax Store Machine Os Wasi WasiRun.
Import ListNotations.
Open Scope Z_scope.

(* [h] is what descriptor [fd] stands for at the operating system *)
Definition on (p : preview1) (fd h : Z) : Prop := exists f, py_index (p_fd p) fd = Ok f /\ h = host_fd f.
(* the request that does the work of the function, for the descriptors [p]: on the file, or in the directory, that the descriptor stands for.
   (The names, times and flags in the requests are the matter of C90, C91, C110 and C114.) *)
Definition the_work (p : preview1) (f : wfun) (args : list Z) (c : oscall) : Prop :=
  match f, args, c with
  | F_clock_time_get, [id; _; _], OsTime k => k = id
  | (F_fd_datasync | F_fd_sync), [fd], OsFsync h => on p fd h
  | F_fd_fdstat_set_flags, [fd; _], OsSetfl h _ => on p fd h
  | F_fd_filestat_get, [fd; _], OsStat nm None true => exists f, py_index (p_fd p) fd = Ok f /\ nm = host_name f
  | F_fd_filestat_set_size, [fd; n], OsTruncate h m => on p fd h /\ m = n
  | F_fd_filestat_set_times, [fd; _; _; _], OsUtimeFd h _ _ => on p fd h
  | F_fd_readdir, [fd; _; _; _; _], OsListdir h => on p fd h
  | F_fd_seek, [fd; o; wh; _], OsLseek h off whence => on p fd h /\ off = o /\ whence = wh
  | F_fd_tell, [fd; _], OsLseek h off whence => on p fd h /\ off = 0 /\ whence = 1
  | F_path_create_directory, [fd; _; _], OsMkdir _ h => on p fd h
  | F_path_filestat_get, [fd; _; _; _; _], OsStat _ (Some h) _ => on p fd h
  | F_path_filestat_set_times, [fd; _; _; _; _; _; _], OsUtime _ h _ _ _ => on p fd h
  | F_path_link, [fd; _; _; _; gd; _; _], OsLink _ _ h g _ => on p fd h /\ on p gd g
  | F_path_open, [fd; _; _; _; _; _; _; _; _], OsOpen _ _ _ (Some h) => on p fd h
  | F_path_readlink, [fd; _; _; _; _; _], OsReadlink _ h => on p fd h
  | F_path_remove_directory, [fd; _; _], OsRmdir _ h => on p fd h
  | F_path_rename, [fd; _; _; gd; _; _], OsRename _ _ h g => on p fd h /\ on p gd g
  | F_path_symlink, [_; _; fd; _; _], OsSymlink _ _ h => on p fd h
  | F_path_unlink_file, [fd; _; _], OsUnlink _ h => on p fd h
  | F_random_get, [_; n], OsRandom m => m = n
  | F_sock_recv, [fd; _; _; _; _; _], OsRecv h _ _ => on p fd h
  | F_sock_send, [fd; _; _; _; _], OsSend h _ => on p fd h
  | F_sock_shutdown, [fd; how], OsShutdown h k => on p fd h /\ k = how - 1
  | _, _, _ => False
  end.
Definition works_for (f : wfun) : Prop :=
  In f [F_clock_time_get; F_fd_datasync; F_fd_sync; F_fd_fdstat_set_flags; F_fd_filestat_get; F_fd_filestat_set_size; F_fd_filestat_set_times; F_fd_readdir;
        F_fd_seek; F_fd_tell; F_path_create_directory; F_path_filestat_get; F_path_filestat_set_times; F_path_link; F_path_open; F_path_readlink;
        F_path_remove_directory; F_path_rename; F_path_symlink; F_path_unlink_file; F_random_get; F_sock_recv; F_sock_send; F_sock_shutdown].
(* since [w], a request in [P] was made, and did not fail *)
Definition granted (P : oscall -> Prop) (w w' : world) : Prop :=
  exists evs c r, w_log w' = evs ++ w_log w /\ In (c, r) evs /\ P c /\ forall e, r <> RFail e.
