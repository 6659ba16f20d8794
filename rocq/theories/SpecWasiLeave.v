(* What each WASI function may change: the memory of its caller, the descriptor table, the in-memory streams. *)
From Coq Require Import ZArith List Bool.
From Verif Require Import Py Floatops Val Syntax Store Machine Os Wasi WasiRun.
Import ListNotations.
Open Scope Z_scope.

(* the functions that hand something back through memory *)
Definition fills_memory (f : wfun) : bool :=
  match f with
  | F_args_get | F_args_sizes_get | F_clock_res_get | F_clock_time_get | F_environ_get | F_environ_sizes_get | F_fd_fdstat_get | F_fd_filestat_get
  | F_fd_pread | F_fd_prestat_dir_name | F_fd_prestat_get | F_fd_pwrite | F_fd_read | F_fd_readdir | F_fd_seek | F_fd_tell | F_fd_write
  | F_path_filestat_get | F_path_open | F_path_readlink | F_poll_oneoff | F_random_get | F_sock_recv | F_sock_send => true
  | _ => false
  end.
(* the functions that open or close descriptors, or change their flags or rights *)
Definition sets_descriptors (f : wfun) : bool :=
  match f with
  | F_fd_close | F_fd_fdstat_set_flags | F_fd_fdstat_set_rights | F_fd_renumber | F_path_open => true
  | _ => false
  end.
(* the functions that move the position of a stream *)
Definition moves_streams (f : wfun) : bool := match f with F_fd_read | F_fd_write => true | _ => false end.
(* [G] has none of these functions *)
Definition none_of (sort : wfun -> bool) (G : funcinst -> Prop) : Prop :=
  forall t hid nm ty f, G (FHost t hid) -> nth_error wasi_methods hid = Some (nm, ty, f) -> sort f = false.
