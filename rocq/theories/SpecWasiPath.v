(* What WASI calls on paths, fd_allocate and poll_oneoff should do, and where calls may write. *)
From Coq Require Import ZArith List Bool.
From Verif Require Import Py Syntax Store Machine Os Wasi SpecMem SpecFormat SpecWasi SpecPath SpecWasiMore.
Import ListNotations.
Open Scope Z_scope.

(* ---- names in the guest's memory ---- *)
(* the [n] bytes at [p] are the UTF-8 encoding of [s] *)
Definition text (d : list Z) (p n : Z) (s : name) : Prop :=
  0 <= p /\ 0 <= n /\ p + n <= len d /\ Forall scalar s /\ range_of d p n = utf8 s.
(* the relative name [s] leads from the directory of [f], as the guest knows it, to something in that directory *)
Definition stays (f : file) (s : name) : Prop :=
  exists rs l e, wasm_name f = rooted rs /\ Forall proper rs /\ s = joined l /\ Forall slash_free l /\ l <> [] /\
  ~ absolute s /\ walks rs l e /\ below rs e.
(* [fd] is open, is described by [f] and has right number [bit] *)
Definition allowed (w : world) (fd : Z) (f : file) (bit : Z) : Prop := is_open w fd f /\ has_right f bit.

(* ---- the request to the operating system that a call stands for, and the names it is about ---- *)
Inductive asks (w : world) (d : list Z) : wfun -> list Z -> oscall -> list (file * name) -> Prop :=
| asks_sync fd f : allowed w fd f 4 -> wasm_type f <> T_DIRECTORY ->
    asks w d F_fd_sync [fd] (OsFsync (host_fd f)) []
| asks_size fd f n : allowed w fd f 22 -> wasm_type f <> T_DIRECTORY ->
    asks w d F_fd_filestat_set_size [fd; n] (OsTruncate (host_fd f) n) []
| asks_mkdir fd f p n s : allowed w fd f 9 -> text d p n s ->
    asks w d F_path_create_directory [fd; p; n] (OsMkdir s (host_fd f)) [(f, s)]
| asks_rmdir fd f p n s : allowed w fd f 25 -> text d p n s ->
    asks w d F_path_remove_directory [fd; p; n] (OsRmdir s (host_fd f)) [(f, s)]
| asks_unlink fd f p n s : allowed w fd f 26 -> text d p n s ->
    asks w d F_path_unlink_file [fd; p; n] (OsUnlink s (host_fd f)) [(f, s)]
| asks_symlink p n s fd f p' n' s' : allowed w fd f 24 -> text d p n s -> text d p' n' s' ->
    asks w d F_path_symlink [p; n; fd; p'; n'] (OsSymlink s s' (host_fd f)) [(f, s); (f, s')]
| asks_link fd f flags p n s fd' f' p' n' s' : allowed w fd f 11 -> allowed w fd' f' 12 -> text d p n s -> text d p' n' s' ->
    asks w d F_path_link [fd; flags; p; n; fd'; p'; n'] (OsLink s s' (host_fd f) (host_fd f') (Z.testbit flags 0)) [(f, s); (f', s')]
| asks_rename fd f p n s fd' f' p' n' s' : allowed w fd f 16 -> allowed w fd' f' 17 -> text d p n s -> text d p' n' s' ->
    asks w d F_path_rename [fd; p; n; fd'; p'; n'] (OsRename s s' (host_fd f) (host_fd f')) [(f, s); (f', s')].
(* the calls above, with the ranges in memory where their names are *)
Definition names_at (f : wfun) (args : list Z) : option (list (Z * Z)) :=
  match f, args with
  | F_fd_sync, [_] | F_fd_filestat_set_size, [_; _] => Some []
  | F_path_create_directory, [_; p; n] | F_path_remove_directory, [_; p; n] | F_path_unlink_file, [_; p; n] => Some [(p, n)]
  | F_path_symlink, [p; n; _; p'; n'] | F_path_link, [_; _; p; n; _; p'; n'] | F_path_rename, [_; p; n; _; p'; n'] => Some [(p, n); (p', n')]
  | _, _ => None
  end.
Definition in_memory (d : list Z) (r : Z * Z) : Prop := 0 <= fst r /\ 0 <= snd r /\ fst r + snd r <= len d.

(* ---- a file: its content and the position of the host descriptor [h], after the calls of a log ---- *)
Definition wrote (c : list Z) (p : Z) (bs : list Z) : list Z :=
  firstn (Z.to_nat p) c ++ zeros (p - len c) ++ bs ++ skipn (Z.to_nat (p + len bs)) c.
Definition file_by (h : Z) (e : event) (x : list Z * Z) : list Z * Z :=
  let '(c, p) := x in
  match e with
  | (OsLseek h' off whence, RInt _) => if h' =? h then (c, seeks_to (len c) p off whence) else (c, p)
  | (OsRead h' _, RBytes d) => if h' =? h then (c, p + len d) else (c, p)
  | (OsWrite h' d, RInt n) => if h' =? h then (wrote c p (firstn (Z.to_nat n) d), p + n) else (c, p)
  | _ => (c, p)
  end.
Definition file_now (h : Z) (c0 : list Z) (log : list event) : list Z * Z := fold_right (file_by h) (c0, 0) log.
(* the operating system treats [h] as a file that has the content [c0] at the beginning; it may write less than asked *)
Definition is_file (Os : os) (h : Z) (c0 : list Z) : Prop :=
  forall log, let '(c, p) := file_now h c0 log in
  (exists i, Os log (OsStatFd h) = RStat i /\ st_size i = len c) /\
  (forall off whence, 0 <= whence <= 2 -> 0 <= seeks_to (len c) p off whence ->
     Os log (OsLseek h off whence) = RInt (seeks_to (len c) p off whence)) /\
  (forall d, exists n, 0 <= n <= len d /\ Os log (OsWrite h d) = RInt n).
(* it never writes less than asked *)
Definition writes_all (Os : os) (h : Z) : Prop := forall log d, Os log (OsWrite h d) = RInt (len d).

(* ---- poll_oneoff ---- *)
Inductive sub : Set :=
| SClock (user clock delay : Z)          (* a clock, relative to the present time *)
| SFd (user kind fd : Z).                (* kind 1: a descriptor to read from, 2: to write to *)
(* the 48 bytes of a subscription; the bytes after the clock identifier are zero *)
Definition sub_at (d : list Z) (p : Z) (s : sub) : Prop :=
  0 <= p /\ p + 48 <= len d /\
  match s with
  | SClock user clock delay =>
    range_of d p 8 = to_le 8 user /\ range_of d (p + 8) 1 = [0] /\ range_of d (p + 16) 4 = to_le 4 clock /\ range_of d (p + 20) 4 = to_le 4 0 /\
    range_of d (p + 24) 8 = to_le 8 delay /\ range_of d (p + 40) 4 = to_le 4 0 /\ 0 <= user < 2 ^ 64 /\ 0 <= clock <= 3 /\ 0 <= delay < 2 ^ 64
  | SFd user kind fd =>
    range_of d p 8 = to_le 8 user /\ range_of d (p + 8) 1 = [kind] /\ range_of d (p + 16) 4 = to_le 4 fd /\
    0 <= user < 2 ^ 64 /\ (kind = 1 \/ kind = 2) /\ 0 <= fd < 2 ^ 32
  end.
Fixpoint subs_at (d : list Z) (p : Z) (l : list sub) : Prop :=
  match l with
  | [] => True
  | s :: l' => sub_at d p s /\ subs_at d (p + 48) l'
  end.
(* the descriptors are open and may be polled *)
Definition pollable (w : world) (s : sub) : Prop :=
  match s with SClock _ _ _ => True | SFd _ _ fd => exists f, allowed w fd f 27 end.
Definition clocks_of (l : list sub) : list (Z * Z * Z) :=
  concat (map (fun s => match s with SClock u c t => [(u, c, t)] | SFd _ _ _ => [] end) l).
Definition fds_of (kind : Z) (l : list sub) : list (Z * Z) :=
  concat (map (fun s => match s with SClock _ _ _ => [] | SFd u k fd => if k =? kind then [(u, fd)] else [] end) l).
(* the host descriptor behind an open descriptor *)
Definition host_of (w : world) (fd : Z) : Z :=
  match nth_error (p_fd (w_self w)) (Z.to_nat fd) with Some f => host_fd f | None => -1 end.
(* the time to wait: the shortest delay, or eight seconds *)
Definition wait_of (l : list (Z * Z * Z)) : Z :=
  match l with
  | [] => 8000000000
  | x :: l' => fold_right (fun y m => Z.min (snd y) m) (snd x) l'
  end.
(* readings of clocks, oldest first, as they appear in the log *)
Definition readings (l : list (Z * Z * Z)) (ts : list Z) : list event :=
  rev (map (fun x => (OsTime (snd (fst (fst x))), RInt (snd x))) (combine l ts)).
(* the events: user data and kind. First the clocks that are due, then the descriptors that are ready. *)
Fixpoint due (l : list (Z * Z * Z)) (t0 t1 : list Z) : list (Z * Z) :=
  match l, t0, t1 with
  | (u, _, delay) :: l', a :: t0', b :: t1' => (if a + delay <=? b then [(u, 0)] else []) ++ due l' t0' t1'
  | _, _, _ => []
  end.
Definition ready (w : world) (kind : Z) (l : list (Z * Z)) (hs : list Z) : list (Z * Z) :=
  map (fun x => (fst x, kind)) (filter (fun x => existsb (Z.eqb (host_of w (snd x))) hs) l).
(* the events in memory, 32 bytes each: user data, no error, kind *)
Fixpoint events_at (d : list Z) (p : Z) (l : list (Z * Z)) : Prop :=
  match l with
  | [] => True
  | (u, k) :: l' => range_of d p 8 = to_le 8 u /\ range_of d (p + 8) 2 = to_le 2 0 /\ range_of d (p + 10) 1 = [k] /\ events_at d (p + 32) l'
  end.

(* ---- where a call may write: the ranges for its results, of the calls for which they are fixed by the arguments ---- *)
Definition results (f : wfun) (args : list Z) : option (list (Z * Z)) :=
  match f, args with
  | F_args_sizes_get, [p; q] | F_environ_sizes_get, [p; q] => Some [(p, 4); (q, 4)]
  | F_clock_res_get, [_; p] | F_clock_time_get, [_; _; p] => Some [(p, 8)]
  | F_fd_fdstat_get, [_; p] => Some [(p, 24)]
  | F_fd_filestat_get, [_; p] | F_path_filestat_get, [_; _; _; _; p] => Some [(p, 64)]
  | F_fd_prestat_get, [_; p] => Some [(p, 8)]
  | F_fd_seek, [_; _; _; p] | F_fd_tell, [_; p] => Some [(p, 8)]
  | F_fd_write, [_; _; _; p] | F_fd_pwrite, [_; _; _; _; p] | F_sock_send, [_; _; _; _; p] => Some [(p, 4)]
  | F_path_open, [_; _; _; _; _; _; _; _; p] | F_sock_accept, [_; _; p] => Some [(p, 4)]
  | F_args_get, _ | F_environ_get, _ | F_fd_prestat_dir_name, _ | F_fd_read, _ | F_fd_pread, _ | F_fd_readdir, _ | F_path_readlink, _
  | F_poll_oneoff, _ | F_random_get, _ | F_sock_recv, _ => None
  | F_args_sizes_get, _ | F_environ_sizes_get, _ | F_clock_res_get, _ | F_clock_time_get, _ | F_fd_fdstat_get, _ | F_fd_filestat_get, _
  | F_path_filestat_get, _ | F_fd_prestat_get, _ | F_fd_seek, _ | F_fd_tell, _ | F_fd_write, _ | F_fd_pwrite, _ | F_sock_send, _
  | F_path_open, _ | F_sock_accept, _ => None
  | _, _ => Some []
  end.
Definition outside (rs : list (Z * Z)) (k : Z) : Prop := Forall (fun r => k < fst r \/ fst r + snd r <= k) rs.
