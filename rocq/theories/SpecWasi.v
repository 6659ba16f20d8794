(* What WASI calls should do: histories of calls, host descriptors in use, byte layouts. *)
From Coq Require Import ZArith List Bool.
From Verif Require Import Py Syntax Store Machine Os Wasi SpecMem SpecFormat.
Import ListNotations.
Open Scope Z_scope.

(* A history: WASI calls, and between them anything at all happening to the machine and the in-memory streams. *)
Inductive action : Set :=
| Call (f : wfun) (args : list Z)
| Elsewhere (m : machine) (pipes : list bytesio).
Definition act (Os : os) (w : world) (x : action) : world :=
  match x with
  | Call f args => snd (wasi_call Os f args w)
  | Elsewhere m pipes => mkworld (w_self w) (w_log w) pipes m
  end.
Definition history (Os : os) (w : world) (h : list action) : world := fold_left (act Os) h w.

(* entry number [fd] of the descriptor table *)
Definition entry (w : world) (fd : Z) (f : file) : Prop :=
  0 <= fd /\ nth_error (p_fd (w_self w)) (Z.to_nat fd) = Some f.
(* [fd] is an open descriptor, described by [f] *)
Definition is_open (w : world) (fd : Z) (f : file) : Prop := entry w fd f /\ wasm_open f = true.
Definition not_open (w : world) (fd : Z) : Prop := forall f, ~ is_open w fd f.

(* the arguments of a call that are descriptors (poll_oneoff has its descriptors in memory) *)
Definition descriptors (f : wfun) (args : list Z) : list Z :=
  match f, args with
  | F_fd_advise, [fd; _; _; _] | F_fd_allocate, [fd; _; _] | F_fd_close, [fd] | F_fd_datasync, [fd]
  | F_fd_fdstat_get, [fd; _] | F_fd_fdstat_set_flags, [fd; _] | F_fd_fdstat_set_rights, [fd; _; _]
  | F_fd_filestat_get, [fd; _] | F_fd_filestat_set_size, [fd; _] | F_fd_filestat_set_times, [fd; _; _; _]
  | F_fd_pread, [fd; _; _; _; _] | F_fd_prestat_dir_name, [fd; _; _] | F_fd_prestat_get, [fd; _]
  | F_fd_pwrite, [fd; _; _; _; _] | F_fd_read, [fd; _; _; _] | F_fd_readdir, [fd; _; _; _; _]
  | F_fd_seek, [fd; _; _; _] | F_fd_sync, [fd] | F_fd_tell, [fd; _] | F_fd_write, [fd; _; _; _]
  | F_path_create_directory, [fd; _; _] | F_path_filestat_get, [fd; _; _; _; _]
  | F_path_filestat_set_times, [fd; _; _; _; _; _; _] | F_path_open, [fd; _; _; _; _; _; _; _; _]
  | F_path_readlink, [fd; _; _; _; _; _] | F_path_remove_directory, [fd; _; _] | F_path_symlink, [_; _; fd; _; _]
  | F_path_unlink_file, [fd; _; _] | F_sock_accept, [fd; _; _] | F_sock_recv, [fd; _; _; _; _; _]
  | F_sock_send, [fd; _; _; _; _] | F_sock_shutdown, [fd; _] => [fd]
  | F_fd_renumber, [fd; fd'] | F_path_link, [fd; _; _; _; fd'; _; _] | F_path_rename, [fd; _; _; fd'; _; _] => [fd; fd']
  | _, _ => []
  end.

(* the host descriptors that a call to the operating system works on *)
Definition uses (c : oscall) : list Z :=
  match c with
  | OsOpen _ _ _ (Some d) | OsStat _ (Some d) _ => [d]
  | OsOpen _ _ _ None | OsStat _ None _ | OsTime _ | OsRandom _ => []
  | OsClose h | OsRead h _ | OsPread h _ _ | OsWrite h _ | OsPwrite h _ _ | OsLseek h _ _ | OsStatFd h | OsIsdir h
  | OsIsfile h | OsTruncate h _ | OsUtimeFd h _ _ | OsFsync h | OsSetfl h _ | OsListdir h | OsAccept h _
  | OsRecv h _ _ | OsSend h _ | OsShutdown h _ => [h]
  | OsUtime _ d _ _ _ | OsMkdir _ d | OsReadlink _ d | OsRmdir _ d | OsSymlink _ _ d | OsUnlink _ d => [d]
  | OsLink _ _ d d' _ | OsRename _ _ d d' => [d; d']
  | OsSelect rd wr _ => rd ++ wr
  end.
(* the host descriptors open after the calls of a log (newest first), [init] being open at the beginning *)
Fixpoint live (init : list Z) (log : list event) (h : Z) : Prop :=
  match log with
  | [] => In h init
  | (OsClose h', _) :: log' => h <> h' /\ live init log' h
  | (OsOpen _ _ _ _, RInt h') :: log' => h = h' \/ live init log' h
  | _ :: log' => live init log' h
  end.
(* an operating system that never hands out a descriptor that is still open, and always succeeds in closing an open one *)
Definition sane (init : list Z) (Os : os) : Prop :=
  forall log c, match c with
  | OsOpen _ _ _ _ => forall h, Os log c = RInt h -> ~ live init log h
  | OsClose h => live init log h -> Os log c = RUnit
  | _ => True
  end.
(* every call in the log worked on descriptors that were open at that time *)
Fixpoint only_live (init : list Z) (log : list event) : Prop :=
  match log with
  | [] => True
  | (c, _) :: log' => Forall (live init log') (uses c) /\ only_live init log'
  end.
(* a descriptor table in order: an open entry's host descriptor is open, and no two entries own the same one *)
Definition table_ok (init : list Z) (w : world) : Prop :=
  (forall f, In f (p_fd (w_self w)) -> wasm_open f = true -> host_open f = true) /\
  (forall f, In f (p_fd (w_self w)) -> host_open f = true -> live init (w_log w) (host_fd f)) /\
  (forall i j f g, nth_error (p_fd (w_self w)) i = Some f -> nth_error (p_fd (w_self w)) j = Some g ->
     host_open f = true -> host_open g = true -> host_fd f = host_fd g -> i = j).

(* the action is not a renumbering of something else to [fd] *)
Definition no_move (fd : Z) (x : action) : Prop := forall a, x <> Call F_fd_renumber [a; fd].

(* [a] is a set of rights contained in [b] *)
Definition subset (a b : Z) : Prop := forall i, 0 <= i -> Z.testbit a i = true -> Z.testbit b i = true.

(* ---- the caller's memory ---- *)
(* the first memory of the calling module is memory number [a] of the store, and holds the bytes [d] *)
Definition guest (w : world) (a : nat) (d : list Z) : Prop :=
  exists fr rest mem, k_frame (w_mach w) = fr :: rest /\ the_memory (w_mach w) fr a mem /\ mi_data mem = d /\ bytes d.
(* the same world, but memory number [a] holds [d] *)
Definition set_guest (w : world) (a : nat) (d : list Z) : world :=
  match nth_error (s_mems (k_store (w_mach w))) a with
  | None => w
  | Some mem =>
    let k := w_mach w in
    mkworld (w_self w) (w_log w) (w_pipes w)
      (mkmach (with_mem (k_store k) a (mkmem (mi_type mem) d (mi_size mem))) (k_value k) (k_label k) (k_frame k))
  end.

(* ---- what args_get and environ_get should write ---- *)
Definition ascii (s : name) : Prop := Forall (fun c => 0 <= c < 128) s.
(* 32-bit little-endian numbers one after the other *)
Definition words (l : list Z) : list Z := concat (map (to_le 4) l).
(* the strings, each with a zero byte at its end, one after the other; and the addresses they start at *)
Definition block (l : list name) : list Z := concat (map (fun s => utf8 s ++ [0]) l).
Fixpoint starts (base : Z) (l : list name) : list Z :=
  match l with
  | [] => []
  | s :: l' => base :: starts (base + len (utf8 s) + 1) l'
  end.
(* [n] bytes at [a] and [m] bytes at [b] do not overlap *)
Definition apart (a n b m : Z) : Prop := a + n <= b \/ b + m <= a.

(* ---- worlds that differ in one place ---- *)
Definition logged (w : world) (c : oscall) (r : reply) : world :=
  mkworld (w_self w) ((c, r) :: w_log w) (w_pipes w) (w_mach w).
Definition set_pipe (w : world) (i : nat) (b : bytesio) : world :=
  mkworld (w_self w) (w_log w) (upd (w_pipes w) i b) (w_mach w).

(* ---- buffers described in memory: the address and the length of each, 32 bits each ---- *)
Definition iov (d : list Z) (ptr : Z) (k : nat) : Z * Z :=
  (le_of (range_of d (ptr + 8 * Z.of_nat k) 4), le_of (range_of d (ptr + 8 * Z.of_nat k + 4) 4)).
Definition iovs (d : list Z) (ptr : Z) (n : nat) : list (Z * Z) := map (iov d ptr) (seq 0 n).
Definition inside (d : list Z) (b : Z * Z) : Prop := fst b + snd b <= len d.
(* the bytes in the buffers, in order *)
Definition gathered (d : list Z) (l : list (Z * Z)) : list Z := concat (map (fun b => range_of d (fst b) (snd b)) l).
Definition room (l : list (Z * Z)) : Z := fold_right (fun b s => snd b + s) 0 l.
(* [d'] is [d] after the buffers were filled, in order, with [data] (up to its end); nothing else changes *)
Inductive filled : list Z -> list (Z * Z) -> list Z -> list Z -> Prop :=
| filled_done d l : filled d l [] d
| filled_next d d1 d' p n l data : overwritten d d1 p (firstn (Z.to_nat n) data) ->
    filled d1 l (skipn (Z.to_nat n) data) d' -> filled d ((p, n) :: l) data d'.

(* Standard input, output and error may be in-memory streams; everything else goes to the operating system. *)
Definition stream_of (fd : Z) (f : file) : option nat := if fd <? 3 then pipe f else None.
(* Host descriptor [h] behaves as a file with the bytes [rest log] still to be read after the calls of [log] *)
Definition readable (Os : os) (h : Z) (rest : list event -> list Z) : Prop :=
  forall log, bytes (rest log) /\ forall n, 0 <= n ->
  Os log (OsRead h n) = RBytes (firstn (Z.to_nat n) (rest log)) /\
  rest ((OsRead h n, RBytes (firstn (Z.to_nat n) (rest log))) :: log) = skipn (Z.to_nat n) (rest log).
(* the descriptor has right number [bit] *)
Definition has_right (f : file) (bit : Z) : Prop := Z.testbit (rights_base f) bit = true.
(* the bytes of an in-memory stream that are still to be read *)
Definition unread (b : bytesio) : list Z := skipn (Z.to_nat (bio_pos b)) (bio_data b).

(* ---- what a call may do to the machine: write bytes into memories, which do not get shorter ---- *)
Definition grown (x y : meminst) : Prop :=
  mi_type y = mi_type x /\ mi_size y = mi_size x /\ len (mi_data x) <= len (mi_data y).
Definition only_memories (k k' : machine) : Prop :=
  k_value k' = k_value k /\ k_label k' = k_label k /\ k_frame k' = k_frame k /\
  k_store k' = set_s_mems (k_store k) (s_mems (k_store k')) /\
  Forall2 grown (s_mems (k_store k)) (s_mems (k_store k')).

(* ---- the position in a file of [size] bytes that [h] is opened on, after the calls of a log ---- *)
Definition seeks_to (size p off whence : Z) : Z :=
  if whence =? 0 then off else if whence =? 1 then p + off else size + off.
Definition moved_by (h size : Z) (e : event) (p : Z) : Z :=
  match e with
  | (OsLseek h' off whence, RInt _) => if h' =? h then seeks_to size p off whence else p
  | (OsRead h' _, RBytes d) => if h' =? h then p + len d else p
  | (OsWrite h' _, RInt n) => if h' =? h then p + n else p
  | _ => p
  end.
Definition file_pos (h size : Z) (log : list event) : Z := fold_right (moved_by h size) 0 log.

(* a world in which the constructor has run and then any calls were made *)
Definition reached (Os : os) (w : world) : Prop :=
  exists cwd std args dirs envs w0 h, w_log w0 = [] /\ w = history Os (snd (new_preview1 Os cwd std args dirs envs w0)) h.
