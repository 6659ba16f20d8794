(* More about what WASI calls should do: the right each call needs, seeking, reading at a position, error numbers. *)
From Coq Require Import ZArith List Bool.
From Verif Require Import Py Syntax Store Machine Os Wasi SpecMem SpecFormat SpecWasi.
Import ListNotations.
Open Scope Z_scope.

(* The rights a call needs, as (descriptor, number of the right): WASI preview 1, "rights". The numbers are those of the
   standard's list. *)
Definition required (f : wfun) (args : list Z) : list (Z * Z) :=
  match f, args with
  | F_fd_datasync, [fd] => [(fd, 0)]
  | F_fd_read, [fd; _; _; _] | F_fd_pread, [fd; _; _; _; _] | F_sock_recv, [fd; _; _; _; _; _] => [(fd, 1)]
  | F_fd_seek, [fd; _; _; _] => [(fd, 2)]
  | F_fd_fdstat_set_flags, [fd; _] => [(fd, 3)]
  | F_fd_sync, [fd] => [(fd, 4)]
  | F_fd_tell, [fd; _] => [(fd, 5)]
  | F_fd_write, [fd; _; _; _] | F_fd_pwrite, [fd; _; _; _; _] | F_sock_send, [fd; _; _; _; _] => [(fd, 6)]
  | F_fd_advise, [fd; _; _; _] => [(fd, 7)]
  | F_fd_allocate, [fd; _; _] => [(fd, 8)]
  | F_path_create_directory, [fd; _; _] => [(fd, 9)]
  | F_path_link, [fd; _; _; _; fd'; _; _] => [(fd, 11); (fd', 12)]
  | F_path_open, [fd; _; _; _; _; _; _; _; _] => [(fd, 13)]
  | F_fd_readdir, [fd; _; _; _; _] => [(fd, 14)]
  | F_path_readlink, [fd; _; _; _; _; _] => [(fd, 15)]
  | F_path_rename, [fd; _; _; fd'; _; _] => [(fd, 16); (fd', 17)]
  | F_path_filestat_get, [fd; _; _; _; _] => [(fd, 18)]
  | F_path_filestat_set_times, [fd; _; _; _; _; _; _] => [(fd, 20)]
  | F_fd_filestat_get, [fd; _] => [(fd, 21)]
  | F_fd_filestat_set_size, [fd; _] => [(fd, 22)]
  | F_fd_filestat_set_times, [fd; _; _; _] => [(fd, 23)]
  | F_path_symlink, [_; _; fd; _; _] => [(fd, 24)]
  | F_path_remove_directory, [fd; _; _] => [(fd, 25)]
  | F_path_unlink_file, [fd; _; _] => [(fd, 26)]
  | F_sock_shutdown, [fd; _] => [(fd, 28)]
  | F_sock_accept, [fd; _; _] => [(fd, 29)]
  | _, _ => []
  end.
Definition socket (f : file) : Prop := wasm_type f = T_SOCKET_DGRAM \/ wasm_type f = T_SOCKET_STREAM.

(* [h] is opened on a file of [size] bytes in which one can seek *)
Definition seekable (Os : os) (h size : Z) : Prop :=
  forall log off whence, 0 <= whence <= 2 -> 0 <= seeks_to size (file_pos h size log) off whence ->
  Os log (OsLseek h off whence) = RInt (seeks_to size (file_pos h size log) off whence).
(* [h] is opened on a file that holds the bytes [content], which can be read at any position *)
Definition holds (Os : os) (h : Z) (content : list Z) : Prop :=
  bytes content /\ forall log n off, 0 <= n -> 0 <= off ->
  Os log (OsPread h n off) = RBytes (firstn (Z.to_nat n) (skipn (Z.to_nat off) content)).

(* Every error of the operating system that Python reports as an OSError. *)
Definition os_error (e : oserr) : Prop :=
  match e with OEother EOS => True | OEother _ => False | _ => True end.

(* the calls whose name starts with sock_ *)
Definition sock_call (f : wfun) (args : list Z) : Prop :=
  match f, args with
  | F_sock_accept, [_; _; _] | F_sock_recv, [_; _; _; _; _; _] | F_sock_send, [_; _; _; _; _] | F_sock_shutdown, [_; _] => True
  | _, _ => False
  end.
(* a subscription to a clock at an absolute time, as poll_oneoff finds it at [p]: user data, clock number, time *)
Definition absolute_clock (d : list Z) (p clock t : Z) : Prop :=
  0 <= p /\ p + 48 <= len d /\ le_of (range_of d (p + 8) 1) = 0 /\ le_of (range_of d (p + 16) 8) = clock /\
  le_of (range_of d (p + 24) 8) = t /\ Z.odd (le_of (range_of d (p + 40) 4)) = true.
(* the error number that stands for an error of the operating system (Linux: 39 is ENOTEMPTY, 40 is ELOOP) *)
Definition wasi_errno (e : oserr) : option Z :=
  match e with
  | OEexist => Some 20 | OEnoent => Some 44 | OEisdir => Some 31 | OEnotdir => Some 54 | OEperm => Some 63 | OEpipe => Some 64
  | OEerrno n => if n =? 40 then Some 32 else if n =? 39 then Some 55 else None
  | OEother _ => None
  end.
(* the calls that make one change to, or ask one question about, a path *)
Definition path_call (f : wfun) : Prop :=
  match f with
  | F_path_create_directory | F_path_filestat_get | F_path_link | F_path_open | F_path_readlink | F_path_remove_directory
  | F_path_rename | F_path_symlink | F_path_unlink_file => True
  | _ => False
  end.
(* the time stamp a file should get: kept, given, or the present time *)
Definition stamp (flags given_bit now_bit : Z) (old given now : Z) : Z :=
  if Z.testbit flags now_bit then now else if Z.testbit flags given_bit then given else old.
(* struct filestat: device, inode, type, number of links, size, three times; everything outside its 64 bytes stays *)
Definition filestat_at (d d' : list Z) (p type : Z) (i : statinfo) : Prop :=
  len d' = len d /\ range_of d' (p + 8) 8 = to_le 8 (st_ino i) /\ range_of d' (p + 16) 1 = [type] /\
  range_of d' (p + 24) 8 = to_le 8 (st_nlink i) /\ range_of d' (p + 32) 8 = to_le 8 (st_size i) /\
  range_of d' (p + 40) 8 = to_le 8 (st_atime_ns i) /\ range_of d' (p + 48) 8 = to_le 8 (st_mtime_ns i) /\
  range_of d' (p + 56) 8 = to_le 8 (st_ctime_ns i) /\
  forall k, 0 <= k < p \/ p + 64 <= k < len d -> nth_error d' (Z.to_nat k) = nth_error d (Z.to_nat k).
Definition sane_stat (i : statinfo) : Prop :=
  0 <= st_ino i < 2 ^ 64 /\ 0 <= st_nlink i < 2 ^ 64 /\ 0 <= st_size i < 2 ^ 64 /\ 0 <= st_atime_ns i < 2 ^ 64 /\
  0 <= st_mtime_ns i < 2 ^ 64 /\ 0 <= st_ctime_ns i < 2 ^ 64.

(* ---- directory listings ---- *)
(* the order of names: the first character that differs decides, a name comes before its continuations *)
Inductive before : name -> name -> Prop :=
| before_nil b : before [] b
| before_lt x y a b : x < y -> before (x :: a) (y :: b)
| before_eq x a b : before a b -> before (x :: a) (x :: b).
(* the entry [s] of the directory [host] can be asked for its attributes, which are [info s] *)
Definition statable (Os : os) (host : name) (info : name -> statinfo) (s : name) : Prop :=
  len s < 2 ^ 32 /\ 0 <= st_ino (info s) < 2 ^ 64 /\ forall log, Os log (OsStat (normpath (path_join host s)) None true) = RStat (info s).
(* a directory also lists itself and its parent *)
Definition with_dots (l : list name) : list name := [46] :: [46; 46] :: l.
(* the bytes of one entry for each name: a header of 24 bytes (the number of the entry after it, the inode, the length of
   the name, the type of the file), then the name *)
Definition size_of (l : list name) : Z := fold_right (fun s n => 24 + len (utf8 s) + n) 0 l.
Fixpoint listing (d : list Z) (info : name -> statinfo) (kind : name -> Z) (p number : Z) (l : list name) : Prop :=
  match l with
  | [] => True
  | s :: l' =>
    range_of d p 8 = to_le 8 (number + 1) /\ range_of d (p + 8) 8 = to_le 8 (st_ino (info s)) /\
    range_of d (p + 16) 4 = to_le 4 (len (utf8 s)) /\ range_of d (p + 20) 1 = [kind s] /\
    range_of d (p + 24) (len (utf8 s)) = utf8 s /\
    listing d info kind (p + 24 + len (utf8 s)) (number + 1) l'
  end.
