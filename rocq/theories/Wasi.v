(* pywasm/wasi.py: class Preview1. Line numbers refer to that file.

   Each method is a computation over a [world]: the Preview1 object, the log of operating-system calls, the in-memory
   streams, and the machine whose memory the method works on. Guest arguments arrive as the Python ints that
   ValInst.into_all makes of i32 and i64 values, that is, signed. *)
From Coq Require Import ZArith List Bool.
From Verif Require Import Py Syntax Store Floatops Val Machine Utf8 Os.
Import ListNotations.
Open Scope Z_scope.

(* 53-201, 203-330: constants *)
Definition E_SUCCESS : Z := 0.
Definition E_BADF : Z := 8.
Definition E_CONNABORTED : Z := 13.
Definition E_EXIST : Z := 20.
Definition E_ILSEQ : Z := 25.
Definition E_INVAL : Z := 28.
Definition E_ISDIR : Z := 31.
Definition E_LOOP : Z := 32.
Definition E_NAMETOOLONG : Z := 37.
Definition E_NOENT : Z := 44.
Definition E_NOTDIR : Z := 54.
Definition E_NOTEMPTY : Z := 55.
Definition E_NOTSOCK : Z := 57.
Definition E_PERM : Z := 63.
Definition E_PIPE : Z := 64.
Definition E_NOTCAPABLE : Z := 76.
Definition FDFLAGS_APPEND : Z := 1.
Definition FDFLAGS_NONBLOCK : Z := 4.
Definition T_UNKNOWN : Z := 0.
Definition T_BLOCK_DEVICE : Z := 1.
Definition T_CHARACTER_DEVICE : Z := 2.
Definition T_DIRECTORY : Z := 3.
Definition T_REGULAR_FILE : Z := 4.
Definition T_SOCKET_DGRAM : Z := 5.
Definition T_SOCKET_STREAM : Z := 6.
Definition T_SYMBOLIC_LINK : Z := 7.
Definition FST_ATIM : Z := 1.
Definition FST_ATIM_NOW : Z := 2.
Definition FST_MTIM : Z := 4.
Definition FST_MTIM_NOW : Z := 8.
Definition R_FD_DATASYNC : Z := 2 ^ 0.
Definition R_FD_READ : Z := 2 ^ 1.
Definition R_FD_SEEK : Z := 2 ^ 2.
Definition R_FD_FDSTAT_SET_FLAGS : Z := 2 ^ 3.
Definition R_FD_SYNC : Z := 2 ^ 4.
Definition R_FD_TELL : Z := 2 ^ 5.
Definition R_FD_WRITE : Z := 2 ^ 6.
Definition R_FD_ADVISE : Z := 2 ^ 7.
Definition R_FD_ALLOCATE : Z := 2 ^ 8.
Definition R_PATH_CREATE_DIRECTORY : Z := 2 ^ 9.
Definition R_PATH_CREATE_FILE : Z := 2 ^ 10.
Definition R_PATH_LINK_SOURCE : Z := 2 ^ 11.
Definition R_PATH_LINK_TARGET : Z := 2 ^ 12.
Definition R_PATH_OPEN : Z := 2 ^ 13.
Definition R_FD_READDIR : Z := 2 ^ 14.
Definition R_PATH_READLINK : Z := 2 ^ 15.
Definition R_PATH_RENAME_SOURCE : Z := 2 ^ 16.
Definition R_PATH_RENAME_TARGET : Z := 2 ^ 17.
Definition R_PATH_FILESTAT_GET : Z := 2 ^ 18.
Definition R_PATH_FILESTAT_SET_SIZE : Z := 2 ^ 19.
Definition R_PATH_FILESTAT_SET_TIMES : Z := 2 ^ 20.
Definition R_FD_FILESTAT_GET : Z := 2 ^ 21.
Definition R_FD_FILESTAT_SET_SIZE : Z := 2 ^ 22.
Definition R_FD_FILESTAT_SET_TIMES : Z := 2 ^ 23.
Definition R_PATH_SYMLINK : Z := 2 ^ 24.
Definition R_PATH_REMOVE_DIRECTORY : Z := 2 ^ 25.
Definition R_PATH_UNLINK_FILE : Z := 2 ^ 26.
Definition R_POLL_FD_READWRITE : Z := 2 ^ 27.
Definition R_SOCK_SHUTDOWN : Z := 2 ^ 28.
Definition R_SOCK_ACCEPT : Z := 2 ^ 29.

(* 393-394: FILE_STATUS_OPENED and FILE_STATUS_CLOSED are the booleans [true] and [false] here *)
(* 396-409: File. A pipe is the number of a BytesIO object in [w_pipes]. The embedder may set it on any entry. *)
Record file : Set := mkfile {
  host_fd : Z; host_flag : Z; host_name : name; host_open : bool; pipe : option nat;
  wasm_fd : Z; wasm_flag : Z; wasm_name : name; rights_base : Z; rights_root : Z; wasm_open : bool; wasm_type : Z
}.
Definition set_host_open (f : file) (b : bool) : file :=
  mkfile (host_fd f) (host_flag f) (host_name f) b (pipe f) (wasm_fd f) (wasm_flag f) (wasm_name f) (rights_base f)
    (rights_root f) (wasm_open f) (wasm_type f).
Definition set_wasm_open (f : file) (b : bool) : file :=
  mkfile (host_fd f) (host_flag f) (host_name f) (host_open f) (pipe f) (wasm_fd f) (wasm_flag f) (wasm_name f)
    (rights_base f) (rights_root f) b (wasm_type f).
Definition set_flags (f : file) (hf wf : Z) : file :=
  mkfile (host_fd f) hf (host_name f) (host_open f) (pipe f) (wasm_fd f) wf (wasm_name f) (rights_base f)
    (rights_root f) (wasm_open f) (wasm_type f).
Definition set_rights (f : file) (b r : Z) : file :=
  mkfile (host_fd f) (host_flag f) (host_name f) (host_open f) (pipe f) (wasm_fd f) (wasm_flag f) (wasm_name f)
    b r (wasm_open f) (wasm_type f).

(* 411-479: the Preview1 object; of [dirs] only its length is used after the constructor *)
Record preview1 : Set := mkpre {
  p_args : list name; p_dirs : Z; p_envs : list name; p_fd : list file; p_return_on_exit : bool
}.
Record world : Set := mkworld { w_self : preview1; w_log : list event; w_pipes : list bytesio; w_mach : machine }.
Definition W (A : Type) : Type := ST world A.

Definition self : W preview1 := fun w => (Ok (w_self w), w).
Definition set_self (p : preview1) : W unit := fun w => (Ok tt, mkworld p (w_log w) (w_pipes w) (w_mach w)).
Definition set_fd (l : list file) : W unit :=
  let! p := self in set_self (mkpre (p_args p) (p_dirs p) (p_envs p) l (p_return_on_exit p)).
(* `self.fd[i]`, and the changes made to it through that reference *)
Definition the_file (i : Z) : W file := let! p := self in lift (py_index (p_fd p) i).
Definition put_file (i : Z) (f : file) : W unit :=
  let! p := self in let! l := lift (py_setitem (p_fd p) i f) in set_fd l.

(* `m.store.mems[m.stack.frame[-1].module.mems[0]]`: the number of the memory in the store *)
Definition the_mem : W Z := fun w =>
  match k_frame (w_mach w) with
  | [] => (Err EIndex, w)
  | fr :: _ =>
    (let? a := py_index (m_mems (mod_of (k_store (w_mach w)) (fr_module fr))) 0 in
     let? _ := py_index (s_mems (k_store (w_mach w))) a in Ok a, w)
  end.
Definition with_mems (w : world) (x : list meminst) : world :=
  let k := w_mach w in
  mkworld (w_self w) (w_log w) (w_pipes w)
    (mkmach (set_s_mems (k_store k) x) (k_value k) (k_label k) (k_frame k)).
Definition read_mem {A} (a : Z) (f : meminst -> res A) : W A := fun w =>
  ((let? x := py_index (s_mems (k_store (w_mach w))) a in f x), w).
Definition write_mem (a : Z) (f : meminst -> res meminst) : W unit := fun w =>
  match (let? x := py_index (s_mems (k_store (w_mach w))) a in
         let? y := f x in py_setitem (s_mems (k_store (w_mach w))) a y) with
  | Ok l => (Ok tt, with_mems w l)
  | Err e => (Err e, w)
  end.
Definition get_u8 (a p : Z) : W Z := read_mem a (fun x => mem_get_u8 x p).
Definition get_u32 (a p : Z) : W Z := read_mem a (fun x => mem_get_u 4 x p).
Definition get_u64 (a p : Z) : W Z := read_mem a (fun x => mem_get_u 8 x p).
Definition get_bytes (a p n : Z) : W (list Z) := read_mem a (fun x => Ok (mem_get x p n)).
Definition put_u8 (a p v : Z) : W unit := write_mem a (fun x => mem_put_u8 x p v).
Definition put_u16 (a p v : Z) : W unit := write_mem a (fun x => mem_put_u 2 x p v).
Definition put_u32 (a p v : Z) : W unit := write_mem a (fun x => mem_put_u 4 x p v).
Definition put_u64 (a p v : Z) : W unit := write_mem a (fun x => mem_put_u 8 x p v).
Definition put_bytes (a p : Z) (d : list Z) : W unit := write_mem a (fun x => Ok (mem_put x p d)).
(* `mems.get(p, n).decode()` *)
Definition get_str (a p n : Z) : W name := let! b := get_bytes a p n in lift (utf8_decode b).

Section WithOs.
Variable Os : os.

(* one call to the operating system *)
Definition ask (c : oscall) : W reply := fun w =>
  let r := Os (w_log w) c in
  (Ok r, mkworld (w_self w) ((c, r) :: w_log w) (w_pipes w) (w_mach w)).
(* an exception that the code does not catch *)
Definition os_raise {A} (e : oserr) : W A := fail (match e with OEother x => x | _ => EOS end).
(* the reply of a call that is not inside a try; a reply of another kind than the call's counts as an OSError *)
Definition ask_unit (c : oscall) : W unit :=
  let! r := ask c in match r with RUnit => ret tt | RFail e => os_raise e | _ => fail EOS end.
Definition ask_int (c : oscall) : W Z :=
  let! r := ask c in match r with RInt z => ret z | RFail e => os_raise e | _ => fail EOS end.
Definition ask_bytes (c : oscall) : W (list Z) :=
  let! r := ask c in match r with RBytes d => ret d | RFail e => os_raise e | _ => fail EOS end.
Definition ask_names (c : oscall) : W (list name) :=
  let! r := ask c in match r with RNames l => ret l | RFail e => os_raise e | _ => fail EOS end.
Definition ask_stat (c : oscall) : W statinfo :=
  let! r := ask c in match r with RStat i => ret i | RFail e => os_raise e | _ => fail EOS end.
(* os.path.isdir and isfile do not raise *)
Definition ask_bool (c : oscall) : W bool :=
  let! r := ask c in match r with RBool b => ret b | _ => ret false end.
(* `try: os.f(...) except ...: return [errno]`: [handler] gives the returned error number, if the exception is caught *)
Definition ask_try (c : oscall) (handler : oserr -> option Z) (k : reply -> W (list Z)) : W (list Z) :=
  let! r := ask c in
  match r with
  | RFail e => match handler e with Some n => ret [n] | None => os_raise e end
  | r => k r
  end.

(* 973-974: help_badf *)
Definition help_badf (p : preview1) (fd : Z) : bool :=
  (fd <? 0) || (len (p_fd p) <=? fd) ||
  match nth_error (p_fd p) (Z.to_nat fd) with Some f => negb (wasm_open f) | None => true end.
(* 976-977: help_escp *)
Definition help_escp (root nm : name) : bool := negb (starts_with (normpath (path_join root nm)) root).
(* 979-994: help_wasm_type; stat.S_IFMT(mode) is mode & 0o170000 *)
Definition help_wasm_type (i : statinfo) : Z :=
  let x := Z.land (st_mode i) 0xf000 in
  if x =? 0x6000 then T_BLOCK_DEVICE
  else if x =? 0x2000 then T_CHARACTER_DEVICE
  else if x =? 0x4000 then T_DIRECTORY
  else if x =? 0x8000 then T_REGULAR_FILE
  else if x =? 0xc000 then T_UNKNOWN
  else if x =? 0xa000 then T_SYMBOLIC_LINK
  else T_UNKNOWN.
(* 996-1006: help_idir, help_perm, help_pipe, help_sock *)
Definition help_idir (fd : Z) : W bool := let! f := the_file fd in ret (wasm_type f =? T_DIRECTORY).
Definition help_perm (fd r : Z) : W bool := let! f := the_file fd in ret (Z.land (rights_base f) r =? 0).
Definition help_pipe (fd : Z) : W bool :=
  if fd <? 3 then let! f := the_file fd in ret (match pipe f with Some _ => true | None => false end) else ret false.
Definition help_sock (fd : Z) : W bool :=
  let! f := the_file fd in ret (negb ((wasm_type f =? T_SOCKET_DGRAM) || (wasm_type f =? T_SOCKET_STREAM))).
(* 1008-1019: help_time *)
Definition help_time (id : Z) : W Z :=
  if (0 <=? id) && (id <=? 3) then ask_int (OsTime id) else ret 0.

(* the checks that the methods start with: `if self.help_x(...): return [errno]` *)
Definition unless_badf (fd : Z) (k : W (list Z)) : W (list Z) :=
  let! p := self in if help_badf p fd then ret [E_BADF] else k.
Definition unless_dir (fd : Z) (k : W (list Z)) : W (list Z) :=
  let! b := help_idir fd in if b : bool then ret [E_ISDIR] else k.
Definition need (fd r : Z) (k : W (list Z)) : W (list Z) :=
  let! b := help_perm fd r in if b : bool then ret [E_NOTCAPABLE] else k.
Definition unless_sock (fd : Z) (k : W (list Z)) : W (list Z) :=
  let! b := help_sock fd in if b : bool then ret [E_NOTSOCK] else k.
Definition unless_escp (root nm : name) (k : W (list Z)) : W (list Z) :=
  if help_escp root nm then ret [E_PERM] else k.

(* 484-493 and 574-583: the loops of args_get and environ_get *)
Fixpoint put_strings (a : Z) (l : list name) (ptr buf : Z) : W unit :=
  match l with
  | [] => ret tt
  | e :: l' =>
    put_u32 a ptr buf ;;
    let! b := lift (utf8_encode e) in
    put_bytes a buf b ;;
    put_u8 a (buf + len e) 0 ;;
    put_strings a l' (ptr + 4) (buf + len e + 1)
  end.
Definition put_sizes (l : list name) (x0 x1 : Z) : W (list Z) :=
  let! a := the_mem in
  put_u32 a x0 (len l) ;;
  put_u32 a x1 (fold_left Z.add (map (fun e => len e + 1) l) 0) ;;
  ret [E_SUCCESS].
(* 481-501 *)
Definition args_get (x0 x1 : Z) : W (list Z) :=
  let! a := the_mem in let! p := self in put_strings a (p_args p) x0 x1 ;; ret [E_SUCCESS].
Definition args_sizes_get (x0 x1 : Z) : W (list Z) := let! p := self in put_sizes (p_args p) x0 x1.
(* 557-569 *)
Definition clock_res_get (x0 x1 : Z) : W (list Z) := let! a := the_mem in put_u64 a x1 1 ;; ret [E_SUCCESS].
Definition clock_time_get (x0 x1 x2 : Z) : W (list Z) :=
  let! a := the_mem in let! t := help_time x0 in put_u64 a x2 t ;; ret [E_SUCCESS].
(* 571-591 *)
Definition environ_get (x0 x1 : Z) : W (list Z) :=
  let! a := the_mem in let! p := self in put_strings a (p_envs p) x0 x1 ;; ret [E_SUCCESS].
Definition environ_sizes_get (x0 x1 : Z) : W (list Z) := let! p := self in put_sizes (p_envs p) x0 x1.

(* 593-599 *)
Definition fd_advise (x0 x1 x2 x3 : Z) : W (list Z) :=
  unless_badf x0 (need x0 R_FD_ADVISE (ret [E_SUCCESS])).
(* 601-617 *)
Definition fd_allocate (x0 x1 x2 : Z) : W (list Z) :=
  unless_badf x0 (unless_dir x0 (need x0 R_FD_ALLOCATE (
    let! f := the_file x0 in
    let! i := ask_stat (OsStatFd (host_fd f)) in
    let size := x1 + x2 - st_size i in
    if size <=? 0 then ret [E_SUCCESS]
    else
      let! offs := ask_int (OsLseek (host_fd f) 0 SEEK_CUR) in
      let! _ := ask_int (OsLseek (host_fd f) 0 SEEK_END) in
      let! _ := ask_int (OsWrite (host_fd f) (zeros size)) in
      let! _ := ask_int (OsLseek (host_fd f) offs SEEK_SET) in
      ret [E_SUCCESS]))).
(* 619-628 *)
Definition fd_close (x0 : Z) : W (list Z) :=
  unless_badf x0 (
    let! f := the_file x0 in
    (if wasm_type f =? T_CHARACTER_DEVICE then ret tt
     else ask_unit (OsClose (host_fd f)) ;; put_file x0 (set_host_open f false)) ;;
    let! f := the_file x0 in
    put_file x0 (set_wasm_open f false) ;;
    ret [E_SUCCESS]).
(* 630-636 *)
Definition fd_datasync (x0 : Z) : W (list Z) := unless_badf x0 (need x0 R_FD_DATASYNC (ret [E_SUCCESS])).
(* 638-648 *)
Definition fd_fdstat_get (x0 x1 : Z) : W (list Z) :=
  unless_badf x0 (
    let! a := the_mem in
    let! f := the_file x0 in
    put_u8 a x1 (wasm_type f) ;;
    put_u16 a (x1 + 2) (wasm_flag f) ;;
    put_u64 a (x1 + 8) (rights_base f) ;;
    put_u64 a (x1 + 16) (rights_root f) ;;
    ret [E_SUCCESS]).
(* 650-672. `file.wasm_flag ^ args[1] | fyes != fyes` is ((flag ^ args[1]) | fyes) != fyes. *)
Definition fd_fdstat_set_flags (x0 x1 : Z) : W (list Z) :=
  unless_badf x0 (need x0 R_FD_FDSTAT_SET_FLAGS (
    let! f := the_file x0 in
    let fyes := Z.lor FDFLAGS_APPEND FDFLAGS_APPEND in
    if negb (Z.lor (Z.lxor (wasm_flag f) x1) fyes =? fyes) then ret [E_INVAL]
    else
      let hf := Z.land (Z.land (host_flag f) (Z.lnot O_APPEND)) (Z.lnot O_NONBLOCK) in
      let wf := Z.land (Z.land (wasm_flag f) (Z.lnot FDFLAGS_APPEND)) (Z.lnot FDFLAGS_NONBLOCK) in
      let '(hf, wf) := if Z.land x1 FDFLAGS_APPEND =? 0 then (hf, wf)
                       else (Z.lor hf O_APPEND, Z.lor wf FDFLAGS_APPEND) in
      let '(hf, wf) := if Z.land x1 FDFLAGS_NONBLOCK =? 0 then (hf, wf)
                       else (Z.lor hf O_NONBLOCK, Z.lor wf FDFLAGS_NONBLOCK) in
      put_file x0 (set_flags f hf wf) ;;
      ask_unit (OsSetfl (host_fd f) hf) ;;
      ret [E_SUCCESS])).
(* 674-686 *)
Definition fd_fdstat_set_rights (x0 x1 x2 : Z) : W (list Z) :=
  unless_badf x0 (
    let! f := the_file x0 in
    if negb (Z.land (rights_base f) x1 =? x1) then ret [E_NOTCAPABLE]
    else if negb (Z.land (rights_root f) x2 =? x2) then ret [E_NOTCAPABLE]
    else put_file x0 (set_rights f x1 x2) ;; ret [E_SUCCESS]).
(* 697-705 and 1080-1087 *)
Definition put_stat (a p : Z) (t : Z) (i : statinfo) : W unit :=
  put_u64 a p 1 ;;
  put_u64 a (p + 8) (st_ino i) ;;
  put_u8 a (p + 16) t ;;
  put_u64 a (p + 24) (st_nlink i) ;;
  put_u64 a (p + 32) (st_size i) ;;
  put_u64 a (p + 40) (st_atime_ns i) ;;
  put_u64 a (p + 48) (st_mtime_ns i) ;;
  put_u64 a (p + 56) (st_ctime_ns i).
(* 688-705: the attributes come from the name the file was opened under *)
Definition fd_filestat_get (x0 x1 : Z) : W (list Z) :=
  unless_badf x0 (need x0 R_FD_FILESTAT_GET (
    let! a := the_mem in
    let! f := the_file x0 in
    let! i := ask_stat (OsStat (host_name f) None true) in
    put_stat a x1 (wasm_type f) i ;;
    ret [E_SUCCESS])).
(* 707-717 *)
Definition fd_filestat_set_size (x0 x1 : Z) : W (list Z) :=
  unless_badf x0 (unless_dir x0 (need x0 R_FD_FILESTAT_SET_SIZE (
    let! f := the_file x0 in
    ask_unit (OsTruncate (host_fd f) x1) ;;
    ret [E_SUCCESS]))).
(* flag & bit, as a condition *)
Definition has (flag bit : Z) : bool := negb (Z.land flag bit =? 0).
(* 719-742: note the last assignment *)
Definition fd_filestat_set_times (x0 x1 x2 x3 : Z) : W (list Z) :=
  unless_badf x0 (need x0 R_FD_FILESTAT_SET_TIMES (
    if has x3 FST_ATIM && has x3 FST_ATIM_NOW then ret [E_INVAL]
    else if has x3 FST_MTIM && has x3 FST_MTIM_NOW then ret [E_INVAL]
    else
      let! f := the_file x0 in
      let! i := ask_stat (OsStatFd (host_fd f)) in
      let atim := if has x3 FST_ATIM then x1 else st_atime_ns i in
      let! atim := (if has x3 FST_ATIM_NOW then ask_int (OsTime 0) else ret atim) in
      let mtim := if has x3 FST_MTIM then x2 else st_mtime_ns i in
      let mtim := if has x3 FST_MTIM_NOW then x2 else mtim in
      ask_unit (OsUtimeFd (host_fd f) atim mtim) ;;
      ret [E_SUCCESS])).

(* 757-768: the loop of fd_pread; gives the final offset *)
Fixpoint pread_loop (a h : Z) (n : nat) (ptr offs : Z) : W Z :=
  match n with
  | O => ret offs
  | S n' =>
    let! eptr := get_u32 a ptr in
    let! elen := get_u32 a (ptr + 4) in
    let! d := ask_bytes (OsPread h elen offs) in
    if len d =? 0 then ret offs
    else
      put_bytes a eptr d ;;
      if len d <? elen then ret (offs + len d) else pread_loop a h n' (ptr + 8) (offs + len d)
  end.
(* 744-769 *)
Definition fd_pread (x0 x1 x2 x3 x4 : Z) : W (list Z) :=
  unless_badf x0 (unless_dir x0 (need x0 R_FD_READ (
    let! a := the_mem in
    let! f := the_file x0 in
    let! offs := pread_loop a (host_fd f) (Z.to_nat x2) x1 x3 in
    put_u32 a x4 (offs - x3) ;;
    ret [E_SUCCESS]))).
(* 771-781 *)
Definition fd_prestat_dir_name (x0 x1 x2 : Z) : W (list Z) :=
  let! p := self in
  if help_badf p x0 || (x0 - 2 >? p_dirs p) then ret [E_BADF]
  else
    let! a := the_mem in
    let! f := the_file x0 in
    let! nm := lift (utf8_encode (wasm_name f)) in
    if len nm >? x2 then ret [E_NAMETOOLONG]
    else put_bytes a x1 nm ;; ret [E_SUCCESS].
(* 783-792 *)
Definition fd_prestat_get (x0 x1 : Z) : W (list Z) :=
  let! p := self in
  if help_badf p x0 || (x0 - 2 >? p_dirs p) then ret [E_BADF]
  else
    let! a := the_mem in
    let! f := the_file x0 in
    let! nm := lift (utf8_encode (wasm_name f)) in
    put_u8 a x1 0 ;;
    put_u32 a (x1 + 4) (len nm) ;;
    ret [E_SUCCESS].
(* 807-812, 960-965 and 1581-1586: the loops that collect the bytes to write *)
Fixpoint gather (a : Z) (n : nat) (ptr : Z) (acc : list Z) : W (list Z) :=
  match n with
  | O => ret acc
  | S n' =>
    let! eptr := get_u32 a ptr in
    let! elen := get_u32 a (ptr + 4) in
    let! e := get_bytes a eptr elen in
    gather a n' (ptr + 8) (acc ++ e)
  end.
(* 794-815 *)
Definition fd_pwrite (x0 x1 x2 x3 x4 : Z) : W (list Z) :=
  unless_badf x0 (unless_dir x0 (need x0 R_FD_WRITE (
    let! a := the_mem in
    let! f := the_file x0 in
    let! d := gather a (Z.to_nat x2) x1 [] in
    let! size := ask_int (OsPwrite (host_fd f) d x3) in
    put_u32 a x4 size ;;
    ret [E_SUCCESS]))).
(* the in-memory stream of an entry *)
Definition pipe_read (i : nat) (n : Z) : W (list Z) := fun w =>
  match nth_error (w_pipes w) i with
  | None => (Err EAttr, w)
  | Some b =>
    let '(d, b') := bio_read b n in
    (Ok d, mkworld (w_self w) (w_log w) (upd (w_pipes w) i b') (w_mach w))
  end.
Definition pipe_write (i : nat) (d : list Z) : W Z := fun w =>
  match nth_error (w_pipes w) i with
  | None => (Err EAttr, w)
  | Some b =>
    let '(n, b') := bio_write b d in
    (Ok n, mkworld (w_self w) (w_log w) (upd (w_pipes w) i b') (w_mach w))
  end.
(* 833-836 and 966-969: a list of two thunks indexed by help_pipe *)
Definition stream_read (fd : Z) (f : file) (n : Z) : W (list Z) :=
  let! b := help_pipe fd in
  match b, pipe f with
  | true, Some i => pipe_read i n
  | true, None => fail EAttr
  | false, _ => ask_bytes (OsRead (host_fd f) n)
  end.
Definition stream_write (fd : Z) (f : file) (d : list Z) : W Z :=
  let! b := help_pipe fd in
  match b, pipe f with
  | true, Some i => pipe_write i d
  | true, None => fail EAttr
  | false, _ => ask_int (OsWrite (host_fd f) d)
  end.
(* 830-844: the loop of fd_read; gives the number of bytes read *)
Fixpoint read_loop (a fd : Z) (f : file) (n : nat) (ptr size : Z) : W Z :=
  match n with
  | O => ret size
  | S n' =>
    let! eptr := get_u32 a ptr in
    let! elen := get_u32 a (ptr + 4) in
    let! d := stream_read fd f elen in
    if len d =? 0 then ret size
    else
      put_bytes a eptr d ;;
      if len d <? elen then ret (size + len d) else read_loop a fd f n' (ptr + 8) (size + len d)
  end.
(* 817-845 *)
Definition fd_read (x0 x1 x2 x3 : Z) : W (list Z) :=
  unless_badf x0 (unless_dir x0 (need x0 R_FD_READ (
    let! a := the_mem in
    let! f := the_file x0 in
    let! size := read_loop a x0 f (Z.to_nat x2) x1 0 in
    put_u32 a x3 size ;;
    ret [E_SUCCESS]))).
(* `sorted(l)` on str *)
Fixpoint insert_name (x : name) (l : list name) : list name :=
  match l with
  | [] => [x]
  | y :: l' => if str_ltb y x then y :: insert_name x l' else x :: l
  end.
Definition sort_names (l : list name) : list name := fold_right insert_name [] l.
(* 860-873: the loop of fd_readdir; gives the final position and cookie *)
Fixpoint readdir_loop (a : Z) (host : name) (l : list name) (bufend dirent cookie : Z) : W (Z * Z) :=
  match l with
  | [] => ret (dirent, cookie)
  | nm :: l' =>
    if dirent + 24 >? bufend then ret (dirent, cookie)
    else
      let! i := ask_stat (OsStat (normpath (path_join host nm)) None true) in
      put_u64 a dirent (cookie + 1) ;;
      put_u64 a (dirent + 8) (st_ino i) ;;
      put_u32 a (dirent + 16) (len nm) ;;
      put_u8 a (dirent + 20) (help_wasm_type i) ;;
      let dirent := dirent + 24 in
      if dirent + len nm >? bufend then ret (dirent, cookie)
      else
        let! b := lift (utf8_encode nm) in
        put_bytes a dirent b ;;
        readdir_loop a host l' bufend (dirent + len nm) (cookie + 1)
  end.
(* 847-875 *)
Definition fd_readdir (x0 x1 x2 x3 x4 : Z) : W (list Z) :=
  unless_badf x0 (need x0 R_FD_READDIR (
    let! a := the_mem in
    let! f := the_file x0 in
    let! l := ask_names (OsListdir (host_fd f)) in
    let result := [c_dot] :: [c_dot; c_dot] :: sort_names l in
    let! (dirent, cookie) := readdir_loop a (host_name f) (py_slice result x3 (len result)) (x1 + x2) x1 x3 in
    put_u32 a x4 (if cookie >=? len result then dirent - x1 else x2) ;;
    ret [E_SUCCESS])).
(* 877-898. stem and dest are the same object when the two numbers are equal. *)
Definition fd_renumber (x0 x1 : Z) : W (list Z) :=
  let! p := self in
  if help_badf p x0 || help_badf p x1 then ret [E_BADF]
  else
    let! dest := the_file x1 in
    (if wasm_type dest =? T_CHARACTER_DEVICE then ret tt else ask_unit (OsClose (host_fd dest))) ;;
    let! stem := the_file x0 in
    put_file x1 stem ;;
    let! stem := the_file x0 in
    put_file x0 (set_wasm_open (set_host_open stem false) false) ;;
    ret [E_SUCCESS].
(* 900-920 *)
Definition fd_seek (x0 x1 x2 x3 : Z) : W (list Z) :=
  unless_badf x0 (unless_dir x0 (need x0 R_FD_SEEK (
    let! a := the_mem in
    let! f := the_file x0 in
    let! ocur := ask_int (OsLseek (host_fd f) 0 x2) in
    if ocur + x1 <? 0 then ret [E_INVAL]
    else
      let! offs := ask_int (OsLseek (host_fd f) x1 x2) in
      put_u64 a x3 offs ;;
      ret [E_SUCCESS]))).
(* 922-932 *)
Definition fd_sync (x0 : Z) : W (list Z) :=
  unless_badf x0 (unless_dir x0 (need x0 R_FD_SYNC (
    let! f := the_file x0 in
    ask_unit (OsFsync (host_fd f)) ;;
    ret [E_SUCCESS]))).
(* 934-945 *)
Definition fd_tell (x0 x1 : Z) : W (list Z) :=
  unless_badf x0 (unless_dir x0 (need x0 R_FD_TELL (
    let! a := the_mem in
    let! f := the_file x0 in
    let! offs := ask_int (OsLseek (host_fd f) 0 SEEK_CUR) in
    put_u64 a x1 offs ;;
    ret [E_SUCCESS]))).
(* 947-971 *)
Definition fd_write (x0 x1 x2 x3 : Z) : W (list Z) :=
  unless_badf x0 (unless_dir x0 (need x0 R_FD_WRITE (
    let! a := the_mem in
    let! f := the_file x0 in
    let! d := gather a (Z.to_nat x2) x1 [] in
    let! size := stream_write x0 f d in
    put_u32 a x3 size ;;
    ret [E_SUCCESS]))).

(* ---- the path_* methods. LOOKUPFLAGS_SYMLINK_FOLLOW is bit 0. ---- *)
Definition follow (flags : Z) : bool := has flags 1.
(* 1046-1061 *)
Definition path_create_directory (x0 x1 x2 : Z) : W (list Z) :=
  unless_badf x0 (need x0 R_PATH_CREATE_DIRECTORY (
    let! a := the_mem in
    let! f := the_file x0 in
    let! nm := get_str a x1 x2 in
    unless_escp (wasm_name f) nm (
      ask_try (OsMkdir nm (host_fd f)) (fun e => match e with OEexist => Some E_EXIST | _ => None end)
        (fun _ => ret [E_SUCCESS])))).
(* 1063-1088 *)
Definition path_filestat_get (x0 x1 x2 x3 x4 : Z) : W (list Z) :=
  unless_badf x0 (need x0 R_PATH_FILESTAT_GET (
    let! a := the_mem in
    let! f := the_file x0 in
    let! nm := get_str a x2 x3 in
    unless_escp (wasm_name f) nm (
      ask_try (OsStat nm (Some (host_fd f)) (follow x1)) (fun e => match e with OEnoent => Some E_NOENT | _ => None end)
        (fun r => match r with
                  | RStat i => put_stat a x4 (help_wasm_type i) i ;; ret [E_SUCCESS]
                  | _ => fail EOS
                  end)))).
(* 1090-1122 *)
Definition path_filestat_set_times (x0 x1 x2 x3 x4 x5 x6 : Z) : W (list Z) :=
  unless_badf x0 (need x0 R_PATH_FILESTAT_SET_TIMES (
    if has x6 FST_ATIM && has x6 FST_ATIM_NOW then ret [E_INVAL]
    else if has x6 FST_MTIM && has x6 FST_MTIM_NOW then ret [E_INVAL]
    else
      let! a := the_mem in
      let! f := the_file x0 in
      let! nm := get_str a x2 x3 in
      unless_escp (wasm_name f) nm (
        let! i := ask_stat (OsStat nm (Some (host_fd f)) true) in
        let atim := if has x6 FST_ATIM then x4 else st_atime_ns i in
        let! atim := (if has x6 FST_ATIM_NOW then ask_int (OsTime 0) else ret atim) in
        let mtim := if has x6 FST_MTIM then x5 else st_mtime_ns i in
        let! mtim := (if has x6 FST_MTIM_NOW then ask_int (OsTime 0) else ret mtim) in
        ask_try (OsUtime nm (host_fd f) (follow x1) atim mtim)
          (fun e => match e with OEnoent => Some E_NOENT | _ => None end) (fun _ => ret [E_SUCCESS])))).
(* 1124-1148 *)
Definition path_link (x0 x1 x2 x3 x4 x5 x6 : Z) : W (list Z) :=
  let! p := self in
  if help_badf p x0 || help_badf p x4 then ret [E_BADF]
  else need x0 R_PATH_LINK_SOURCE (need x4 R_PATH_LINK_TARGET (
    let! a := the_mem in
    let! stem := the_file x0 in
    let! dest := the_file x4 in
    let! sn := get_str a x2 x3 in
    let! dn := get_str a x5 x6 in
    unless_escp (wasm_name stem) sn (unless_escp (wasm_name dest) dn (
      ask_try (OsLink sn dn (host_fd stem) (host_fd dest) (follow x1))
        (fun e => match e with OEexist => Some E_EXIST | OEnoent => Some E_NOENT | OEperm => Some E_PERM | _ => None end)
        (fun _ => ret [E_SUCCESS]))))).
(* 1163-1185: the flags of os.open *)
Definition open_flags (x1 x4 x5 x7 : Z) : Z :=
  let flag := 0 in
  let flag := if follow x1 then flag else Z.lor flag O_NOFOLLOW in
  let flag := if has x4 1 then Z.lor flag O_CREAT else flag in
  let flag := if has x4 2 then Z.lor flag O_DIRECTORY else flag in
  let flag := if has x4 4 then Z.lor flag O_EXCL else flag in
  let flag := if has x4 8 then Z.lor flag O_TRUNC else flag in
  let rw := Z.land x5 (R_FD_READ + R_FD_WRITE) in
  let flag := if rw =? R_FD_READ then Z.lor flag O_RDONLY else flag in
  let flag := if rw =? R_FD_WRITE then Z.lor flag O_WRONLY else flag in
  let flag := if rw =? R_FD_READ + R_FD_WRITE then Z.lor flag O_RDWR else flag in
  if has x7 FDFLAGS_APPEND then Z.lor flag O_APPEND else flag.
(* 1209-1224: the path rights *)
Definition path_rights : Z :=
  R_PATH_CREATE_DIRECTORY + R_PATH_CREATE_FILE + R_PATH_LINK_SOURCE + R_PATH_LINK_TARGET + R_PATH_OPEN
  + R_PATH_READLINK + R_PATH_RENAME_SOURCE + R_PATH_RENAME_TARGET + R_PATH_FILESTAT_GET + R_PATH_FILESTAT_SET_SIZE
  + R_PATH_FILESTAT_SET_TIMES + R_PATH_SYMLINK + R_PATH_REMOVE_DIRECTORY + R_PATH_UNLINK_FILE.
(* 1150-1245 *)
Definition path_open (x0 x1 x2 x3 x4 x5 x6 x7 x8 : Z) : W (list Z) :=
  unless_badf x0 (need x0 R_PATH_OPEN (
    let! a := the_mem in
    let! f := the_file x0 in
    let! nm := get_str a x2 x3 in
    let wn := normpath (path_join (wasm_name f) nm) in
    let hn := normpath (path_join (host_name f) nm) in
    if existsb (Z.eqb 0) nm then ret [E_ILSEQ]
    else unless_escp (host_name f) nm (
      if has x4 8 && (Z.land (rights_base f) R_PATH_FILESTAT_SET_SIZE =? 0) then ret [E_PERM]
      else
        let flag := open_flags x1 x4 x5 x7 in
        let! p := self in
        let fd := len (p_fd p) in
        ask_try (OsOpen nm flag 0x1a4 (Some (host_fd f)))
          (fun e => match e with
                    | OEexist => Some E_EXIST | OEnoent => Some E_NOENT | OEisdir => Some E_ISDIR
                    | OEnotdir => Some E_NOTDIR
                    | OEerrno n => if n =? 40 then Some E_LOOP else None
                    | _ => None
                    end)
          (fun r => match r with
                    | RInt h =>
                      let! isdir := ask_bool (OsIsdir h) in
                      let '(b, q) := if isdir : bool then (Z.land x5 (Z.lnot R_FD_SEEK), Z.land x6 (Z.lnot R_FD_SEEK))
                                     else (x5, x6) in
                      let! isfile := ask_bool (OsIsfile h) in
                      let '(b, q) := if isfile : bool then (Z.land b (Z.lnot path_rights), Z.land q (Z.lnot path_rights))
                                     else (b, q) in
                      let! i := ask_stat (OsStatFd h) in
                      let! p := self in
                      set_fd (p_fd p ++ [mkfile h flag hn true None fd x7 wn b q true (help_wasm_type i)]) ;;
                      put_u32 a x8 fd ;;
                      ret [E_SUCCESS]
                    | _ => fail EOS
                    end)))).
(* 1247-1266 *)
Definition path_readlink (x0 x1 x2 x3 x4 x5 : Z) : W (list Z) :=
  unless_badf x0 (need x0 R_PATH_READLINK (
    let! a := the_mem in
    let! f := the_file x0 in
    let! nm := get_str a x1 x2 in
    unless_escp (wasm_name f) nm (
      ask_try (OsReadlink nm (host_fd f)) (fun e => match e with OEnoent => Some E_NOENT | _ => None end)
        (fun r => match r with
                  | RName d =>
                    let size := Z.min (len d) x4 in
                    let! b := lift (utf8_encode (py_slice d 0 size)) in
                    put_bytes a x3 b ;;
                    put_u32 a x5 size ;;
                    ret [E_SUCCESS]
                  | _ => fail EOS
                  end)))).
(* 1268-1289; errno 39 is ENOTEMPTY on Linux *)
Definition path_remove_directory (x0 x1 x2 : Z) : W (list Z) :=
  unless_badf x0 (need x0 R_PATH_REMOVE_DIRECTORY (
    let! a := the_mem in
    let! f := the_file x0 in
    let! nm := get_str a x1 x2 in
    unless_escp (wasm_name f) nm (
      ask_try (OsRmdir nm (host_fd f))
        (fun e => match e with
                  | OEnotdir => Some E_NOTDIR
                  | OEerrno n => if n =? 39 then Some E_NOTEMPTY else None
                  | _ => None
                  end)
        (fun _ => ret [E_SUCCESS])))).
(* 1291-1325 *)
Definition path_rename (x0 x1 x2 x3 x4 x5 : Z) : W (list Z) :=
  let! p := self in
  if help_badf p x0 || help_badf p x3 then ret [E_BADF]
  else need x0 R_PATH_RENAME_SOURCE (need x3 R_PATH_RENAME_TARGET (
    let! a := the_mem in
    let! stem := the_file x0 in
    let! dest := the_file x3 in
    let! sn := get_str a x1 x2 in
    let! dn := get_str a x4 x5 in
    unless_escp (wasm_name stem) sn (unless_escp (wasm_name dest) dn (
      ask_try (OsRename sn dn (host_fd stem) (host_fd dest))
        (fun e => match e with
                  | OEexist => Some E_EXIST | OEnoent => Some E_NOENT | OEisdir => Some E_ISDIR
                  | OEnotdir => Some E_NOTDIR
                  | OEerrno n => if n =? 39 then Some E_NOTEMPTY else None
                  | _ => None
                  end)
        (fun _ => ret [E_SUCCESS]))))).
(* 1327-1349 *)
Definition path_symlink (x0 x1 x2 x3 x4 : Z) : W (list Z) :=
  unless_badf x2 (need x2 R_PATH_SYMLINK (
    let! a := the_mem in
    let! f := the_file x2 in
    let! sn := get_str a x0 x1 in
    let! dn := get_str a x3 x4 in
    unless_escp (wasm_name f) sn (unless_escp (wasm_name f) dn (
      ask_try (OsSymlink sn dn (host_fd f))
        (fun e => match e with
                  | OEexist => Some E_EXIST | OEnoent => Some E_NOENT | OEnotdir => Some E_NOTDIR
                  | _ => None
                  end)
        (fun _ => ret [E_SUCCESS]))))).
(* 1351-1370 *)
Definition path_unlink_file (x0 x1 x2 : Z) : W (list Z) :=
  unless_badf x0 (need x0 R_PATH_UNLINK_FILE (
    let! a := the_mem in
    let! f := the_file x0 in
    let! nm := get_str a x1 x2 in
    unless_escp (wasm_name f) nm (
      ask_try (OsUnlink nm (host_fd f))
        (fun e => match e with
                  | OEisdir => Some E_ISDIR | OEnotdir => Some E_NOTDIR | OEperm => Some E_PERM
                  | _ => None
                  end)
        (fun _ => ret [E_SUCCESS])))).

(* ---- poll_oneoff, 1370-1444 ---- *)
(* the subscriptions collected by the first loop: (userdata, clock, delay, end) and (userdata, descriptor) *)
Record subs : Set := mksubs { sub_c : list (Z * Z * Z * Z); sub_r : list (Z * Z); sub_w : list (Z * Z) }.
(* 1380-1407; [inr e] is an early `return [e]` *)
Fixpoint poll_collect (a : Z) (n : nat) (addr : Z) (s : subs) : W (subs + Z) :=
  match n with
  | O => ret (inl s)
  | S n' =>
    let! userdata := get_u64 a addr in
    let! eype := get_u8 a (addr + 8) in
    if eype =? 0 then
      let! ckid := get_u64 a (addr + 16) in
      let! nval := get_u64 a (addr + 24) in
      let! flag := get_u32 a (addr + 40) in
      let! ctim := help_time ckid in
      let delt := if has flag 1 then ctim - nval else nval in
      let ends := if has flag 1 then nval else ctim + nval in
      poll_collect a n' (addr + 48) (mksubs (sub_c s ++ [(userdata, ckid, delt, ends)]) (sub_r s) (sub_w s))
    else if (eype =? 1) || (eype =? 2) then
      let! fd := get_u32 a (addr + 16) in
      let! p := self in
      if help_badf p fd then ret (inr E_BADF)
      else
        let! b := help_perm fd R_POLL_FD_READWRITE in
        if b : bool then ret (inr E_NOTCAPABLE)
        else if eype =? 1 then poll_collect a n' (addr + 48) (mksubs (sub_c s) (sub_r s ++ [(userdata, fd)]) (sub_w s))
        else poll_collect a n' (addr + 48) (mksubs (sub_c s) (sub_r s) (sub_w s ++ [(userdata, fd)]))
    else poll_collect a n' (addr + 48) s
  end.
Definition put_event (a outs userdata kind : Z) : W unit :=
  put_u64 a outs userdata ;; put_u16 a (outs + 8) E_SUCCESS ;; put_u8 a (outs + 10) kind.
(* 1419-1443; the functions give the next output position and the number of events *)
Fixpoint poll_clocks (a : Z) (l : list (Z * Z * Z * Z)) (outs neve : Z) : W (Z * Z) :=
  match l with
  | [] => ret (outs, neve)
  | (userdata, ckid, _, ends) :: l' =>
    let! now := help_time ckid in
    if now <? ends then poll_clocks a l' outs neve
    else put_event a outs userdata 0 ;; poll_clocks a l' (outs + 32) (neve + 1)
  end.
Fixpoint poll_files (a : Z) (l : list (Z * Z)) (ready : list Z) (kind outs neve : Z) : W (Z * Z) :=
  match l with
  | [] => ret (outs, neve)
  | (userdata, fd) :: l' =>
    let! f := the_file fd in
    if existsb (Z.eqb (host_fd f)) ready
    then put_event a outs userdata kind ;; poll_files a l' ready kind (outs + 32) (neve + 1)
    else poll_files a l' ready kind outs neve
  end.
Definition min_list (x : Z) (l : list Z) : Z := fold_left Z.min l x.
(* select.select raises ValueError for a negative timeout. The timeout, a float number of seconds in the source, is
   kept in nanoseconds. *)
Definition poll_oneoff (x0 x1 x2 x3 : Z) : W (list Z) :=
  let! a := the_mem in
  let! r := poll_collect a (Z.to_nat x2) x0 (mksubs [] [] []) in
  match r with
  | inr e => ret [e]
  | inl s =>
    let delt := match sub_c s with
                | [] => 8 * 1000000000
                | (_, _, d, _) :: l => min_list d (map (fun '(_, _, d, _) => d) l)
                end in
    let! rd := mapl (fun '(_, fd) => let! f := the_file fd in ret (host_fd f)) (sub_r s) in
    let! wr := mapl (fun '(_, fd) => let! f := the_file fd in ret (host_fd f)) (sub_w s) in
    if delt <? 0 then fail EValue
    else
      let! r := ask (OsSelect rd wr delt) in
      match r with
      | RReady ryes wyes =>
        let! (outs, neve) := poll_clocks a (sub_c s) x1 0 in
        let! (outs, neve) := poll_files a (sub_r s) ryes 1 outs neve in
        let! (outs, neve) := poll_files a (sub_w s) wyes 2 outs neve in
        put_u32 a x3 neve ;;
        ret [E_SUCCESS]
      | RFail e => os_raise e
      | _ => fail EOS
      end
  end.

(* 1446-1451: `raise Exception(SystemExit, code)`, or sys.exit, whose SystemExit is not an Exception. The method never
   returns. *)
Definition proc_exit (x0 : Z) : W (list Z) :=
  let! p := self in if p_return_on_exit p then fail (ESystemExit x0) else fail (EExit x0).
(* 1453-1457 *)
Definition proc_raise (x0 : Z) : W (list Z) := if negb (x0 =? 0) then ret [E_INVAL] else ret [E_SUCCESS].
(* 1459-1463; random.randbytes raises ValueError for a negative number *)
Definition random_get (x0 x1 : Z) : W (list Z) :=
  let! a := the_mem in
  if x1 <? 0 then fail EValue
  else let! d := ask_bytes (OsRandom x1) in put_bytes a x0 d ;; ret [E_SUCCESS].
(* 1465-1468 *)
Definition sched_yield : W (list Z) := ret [E_SUCCESS].
(* 1470-1503: constructing the File without host_flag raises TypeError *)
Definition sock_accept (x0 x1 x2 : Z) : W (list Z) :=
  unless_badf x0 (unless_sock x0 (need x0 R_SOCK_ACCEPT (
    let! a := the_mem in
    let! f := the_file x0 in
    let! _ := ask_int (OsAccept (host_fd f) (has x1 FDFLAGS_NONBLOCK)) in
    fail EType))).
(* 1527-1530: the total length of the buffers *)
Fixpoint iov_total (a : Z) (n : nat) (ptr acc : Z) : W Z :=
  match n with
  | O => ret acc
  | S n' => let! elen := get_u32 a (ptr + 4) in iov_total a n' (ptr + 8) (acc + elen)
  end.
(* 1540-1551: distributing the data *)
Fixpoint scatter (a : Z) (n : nat) (ptr : Z) (d : list Z) (offs : Z) : W unit :=
  match n with
  | O => ret tt
  | S n' =>
    if offs >=? len d then ret tt
    else
      let! eptr := get_u32 a ptr in
      let! elen := get_u32 a (ptr + 4) in
      let size := Z.min elen (len d - offs) in
      if size >? 0
      then put_bytes a eptr (py_slice d offs (offs + size)) ;; scatter a n' (ptr + 8) d (offs + size)
      else scatter a n' (ptr + 8) d offs
  end.
(* 1505-1556; MSG_PEEK is 2, MSG_WAITALL is 256; EVENTRWFLAGS_FD_READWRITE_HANGUP and ROFLAGS_RECV_DATA_TRUNCATED are 1 *)
Definition sock_recv (x0 x1 x2 x3 x4 x5 : Z) : W (list Z) :=
  unless_badf x0 (unless_sock x0 (need x0 R_FD_READ (
    let! a := the_mem in
    let! f := the_file x0 in
    let ri := Z.lor (if has x3 1 then 2 else 0)
                (if has x3 2 && (wasm_type f =? T_SOCKET_STREAM) then 256 else 0) in
    let! total := iov_total a (Z.to_nat x2) x1 0 in
    ask_try (OsRecv (host_fd f) total ri) (fun e => match e with OEpipe => Some E_PIPE | _ => None end)
      (fun r => match r with
                | RBytes d =>
                  scatter a (Z.to_nat x2) x1 d 0 ;;
                  put_u32 a x4 (len d) ;;
                  put_u32 a x5 (Z.lor (if (len d =? 0) && (wasm_type f =? T_SOCKET_STREAM) then 1 else 0)
                                  (if len d <? total then 1 else 0)) ;;
                  ret [E_SUCCESS]
                | _ => fail EOS
                end)))).
(* 1558-1593 *)
Definition sock_send (x0 x1 x2 x3 x4 : Z) : W (list Z) :=
  unless_badf x0 (unless_sock x0 (need x0 R_FD_WRITE (
    let! a := the_mem in
    let! f := the_file x0 in
    let! d := gather a (Z.to_nat x2) x1 [] in
    ask_try (OsSend (host_fd f) d) (fun e => match e with OEpipe => Some E_PIPE | _ => None end)
      (fun r => match r with RInt size => put_u32 a x4 size ;; ret [E_SUCCESS] | _ => fail EOS end)))).
(* 1595-1623; SHUT_RD, SHUT_WR and SHUT_RDWR are 0, 1 and 2 *)
Definition sock_shutdown (x0 x1 : Z) : W (list Z) :=
  unless_badf x0 (unless_sock x0 (need x0 R_SOCK_SHUTDOWN (
    let! f := the_file x0 in
    if (x1 =? 1) || (x1 =? 2) || (x1 =? 3)
    then ask_unit (OsShutdown (host_fd f) (x1 - 1)) ;; ret [E_SUCCESS]
    else ret [E_INVAL]))).

(* 503-555: bind gives each method its name and its arity *)
Inductive wfun : Set :=
| F_args_get | F_args_sizes_get | F_clock_res_get | F_clock_time_get | F_environ_get | F_environ_sizes_get
| F_fd_advise | F_fd_allocate | F_fd_close | F_fd_datasync | F_fd_fdstat_get | F_fd_fdstat_set_flags
| F_fd_fdstat_set_rights | F_fd_filestat_get | F_fd_filestat_set_size | F_fd_filestat_set_times | F_fd_pread
| F_fd_prestat_dir_name | F_fd_prestat_get | F_fd_pwrite | F_fd_read | F_fd_readdir | F_fd_renumber | F_fd_seek
| F_fd_sync | F_fd_tell | F_fd_write | F_path_create_directory | F_path_filestat_get | F_path_filestat_set_times
| F_path_link | F_path_open | F_path_readlink | F_path_remove_directory | F_path_rename | F_path_symlink
| F_path_unlink_file | F_poll_oneoff | F_proc_exit | F_proc_raise | F_random_get | F_sched_yield | F_sock_accept
| F_sock_recv | F_sock_send | F_sock_shutdown.

(* A call of a method through the machine, which passes exactly as many arguments as the type given by bind has
   (core.py 1747-1750); any other number does not happen. *)
Definition wasi_call (f : wfun) (args : list Z) : W (list Z) :=
  match f, args with
  | F_args_get, [x0; x1] => args_get x0 x1
  | F_args_sizes_get, [x0; x1] => args_sizes_get x0 x1
  | F_clock_res_get, [x0; x1] => clock_res_get x0 x1
  | F_clock_time_get, [x0; x1; x2] => clock_time_get x0 x1 x2
  | F_environ_get, [x0; x1] => environ_get x0 x1
  | F_environ_sizes_get, [x0; x1] => environ_sizes_get x0 x1
  | F_fd_advise, [x0; x1; x2; x3] => fd_advise x0 x1 x2 x3
  | F_fd_allocate, [x0; x1; x2] => fd_allocate x0 x1 x2
  | F_fd_close, [x0] => fd_close x0
  | F_fd_datasync, [x0] => fd_datasync x0
  | F_fd_fdstat_get, [x0; x1] => fd_fdstat_get x0 x1
  | F_fd_fdstat_set_flags, [x0; x1] => fd_fdstat_set_flags x0 x1
  | F_fd_fdstat_set_rights, [x0; x1; x2] => fd_fdstat_set_rights x0 x1 x2
  | F_fd_filestat_get, [x0; x1] => fd_filestat_get x0 x1
  | F_fd_filestat_set_size, [x0; x1] => fd_filestat_set_size x0 x1
  | F_fd_filestat_set_times, [x0; x1; x2; x3] => fd_filestat_set_times x0 x1 x2 x3
  | F_fd_pread, [x0; x1; x2; x3; x4] => fd_pread x0 x1 x2 x3 x4
  | F_fd_prestat_dir_name, [x0; x1; x2] => fd_prestat_dir_name x0 x1 x2
  | F_fd_prestat_get, [x0; x1] => fd_prestat_get x0 x1
  | F_fd_pwrite, [x0; x1; x2; x3; x4] => fd_pwrite x0 x1 x2 x3 x4
  | F_fd_read, [x0; x1; x2; x3] => fd_read x0 x1 x2 x3
  | F_fd_readdir, [x0; x1; x2; x3; x4] => fd_readdir x0 x1 x2 x3 x4
  | F_fd_renumber, [x0; x1] => fd_renumber x0 x1
  | F_fd_seek, [x0; x1; x2; x3] => fd_seek x0 x1 x2 x3
  | F_fd_sync, [x0] => fd_sync x0
  | F_fd_tell, [x0; x1] => fd_tell x0 x1
  | F_fd_write, [x0; x1; x2; x3] => fd_write x0 x1 x2 x3
  | F_path_create_directory, [x0; x1; x2] => path_create_directory x0 x1 x2
  | F_path_filestat_get, [x0; x1; x2; x3; x4] => path_filestat_get x0 x1 x2 x3 x4
  | F_path_filestat_set_times, [x0; x1; x2; x3; x4; x5; x6] => path_filestat_set_times x0 x1 x2 x3 x4 x5 x6
  | F_path_link, [x0; x1; x2; x3; x4; x5; x6] => path_link x0 x1 x2 x3 x4 x5 x6
  | F_path_open, [x0; x1; x2; x3; x4; x5; x6; x7; x8] => path_open x0 x1 x2 x3 x4 x5 x6 x7 x8
  | F_path_readlink, [x0; x1; x2; x3; x4; x5] => path_readlink x0 x1 x2 x3 x4 x5
  | F_path_remove_directory, [x0; x1; x2] => path_remove_directory x0 x1 x2
  | F_path_rename, [x0; x1; x2; x3; x4; x5] => path_rename x0 x1 x2 x3 x4 x5
  | F_path_symlink, [x0; x1; x2; x3; x4] => path_symlink x0 x1 x2 x3 x4
  | F_path_unlink_file, [x0; x1; x2] => path_unlink_file x0 x1 x2
  | F_poll_oneoff, [x0; x1; x2; x3] => poll_oneoff x0 x1 x2 x3
  | F_proc_exit, [x0] => proc_exit x0
  | F_proc_raise, [x0] => proc_raise x0
  | F_random_get, [x0; x1] => random_get x0 x1
  | F_sched_yield, [] => sched_yield
  | F_sock_accept, [x0; x1; x2] => sock_accept x0 x1 x2
  | F_sock_recv, [x0; x1; x2; x3; x4; x5] => sock_recv x0 x1 x2 x3 x4 x5
  | F_sock_send, [x0; x1; x2; x3; x4] => sock_send x0 x1 x2 x3 x4
  | F_sock_shutdown, [x0; x1] => sock_shutdown x0 x1
  | _, _ => fail EIndex
  end.

(* ---- the constructor, 411-479 ---- *)
(* `{normpath(k): normpath(v) for ...}` then `sorted(...)`: later pairs replace earlier ones with the same key *)
Fixpoint dict_put (d : list (name * name)) (k v : name) : list (name * name) :=
  match d with
  | [] => [(k, v)]
  | (k', v') :: d' => if name_eqb k k' then (k', v) :: d' else (k', v') :: dict_put d' k v
  end.
Definition dict_of (l : list (name * name)) : list (name * name) := fold_left (fun d '(k, v) => dict_put d k v) l [].
Fixpoint insert_pair (x : name * name) (l : list (name * name)) : list (name * name) :=
  match l with
  | [] => [x]
  | y :: l' => if str_ltb (fst y) (fst x) then y :: insert_pair x l' else x :: l
  end.
Definition sort_pairs (l : list (name * name)) : list (name * name) := fold_right insert_pair [] l.
(* 416-455: the standard streams; [h] and [nm] are what fileno() and name give *)
Definition std_file (h : Z) (nm : name) (i r : Z) : file :=
  mkfile h 0 nm true None i 0 nm (Z.lor R_POLL_FD_READWRITE r) 0 true T_CHARACTER_DEVICE.
(* 456-474 *)
Fixpoint preopen (cwd : name) (l : list (name * name)) : W unit :=
  match l with
  | [] => ret tt
  | (k, v) :: l' =>
    let k := normpath k in
    let v := abspath cwd (normpath v) in
    let! h := ask_int (OsOpen v (Z.lor O_RDONLY O_DIRECTORY) 0x1ff None) in
    let! p := self in
    set_fd (p_fd p ++ [mkfile h (Z.lor O_RDONLY O_DIRECTORY) v true None (len (p_fd p)) 0 k
                         0x7bffe00 0xfffffff true T_DIRECTORY]) ;;
    preopen cwd l'
  end.
Definition new_preview1 (cwd : name) (std : Z * name * (Z * name) * (Z * name)) (args : list name)
    (dirs envs : list (name * name)) : W unit :=
  let '(h0, n0, (h1, n1), (h2, n2)) := std in
  let d := dict_of (map (fun '(k, v) => (normpath k, normpath v)) dirs) in
  let e := map (fun '(k, v) => k ++ 61 :: v) (sort_pairs (dict_of envs)) in
  set_self (mkpre args (len d) e
    [std_file h0 n0 0 R_FD_READ; std_file h1 n1 1 R_FD_WRITE; std_file h2 n2 2 R_FD_WRITE] true) ;;
  preopen cwd (sort_pairs d).

(* ---- main, 1021-1044 ---- *)
(* the `finally` part: the pipes of descriptors 1 and 2 are rewound, the descriptors from 3 on closed *)
Definition rewind (i : nat) : W unit := fun w =>
  match nth_error (w_pipes w) i with
  | None => (Err EAttr, w)
  | Some b => (Ok tt, mkworld (w_self w) (w_log w) (upd (w_pipes w) i (mkbio (bio_data b) 0)) (w_mach w))
  end.
Fixpoint close_from (i : Z) (l : list file) : W unit :=
  match l with
  | [] => ret tt
  | f :: l' =>
    (if wasm_type f =? T_CHARACTER_DEVICE then ret tt
     else if host_open f then ask_unit (OsClose (host_fd f)) ;; put_file i (set_host_open f false)
     else ret tt) ;;
    close_from (i + 1) l'
  end.
Definition main_finally : W unit :=
  let! p := self in
  forl (fun f => match pipe f with Some i => rewind i | None => ret tt end) (py_slice (p_fd p) 1 3) ;;
  close_from 3 (py_slice (p_fd p) 3 (len (p_fd p))).
End WithOs.

(* The part of main before `finally`, on the machine: the run of _start, and what happens to its outcome. *)
Definition n_start : name := [95; 115; 116; 97; 114; 116].
Definition main_outcome (r : res (list pyval) * machine) : res Z * machine :=
  let cleared (m : machine) := mkmach (k_store m) [] [] [] in
  match r with
  | (Ok _, m) => (Ok 0, m)
  | (Err (ESystemExit c), m) => (Ok c, cleared m)
  | (Err (EExit c), m) => (Err (EExit c), m)
  | (Err e, m) => (Err e, cleared m)
  end.
Definition wasi_main (F : fops) (host : hostcode) (n : nat) (h : nat) : M Z := fun m =>
  main_outcome (rt_invocate F host n h n_start [] m).
