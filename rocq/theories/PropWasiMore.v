(* More about the WASI functions: rights, positions, attributes, error numbers, listings, clocks.
   Specification: SpecWasiMore.v, SpecWasi.v and SpecMem.v. *)
From Coq Require Import String.
From Coq Require Import ZArith List Bool Lia Permutation Sorted.
From Verif Require Import Py Arith Floatops Val Opcode Numeric Syntax Store Basic Machine Utf8 Os Wasi SpecInt SpecNum SpecMachine SpecMem
  SpecControl SpecFormat SpecWasi SpecPath SpecWasiMore PyFacts WasiTableFacts WasiIoFacts WasiCallFacts WasiMoreFacts PropWasi.
Import ListNotations.
Open Scope Z_scope.

(* ---- the world of the examples ---- *)
(* as ex_os; files can also be read at a position, clocks and attributes can be asked for, and the name "f" is gone once
   it has been unlinked *)
Definition gone (log : list event) : bool := existsb (fun e => match fst e with OsUnlink _ _ => true | _ => false end) log.
Definition ex_info : statinfo := mkstat 0x81a4 7 1 10 100 200 300.
Definition ex2 : os := fun log c =>
  match c with
  | OsPread _ n off => RBytes (firstn (Z.to_nat n) (skipn (Z.to_nat off) sample))
  | OsPwrite _ d _ => RInt (len d)
  | OsTime _ => RInt 1000
  | OsUtimeFd _ _ _ | OsSetfl _ _ => RUnit
  | OsStat _ _ _ => if gone log then RFail OEnoent else RStat ex_info
  | OsStatFd h => RStat (if h =? 10 then mkstat 0x41ed 7 1 10 0 0 0 else ex_info)
  | OsUnlink _ _ => if gone log then RFail OEnoent else RUnit
  | OsListdir _ => RNames [nm "b"; nm "a"]
  | OsRandom n => RBytes (repeat 5 (Z.to_nat n))
  | _ => ex_os log c
  end.
Definition ex2_dir (s : name) : world := snd (new_preview1 ex2 (nm "/") ex_std [] [(nm "/d", nm "/tmp/a")] [] (ex_blank (ex_mem s))).
(* the file "f" is opened with the rights [r] as descriptor 4; then memory is filled *)
Definition ex2_path (r : Z) (s : list Z) : list action :=
  [Call F_path_open [3; 0; 0; 1; 0; r; 0; 0; 32]; Elsewhere (ex_mach (ex_mem s)) []].
Definition ex2_open (r : Z) (s : list Z) : world := history ex2 (ex2_dir (nm "f")) (ex2_path r s).
Lemma ex2_reached s h : reached ex2 (history ex2 (ex2_dir s) h).
Proof. exists (nm "/"), ex_std, [], [(nm "/d", nm "/tmp/a")], [], (ex_blank (ex_mem s)), h. split; reflexivity. Qed.
Ltac ex_is_open := split; [split; [lia|vm_compute; reflexivity]|reflexivity].
Ltac ex_is_guest := apply ex_guest; [vm_compute; reflexivity|ex_bytes].

(* C86: a call on a descriptor that lacks the right the call needs is refused and changes nothing. The error is
   ENOTCAPABLE (76), unless another check comes first: another descriptor is not open (8), the descriptor is a directory
   (31) or not a socket (57). *)
Theorem C86_rights : forall Os w f args fd bit g, In (fd, bit) (required f args) -> is_open w fd g -> ~ has_right g bit ->
  exists e, wasi_call Os f args w = (Ok [e], w) /\
  (e = 76 \/ (e = 8 /\ exists fd', In fd' (descriptors f args) /\ not_open w fd') \/
   (e = 31 /\ wasm_type g = T_DIRECTORY) \/ (e = 57 /\ ~ socket g)).
Proof. exact lacking_right. Qed.
Print Assumptions C86_rights.
Example C86_ex : exists g, In (4, 6) (required F_fd_write [4; 0; 0; 32]) /\ is_open (ex2_open 2 []) 4 g /\ ~ has_right g 6 /\
  fst (wasi_call ex2 F_fd_write [4; 0; 0; 32] (ex2_open 2 [])) = Ok [76].
Proof. eexists. split; [now left|]. split; [ex_is_open|]. split; [discriminate|vm_compute; reflexivity]. Qed.

(* C87: false. Three rights the standard ties to two calls are not: creating a file needs path_create_file (10) beside
   path_open; fd_pread needs fd_seek (2) beside fd_read; and fd_seek includes fd_tell. *)
Theorem C87_create_refuted : exists Os w f w' evs, reached Os w /\ is_open w 3 f /\ ~ has_right f 10 /\
  wasi_call Os F_path_open [3; 0; 0; 1; 1; 2; 0; 0; 32] w = (Ok [0], w') /\
  w_log w' = evs ++ (OsOpen (nm "f") (O_NOFOLLOW + O_CREAT) 0x1a4 (Some 10), RInt 11) :: w_log w.
Proof.
  set (w := history ex2 (ex2_dir (nm "f")) [Call F_fd_fdstat_set_rights [3; 0x2000; 0]]).
  exists ex2, w. do 2 eexists. exists [(OsStatFd 11, RStat ex_info); (OsIsfile 11, RBool true); (OsIsdir 11, RBool false)].
  split; [apply ex2_reached|]. split; [ex_is_open|]. split; [discriminate|]. split; vm_compute; reflexivity.
Qed.
Print Assumptions C87_create_refuted.
Theorem C87_pread_refuted : exists Os w f w', reached Os w /\ is_open w 4 f /\ ~ has_right f 2 /\
  wasi_call Os F_fd_pread [4; 0; 2; 3; 40] w = (Ok [0], w') /\ w_log w' <> w_log w.
Proof.
  exists ex2, (ex2_open 2 ex_iovs). do 2 eexists. split; [apply ex2_reached|]. split; [ex_is_open|]. split; [discriminate|]. split; [vm_compute; reflexivity|].
  vm_compute. discriminate.
Qed.
Print Assumptions C87_pread_refuted.
Theorem C87_tell_refuted : exists Os w f, reached Os w /\ is_open w 4 f /\ has_right f 2 /\ wasi_call Os F_fd_tell [4; 40] w = (Ok [76], w).
Proof. exists ex2, (ex2_open 4 []). eexists. split; [apply ex2_reached|]. split; [ex_is_open|]. split; vm_compute; reflexivity. Qed.
Print Assumptions C87_tell_refuted.
(* What holds: truncating when opening needs path_filestat_set_size (19). *)
Theorem C87_trunc_partial : forall Os w fd f x1 x2 x3 x4 x5 x6 x7 x8 r w', is_open w fd f -> ~ has_right f 19 -> Z.testbit x4 3 = true ->
  wasi_call Os F_path_open [fd; x1; x2; x3; x4; x5; x6; x7; x8] w = (r, w') -> w' = w /\ r <> Ok [0].
Proof. exact trunc_needs. Qed.
Print Assumptions C87_trunc_partial.
Example C87_ex : exists f, let w := history ex2 (ex2_dir (nm "f")) [Call F_fd_fdstat_set_rights [3; 0x2000; 0]] in
  is_open w 3 f /\ ~ has_right f 19 /\ fst (wasi_call ex2 F_path_open [3; 0; 0; 1; 8; 2; 0; 0; 32] w) = Ok [63].
Proof. eexists. split; [ex_is_open|]. split; [discriminate|vm_compute; reflexivity]. Qed.

(* C88: fd_seek to a position that is not negative succeeds, stores the new position and leaves the file there; fd_tell
   stores the position and does not move it. *)
Theorem C88_seek : forall Os w fd f a d off wh p size, is_open w fd f -> wasm_type f <> T_DIRECTORY -> has_right f 2 -> guest w a d ->
  0 <= p -> p + 8 <= len d -> seekable Os (host_fd f) size -> 0 <= size -> 0 <= file_pos (host_fd f) size (w_log w) -> 0 <= wh <= 2 ->
  let t := seeks_to size (file_pos (host_fd f) size (w_log w)) off wh in 0 <= t < 2 ^ 64 ->
  exists w' d', wasi_call Os F_fd_seek [fd; off; wh; p] w = (Ok [0], w') /\ guest w' a d' /\ overwritten d d' p (to_le 8 t) /\
  file_pos (host_fd f) size (w_log w') = t /\ w_self w' = w_self w /\ w_pipes w' = w_pipes w.
Proof. exact seek_moves. Qed.
Print Assumptions C88_seek.
Theorem C88_tell : forall Os w fd f a d p size, is_open w fd f -> wasm_type f <> T_DIRECTORY -> has_right f 5 -> guest w a d ->
  0 <= p -> p + 8 <= len d -> seekable Os (host_fd f) size ->
  let t := file_pos (host_fd f) size (w_log w) in 0 <= t < 2 ^ 64 ->
  exists w' d', wasi_call Os F_fd_tell [fd; p] w = (Ok [0], w') /\ guest w' a d' /\ overwritten d d' p (to_le 8 t) /\
  file_pos (host_fd f) size (w_log w') = t /\ w_self w' = w_self w /\ w_pipes w' = w_pipes w.
Proof. exact tell_tells. Qed.
Print Assumptions C88_tell.
Example C88_ex_seekable : forall h, seekable ex2 h 10. Proof. now intros h log off wh _ _. Qed.
Example C88_ex : exists f, let w := ex2_open 0x26 [] in let w' := snd (wasi_call ex2 F_fd_seek [4; -3; 2; 40] w) in
  is_open w 4 f /\ wasm_type f <> T_DIRECTORY /\ has_right f 2 /\ has_right f 5 /\ guest w 0 (ex_mem []) /\
  range_of (ex_data w') 40 8 = [7; 0; 0; 0; 0; 0; 0; 0] /\
  range_of (ex_data (snd (wasi_call ex2 F_fd_tell [4; 48] w'))) 48 8 = [7; 0; 0; 0; 0; 0; 0; 0].
Proof.
  eexists. split; [ex_is_open|]. split; [discriminate|]. split; [reflexivity|]. split; [reflexivity|]. split; [ex_is_guest|]. split; vm_compute; reflexivity.
Qed.

(* C89: fd_pread into non-empty buffers that do not overlap their descriptions fills them in order with the bytes at the
   given offset, as far as these go, stores their number, and only reads at positions (so the file position stays). *)
Theorem C89_pread_partial : forall Os w fd f a d ptr n off x4 content,
  is_open w fd f -> wasm_type f <> T_DIRECTORY -> has_right f 1 -> guest w a d -> holds Os (host_fd f) content ->
  0 <= ptr -> 0 <= n -> 0 <= off -> ptr + 8 * n <= len d ->
  Forall (fun b => inside d b /\ 0 < snd b /\ apart (fst b) (snd b) ptr (8 * n)) (iovs d ptr (Z.to_nat n)) ->
  0 <= x4 -> x4 + 4 <= len d ->
  let rest := skipn (Z.to_nat off) content in
  let m := Z.min (room (iovs d ptr (Z.to_nat n))) (len rest) in m < 2 ^ 32 ->
  exists d1 d' evs, filled d (iovs d ptr (Z.to_nat n)) (firstn (Z.to_nat m) rest) d1 /\ overwritten d1 d' x4 (to_le 4 m) /\
  Forall (fun e => exists k o, fst e = OsPread (host_fd f) k o) evs /\
  wasi_call Os F_fd_pread [fd; ptr; n; off; x4] w =
    (Ok [0], set_guest (mkworld (w_self w) (evs ++ w_log w) (w_pipes w) (w_mach w)) a d').
Proof. exact fd_pread_ok. Qed.
Print Assumptions C89_pread_partial.
(* fd_pwrite makes one write, at the given offset, of the bytes of the buffers in order, and stores the number the
   operating system reports. *)
Theorem C89_pwrite : forall Os w fd f a d ptr n off x4 size,
  is_open w fd f -> wasm_type f <> T_DIRECTORY -> has_right f 6 -> guest w a d ->
  0 <= ptr -> 0 <= n -> ptr + 8 * n <= len d -> Forall (inside d) (iovs d ptr (Z.to_nat n)) -> 0 <= x4 -> x4 + 4 <= len d ->
  let c := OsPwrite (host_fd f) (gathered d (iovs d ptr (Z.to_nat n))) off in
  Os (w_log w) c = RInt size -> 0 <= size < 2 ^ 32 ->
  exists d', overwritten d d' x4 (to_le 4 size) /\
  wasi_call Os F_fd_pwrite [fd; ptr; n; off; x4] w = (Ok [0], set_guest (logged w c (RInt size)) a d').
Proof. exact fd_pwrite_ok. Qed.
Print Assumptions C89_pwrite.
(* The restriction to non-empty buffers is needed: an empty one ends the reading. *)
Theorem C89_refuted : exists Os w f d w' d', reached Os w /\ is_open w 4 f /\ wasm_type f <> T_DIRECTORY /\ has_right f 1 /\ guest w 0 d /\
  holds Os (host_fd f) sample /\ iovs d 0 2 = [(20, 0); (30, 2)] /\
  wasi_call Os F_fd_pread [4; 0; 2; 3; 40] w = (Ok [0], w') /\ guest w' 0 d' /\ range_of d' 40 4 = [0; 0; 0; 0].
Proof.
  set (s := [20; 0; 0; 0; 0; 0; 0; 0; 30; 0; 0; 0; 2; 0; 0; 0]). exists ex2, (ex2_open 2 s). eexists. exists (ex_mem s). do 2 eexists.
  split; [apply ex2_reached|]. split; [ex_is_open|]. split; [discriminate|]. split; [reflexivity|]. split; [ex_is_guest|].
  split; [split; [ex_bytes|reflexivity]|]. split; [vm_compute; reflexivity|]. split; [vm_compute; reflexivity|].
  split; [ex_is_guest|]. vm_compute. reflexivity.
Qed.
Print Assumptions C89_refuted.
Example C89_ex_holds : forall h, holds ex2 h sample. Proof. split; [ex_bytes|reflexivity]. Qed.
Example C89_ex : exists f, is_open (ex2_open 0x42 ex_iovs) 4 f /\ wasm_type f <> T_DIRECTORY /\ has_right f 1 /\ has_right f 6 /\
  Forall (fun b => inside (ex_mem ex_iovs) b /\ 0 < snd b /\ apart (fst b) (snd b) 0 16) (iovs (ex_mem ex_iovs) 0 2) /\
  range_of (ex_data (snd (wasi_call ex2 F_fd_pread [4; 0; 2; 6; 40] (ex2_open 0x42 ex_iovs)))) 20 12 = [17; 18; 19; 0; 0; 0; 0; 0; 0; 0; 20; 105] /\
  fst (wasi_call ex2 F_fd_pwrite [4; 0; 2; 6; 40] (ex2_open 0x42 ex_iovs)) = Ok [0].
Proof.
  eexists. split; [ex_is_open|]. split; [discriminate|]. split; [reflexivity|]. split; [reflexivity|].
  split; [repeat constructor; try (vm_compute; discriminate); right; vm_compute; discriminate|]. split; vm_compute; reflexivity.
Qed.

(* C90: false. Setting the flag NONBLOCK (4) of a descriptor that has no flags is refused with EINVAL (28). *)
Theorem C90_refuted : forall Os w fd f, is_open w fd f -> has_right f 3 -> wasm_flag f = 0 -> wasi_call Os F_fd_fdstat_set_flags [fd; 4] w = (Ok [28], w).
Proof. exact set_flags_nonblock. Qed.
Print Assumptions C90_refuted.
(* What holds: setting or clearing APPEND (bit 0) and keeping the other flags: the host descriptor's flags change in
   O_APPEND accordingly and in nothing else but O_NONBLOCK (bits 10 and 11 of the host's flags). *)
Theorem C90_append_partial : forall Os w fd f x, is_open w fd f -> has_right f 3 ->
  (forall i, 0 < i -> Z.testbit x i = Z.testbit (wasm_flag f) i) ->
  Os (w_log w) (OsSetfl (host_fd f) (Z.lor (Z.land (Z.land (host_flag f) (Z.lnot O_APPEND)) (Z.lnot O_NONBLOCK))
    (Z.lor (if Z.testbit x 0 then O_APPEND else 0) (if Z.testbit x 2 then O_NONBLOCK else 0)))) = RUnit ->
  exists w' g hf, wasi_call Os F_fd_fdstat_set_flags [fd; x] w = (Ok [0], w') /\ is_open w' fd g /\ wasm_flag g = x /\
  w_log w' = (OsSetfl (host_fd f) hf, RUnit) :: w_log w /\ Z.testbit hf 10 = Z.testbit x 0 /\
  (forall i, 0 <= i -> i <> 10 -> i <> 11 -> Z.testbit hf i = Z.testbit (host_flag f) i) /\
  forall fd' e, fd' <> fd -> entry w' fd' e <-> entry w fd' e.
Proof. exact set_flags_append. Qed.
Print Assumptions C90_append_partial.
Example C90_ex : exists f, is_open (ex2_open 0xa []) 4 f /\ has_right f 3 /\ wasm_flag f = 0 /\
  fst (wasi_call ex2 F_fd_fdstat_set_flags [4; 1] (ex2_open 0xa [])) = Ok [0].
Proof. eexists. split; [ex_is_open|]. split; [reflexivity|]. split; [reflexivity|]. vm_compute. reflexivity. Qed.

(* C91: false. With MTIM_NOW (8) the file gets the modification time in the arguments, here 77, not the present time. *)
Theorem C91_refuted : exists Os w f w' evs, reached Os w /\ is_open w 4 f /\ (forall log, Os log (OsTime 0) = RInt 1000) /\
  wasi_call Os F_fd_filestat_set_times [4; 0; 77; 8] w = (Ok [0], w') /\
  w_log w' = (OsUtimeFd (host_fd f) 100 77, RUnit) :: evs ++ w_log w.
Proof.
  exists ex2, (ex2_open 0x800002 []). do 2 eexists. exists [(OsStatFd 11, RStat ex_info)].
  split; [apply ex2_reached|]. split; [ex_is_open|]. split; [reflexivity|]. split; vm_compute; reflexivity.
Qed.
Print Assumptions C91_refuted.
(* What holds: without MTIM_NOW, both times become what the flags say, in one call. *)
Theorem C91_times_partial : forall Os w fd f at_ mt fl i now, is_open w fd f -> has_right f 23 -> (forall log, Os log (OsTime 0) = RInt now) ->
  Os (w_log w) (OsStatFd (host_fd f)) = RStat i -> (forall log a m, Os log (OsUtimeFd (host_fd f) a m) = RUnit) ->
  Z.testbit fl 3 = false -> ~ (Z.testbit fl 0 = true /\ Z.testbit fl 1 = true) ->
  exists w', wasi_call Os F_fd_filestat_set_times [fd; at_; mt; fl] w = (Ok [0], w') /\ w_self w' = w_self w /\ w_mach w' = w_mach w /\
  exists evs, w_log w' = (OsUtimeFd (host_fd f) (stamp fl 0 1 (st_atime_ns i) at_ now) (stamp fl 2 3 (st_mtime_ns i) mt now), RUnit) :: evs ++ w_log w /\
  Forall (fun e => match fst e with OsStatFd _ | OsTime _ => True | _ => False end) evs.
Proof. exact set_times_ok. Qed.
Print Assumptions C91_times_partial.
Example C91_ex : exists f, is_open (ex2_open 0x800002 []) 4 f /\ has_right f 23 /\
  hd_error (w_log (snd (wasi_call ex2 F_fd_filestat_set_times [4; 5; 77; 6] (ex2_open 0x800002 [])))) = Some (OsUtimeFd 11 1000 77, RUnit).
Proof. eexists. split; [ex_is_open|]. split; [reflexivity|]. vm_compute. reflexivity. Qed.

(* C92: false. Waiting for an absolute time still to come raises ValueError: the time to wait is computed as the present
   time minus the deadline, which is negative. *)
Theorem C92_refuted : forall Os w a d x0 x1 x3 clock t now, guest w a d -> absolute_clock d x0 clock t -> 0 <= clock <= 3 ->
  Os (w_log w) (OsTime clock) = RInt now -> now < t ->
  wasi_call Os F_poll_oneoff [x0; x1; 1; x3] w = (Err EValue, logged w (OsTime clock) (RInt now)).
Proof. exact poll_past. Qed.
Print Assumptions C92_refuted.
Definition ex_deadline : list Z := zeros 24 ++ to_le 8 2000 ++ zeros 8 ++ [1].
Example C92_ex : guest (ex2_dir ex_deadline) 0 (ex_mem ex_deadline) /\ absolute_clock (ex_mem ex_deadline) 0 0 2000.
Proof. split; [ex_is_guest|]. unfold absolute_clock. repeat split; vm_compute; congruence. Qed.

(* C93: false. fd_filestat_get asks for the file with the descriptor's name, not for the file the descriptor is opened on:
   here the file was unlinked, the operating system could still describe the open descriptor, and the call raises
   FileNotFoundError. *)
Theorem C93_refuted : exists Os w f w', reached Os w /\ is_open w 4 f /\ has_right f 21 /\ Os (w_log w) (OsStatFd (host_fd f)) = RStat ex_info /\
  wasi_call Os F_fd_filestat_get [4; 0] w = (Err EOS, w').
Proof.
  exists ex2, (history ex2 (ex2_dir (nm "f")) [Call F_path_open [3; 0; 0; 1; 0; 0x200002; 0; 0; 32]; Call F_path_unlink_file [3; 0; 1]]). do 2 eexists.
  split; [apply ex2_reached|]. split; [ex_is_open|]. split; [reflexivity|]. split; vm_compute; reflexivity.
Qed.
Print Assumptions C93_refuted.
(* What holds: the attributes the operating system gives for that name are stored, with the type from when the file was
   opened, in the 64 bytes of the structure; the device number is not written. *)
Theorem C93_layout_partial : forall Os w fd f a d p i, is_open w fd f -> has_right f 21 -> guest w a d -> 0 <= p -> p + 64 <= len d -> 0 <= wasm_type f < 256 ->
  let c := OsStat (host_name f) None true in Os (w_log w) c = RStat i -> sane_stat i ->
  exists d', filestat_at d d' p (wasm_type f) i /\ wasi_call Os F_fd_filestat_get [fd; p] w = (Ok [0], set_guest (logged w c (RStat i)) a d').
Proof. exact filestat_ok. Qed.
Print Assumptions C93_layout_partial.
Example C93_ex : exists f, is_open (ex2_open 0x200002 []) 4 f /\ has_right f 21 /\ sane_stat ex_info /\
  range_of (ex_data (snd (wasi_call ex2 F_fd_filestat_get [4; 0] (ex2_open 0x200002 [])))) 32 16 = to_le 8 10 ++ to_le 8 100.
Proof. eexists. split; [ex_is_open|]. split; [reflexivity|]. split; [unfold sane_stat; cbn; lia|]. vm_compute. reflexivity. Qed.

(* C94: a guest cannot use sockets: whatever calls it made, each sock_ call returns EBADF (8) or ENOTSOCK (57) and does
   nothing. *)
Theorem C94_no_sockets : forall Os w f args, reached Os w -> sock_call f args ->
  exists e, wasi_call Os f args w = (Ok [e], w) /\ (e = 8 \/ e = 57).
Proof. exact sockets_unusable. Qed.
Print Assumptions C94_no_sockets.
Example C94_ex : reached ex2 (ex2_open 2 []) /\ fst (wasi_call ex2 F_sock_send [4; 0; 0; 0; 0] (ex2_open 2 [])) = Ok [57] /\
  fst (wasi_call ex2 F_sock_send [5; 0; 0; 0; 0] (ex2_open 2 [])) = Ok [8].
Proof. split; [apply ex2_reached|]. split; vm_compute; reflexivity. Qed.

(* C95: false. path_unlink_file of a name that does not exist does not return ENOENT (44) but raises FileNotFoundError. *)
Theorem C95_refuted : exists Os w w', reached Os w /\ wasi_errno OEnoent = Some 44 /\
  wasi_call Os F_path_unlink_file [3; 0; 1] w = (Err EOS, w') /\ w_log w' = (OsUnlink (nm "f") 10, RFail OEnoent) :: w_log w.
Proof.
  exists ex2, (history ex2 (ex2_dir (nm "f")) [Call F_path_unlink_file [3; 0; 1]]). eexists.
  split; [apply ex2_reached|]. split; [reflexivity|]. split; [vm_compute; reflexivity|]. vm_compute. reflexivity.
Qed.
Print Assumptions C95_refuted.
(* What holds: when a path call does return a number after the operating system reported an error, it is the number that
   stands for that error. *)
Theorem C95_number_partial : forall Os f args w n w' c e, path_call f -> wasi_call Os f args w = (Ok [n], w') ->
  w_log w' = (c, RFail e) :: w_log w -> wasi_errno e = Some n.
Proof. exact (fun Os f args w n w' c e P H L => errno_right Os f args w P n w' c e H L). Qed.
Print Assumptions C95_number_partial.
Example C95_ex : let w := history ex2 (ex2_dir (nm "f")) [Call F_path_unlink_file [3; 0; 1]] in
  let r := wasi_call ex2 F_path_filestat_get [3; 0; 0; 1; 0] w in
  fst r = Ok [44] /\ exists c, w_log (snd r) = (c, RFail OEnoent) :: w_log w.
Proof. vm_compute. split; [reflexivity|]. eexists. reflexivity. Qed.

(* C96: fd_fdstat_get stores type, flags and both sets of rights of the entry, in the 24 bytes of the structure. *)
Theorem C96_fdstat : forall Os w fd f a d p, is_open w fd f -> guest w a d -> 0 <= p -> p + 24 <= len d ->
  0 <= wasm_type f < 256 -> 0 <= wasm_flag f < 2 ^ 16 -> 0 <= rights_base f < 2 ^ 64 -> 0 <= rights_root f < 2 ^ 64 ->
  exists d', len d' = len d /\ range_of d' p 1 = [wasm_type f] /\ range_of d' (p + 2) 2 = to_le 2 (wasm_flag f) /\
  range_of d' (p + 8) 8 = to_le 8 (rights_base f) /\ range_of d' (p + 16) 8 = to_le 8 (rights_root f) /\
  (forall k, 0 <= k < p \/ p + 24 <= k < len d -> nth_error d' (Z.to_nat k) = nth_error d (Z.to_nat k)) /\
  wasi_call Os F_fd_fdstat_get [fd; p] w = (Ok [0], set_guest w a d').
Proof. exact fdstat_ok. Qed.
Print Assumptions C96_fdstat.
Example C96_ex : exists f, is_open (ex2_open 0x42 []) 4 f /\ rights_base f = 0x42 /\
  range_of (ex_data (snd (wasi_call ex2 F_fd_fdstat_get [4; 0] (ex2_open 0x42 [])))) 0 16 = [4; 0; 0; 0; 0; 0; 0; 0; 0x42; 0; 0; 0; 0; 0; 0; 0].
Proof. eexists. split; [ex_is_open|]. split; [reflexivity|]. vm_compute. reflexivity. Qed.

(* C97: clock_time_get stores the time of the clock asked for; random_get fills exactly the bytes asked for. *)
Theorem C97_clock : forall Os w a d id prec p t, guest w a d -> 0 <= id <= 3 -> 0 <= p -> p + 8 <= len d ->
  Os (w_log w) (OsTime id) = RInt t -> 0 <= t < 2 ^ 64 ->
  exists d', overwritten d d' p (to_le 8 t) /\
  wasi_call Os F_clock_time_get [id; prec; p] w = (Ok [0], set_guest (logged w (OsTime id) (RInt t)) a d').
Proof. exact clock_time_ok. Qed.
Print Assumptions C97_clock.
Theorem C97_random : forall Os w a d p n bs, guest w a d -> 0 <= n -> 0 <= p -> p + n <= len d ->
  Os (w_log w) (OsRandom n) = RBytes bs -> bytes bs -> len bs = n ->
  exists d', overwritten d d' p bs /\ wasi_call Os F_random_get [p; n] w = (Ok [0], set_guest (logged w (OsRandom n) (RBytes bs)) a d').
Proof. exact random_ok. Qed.
Print Assumptions C97_random.
Example C97_ex : guest (ex2_dir []) 0 (ex_mem []) /\ ex2 (w_log (ex2_dir [])) (OsTime 1) = RInt 1000 /\
  range_of (ex_data (snd (wasi_call ex2 F_random_get [2; 3] (ex2_dir [])))) 1 5 = [0; 5; 5; 5; 0].
Proof. split; [ex_is_guest|]. split; vm_compute; reflexivity. Qed.

(* C98: fd_readdir with ASCII names: starting at the entry asked for, as many entries of the directory ("." and ".."
   first, the others in order) as fit into the buffer are stored there, nothing outside is written; the size used is
   stored, or that of the buffer if not everything fitted. *)
Theorem C98_ascii_partial : forall Os w fd f a d buf size number used names info,
  is_open w fd f -> has_right f 14 -> guest w a d -> 0 <= buf -> 0 <= size < 2 ^ 32 -> buf + size <= len d -> 0 <= used -> used + 4 <= len d ->
  apart buf size used 4 -> Os (w_log w) (OsListdir (host_fd f)) = RNames names -> Forall ascii names ->
  Forall (statable Os (host_name f) info) (with_dots names) -> len names + 2 < 2 ^ 64 -> 0 <= number <= len names + 2 ->
  exists sorted l1 l2 w' d', Permutation names sorted /\ StronglySorted before sorted /\
  skipn (Z.to_nat number) (with_dots sorted) = l1 ++ l2 /\
  wasi_call Os F_fd_readdir [fd; buf; size; number; used] w = (Ok [0], w') /\ guest w' a d' /\ len d' = len d /\
  listing d' info (fun s => help_wasm_type (info s)) buf number l1 /\
  match l2 with
  | [] => size_of l1 <= size /\ range_of d' used 4 = to_le 4 (size_of l1)
  | s :: _ => size < size_of (l1 ++ [s]) /\ range_of d' used 4 = to_le 4 size
  end /\
  (forall k, ~ (buf <= Z.of_nat k < buf + size) -> ~ (used <= Z.of_nat k < used + 4) -> nth_error d' k = nth_error d k) /\
  w_self w' = w_self w /\ w_pipes w' = w_pipes w.
Proof. exact fd_readdir_ok. Qed.
Print Assumptions C98_ascii_partial.
(* a directory with the given entries *)
Definition ex3 (names : list name) : os := fun log c =>
  match c with OsStat _ _ _ => RStat ex_info | OsListdir _ => RNames names | _ => ex2 log c end.
Definition ex3_dir (names : list name) : world := snd (new_preview1 (ex3 names) (nm "/") ex_std [] [(nm "/d", nm "/tmp/a")] [] (ex_blank (ex_mem []))).
Example C98_ex : exists f, let Os := ex3 [nm "b"; nm "a"] in let w := ex3_dir [nm "b"; nm "a"] in is_open w 3 f /\ has_right f 14 /\
  Forall (statable Os (host_name f) (fun _ => ex_info)) (with_dots [nm "b"; nm "a"]) /\
  range_of (ex_data (snd (wasi_call Os F_fd_readdir [3; 0; 50; 2; 60] w))) 0 50 =
    to_le 8 3 ++ to_le 8 7 ++ to_le 4 1 ++ [4; 0; 0; 0; 97] ++ to_le 8 4 ++ to_le 8 7 ++ to_le 4 1 ++ [4; 0; 0; 0; 98].
Proof.
  eexists. split; [ex_is_open|]. split; [reflexivity|]. split; [|vm_compute; reflexivity].
  repeat constructor; vm_compute; congruence.
Qed.
(* The restriction is needed: the length stored is the number of characters, not of bytes: an e with an acute accent
   (233) is two bytes in UTF-8, the length stored is 1. *)
Theorem C98_refuted : exists Os w f w' d', reached Os w /\ is_open w 3 f /\ has_right f 14 /\ (forall log, Os log (OsListdir (host_fd f)) = RNames [[233]]) /\
  utf8 [233] = [195; 169] /\ wasi_call Os F_fd_readdir [3; 0; 50; 2; 60] w = (Ok [0], w') /\ guest w' 0 d' /\
  range_of d' 16 4 = to_le 4 1 /\ range_of d' 24 2 = [195; 169] /\ range_of d' 60 4 = to_le 4 25.
Proof.
  exists (ex3 [[233]]), (ex3_dir [[233]]). do 3 eexists.
  split; [exists (nm "/"), ex_std, [], [(nm "/d", nm "/tmp/a")], [], (ex_blank (ex_mem [])), []; split; reflexivity|].
  split; [ex_is_open|]. split; [reflexivity|]. split; [reflexivity|]. split; [reflexivity|]. split; [vm_compute; reflexivity|].
  split; [ex_is_guest|]. repeat split; vm_compute; reflexivity.
Qed.
Print Assumptions C98_refuted.
