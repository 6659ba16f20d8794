(* Path calls, fd_allocate, poll_oneoff, and where WASI calls write.
   Specification: SpecWasiPath.v, SpecWasiMore.v, SpecWasi.v, SpecPath.v and SpecMem.v. *)
From Coq Require Import String.
From Coq Require Import ZArith List Bool Lia.
From Verif Require Import Py Arith Floatops Val Opcode Numeric Syntax Store Basic Machine Utf8 Os Wasi SpecInt SpecNum SpecMachine SpecMem
  SpecControl SpecFormat SpecWasi SpecPath SpecWasiMore SpecWasiPath PyFacts WasiTableFacts WasiIoFacts WasiCallFacts WasiMemFacts WasiMoreFacts
  WasiPathFacts WasiFrameFacts PropWasi PropWasiMore.
Import ListNotations.
Open Scope Z_scope.

(* ---- the world of the examples ---- *)
(* Everything is a symbolic link with time stamps of its own. A write stores at most four bytes. No descriptor ever
   becomes ready. *)
Definition ex_link : statinfo := mkstat 0xa1a4 8 1 2 555 666 777.
Definition ex3 : os := fun log c =>
  match c with
  | OsStat _ _ follow => RStat (if follow then ex_info else ex_link)
  | OsReadlink _ _ => RName [233]
  | OsMkdir _ _ | OsRmdir _ _ | OsUtime _ _ _ _ _ | OsRename _ _ _ _ | OsLink _ _ _ _ _ | OsSymlink _ _ _ | OsFsync _ => RUnit
  | OsWrite _ d => RInt (Z.min 4 (len d))
  | OsLseek h off whence => let '(c, p) := file_now h sample log in RInt (seeks_to (len c) p off whence)
  | OsStatFd h => if h =? 10 then RStat (mkstat 0x41ed 7 1 10 0 0 0) else RStat (mkstat 0x81a4 7 1 (len (fst (file_now h sample log))) 0 0 0)
  | OsSelect _ _ _ => RReady [] []
  | _ => ex2 log c
  end.
Definition ex3_dir (s : list Z) : world := snd (new_preview1 ex3 (nm "/") ex_std [] [(nm "/d", nm "/tmp/a")] [] (ex_blank (ex_mem s))).
Definition ex3_open (r : Z) (s : list Z) : world := history ex3 (ex3_dir (nm "f")) (ex2_path r s).
Lemma ex3_reached s h : reached ex3 (history ex3 (ex3_dir s) h).
Proof. exists (nm "/"), ex_std, [], [(nm "/d", nm "/tmp/a")], [], (ex_blank (ex_mem s)), h. split; reflexivity. Qed.
Lemma ex_stays f x : wasm_name f = nm "/d" -> proper [x] -> stays f [x].
Proof.
  intros W P. assert (proper (nm "d")) as Pd by (split; [repeat constructor; discriminate|repeat split; discriminate]).
  exists [nm "d"], [[x]], [nm "d"; [x]]. split; [exact W|]. split; [now repeat constructor|]. split; [reflexivity|]. split; [constructor; [apply P|constructor]|].
  split; [discriminate|]. split; [intros (t & E); injection E as -> _; destruct P as (S & _); inversion S; subst; contradiction|].
  split; [apply walks_down; [exact P|apply walks_end]|]. exists [[x]]. reflexivity.
Qed.
Lemma ex_f : proper (nm "f").
Proof. split; [repeat constructor; discriminate|repeat split; discriminate]. Qed.
Lemma ex_text s : text (ex_mem (102 :: s)) 0 1 (nm "f").
Proof.
  split; [lia|]. split; [lia|]. split; [|split; [constructor; [left; vm_compute; split; [discriminate|reflexivity]|constructor]|reflexivity]].
  unfold ex_mem. cbn [app]. rewrite len_cons. pose proof (len_nonneg (s ++ zeros (64 - len (102 :: s)))). lia.
Qed.
Ltac ex_allowed := split; [ex_is_open|vm_compute; reflexivity].

(* C110: one request, the one the call stands for, and success exactly if it succeeds. *)
Theorem C110_one_request : forall Os w a d f args c ns, guest w a d -> asks w d f args c ns -> Forall (fun x => stays (fst x) (snd x)) ns ->
  exists r, wasi_call Os f args w = (r, logged w c (Os (w_log w) c)) /\
  (Os (w_log w) c = RUnit -> r = Ok [0]) /\ (forall e, Os (w_log w) c = RFail e -> r <> Ok [0]).
Proof. exact one_request. Qed.
Print Assumptions C110_one_request.
Theorem C110_success : forall Os w a d f args rs w', guest w a d -> names_at f args = Some rs -> Forall (in_memory d) rs ->
  wasi_call Os f args w = (Ok [0], w') ->
  exists c ns, asks w d f args c ns /\ w' = logged w c (Os (w_log w) c) /\ forall e, Os (w_log w) c <> RFail e.
Proof. exact success_asks. Qed.
Print Assumptions C110_success.
(* moving the file "f" to "g": both names, in this order *)
Example C110_ex : exists f, allowed (ex3_dir (nm "fg")) 3 f 16 /\ guest (ex3_dir (nm "fg")) 0 (ex_mem (nm "fg")) /\ stays f (nm "f") /\ stays f (nm "g") /\
  asks (ex3_dir (nm "fg")) (ex_mem (nm "fg")) F_path_rename [3; 0; 1; 3; 1; 1] (OsRename (nm "f") (nm "g") (host_fd f) (host_fd f)) [(f, nm "f"); (f, nm "g")] /\
  names_at F_path_rename [3; 0; 1; 3; 1; 1] = Some [(0, 1); (1, 1)] /\ fst (wasi_call ex3 F_path_rename [3; 0; 1; 3; 1; 1] (ex3_dir (nm "fg"))) = Ok [0].
Proof.
  eexists. split; [ex_allowed|]. split; [ex_is_guest|]. split; [apply ex_stays; [reflexivity|exact ex_f]|].
  split; [apply ex_stays; [reflexivity|split; [repeat constructor; discriminate|repeat split; discriminate]]|].
  split; [|split; [reflexivity|vm_compute; reflexivity]].
  apply asks_rename; [ex_allowed|ex_allowed|apply ex_text|]. split; [lia|]. split; [lia|]. split; [vm_compute; discriminate|]. split; [constructor; [left; vm_compute; split; [discriminate|reflexivity]|constructor]|reflexivity].
Qed.

(* C111: path_filestat_get. *)
Theorem C111_path_filestat_get : forall Os w a d fd f flags p n s out i, guest w a d -> allowed w fd f 18 -> text d p n s -> stays f s ->
  0 <= out -> out + 64 <= len d ->
  let c := OsStat s (Some (host_fd f)) (Z.testbit flags 0) in Os (w_log w) c = RStat i -> sane_stat i ->
  exists d', filestat_at d d' out (help_wasm_type i) i /\
  wasi_call Os F_path_filestat_get [fd; flags; p; n; out] w = (Ok [0], set_guest (logged w c (RStat i)) a d').
Proof. exact path_stat_ok. Qed.
Print Assumptions C111_path_filestat_get.
Theorem C111_missing : forall Os w a d fd f flags p n s out, guest w a d -> allowed w fd f 18 -> text d p n s -> stays f s ->
  let c := OsStat s (Some (host_fd f)) (Z.testbit flags 0) in Os (w_log w) c = RFail OEnoent ->
  wasi_call Os F_path_filestat_get [fd; flags; p; n; out] w = (Ok [44], logged w c (RFail OEnoent)).
Proof. exact path_stat_missing. Qed.
Print Assumptions C111_missing.
(* with and without following the link *)
Example C111_ex : exists f, allowed (ex3_dir (nm "f")) 3 f 18 /\ text (ex_mem (nm "f")) 0 1 (nm "f") /\ stays f (nm "f") /\ sane_stat ex_link /\ sane_stat ex_info /\
  range_of (ex_data (snd (wasi_call ex3 F_path_filestat_get [3; 0; 0; 1; 0] (ex3_dir (nm "f"))))) 40 8 = to_le 8 555 /\
  range_of (ex_data (snd (wasi_call ex3 F_path_filestat_get [3; 1; 0; 1; 0] (ex3_dir (nm "f"))))) 40 8 = to_le 8 100.
Proof.
  eexists. split; [ex_allowed|]. split; [apply ex_text|]. split; [apply ex_stays; [reflexivity|exact ex_f]|].
  split; [repeat split; try (vm_compute; discriminate)|]. split; [repeat split; try (vm_compute; discriminate)|]. split; vm_compute; reflexivity.
Qed.

(* C112: false. The code counts characters: with a buffer of one byte and a target of one character outside ASCII it
   writes two bytes; with a buffer large enough it reports one byte. *)
Theorem C112_overflow_refuted : exists Os w f w', reached Os w /\ allowed w 3 f 15 /\ Os (w_log w) (OsReadlink (nm "f") (host_fd f)) = RName [233] /\
  wasi_call Os F_path_readlink [3; 0; 1; 16; 1; 32] w = (Ok [0], w') /\ nth_error (ex_data w) 17 = Some 0 /\ nth_error (ex_data w') 17 = Some 169.
Proof. exists ex3, (ex3_dir (nm "f")). do 2 eexists. split; [apply (ex3_reached _ [])|]. split; [ex_allowed|]. repeat (split; [vm_compute; reflexivity|]). vm_compute. reflexivity. Qed.
Print Assumptions C112_overflow_refuted.
Theorem C112_count_refuted : exists Os w f w', reached Os w /\ allowed w 3 f 15 /\ Os (w_log w) (OsReadlink (nm "f") (host_fd f)) = RName [233] /\
  len (utf8 [233]) = 2 /\ wasi_call Os F_path_readlink [3; 0; 1; 16; 8; 32] w = (Ok [0], w') /\ range_of (ex_data w') 32 4 = to_le 4 1.
Proof. exists ex3, (ex3_dir (nm "f")). do 2 eexists. split; [apply (ex3_reached _ [])|]. split; [ex_allowed|]. repeat (split; [vm_compute; reflexivity|]). vm_compute. reflexivity. Qed.
Print Assumptions C112_count_refuted.
(* What holds: for targets of ASCII characters. Missing: all other targets. *)
Theorem C112_ascii_partial : forall Os w a d fd f p n s buf size out t, guest w a d -> allowed w fd f 15 -> text d p n s -> stays f s ->
  0 <= size -> 0 <= buf -> buf + size <= len d -> 0 <= out -> out + 4 <= len d -> apart buf size out 4 -> len d <= 2 ^ 32 ->
  let c := OsReadlink s (host_fd f) in Os (w_log w) c = RName t -> ascii t ->
  let bs := firstn (Z.to_nat size) (utf8 t) in
  exists d' d'', overwritten d d' buf bs /\ overwritten d' d'' out (to_le 4 (len bs)) /\
  wasi_call Os F_path_readlink [fd; p; n; buf; size; out] w = (Ok [0], set_guest (logged w c (RName t)) a d'').
Proof. exact readlink_ok. Qed.
Print Assumptions C112_ascii_partial.
Definition ex4 : os := fun log c => match c with OsReadlink _ _ => RName (nm "abc") | _ => ex3 log c end.
Example C112_ex : exists f, allowed (ex3_dir (nm "f")) 3 f 15 /\ stays f (nm "f") /\ ascii (nm "abc") /\
  range_of (ex_data (snd (wasi_call ex4 F_path_readlink [3; 0; 1; 16; 2; 32] (ex3_dir (nm "f"))))) 16 3 = nm "ab" ++ [0] /\
  range_of (ex_data (snd (wasi_call ex4 F_path_readlink [3; 0; 1; 16; 2; 32] (ex3_dir (nm "f"))))) 32 4 = to_le 4 2.
Proof. eexists. split; [ex_allowed|]. split; [apply ex_stays; [reflexivity|exact ex_f]|]. split; [repeat constructor; discriminate|]. split; vm_compute; reflexivity. Qed.

(* C113: false. If the operating system writes less than asked, the file stays too short, and the call reports success. *)
Lemma ex3_file : is_file ex3 11 sample.
Proof.
  intros log. destruct (file_now 11 sample log) as (c, p) eqn:E. split; [|split].
  - eexists. split; [reflexivity|]. cbn [st_size]. now rewrite E.
  - intros off wh _ _. cbn [ex3]. now rewrite E.
  - intros d. exists (Z.min 4 (len d)). pose proof (len_nonneg d). split; [lia|reflexivity].
Qed.
Theorem C113_short_refuted : exists Os w f c p w', reached Os w /\ allowed w 4 f 8 /\ is_file Os (host_fd f) sample /\
  file_now (host_fd f) sample (w_log w) = (c, p) /\ wasi_call Os F_fd_allocate [4; 10; 90] w = (Ok [0], w') /\
  len (fst (file_now (host_fd f) sample (w_log w'))) = 14.
Proof.
  exists ex3, (ex3_open 0x100 []). do 4 eexists. split; [apply ex3_reached|]. split; [ex_allowed|]. split; [exact ex3_file|].
  split; [vm_compute; reflexivity|]. split; [vm_compute; reflexivity|]. vm_compute. reflexivity.
Qed.
Print Assumptions C113_short_refuted.
(* What holds: the content is kept, only zero bytes are added at the end, the position is kept; and the file is long enough
   if the operating system writes all it is asked to. Missing: writes that store less. *)
Theorem C113_allocate_partial : forall Os w fd f off n c0 c p, allowed w fd f 8 -> wasm_type f <> T_DIRECTORY -> is_file Os (host_fd f) c0 ->
  file_now (host_fd f) c0 (w_log w) = (c, p) -> 0 <= p ->
  exists w' m, wasi_call Os F_fd_allocate [fd; off; n] w = (Ok [0], w') /\ w_self w' = w_self w /\ w_mach w' = w_mach w /\ w_pipes w' = w_pipes w /\
  0 <= m /\ file_now (host_fd f) c0 (w_log w') = (c ++ zeros m, p) /\ (writes_all Os (host_fd f) -> off + n <= len c + m).
Proof. exact allocate_ok. Qed.
Print Assumptions C113_allocate_partial.
Definition ex5 : os := fun log c => match c with OsWrite _ d => RInt (len d) | _ => ex3 log c end.
Example C113_ex : is_file ex5 11 sample /\ writes_all ex5 11 /\
  (exists f, allowed (ex3_open 0x100 []) 4 f 8 /\ wasm_type f <> T_DIRECTORY /\ host_fd f = 11) /\
  fst (file_now 11 sample (w_log (snd (wasi_call ex5 F_fd_allocate [4; 4; 9] (ex3_open 0x100 []))))) = sample ++ [0; 0; 0].
Proof.
  split; [|split; [intros log d; reflexivity|split]].
  - intros log. pose proof (ex3_file log) as H. destruct (file_now 11 sample log) as (c, p). destruct H as (H1 & H2 & _). split; [exact H1|]. split; [exact H2|].
    intros d. exists (len d). pose proof (len_nonneg d). split; [lia|reflexivity].
  - eexists. split; [ex_allowed|]. split; [discriminate|reflexivity].
  - vm_compute. reflexivity.
Qed.

(* C114: false. The stamps to be kept come from the target of the link, and a missing file raises an exception. *)
Theorem C114_link_refuted : exists Os w f w' evs, reached Os w /\ allowed w 3 f 20 /\
  (forall log, Os log (OsStat (nm "f") (Some (host_fd f)) false) = RStat ex_link) /\
  wasi_call Os F_path_filestat_set_times [3; 0; 0; 1; 0; 77; 4] w = (Ok [0], w') /\
  w_log w' = (OsUtime (nm "f") (host_fd f) false 100 77, RUnit) :: evs ++ w_log w /\ st_atime_ns ex_link <> 100.
Proof.
  exists ex3, (ex3_dir (nm "f")). do 2 eexists. exists [(OsStat (nm "f") (Some 10) true, RStat ex_info)]. split; [apply (ex3_reached _ [])|]. split; [ex_allowed|].
  split; [reflexivity|]. split; [vm_compute; reflexivity|]. split; [vm_compute; reflexivity|discriminate].
Qed.
Print Assumptions C114_link_refuted.
Theorem C114_missing_refuted : forall Os w a d fd f flags p n s at_ mt fl, guest w a d -> allowed w fd f 20 -> text d p n s -> stays f s ->
  Os (w_log w) (OsStat s (Some (host_fd f)) true) = RFail OEnoent ->
  ~ (Z.testbit fl 0 = true /\ Z.testbit fl 1 = true) -> ~ (Z.testbit fl 2 = true /\ Z.testbit fl 3 = true) ->
  wasi_call Os F_path_filestat_set_times [fd; flags; p; n; at_; mt; fl] w =
    (Err EOS, logged w (OsStat s (Some (host_fd f)) true) (RFail OEnoent)).
Proof. exact path_times_missing. Qed.
Print Assumptions C114_missing_refuted.
(* What holds: if links are followed or both stamps are set, and the file exists. Missing: the rest. *)
Theorem C114_times_partial : forall Os w a d fd f flags p n s at_ mt fl i j now, guest w a d -> allowed w fd f 20 -> text d p n s -> stays f s ->
  (forall log, Os log (OsTime 0) = RInt now) ->
  Os (w_log w) (OsStat s (Some (host_fd f)) true) = RStat j -> Os (w_log w) (OsStat s (Some (host_fd f)) (Z.testbit flags 0)) = RStat i ->
  (forall log x y, Os log (OsUtime s (host_fd f) (Z.testbit flags 0) x y) = RUnit) ->
  ~ (Z.testbit fl 0 = true /\ Z.testbit fl 1 = true) -> ~ (Z.testbit fl 2 = true /\ Z.testbit fl 3 = true) ->
  Z.testbit flags 0 = true \/ ((Z.testbit fl 0 = true \/ Z.testbit fl 1 = true) /\ (Z.testbit fl 2 = true \/ Z.testbit fl 3 = true)) ->
  exists w', wasi_call Os F_path_filestat_set_times [fd; flags; p; n; at_; mt; fl] w = (Ok [0], w') /\ w_self w' = w_self w /\ w_mach w' = w_mach w /\
  exists evs, w_log w' = (OsUtime s (host_fd f) (Z.testbit flags 0) (stamp fl 0 1 (st_atime_ns i) at_ now) (stamp fl 2 3 (st_mtime_ns i) mt now), RUnit) :: evs ++ w_log w /\
  Forall (fun e => match fst e with OsStat _ _ _ | OsTime _ => True | _ => False end) evs.
Proof. exact path_times_ok. Qed.
Print Assumptions C114_times_partial.
Example C114_ex : exists f, allowed (ex3_dir (nm "f")) 3 f 20 /\ stays f (nm "f") /\ (forall log, ex3 log (OsTime 0) = RInt 1000) /\
  (forall log b, exists i, ex3 log (OsStat (nm "f") (Some (host_fd f)) b) = RStat i) /\ (forall log x y, ex3 log (OsUtime (nm "f") (host_fd f) true x y) = RUnit) /\
  (exists evs, w_log (snd (wasi_call ex3 F_path_filestat_set_times [3; 1; 0; 1; 0; 77; 6] (ex3_dir (nm "f")))) = (OsUtime (nm "f") (host_fd f) true 1000 77, RUnit) :: evs).
Proof.
  eexists. split; [ex_allowed|]. split; [apply ex_stays; [reflexivity|exact ex_f]|]. split; [reflexivity|]. split; [intros; eexists; reflexivity|]. split; [reflexivity|].
  eexists. vm_compute. reflexivity.
Qed.

(* C115: false. Waiting for a descriptor ends after eight seconds without any event, and reports success; and the padding
   after a clock identifier is taken as part of it, so that the clock is never asked and the timer never fires. *)
Definition ex_wait : list Z := to_le 8 5 ++ [1] ++ zeros 7 ++ to_le 4 4.
Theorem C115_silence_refuted : exists Os w f w', reached Os w /\ allowed w 4 f 27 /\ sub_at (ex_data w) 0 (SFd 5 1 4) /\
  wasi_call Os F_poll_oneoff [0; 0; 1; 60] w = (Ok [0], w') /\
  w_log w' = (OsSelect [host_fd f] [] 8000000000, RReady [] []) :: w_log w /\ range_of (ex_data w') 60 4 = to_le 4 0.
Proof.
  exists ex3, (ex3_open 0x8000000 ex_wait). do 2 eexists. split; [apply ex3_reached|]. split; [ex_allowed|].
  split. { split; [lia|]. split; [vm_compute; discriminate|]. split; [vm_compute; reflexivity|]. split; [vm_compute; reflexivity|]. split; [vm_compute; reflexivity|]. split; [lia|]. split; [now left|lia]. }
  split; [vm_compute; reflexivity|]. split; vm_compute; reflexivity.
Qed.
Print Assumptions C115_silence_refuted.
Definition ex_timer (padding : Z) : list Z := to_le 8 5 ++ zeros 8 ++ to_le 4 1 ++ to_le 4 padding ++ to_le 8 0.
Theorem C115_padding_refuted : exists Os w w', reached Os w /\ (forall log c, Os log (OsTime c) = RInt 1000) /\
  range_of (ex_data w) 8 1 = [0] /\ range_of (ex_data w) 16 4 = to_le 4 1 /\ range_of (ex_data w) 24 8 = to_le 8 9 /\ Z.odd (le_of (range_of (ex_data w) 40 2)) = false /\
  wasi_call Os F_poll_oneoff [0; 0; 1; 60] w = (Ok [0], w') /\ w_log w' = (OsSelect [] [] 9, RReady [] []) :: w_log w /\ range_of (ex_data w') 60 4 = to_le 4 0.
Proof.
  exists ex3, (ex3_dir (to_le 8 5 ++ zeros 8 ++ to_le 4 1 ++ to_le 4 1 ++ to_le 8 9)). eexists. split; [apply (ex3_reached _ [])|]. split; [reflexivity|].
  do 4 (split; [vm_compute; reflexivity|]). split; [vm_compute; reflexivity|]. split; vm_compute; reflexivity.
Qed.
Print Assumptions C115_padding_refuted.
(* What holds, for relative clocks with zero padding and descriptors that may be polled, in any number and mixture: the
   clocks are read, the operating system is asked once about exactly the descriptors given, for the shortest delay; the
   clocks are read again; and the events written are those of the clocks that are due and the descriptors reported ready.
   Missing: waiting until there is an event; other padding; absolute times (C92); the fields nbytes and flags of an event. *)
Theorem C115_events_partial : forall Os w a d l x0 x1 x3, guest w a d -> len d <= 2 ^ 32 -> subs_at d x0 l -> Forall (pollable w) l ->
  (forall log c, 0 <= c <= 3 -> exists t, Os log (OsTime c) = RInt t) ->
  (forall log rd wr t, exists ry wy, Os log (OsSelect rd wr t) = RReady ry wy) ->
  0 <= x1 -> x1 + 32 * len l <= len d -> 0 <= x3 -> x3 + 4 <= len d -> apart x1 (32 * len l) x3 4 ->
  let cl := clocks_of l in
  exists t0 t1 ry wy w' d', wasi_call Os F_poll_oneoff [x0; x1; len l; x3] w = (Ok [0], w') /\
  List.length t0 = List.length cl /\ List.length t1 = List.length cl /\
  w_log w' = readings cl t1 ++ (OsSelect (map (fun x => host_of w (snd x)) (fds_of 1 l)) (map (fun x => host_of w (snd x)) (fds_of 2 l)) (wait_of cl), RReady ry wy)
             :: readings cl t0 ++ w_log w /\
  w_self w' = w_self w /\ w_pipes w' = w_pipes w /\ guest w' a d' /\ len d' = len d /\
  let evs := due cl t0 t1 ++ ready w 1 (fds_of 1 l) ry ++ ready w 2 (fds_of 2 l) wy in
  events_at d' x1 evs /\ range_of d' x3 4 = to_le 4 (len evs) /\
  forall k, 0 <= k < len d -> outside [(x1, 32 * len evs); (x3, 4)] k -> nth_error d' (Z.to_nat k) = nth_error d (Z.to_nat k).
Proof. exact poll_ok. Qed.
Print Assumptions C115_events_partial.
Example C115_ex : guest (ex3_dir (ex_timer 0)) 0 (ex_mem (ex_timer 0)) /\ subs_at (ex_mem (ex_timer 0)) 0 [SClock 5 1 0] /\
  range_of (ex_data (snd (wasi_call ex3 F_poll_oneoff [0; 0; 1; 60] (ex3_dir (ex_timer 0))))) 60 4 = to_le 4 1.
Proof.
  split; [ex_is_guest|]. split; [|vm_compute; reflexivity]. split; [|exact I]. split; [lia|]. split; [vm_compute; discriminate|].
  do 6 (split; [vm_compute; reflexivity|]). split; [lia|]. split; [lia|lia].
Qed.

(* C116: false. A name that leaves memory is cut off and used; a result at the end of memory makes the memory longer. *)
Theorem C116_cut_refuted : exists Os w f w', reached Os w /\ is_open w 3 f /\ len (ex_data w) = 64 /\
  wasi_call Os F_path_create_directory [3; 63; 100] w = (Ok [0], w') /\ w_log w' = (OsMkdir (nm "f") (host_fd f), RUnit) :: w_log w.
Proof.
  exists ex3, (ex3_dir (zeros 63 ++ nm "f")). do 2 eexists. split; [apply (ex3_reached _ [])|]. split; [ex_is_open|]. split; [vm_compute; reflexivity|]. split; vm_compute; reflexivity.
Qed.
Print Assumptions C116_cut_refuted.
Theorem C116_longer_refuted : exists Os w w', reached Os w /\ len (ex_data w) = 64 /\
  wasi_call Os F_clock_time_get [0; 0; 60] w = (Ok [0], w') /\ len (ex_data w') = 68.
Proof. exists ex3, (ex3_dir []). eexists. split; [apply (ex3_reached _ [])|]. split; [vm_compute; reflexivity|]. split; vm_compute; reflexivity. Qed.
Print Assumptions C116_longer_refuted.
(* What holds: a call with fixed ranges for its results, when these lie in memory, writes nowhere else and keeps the length
   of the memory, however it ends; all other memories and the rest of the machine stay as they are. Missing: ranges that
   leave memory, and the calls whose ranges depend on the contents of memory or on replies. *)
Theorem C116_frame_partial : forall Os a f args rs w d, results f args = Some rs -> guest w a d -> Forall (in_memory d) rs ->
  exists d', guest (snd (wasi_call Os f args w)) a d' /\ len d' = len d /\
  (forall k, 0 <= k < len d -> outside rs k -> nth_error d' (Z.to_nat k) = nth_error d (Z.to_nat k)) /\
  w_mach (snd (wasi_call Os f args w)) = w_mach (set_guest w a d').
Proof. intros Os a f args rs w d R. exact (call_framed Os a f args rs R w d). Qed.
Print Assumptions C116_frame_partial.
Example C116_ex : results F_fd_seek [4; 2; 0; 24] = Some [(24, 8)] /\ guest (ex3_open 4 []) 0 (ex_mem []) /\
  Forall (in_memory (ex_mem [])) [(24, 8)] /\ ex_data (snd (wasi_call ex3 F_fd_seek [4; 2; 0; 24] (ex3_open 4 []))) <> ex_mem [].
Proof.
  split; [reflexivity|]. split; [ex_is_guest|]. split; [repeat constructor; cbn [fst snd]; try lia; vm_compute; discriminate|]. vm_compute. discriminate.
Qed.
