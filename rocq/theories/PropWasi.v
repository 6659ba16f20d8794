(* The WASI functions: descriptors, rights, paths, arguments, reading and writing, the end of main.
   Specification: SpecWasi.v, SpecPath.v and SpecMem.v. *)
From Coq Require Ascii.
From Coq Require Import String.
From Coq Require Import ZArith List Bool Lia.
From Verif Require Import Py Arith Floatops Val Opcode Numeric Syntax Store Basic Machine Utf8 Os Wasi SpecInt SpecNum SpecMachine SpecMem
  SpecControl SpecFormat SpecWasi SpecPath PyFacts WasiTableFacts WasiIoFacts WasiCallFacts WasiGrowFacts PathFacts WasiMainFacts WasiPropFacts.
Import ListNotations.
Open Scope Z_scope.

(* ---- the world of the examples ---- *)
Definition nm (s : String.string) : name := map (fun c => Z.of_N (Ascii.N_of_ascii c)) (String.list_ascii_of_string s).
Arguments nm s%string.
(* every file has the ten bytes [sample]; 10 is the only directory; descriptors are numbered upwards *)
Definition sample : list Z := [11; 12; 13; 14; 15; 16; 17; 18; 19; 20].
Definition ex_next (log : list event) : Z :=
  fold_right (fun e m => match snd e with RInt z => Z.max m (z + 1) | _ => m end) 10 log.
Definition ex_os : os := fun log c =>
  match c with
  | OsOpen _ _ _ _ => RInt (ex_next log)
  | OsClose _ | OsUnlink _ _ => RUnit
  | OsRead h n => RBytes (firstn (Z.to_nat n) (skipn (Z.to_nat (file_pos h 10 log)) sample))
  | OsWrite _ d => RInt (len d)
  | OsLseek h off whence => RInt (seeks_to 10 (file_pos h 10 log) off whence)
  | OsStatFd h => RStat (mkstat (if h =? 10 then 0x41ed else 0x81a4) 7 1 10 0 0 0)
  | OsIsdir h => RBool (h =? 10)
  | OsIsfile h => RBool (negb (h =? 10))
  | _ => RFail (OEother EOS)
  end.
Definition ex_mach (d : list Z) : machine :=
  mkmach (mkstore [] [] [mkmem (mklim 0 0) d 1] [] [] [] [mkmi [] [] [] [0] [] [] [] []] []) [] [] [mkframe (MRef 0) [] 0 0 0].
Definition ex_blank (d : list Z) : world := mkworld (mkpre [] 0 [] [] true) [] [] (ex_mach d).
Definition ex_std : Z * name * (Z * name) * (Z * name) := (0, nm "in", (1, nm "out"), (2, nm "err")).
(* 64 bytes of memory that start with [s] *)
Definition ex_mem (s : name) : list Z := s ++ zeros (64 - len s).
Definition ex_new (args : list name) (dirs envs : list (name * name)) (s : name) : world :=
  snd (new_preview1 ex_os (nm "/") ex_std args dirs envs (ex_blank (ex_mem s))).
Definition ex_dir (s : name) : world := ex_new [] [(nm "/d", nm "/tmp/a")] [] s.
(* the file "f" is opened for reading and writing as descriptor 4 *)
Definition ex_open (s : name) : world :=
  history ex_os (ex_dir (nm "f")) [Call F_path_open [3; 0; 0; 1; 0; 0x46; 0; 0; 32]; Elsewhere (ex_mach (ex_mem s)) []].
Lemma ex_reached args dirs envs s h : reached ex_os (history ex_os (ex_new args dirs envs s) h).
Proof. exists (nm "/"), ex_std, args, dirs, envs, (ex_blank (ex_mem s)), h. split; reflexivity. Qed.
Lemma ex_fresh log : forall h, live [0; 1; 2] log h -> h < ex_next log.
Proof.
  induction log as [|(c, r) log IH]; intros h H; [cbn in H; unfold ex_next; cbn; lia|].
  assert (ex_next log <= ex_next ((c, r) :: log)) as L by (unfold ex_next; cbn [fold_right snd]; destruct r; lia).
  assert (live [0; 1; 2] log h \/ r = RInt h) as [K| ->].
  { cbn [live] in H. destruct c; try (now left). destruct r as [|z| | | | | | |]; try (now left).
    destruct H as [->|H]; [now right|now left]. }
  - exact (Z.lt_le_trans _ _ _ (IH h K) L).
  - unfold ex_next. cbn [fold_right snd]. lia.
Qed.
Lemma ex_sane : sane [0; 1; 2] ex_os.
Proof.
  intros log c. destruct c; try exact I; [|now intros _]. intros h H L. apply ex_fresh in L. cbn in H. injection H as <-. lia.
Qed.
(* bytes written out *)
Ltac ex_bytes := repeat (apply Forall_cons; [split; [vm_compute; discriminate|vm_compute; reflexivity]|]); apply Forall_nil.
Lemma ex_guest w d : w_mach w = ex_mach d -> bytes d -> guest w 0 d.
Proof. intros E B. exists (mkframe (MRef 0) [] 0 0 0), [], (mkmem (mklim 0 0) d 1). rewrite E. now repeat split. Qed.

(* C59: once closed, a descriptor stays closed: whatever calls follow, a call with it as an argument returns EBADF (8)
   and does nothing. *)
Theorem C59_closed : forall Os w w1 fd h f args,
  wasi_call Os F_fd_close [fd] w = (Ok [0], w1) -> In fd (descriptors f args) ->
  let w2 := history Os w1 h in wasi_call Os f args w2 = (Ok [8], w2).
Proof. exact closed_stays. Qed.
Print Assumptions C59_closed.
(* From the constructor on, through any calls and the end of main, the operating system is only ever asked to work on
   host descriptors that are open (so none is closed twice or used after it was closed). *)
Theorem C59_only_live : forall init Os cwd h0 n0 h1 n1 h2 n2 args dirs envs w h,
  sane init Os -> In h0 init -> In h1 init -> In h2 init -> h0 <> h1 -> h0 <> h2 -> h1 <> h2 -> w_log w = [] ->
  let w1 := snd (new_preview1 Os cwd (h0, n0, (h1, n1), (h2, n2)) args dirs envs w) in
  let w2 := history Os w1 h in
  only_live init (w_log (snd (main_finally Os w2))).
Proof. exact whole_run. Qed.
Print Assumptions C59_only_live.
(* fd_renumber of one open descriptor to another: the first is closed, the second now is what the first was, its old host
   descriptor is closed, nothing else changes. *)
Theorem C59_renumber : forall Os w fd f fd' g w',
  is_open w fd f -> is_open w fd' g -> fd <> fd' -> wasi_call Os F_fd_renumber [fd; fd'] w = (Ok [0], w') ->
  is_open w' fd' f /\ not_open w' fd /\ (forall k e, k <> fd -> k <> fd' -> entry w' k e <-> entry w k e) /\
  w_log w' = if wasm_type g =? T_CHARACTER_DEVICE then w_log w else (OsClose (host_fd g), RUnit) :: w_log w.
Proof. exact renumber_other. Qed.
Print Assumptions C59_renumber.
Example C59_ex : fst (wasi_call ex_os F_fd_close [4] (ex_open [])) = Ok [0] /\ In 4 (descriptors F_path_link [3; 0; 0; 0; 4; 0; 0]).
Proof. split; [vm_compute; reflexivity|cbn; tauto]. Qed.
Example C59_ex_run : exists evs, w_log (snd (main_finally ex_os (ex_open []))) = (OsClose 11, RUnit) :: (OsClose 10, RUnit) :: evs.
Proof. vm_compute. eexists. reflexivity. Qed.
Example C59_ex_sane : sane [0; 1; 2] ex_os. Proof. exact ex_sane. Qed.
Example C59_ex_renumber : fst (wasi_call ex_os F_fd_renumber [4; 1] (ex_open [])) = Ok [0].
Proof. vm_compute. reflexivity. Qed.

(* C60: the number path_open stores is open afterwards and was never a descriptor before, open or closed; all other
   descriptors stay. *)
Theorem C60_fresh : forall Os w0 h a d w' x0 x1 x2 x3 x4 x5 x6 x7 x8, let w := history Os w0 h in
  guest w a d -> 0 <= x8 -> x8 + 4 <= len d -> wasi_call Os F_path_open [x0; x1; x2; x3; x4; x5; x6; x7; x8] w = (Ok [0], w') ->
  exists fd g d', guest w' a d' /\ overwritten d d' x8 (to_le 4 fd) /\ 0 <= fd < 2 ^ 32 /\ is_open w' fd g /\
  (forall h1 h2 f, h = h1 ++ h2 -> ~ entry (history Os w0 h1) fd f) /\
  (forall k e, entry w k e -> entry w' k e).
Proof. exact open_fresh. Qed.
Print Assumptions C60_fresh.
Example C60_ex : let w := history ex_os (ex_dir (nm "f")) [Call F_fd_close [2]] in
  guest w 0 (ex_mem (nm "f")) /\ fst (wasi_call ex_os F_path_open [3; 0; 0; 1; 0; 2; 0; 0; 32] w) = Ok [0].
Proof.
  split; [|vm_compute; reflexivity]. apply ex_guest; [vm_compute; reflexivity|]. ex_bytes.
Qed.

(* C61: fd_fdstat_set_rights succeeds exactly for subsets of the rights the descriptor has, and then sets them. *)
Theorem C61_set_rights : forall Os w fd f b r,
  is_open w fd f -> 0 <= rights_base f -> 0 <= rights_root f -> 0 <= b -> 0 <= r ->
  exists w', (subset b (rights_base f) /\ subset r (rights_root f) /\ wasi_call Os F_fd_fdstat_set_rights [fd; b; r] w = (Ok [0], w') /\
    (exists g, is_open w' fd g /\ rights_base g = b /\ rights_root g = r) /\ forall k e, k <> fd -> entry w' k e <-> entry w k e) \/
  (~ (subset b (rights_base f) /\ subset r (rights_root f)) /\ w' = w /\
   wasi_call Os F_fd_fdstat_set_rights [fd; b; r] w = (Ok [76], w)).
Proof. exact set_rights_exact. Qed.
Print Assumptions C61_set_rights.
(* Whatever calls are made, a descriptor never gains rights (unless fd_renumber gives its number to something else). *)
Theorem C61_no_gain : forall Os h w fd f, entry w fd f -> Forall (no_move fd) h ->
  exists f', entry (history Os w h) fd f' /\ subset (rights_base f') (rights_base f) /\ subset (rights_root f') (rights_root f).
Proof. exact rights_fall. Qed.
Print Assumptions C61_no_gain.
Example C61_ex : fst (wasi_call ex_os F_fd_fdstat_set_rights [3; 0x2000; 0] (ex_dir [])) = Ok [0] /\
  fst (wasi_call ex_os F_fd_fdstat_set_rights [3; 2; 0] (ex_dir [])) = Ok [76].
Proof. vm_compute. now split. Qed.

(* C62: false. The rights of a new descriptor are not limited by the directory's inheriting rights: here they are taken
   away first, and path_open still hands out the right to read. *)
Theorem C62_refuted : exists Os w f w' g, reached Os w /\ is_open w 3 f /\
  wasi_call Os F_path_open [3; 0; 0; 1; 0; 2; 0; 0; 32] w = (Ok [0], w') /\ is_open w' 4 g /\
  rights_root f = 0 /\ has_right g 1 /\ ~ subset (rights_base g) (rights_root f).
Proof.
  set (w := history ex_os (ex_dir (nm "f")) [Call F_fd_fdstat_set_rights [3; 0x2000; 0]]).
  exists ex_os, w. do 3 eexists. split; [apply ex_reached|]. split; [split; [split; [lia|vm_compute; reflexivity]|reflexivity]|].
  split; [vm_compute; reflexivity|]. split; [split; [split; [lia|vm_compute; reflexivity]|reflexivity]|]. split; [reflexivity|]. split; [reflexivity|].
  intros S. specialize (S 1 ltac:(lia) eq_refl). discriminate S.
Qed.
Print Assumptions C62_refuted.
(* What holds: the descriptor opened had the right to open, and the new one has at most the rights asked for. *)
Theorem C62_asked_partial : forall Os w w' a d x0 x1 x2 x3 x4 x5 x6 x7 x8, guest w a d -> 0 <= x8 -> x8 + 4 <= len d ->
  wasi_call Os F_path_open [x0; x1; x2; x3; x4; x5; x6; x7; x8] w = (Ok [0], w') ->
  exists f g d' fd, is_open w x0 f /\ has_right f 13 /\ guest w' a d' /\ overwritten d d' x8 (to_le 4 fd) /\ 0 <= fd < 2 ^ 32 /\
  is_open w' fd g /\ subset (rights_base g) x5 /\ subset (rights_root g) x6.
Proof. exact open_rights. Qed.
Print Assumptions C62_asked_partial.

(* C63: false. The test compares strings: a sibling whose name is longer passes. *)
Theorem C63_sibling_refuted : exists Os w f w' rep evs, reached Os w /\ is_open w 3 f /\ host_name f = rooted [nm "tmp"; nm "a"] /\
  wasi_call Os F_path_open [3; 0; 0; 7; 0; 2; 0; 0; 32] w = (Ok [0], w') /\
  w_log w' = evs ++ (OsOpen (joined [dotdot; nm "ab"; nm "x"]) O_NOFOLLOW 420 (Some (host_fd f)), rep) :: w_log w /\
  walks [nm "tmp"; nm "a"] [dotdot; nm "ab"; nm "x"] [nm "tmp"; nm "ab"; nm "x"] /\
  ~ below [nm "tmp"; nm "a"] [nm "tmp"; nm "ab"; nm "x"].
Proof.
  set (w := history ex_os (ex_dir (nm "../ab/x")) []). exists ex_os, w. do 3 eexists. exists [(OsStatFd 11, ex_os [] (OsStatFd 11)); (OsIsfile 11, RBool true); (OsIsdir 11, RBool false)].
  split; [apply ex_reached|]. split; [split; [split; [lia|vm_compute; reflexivity]|reflexivity]|]. split; [reflexivity|].
  split; [vm_compute; reflexivity|]. split; [vm_compute; reflexivity|]. split.
  - apply (walks_up [nm "tmp"]). apply walks_down; [|apply walks_down; [|apply walks_end]]; (split; [repeat constructor; discriminate|repeat split; discriminate]).
  - intros (l & E). discriminate E.
Qed.
Print Assumptions C63_sibling_refuted.
(* Every path function but path_open tests the name in the guest's directory tree, and gives it to the operating system in
   the host's: with a directory known to the guest as /, nothing is refused. *)
Theorem C63_root_refuted : exists Os w f w', reached Os w /\ is_open w 3 f /\ host_name f = rooted [nm "tmp"; nm "a"] /\ wasm_name f = nm "/" /\
  wasi_call Os F_path_unlink_file [3; 0; 16] w = (Ok [0], w') /\
  w_log w' = (OsUnlink (joined [dotdot; dotdot; nm "etc"; nm "passwd"]) (host_fd f), RUnit) :: w_log w /\
  walks [nm "tmp"; nm "a"] [dotdot; dotdot; nm "etc"; nm "passwd"] [nm "etc"; nm "passwd"] /\
  ~ below [nm "tmp"; nm "a"] [nm "etc"; nm "passwd"].
Proof.
  set (w := history ex_os (ex_new [] [(nm "/", nm "/tmp/a")] [] (nm "../../etc/passwd")) []). exists ex_os, w. do 2 eexists.
  split; [apply ex_reached|]. split; [split; [split; [lia|vm_compute; reflexivity]|reflexivity]|]. split; [reflexivity|]. split; [reflexivity|].
  split; [vm_compute; reflexivity|]. split; [vm_compute; reflexivity|]. split.
  - apply (walks_up [nm "tmp"]). apply (walks_up []). apply walks_down; [|apply walks_down; [|apply walks_end]]; (split; [repeat constructor; discriminate|repeat split; discriminate]).
  - intros (l & E). discriminate E.
Qed.
Print Assumptions C63_root_refuted.
(* With a directory known to the guest as ., names below it are refused and names above it accepted. *)
Theorem C63_dot_refuted : exists Os w f w1 w2 evs, reached Os w /\ is_open w 3 f /\ wasm_name f = nm "." /\
  wasi_call Os F_path_unlink_file [3; 3; 1] w = (Ok [63], w1) /\ w_log w1 = w_log w /\
  wasi_call Os F_path_unlink_file [3; 0; 4] w = (Ok [0], w2) /\ w_log w2 = (OsUnlink (nm "../x") (host_fd f), RUnit) :: evs.
Proof.
  set (w := history ex_os (ex_new [] [(nm ".", nm "/tmp/a")] [] (nm "../x")) []). exists ex_os, w. do 4 eexists.
  split; [apply ex_reached|]. split; [split; [split; [lia|vm_compute; reflexivity]|reflexivity]|]. split; [reflexivity|].
  split; [vm_compute; reflexivity|]. split; [reflexivity|]. split; [vm_compute; reflexivity|]. vm_compute. reflexivity.
Qed.
Print Assumptions C63_dot_refuted.
(* What holds of path_open: if it asks the operating system for anything, then to open a name that leads into the
   directory or to something beside it whose name is longer. *)
Theorem C63_open_partial : forall Os w r w' x0 x1 x2 x3 x4 x5 x6 x7 x8,
  wasi_call Os F_path_open [x0; x1; x2; x3; x4; x5; x6; x7; x8] w = (r, w') -> w_log w' <> w_log w ->
  exists f nm flags rep evs, is_open w x0 f /\ w_log w' = evs ++ (OsOpen nm flags 420 (Some (host_fd f)), rep) :: w_log w /\
  Forall (fun e => exists h, fst e = OsIsdir h \/ fst e = OsIsfile h \/ fst e = OsStatFd h) evs /\
  forall rs l e, Forall proper rs -> host_name f = rooted rs -> Forall slash_free l -> l <> [] -> nm = joined l ->
  (absolute nm /\ walks [] l e) \/ (~ absolute nm /\ walks rs l e) -> below_or_longer rs e.
Proof. exact open_inside. Qed.
Print Assumptions C63_open_partial.
(* The test never refuses a relative name that leads into the directory. *)
Theorem C63_accepts_partial : forall rs l e, Forall proper rs -> Forall slash_free l -> l <> [] -> ~ absolute (joined l) ->
  walks rs l e -> below rs e -> help_escp (rooted rs) (joined l) = false.
Proof. exact inside_accepted. Qed.
Print Assumptions C63_accepts_partial.
Example C63_ex : exists r w', wasi_call ex_os F_path_open [3; 0; 0; 7; 0; 2; 0; 0; 32] (ex_dir (nm "b/../cc")) = (r, w') /\
  w_log w' <> w_log (ex_dir (nm "b/../cc")).
Proof. do 2 eexists. split; [vm_compute; reflexivity|]. vm_compute. discriminate. Qed.

(* C64: arguments and environment, for strings of ASCII characters: the pointers, the strings with their zero bytes, the
   count and the size. *)
Theorem C64_strings_partial : forall Os f w a d l ptr buf,
  (f = F_args_get /\ l = p_args (w_self w)) \/ (f = F_environ_get /\ l = p_envs (w_self w)) ->
  Forall ascii l -> guest w a d -> len d <= 2 ^ 32 ->
  0 <= ptr -> ptr + 4 * len l <= len d -> 0 <= buf -> buf + len (block l) <= len d ->
  apart ptr (4 * len l) buf (len (block l)) ->
  exists d1 d', overwritten d d1 ptr (words (starts buf l)) /\ overwritten d1 d' buf (block l) /\
  wasi_call Os f [ptr; buf] w = (Ok [0], set_guest w a d').
Proof. exact strings_call. Qed.
Print Assumptions C64_strings_partial.
Theorem C64_sizes_partial : forall Os f w a d l x0 x1,
  (f = F_args_sizes_get /\ l = p_args (w_self w)) \/ (f = F_environ_sizes_get /\ l = p_envs (w_self w)) ->
  Forall ascii l -> guest w a d -> len l < 2 ^ 32 -> len (block l) < 2 ^ 32 ->
  0 <= x0 -> x0 + 4 <= len d -> 0 <= x1 -> x1 + 4 <= len d ->
  exists d1 d', overwritten d d1 x0 (to_le 4 (len l)) /\ overwritten d1 d' x1 (to_le 4 (len (block l))) /\
  wasi_call Os f [x0; x1] w = (Ok [0], set_guest w a d').
Proof. exact sizes_call. Qed.
Print Assumptions C64_sizes_partial.
(* Any other character breaks it: the size counts characters instead of bytes, and the zero byte lands inside the string. *)
Theorem C64_refuted : exists Os w a d w1 w2 d1 d2, reached Os w /\ guest w a d /\ Forall (Forall scalar) (p_args (w_self w)) /\
  let l := p_args (w_self w) in
  wasi_call Os F_args_sizes_get [0; 4] w = (Ok [0], w1) /\ guest w1 a d1 /\
  le_of (range_of d1 4 4) = 2 /\ len (block l) = 3 /\
  wasi_call Os F_args_get [0; 8] w = (Ok [0], w2) /\ guest w2 a d2 /\
  range_of d2 8 3 = [0xc3; 0; 0] /\ block l = [0xc3; 0xa9; 0].
Proof.
  set (w := history ex_os (ex_new [[233]] [] [] []) []). exists ex_os, w, 0%nat, (zeros 64). do 4 eexists. split; [apply ex_reached|].
  split; [apply ex_guest; [vm_compute; reflexivity|apply bytes_zeros]|]. split; [repeat constructor; unfold scalar; lia|]. cbn zeta.
  split; [vm_compute; reflexivity|]. split; [apply ex_guest; [reflexivity|ex_bytes]|]. split; [vm_compute; reflexivity|]. split; [vm_compute; reflexivity|].
  split; [vm_compute; reflexivity|]. split; [apply ex_guest; [reflexivity|ex_bytes]|]. split; vm_compute; reflexivity.
Qed.
Print Assumptions C64_refuted.
Definition ex_data (w : world) : list Z := match s_mems (k_store (w_mach w)) with m :: _ => mi_data m | [] => [] end.
Example C64_ex : let w := ex_new [nm "ab"; nm "c"] [] [] [] in let w' := snd (wasi_call ex_os F_args_get [0; 16] w) in
  guest w 0 (zeros 64) /\ Forall ascii (p_args (w_self w)) /\ fst (wasi_call ex_os F_args_get [0; 16] w) = Ok [0] /\
  range_of (ex_data w') 0 8 = [16; 0; 0; 0; 19; 0; 0; 0] /\ range_of (ex_data w') 16 5 = [97; 98; 0; 99; 0].
Proof.
  cbn zeta. split; [apply ex_guest; [vm_compute; reflexivity|apply bytes_zeros]|]. split; [repeat constructor; vm_compute; discriminate|].
  split; [|split]; vm_compute; reflexivity.
Qed.

(* C65: fd_write hands all the bytes of the buffers, in order, to the operating system in one call, and stores the number
   of bytes it says it has written. *)
Theorem C65_os : forall Os w fd f a d ptr n x3 size,
  is_open w fd f -> wasm_type f <> T_DIRECTORY -> has_right f 6 -> guest w a d -> stream_of fd f = None ->
  0 <= ptr -> 0 <= n -> ptr + 8 * n <= len d -> Forall (inside d) (iovs d ptr (Z.to_nat n)) -> 0 <= x3 -> x3 + 4 <= len d ->
  let c := OsWrite (host_fd f) (gathered d (iovs d ptr (Z.to_nat n))) in
  Os (w_log w) c = RInt size -> 0 <= size < 2 ^ 32 ->
  exists d', overwritten d d' x3 (to_le 4 size) /\
  wasi_call Os F_fd_write [fd; ptr; n; x3] w = (Ok [0], set_guest (logged w c (RInt size)) a d').
Proof. exact fd_write_os. Qed.
Print Assumptions C65_os.
(* ... or appends them to the in-memory stream, and stores their number. *)
Theorem C65_stream : forall Os w fd f a d ptr n x3 i b,
  is_open w fd f -> wasm_type f <> T_DIRECTORY -> has_right f 6 -> guest w a d -> stream_of fd f = Some i ->
  nth_error (w_pipes w) i = Some b -> bio_pos b = len (bio_data b) ->
  0 <= ptr -> 0 <= n -> ptr + 8 * n <= len d -> Forall (inside d) (iovs d ptr (Z.to_nat n)) -> 0 <= x3 -> x3 + 4 <= len d ->
  let data := gathered d (iovs d ptr (Z.to_nat n)) in len data < 2 ^ 32 ->
  exists d', overwritten d d' x3 (to_le 4 (len data)) /\
  wasi_call Os F_fd_write [fd; ptr; n; x3] w =
    (Ok [0], set_guest (set_pipe w i (mkbio (bio_data b ++ data) (len (bio_data b) + len data))) a d').
Proof. exact fd_write_pipe. Qed.
Print Assumptions C65_stream.
(* two buffers: 3 bytes at 20 and 2 bytes at 30 *)
Definition ex_iovs : list Z := [20; 0; 0; 0; 3; 0; 0; 0; 30; 0; 0; 0; 2; 0; 0; 0; 0; 0; 0; 0; 101; 102; 103; 0; 0; 0; 0; 0; 0; 0; 104; 105].
Example C65_ex : exists f, is_open (ex_open ex_iovs) 4 f /\ wasm_type f <> T_DIRECTORY /\ has_right f 6 /\ stream_of 4 f = None /\
  Forall (inside (ex_mem ex_iovs)) (iovs (ex_mem ex_iovs) 0 2) /\
  gathered (ex_mem ex_iovs) (iovs (ex_mem ex_iovs) 0 2) = [101; 102; 103; 104; 105] /\
  fst (wasi_call ex_os F_fd_write [4; 0; 2; 40] (ex_open ex_iovs)) = Ok [0].
Proof.
  eexists. split; [split; [split; [lia|vm_compute; reflexivity]|reflexivity]|]. split; [discriminate|]. split; [reflexivity|]. split; [reflexivity|].
  split; [repeat constructor; vm_compute; discriminate|]. split; vm_compute; reflexivity.
Qed.

(* C66: fd_read into non-empty buffers: they are filled in order with the bytes of the file that come next, as far as these
   go; their number is stored; what remains to be read are the bytes after them. *)
Theorem C66_os_partial : forall Os w fd f a d ptr n x3 rest,
  is_open w fd f -> wasm_type f <> T_DIRECTORY -> has_right f 1 -> guest w a d -> stream_of fd f = None ->
  readable Os (host_fd f) rest ->
  0 <= ptr -> 0 <= n -> ptr + 8 * n <= len d ->
  Forall (fun b => inside d b /\ 0 < snd b /\ apart (fst b) (snd b) ptr (8 * n)) (iovs d ptr (Z.to_nat n)) ->
  0 <= x3 -> x3 + 4 <= len d ->
  let m := Z.min (room (iovs d ptr (Z.to_nat n))) (len (rest (w_log w))) in m < 2 ^ 32 ->
  exists d1 d' evs, filled d (iovs d ptr (Z.to_nat n)) (firstn (Z.to_nat m) (rest (w_log w))) d1 /\ overwritten d1 d' x3 (to_le 4 m) /\
  Forall (fun e => exists k, fst e = OsRead (host_fd f) k) evs /\ rest (evs ++ w_log w) = skipn (Z.to_nat m) (rest (w_log w)) /\
  wasi_call Os F_fd_read [fd; ptr; n; x3] w =
    (Ok [0], set_guest (mkworld (w_self w) (evs ++ w_log w) (w_pipes w) (w_mach w)) a d').
Proof. exact fd_read_os. Qed.
Print Assumptions C66_os_partial.
Theorem C66_stream_partial : forall Os w fd f a d ptr n x3 i b,
  is_open w fd f -> wasm_type f <> T_DIRECTORY -> has_right f 1 -> guest w a d -> stream_of fd f = Some i ->
  nth_error (w_pipes w) i = Some b -> 0 <= bio_pos b -> bytes (bio_data b) ->
  0 <= ptr -> 0 <= n -> ptr + 8 * n <= len d ->
  Forall (fun b => inside d b /\ 0 < snd b /\ apart (fst b) (snd b) ptr (8 * n)) (iovs d ptr (Z.to_nat n)) ->
  0 <= x3 -> x3 + 4 <= len d ->
  let m := Z.min (room (iovs d ptr (Z.to_nat n))) (len (unread b)) in m < 2 ^ 32 ->
  exists d1 d' b', filled d (iovs d ptr (Z.to_nat n)) (firstn (Z.to_nat m) (unread b)) d1 /\ overwritten d1 d' x3 (to_le 4 m) /\
  bio_data b' = bio_data b /\ unread b' = skipn (Z.to_nat m) (unread b) /\
  wasi_call Os F_fd_read [fd; ptr; n; x3] w = (Ok [0], set_guest (set_pipe w i b') a d').
Proof. exact fd_read_pipe. Qed.
Print Assumptions C66_stream_partial.
(* With an empty buffer first, nothing at all is read and 0 is reported, although there is room and the file has ten more bytes. *)
Definition ex_empty : list Z := [40; 0; 0; 0; 0; 0; 0; 0; 40; 0; 0; 0; 4].
Theorem C66_refuted : exists Os w f d w' d', reached Os w /\ is_open w 4 f /\ wasm_type f <> T_DIRECTORY /\ has_right f 1 /\ guest w 0 d /\
  room (iovs d 0 2) = 4 /\ skipn (Z.to_nat (file_pos (host_fd f) 10 (w_log w))) sample = sample /\
  wasi_call Os F_fd_read [4; 0; 2; 32] w = (Ok [0], w') /\ guest w' 0 d' /\ le_of (range_of d' 32 4) = 0 /\ range_of d' 40 4 = [0; 0; 0; 0].
Proof.
  set (w := ex_open ex_empty). exists ex_os, w. eexists. exists (ex_mem ex_empty). do 2 eexists. split; [apply (ex_reached [] [(nm "/d", nm "/tmp/a")] [] (nm "f"))|].
  split; [split; [split; [lia|vm_compute; reflexivity]|reflexivity]|]. split; [discriminate|]. split; [reflexivity|].
  split; [apply ex_guest; [vm_compute; reflexivity|ex_bytes]|].
  split; [vm_compute; reflexivity|]. split; [vm_compute; reflexivity|]. split; [vm_compute; reflexivity|].
  split; [apply ex_guest; [reflexivity|ex_bytes]|]. split; vm_compute; reflexivity.
Qed.
Print Assumptions C66_refuted.
(* an operating system with one file that can be read from start to end *)
Definition ex_taken (log : list event) : nat :=
  fold_right (fun e n => match snd e with RBytes d => (List.length d + n)%nat | _ => n end) 0%nat log.
Definition ex_os' : os := fun log c =>
  match c with OsRead _ n => RBytes (firstn (Z.to_nat n) (skipn (ex_taken log) sample)) | _ => ex_os log c end.
Lemma skipn_firstn {A} (l : list A) n : skipn (List.length (firstn n l)) l = skipn n l.
Proof. rewrite firstn_length. destruct (Nat.le_ge_cases n (List.length l)) as [H|H]; [now rewrite Nat.min_l|]. rewrite Nat.min_r by exact H. now rewrite skipn_all, skipn_all2. Qed.
Lemma skipn_skipn_add {A} (l : list A) a b : skipn a (skipn b l) = skipn (a + b) l.
Proof. rewrite Nat.add_comm. revert l. induction b as [|b IH]; intros l; [reflexivity|]. destruct l as [|x l]; [now rewrite !skipn_nil|]. apply IH. Qed.
Example C66_ex_readable : forall h, readable ex_os' h (fun log => skipn (ex_taken log) sample).
Proof.
  intros h log. split.
  - apply bytes_skipn. ex_bytes.
  - intros n Hn. split; [reflexivity|]. change (ex_taken ((OsRead h n, RBytes ?d) :: log)) with (List.length d + ex_taken log)%nat.
    rewrite <- skipn_skipn_add. apply skipn_firstn.
Qed.
Example C66_ex : exists f, is_open (ex_open ex_iovs) 4 f /\ wasm_type f <> T_DIRECTORY /\ has_right f 1 /\ stream_of 4 f = None /\
  Forall (fun b => inside (ex_mem ex_iovs) b /\ 0 < snd b /\ apart (fst b) (snd b) 0 16) (iovs (ex_mem ex_iovs) 0 2) /\
  fst (wasi_call ex_os F_fd_read [4; 0; 2; 40] (ex_open ex_iovs)) = Ok [0] /\
  range_of (ex_data (snd (wasi_call ex_os F_fd_read [4; 0; 2; 40] (ex_open ex_iovs)))) 20 12 = [11; 12; 13; 0; 0; 0; 0; 0; 0; 0; 14; 15].
Proof.
  eexists. split; [split; [split; [lia|vm_compute; reflexivity]|reflexivity]|]. split; [discriminate|]. split; [reflexivity|]. split; [reflexivity|].
  split; [repeat constructor; try (vm_compute; discriminate); right; vm_compute; discriminate|]. split; vm_compute; reflexivity.
Qed.

(* C67: false. A failing fd_seek may move the file position: to find out where it is, the code seeks by 0 with the same
   whence, which for SEEK_SET goes to the start of the file. *)
Theorem C67_refuted : exists Os w f w', reached Os w /\ is_open w 4 f /\
  (forall log off whence, Os log (OsLseek (host_fd f) off whence) = RInt (seeks_to 10 (file_pos (host_fd f) 10 log) off whence)) /\
  file_pos (host_fd f) 10 (w_log w) = 5 /\
  wasi_call Os F_fd_seek [4; -1; 0; 32] w = (Ok [28], w') /\ file_pos (host_fd f) 10 (w_log w') = 0.
Proof.
  set (w := history ex_os (ex_dir (nm "f")) [Call F_path_open [3; 0; 0; 1; 0; 0x46; 0; 0; 32]; Call F_fd_seek [4; 5; 0; 32]]).
  exists ex_os, w. do 2 eexists. split; [apply ex_reached|]. split; [split; [split; [lia|vm_compute; reflexivity]|reflexivity]|].
  split; [reflexivity|]. split; [vm_compute; reflexivity|]. split; vm_compute; reflexivity.
Qed.
Print Assumptions C67_refuted.
(* What holds: an fd_seek that returns an error has done nothing but (at most) that one seek by 0; and nothing moves if
   whence is SEEK_CUR. *)
Theorem C67_error_partial : forall Os w fd off wh p e w', wasi_call Os F_fd_seek [fd; off; wh; p] w = (Ok [e], w') -> e <> 0 ->
  w' = w \/ exists f r, is_open w fd f /\ r + off < 0 /\ w' = logged w (OsLseek (host_fd f) 0 wh) (RInt r).
Proof. exact seek_unmoved. Qed.
Print Assumptions C67_error_partial.
Theorem C67_cur_partial : forall Os w fd off p e w' h size, wasi_call Os F_fd_seek [fd; off; 1; p] w = (Ok [e], w') -> e <> 0 ->
  file_pos h size (w_log w') = file_pos h size (w_log w).
Proof. exact seek_cur_unmoved. Qed.
Print Assumptions C67_cur_partial.
Example C67_ex : fst (wasi_call ex_os F_fd_seek [4; -11; 1; 32] (ex_open [])) = Ok [28].
Proof. vm_compute. reflexivity. Qed.

(* C68: false for the standard streams, which are reported as preopened directories. *)
Theorem C68_refuted : exists Os w f w' d', reached Os w /\ p_dirs (w_self w) = 0 /\ is_open w 1 f /\ wasm_type f = T_CHARACTER_DEVICE /\
  wasi_call Os F_fd_prestat_get [1; 32] w = (Ok [0], w') /\ guest w' 0 d' /\ le_of (range_of d' 36 4) = len (nm "out").
Proof.
  set (w := history ex_os (ex_new [] [] [] []) []). exists ex_os, w. do 3 eexists. split; [apply ex_reached|]. split; [reflexivity|].
  split; [split; [split; [lia|vm_compute; reflexivity]|reflexivity]|]. split; [reflexivity|]. split; [vm_compute; reflexivity|].
  split; [apply ex_guest; [reflexivity|ex_bytes]|]. vm_compute; reflexivity.
Qed.
Print Assumptions C68_refuted.
(* What holds: from descriptor 3 on, exactly the first ones, as many as directories were given, are reported as such, with
   the length of the guest's name for them. *)
Theorem C68_dirs_partial : forall Os w fd f a d p, is_open w fd f -> guest w a d -> Forall scalar (wasm_name f) -> len (utf8 (wasm_name f)) < 2 ^ 32 ->
  0 <= p -> p + 8 <= len d -> 3 <= fd ->
  if fd <? 3 + p_dirs (w_self w)
  then exists d1 d', overwritten d d1 p [0] /\ overwritten d1 d' (p + 4) (to_le 4 (len (utf8 (wasm_name f)))) /\
       wasi_call Os F_fd_prestat_get [fd; p] w = (Ok [0], set_guest w a d')
  else wasi_call Os F_fd_prestat_get [fd; p] w = (Ok [8], w).
Proof. exact prestat_dirs. Qed.
Print Assumptions C68_dirs_partial.
Example C68_ex : fst (wasi_call ex_os F_fd_prestat_get [3; 32] (ex_dir [])) = Ok [0] /\
  range_of (ex_data (snd (wasi_call ex_os F_fd_prestat_get [3; 32] (ex_dir [])))) 36 4 = [2; 0; 0; 0] /\
  fst (wasi_call ex_os F_fd_prestat_get [4; 32] (ex_open [])) = Ok [8].
Proof. split; [|split]; vm_compute; reflexivity. Qed.

(* C69: false. Renumbering a descriptor to itself always closes it. *)
Theorem C69_refuted : forall Os w fd f w', is_open w fd f -> wasi_call Os F_fd_renumber [fd; fd] w = (Ok [0], w') -> not_open w' fd.
Proof. exact renumber_self. Qed.
Print Assumptions C69_refuted.
Theorem C69_other_partial : forall Os w fd f fd' g w',
  is_open w fd f -> is_open w fd' g -> fd <> fd' -> wasi_call Os F_fd_renumber [fd; fd'] w = (Ok [0], w') -> is_open w' fd' f.
Proof. intros Os w fd f fd' g w' O O' N H. exact (proj1 (renumber_other Os w fd f fd' g w' O O' N H)). Qed.
Print Assumptions C69_other_partial.
Example C69_ex : fst (wasi_call ex_os F_fd_renumber [4; 4] (ex_open [])) = Ok [0] /\
  fst (wasi_call ex_os F_fd_write [4; 0; 0; 32] (snd (wasi_call ex_os F_fd_renumber [4; 4] (ex_open [])))) = Ok [8].
Proof. split; vm_compute; reflexivity. Qed.

(* C70: main returns the status given to proc_exit: if the run of _start gets to a call of a host function that raises
   SystemExit(c), then main returns c, with empty stacks and the store as it was then ... *)
Theorem C70_status : forall F host h m e a t hm code m1 c m2,
  find_export (mod_of (k_store m) (MRef h)) n_start = Ok e -> e_data e = Z.of_nat a ->
  nth_error (s_func (k_store m)) a = Some (FWasm t hm code) -> ft_args t = [] ->
  reach F host (mkmach (k_store m) (k_value m) (first_label t code :: k_label m) (first_frame t hm code [] :: dummy :: k_frame m)) m1 ->
  k_label m1 <> [] -> step F host m1 = (Err (ESystemExit c), m2) ->
  exists n0, forall n, (n0 <= n)%nat -> wasi_main F host n h m = (Ok c, mkmach (k_store m2) [] [] []).
Proof. exact exit_status. Qed.
Print Assumptions C70_status.
(* ... a step that calls a host function that raises something raises that ... *)
Theorem C70_call : forall F host m j fr a t hid A V pargs e m',
  about_to_run m (IOp O_call [AInt (Z.of_nat j)]) fr ->
  nth_error (m_func (mod_of (k_store m) (fr_module fr))) j = Some (Z.of_nat a) ->
  nth_error (s_func (k_store m)) a = Some (FHost t hid) -> k_value m = rev A ++ V -> List.length A = List.length (ft_args t) ->
  rmapl (into_all F) A = Ok pargs -> host hid pargs (moved_on m V) = (Err e, m') ->
  step F host m = (Err e, m').
Proof. exact host_raises. Qed.
Print Assumptions C70_call.
(* ... proc_exit is given the status as a signed number, and raises SystemExit with it. *)
Theorem C70_argument : forall F v, v_type v = T_i32 -> val_wf v -> rmapl (into_all F) [v] = Ok [PInt (signed_of 32 (low 32 v))].
Proof. exact reads_status. Qed.
Print Assumptions C70_argument.
Theorem C70_proc_exit : forall Os w c, p_return_on_exit (w_self w) = true -> wasi_call Os F_proc_exit [c] w = (Err (ESystemExit c), w).
Proof. exact proc_exit_raises. Qed.
Print Assumptions C70_proc_exit.
(* Whether main returns or raises (except by os._exit), the stacks are empty afterwards. *)
Theorem C70_returns : forall F host n h m c m', wasi_main F host n h m = (Ok c, m') -> k_value m' = [] /\ k_label m' = [] /\ k_frame m' = [].
Proof. exact returns_empty. Qed.
Print Assumptions C70_returns.
Theorem C70_raises : forall F host n h m e m', wasi_main F host n h m = (Err e, m') -> (forall c, e <> EExit c) ->
  k_value m' = [] /\ k_label m' = [] /\ k_frame m' = [].
Proof. exact raises_empty. Qed.
Print Assumptions C70_raises.
Theorem C70_normal : forall F host n h m rets m', rt_invocate F host n h n_start [] m = (Ok rets, m') -> wasi_main F host n h m = (Ok 0, m').
Proof. intros F host n h m rets m' H. unfold wasi_main. now rewrite H. Qed.
Print Assumptions C70_normal.
(* proc_exit as a host function; a module whose _start calls it with [c] inside a block *)
Definition exiting (Os : os) (w : world) : hostcode := fun _ args m =>
  match args with
  | [PInt c] => let (r, w') := wasi_call Os F_proc_exit [c] (mkworld (w_self w) (w_log w) (w_pipes w) m) in
                (match r with Ok _ => Ok [] | Err e => Err e end, w_mach w')
  | _ => (Err EType, m)
  end.
Definition ex_exit (c : Z) : machine :=
  let blk := IBlock BT_empty [IOp O_i32_const [AInt c]; IOp O_call [AInt 0]] in
  mkmach (mkstore [FHost (mkft [T_i32] []) 5; FWasm (mkft [] []) 0 (mkfd 1 [] [blk])] [] [mkmem (mklim 0 0) [] 0] [] [] []
    [mkmi [mkft [T_i32] []; mkft [] []] [0; 1] [] [0] [] [] [] [mkei n_start (mkext 0 1)]] []) [] [] [].
Example C70_ex : forall F, wasi_main F (exiting ex_os (ex_dir [])) 9 0 (ex_exit 3) = (Ok 3, ex_exit 3).
Proof. intros F. vm_compute. reflexivity. Qed.
(* Statuses from 2^31 on come out negative: here the status is 2^32 - 1, written as i32.const -1. *)
Theorem C70_refuted : forall F, exists w m, reached ex_os w /\ wasi_main F (exiting ex_os w) 9 0 (ex_exit (signed_of 32 (2 ^ 32 - 1))) = (Ok (-1), m).
Proof. intros F. exists (history ex_os (ex_dir []) []). eexists. split; [apply ex_reached|]. vm_compute. reflexivity. Qed.
Print Assumptions C70_refuted.

(* C71: false. Pointers are taken as signed numbers and writes are slice assignments: the memory grows by 8 bytes, 4 bytes
   before its end; or at its end, for a pointer beyond it. *)
Theorem C71_refuted : exists Os w d w1 d1 w2 d2, reached Os w /\ guest w 0 d /\ len d = 64 /\
  wasi_call Os F_clock_res_get [0; signed_of 32 (2 ^ 32 - 4)] w = (Ok [0], w1) /\ guest w1 0 d1 /\ len d1 = 72 /\
  wasi_call Os F_clock_res_get [0; 1000] w = (Ok [0], w2) /\ guest w2 0 d2 /\ len d2 = 72.
Proof.
  set (w := history ex_os (ex_dir []) []). exists ex_os, w, (zeros 64). do 4 eexists. split; [apply ex_reached|].
  split; [apply ex_guest; [vm_compute; reflexivity|apply bytes_zeros]|]. split; [reflexivity|].
  split; [vm_compute; reflexivity|]. split; [apply ex_guest; [reflexivity|ex_bytes]|]. split; [vm_compute; reflexivity|].
  split; [vm_compute; reflexivity|]. split; [apply ex_guest; [reflexivity|ex_bytes]|]. vm_compute; reflexivity.
Qed.
Print Assumptions C71_refuted.
(* What holds for every call with whatever arguments: it changes nothing of the machine but the bytes of memories, and no
   memory gets shorter. *)
Theorem C71_memories_partial : forall Os f args w, only_memories (w_mach w) (w_mach (snd (wasi_call Os f args w))).
Proof. exact call_grows. Qed.
Print Assumptions C71_memories_partial.
