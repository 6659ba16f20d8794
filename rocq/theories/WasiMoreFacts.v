(* Rights, seeking, reading at a position, error numbers: the lemmas behind PropWasiMore.v. *)
From Coq Require Import ZArith List Bool Lia ZifyBool ZifyNat Permutation Sorted.
From Verif Require Import Py Syntax Store Val Machine Utf8 Os Wasi SpecMem SpecFormat SpecWasi SpecWasiMore PyFacts MemFacts WasiFacts WasiTableFacts
  WasiMemFacts WasiIoFacts WasiCallFacts.
Import ListNotations.
Open Scope Z_scope.

(* ---- rights ---- *)
Definition refused (w : world) (f : wfun) (args : list Z) (g : file) (r : res (list Z) * world) : Prop :=
  exists e, r = (Ok [e], w) /\
  (e = 76 \/ (e = 8 /\ exists fd', In fd' (descriptors f args) /\ not_open w fd') \/
   (e = 31 /\ wasm_type g = T_DIRECTORY) \/ (e = 57 /\ ~ socket g)).
Lemma lack_need w fd g bit k : is_open w fd g -> 0 <= bit -> ~ has_right g bit -> need fd (2 ^ bit) k w = (Ok [76], w).
Proof.
  intros (E & _) Hb R. rewrite (need_eq w fd g _ _ E). rewrite land_pow2 by exact Hb. unfold has_right in R.
  destruct (Z.testbit (rights_base g) bit); [congruence|reflexivity].
Qed.
Lemma dir_eq w fd g k : is_open w fd g -> unless_dir fd k w = if wasm_type g =? T_DIRECTORY then (Ok [31], w) else k w.
Proof. intros (E & _). unfold unless_dir, help_idir, bind. rewrite (the_file_at w fd g E). unfold ret. now destruct (_ =? _). Qed.
Lemma sock_eq w fd g k : is_open w fd g ->
  unless_sock fd k w = if (wasm_type g =? T_SOCKET_DGRAM) || (wasm_type g =? T_SOCKET_STREAM) then k w else (Ok [57], w).
Proof. intros (E & _). unfold unless_sock, help_sock, bind. rewrite (the_file_at w fd g E). unfold ret. now destruct (_ || _). Qed.
Lemma refuse_need w f args fd g bit k : is_open w fd g -> 0 <= bit -> ~ has_right g bit -> refused w f args g (need fd (2 ^ bit) k w).
Proof. intros O B R. exists 76. split; [exact (lack_need w fd g bit k O B R)|now left]. Qed.
Lemma refuse_dir w f args fd g k : is_open w fd g -> refused w f args g (k w) -> refused w f args g (unless_dir fd k w).
Proof.
  intros O K. rewrite (dir_eq w fd g k O). destruct (Z.eqb_spec (wasm_type g) T_DIRECTORY) as [E|]; [|exact K].
  exists 31. split; [reflexivity|]. right. right. now left.
Qed.
Lemma refuse_sock w f args fd g k : is_open w fd g -> refused w f args g (k w) -> refused w f args g (unless_sock fd k w).
Proof.
  intros O K. rewrite (sock_eq w fd g k O).
  destruct (Z.eqb_spec (wasm_type g) T_SOCKET_DGRAM); [exact K|]. destruct (Z.eqb_spec (wasm_type g) T_SOCKET_STREAM); [exact K|].
  exists 57. split; [reflexivity|]. right. right. right. split; [reflexivity|]. unfold socket. tauto.
Qed.
Lemma need_other w fd bit fd' g bit' k : is_open w fd' g -> 0 <= bit' -> ~ has_right g bit' -> help_badf (w_self w) fd = false -> 0 <= bit ->
  need fd (2 ^ bit) (need fd' (2 ^ bit') k) w = (Ok [76], w).
Proof.
  intros O Hb R B Hb0. destruct (badf_false _ _ B) as (B1 & f & B2 & B3).
  assert (is_open w fd f) as (Of & _) by (split; [split; [lia|exact B2]|exact B3]).
  rewrite (need_eq w fd f _ _ Of). destruct (Z.land _ _ =? 0); [reflexivity|]. now apply lack_need with (g := g).
Qed.
Lemma refuse_two w fd fd' g f args k : is_open w fd g \/ is_open w fd' g -> In fd (descriptors f args) -> In fd' (descriptors f args) ->
  (help_badf (w_self w) fd = false -> help_badf (w_self w) fd' = false -> k w = (Ok [76], w)) ->
  refused w f args g ((let! p := self in if help_badf p fd || help_badf p fd' then ret [E_BADF] else k) w).
Proof.
  intros O I1 I2 K. unfold bind, self. destruct (help_badf (w_self w) fd) eqn:B1.
  { exists 8. split; [reflexivity|]. right. left. split; [reflexivity|]. exists fd. split; [exact I1|now apply badf_true]. }
  destruct (help_badf (w_self w) fd') eqn:B2.
  { exists 8. split; [reflexivity|]. right. left. split; [reflexivity|]. exists fd'. split; [exact I2|now apply badf_true]. }
  exists 76. split; [now apply K|now left].
Qed.
Ltac pows := unfold R_FD_DATASYNC, R_FD_READ, R_FD_SEEK, R_FD_FDSTAT_SET_FLAGS, R_FD_SYNC, R_FD_TELL, R_FD_WRITE, R_FD_ADVISE, R_FD_ALLOCATE,
  R_PATH_CREATE_DIRECTORY, R_PATH_LINK_SOURCE, R_PATH_LINK_TARGET, R_PATH_OPEN, R_FD_READDIR, R_PATH_READLINK, R_PATH_RENAME_SOURCE, R_PATH_RENAME_TARGET,
  R_PATH_FILESTAT_GET, R_PATH_FILESTAT_SET_TIMES, R_FD_FILESTAT_GET, R_FD_FILESTAT_SET_SIZE, R_FD_FILESTAT_SET_TIMES, R_PATH_SYMLINK,
  R_PATH_REMOVE_DIRECTORY, R_PATH_UNLINK_FILE, R_SOCK_SHUTDOWN, R_SOCK_ACCEPT.
Ltac lacks O R :=
  rewrite (pass_badf _ _ _ _ O); first [apply (refuse_dir _ _ _ _ _ _ O)|apply (refuse_sock _ _ _ _ _ _ O)|idtac]; apply (refuse_need _ _ _ _ _ _ _ O); [lia|exact R].
Lemma lacking_right Os w f args fd bit g : In (fd, bit) (required f args) -> is_open w fd g -> ~ has_right g bit ->
  refused w f args g (wasi_call Os f args w).
Proof.
  intros I O R.
  destruct f; repeat (destruct args as [|? args]; try (now destruct I));
    cbn [required] in I; (destruct I as [I|I]; [injection I as <- <-|]); cbn [wasi_call].
  all: try (unfold fd_advise, fd_allocate, fd_datasync, fd_fdstat_set_flags, fd_filestat_get, fd_filestat_set_size, fd_filestat_set_times, fd_pread, fd_pwrite,
    fd_read, fd_readdir, fd_seek, fd_sync, fd_tell, fd_write, path_create_directory, path_filestat_get, path_filestat_set_times, path_open, path_readlink,
    path_remove_directory, path_symlink, path_unlink_file, sock_accept, sock_recv, sock_send, sock_shutdown; pows; lacks O R).
  all: try (now destruct I).
  - unfold path_link; pows. apply refuse_two; [now left|now left|right; now left|]. intros B1 B2. apply (lack_need _ _ _ _ _ O); [lia|exact R].
  - destruct I as [I|[]]. injection I as <- <-. unfold path_link; pows. apply refuse_two; [now right|now left|right; now left|]. intros B1 B2.
    apply need_other with (g := g); (lia || assumption).
  - unfold path_rename; pows. apply refuse_two; [now left|now left|right; now left|]. intros B1 B2. apply (lack_need _ _ _ _ _ O); [lia|exact R].
  - destruct I as [I|[]]. injection I as <- <-. unfold path_rename; pows. apply refuse_two; [now right|now left|right; now left|]. intros B1 B2.
    apply need_other with (g := g); (lia || assumption).
Qed.

(* ---- sockets: no descriptor ever has a socket type ---- *)
Definition plain (w : world) : Prop := forall k f, nth_error (p_fd (w_self w)) k = Some f -> ~ socket f.
Lemma type_plain f i : wasm_type f = help_wasm_type i -> ~ socket f.
Proof.
  unfold socket. intros ->. unfold help_wasm_type. cbn zeta. repeat match goal with |- context [if ?b then _ else _] => destruct b end;
    intros [H|H]; discriminate H.
Qed.
Lemma plain_upd w k f g k' f' : plain w -> nth_error (p_fd (w_self w)) k = Some f -> wasm_type g = wasm_type f ->
  nth_error (upd (p_fd (w_self w)) k g) k' = Some f' -> ~ socket f'.
Proof.
  intros P K T H. destruct (Nat.eq_dec k' k) as [EQ|N].
  - subst k'. rewrite (nth_upd_same _ _ f) in H by exact K. injection H as <-. unfold socket. rewrite T. exact (P k f K).
  - rewrite nth_upd_other in H by exact N. exact (P k' f' H).
Qed.
Lemma plain_effect Os mv w w' : effect Os mv w w' -> plain w -> plain w'.
Proof.
  intros E P.
  destruct E as [evs S1 L C|fd1 g0 g evs Op SH T1 L C|fd1 g Op TY T1 L|fd1 g Op T1 L|fd1 g Op S1 L R|fd1 fd2 stem dest log MV Os1 Od C T1 L
    |fd1 g0 nm flag h evs g Op R L B T1 G1 G2 G3 G4|fd1 g nm flag evs Op S1 c L B]; intros k f K; try (rewrite S1 in K; exact (P k f K)); rewrite T1 in K.
  - destruct Op as ((_ & O1) & _). apply (plain_upd w _ g0 g k f P O1); [apply SH|exact K].
  - destruct Op as ((_ & O1) & _). now apply (plain_upd w _ g (set_wasm_open g false) k f P O1).
  - destruct Op as ((_ & O1) & _). now apply (plain_upd w _ g (closed g) k f P O1).
  - destruct Os1 as ((_ & O1) & _), Od as ((_ & O2) & _).
    destruct (Nat.eq_dec k (Z.to_nat fd1)) as [EQ|N].
    + subst k. destruct (Nat.eq_dec (Z.to_nat fd1) (Z.to_nat fd2)) as [EQ|N].
      * rewrite EQ in *. rewrite upd_twice in K. rewrite (nth_upd_same _ _ dest) in K by exact O2. injection K as <-. exact (P _ _ O1).
      * rewrite (nth_upd_same _ _ stem) in K by (rewrite nth_upd_other by exact N; exact O1). injection K as <-. exact (P _ _ O1).
    + rewrite nth_upd_other in K by exact N. destruct (Nat.eq_dec k (Z.to_nat fd2)) as [EQ|N2].
      * subst k. rewrite (nth_upd_same _ _ dest) in K by exact O2. injection K as <-. exact (P _ _ O1).
      * rewrite nth_upd_other in K by exact N2. exact (P _ _ K).
  - destruct (Nat.lt_ge_cases k (length (p_fd (w_self w)))) as [Lt|Ge].
    + rewrite nth_error_app1 in K by exact Lt. exact (P _ _ K).
    + rewrite nth_error_app2 in K by exact Ge. destruct (k - length (p_fd (w_self w)))%nat as [|n]; [|destruct n; discriminate K].
      injection K as <-. destruct G4 as (i & G4). exact (type_plain _ _ G4).
Qed.
Lemma plain_history Os h : forall w, plain w -> plain (history Os w h).
Proof.
  induction h as [|x h IH]; intros w P; [exact P|]. cbn [history fold_left]. apply IH. destruct x as [f args|m pipes]; [|exact P].
  cbn [act]. eapply plain_effect; [apply call_effect|exact P].
Qed.
Lemma plain_preopen Os cwd l : forall w, plain w -> plain (snd (preopen Os cwd l w)).
Proof.
  induction l as [|(k, v) l IH]; intros w P; cbn [preopen]; [exact P|].
  unfold ask_int. unfold bind at 1. unfold bind at 1. unfold ask. destruct (Os _ _); try exact P. unfold ret.
  unfold bind at 1. unfold self at 1. unfold bind at 1. unfold set_fd. unfold bind at 1. unfold self, set_self.
  apply IH. intros i f K. cbn [w_self p_fd] in K. destruct (Nat.lt_ge_cases i (length (p_fd (w_self w)))) as [Lt|Ge].
  + rewrite nth_error_app1 in K by exact Lt. exact (P _ _ K).
  + rewrite nth_error_app2 in K by exact Ge. destruct (i - length (p_fd (w_self w)))%nat as [|n]; [|destruct n; discriminate K].
    injection K as <-. intros [H|H]; discriminate H.
Qed.
Lemma plain_reached Os w : reached Os w -> plain w.
Proof.
  intros (cwd & ((((h0 & n0) & (h1 & n1)) & (h2 & n2)) & args & dirs & envs & w0 & h & _ & ->)). apply plain_history. unfold new_preview1. cbn zeta.
  unfold bind at 1. unfold set_self at 1. apply plain_preopen. intros i f K. cbn [w_self p_fd] in K.
  destruct i as [|[|[|i]]]; [| | |destruct i; discriminate K]; injection K as <-; intros [H|H]; discriminate H.
Qed.
Lemma sockets_unusable Os w f args : reached Os w -> sock_call f args -> exists e, wasi_call Os f args w = (Ok [e], w) /\ (e = 8 \/ e = 57).
Proof.
  intros Rw S. pose proof (plain_reached Os w Rw) as P.
  assert (forall fd k, exists e, unless_badf fd (unless_sock fd k) w = (Ok [e], w) /\ (e = 8 \/ e = 57)) as K.
  { intros fd k. unfold unless_badf, bind, self. destruct (help_badf (w_self w) fd) eqn:B; [exists 8; split; [reflexivity|now left]|].
    destruct (badf_false _ _ B) as (B1 & g & B2 & B3). assert (is_open w fd g) as O by (split; [split; [lia|exact B2]|exact B3]).
    exists 57. split; [|now right]. rewrite (sock_eq w fd g k O). pose proof (P _ _ B2) as N. unfold socket in N.
    destruct (Z.eqb_spec (wasm_type g) T_SOCKET_DGRAM); [tauto|]. destruct (Z.eqb_spec (wasm_type g) T_SOCKET_STREAM); [tauto|]. reflexivity. }
  destruct f; repeat (destruct args as [|? args]; try (now destruct S)); cbn [sock_call] in S; try (now destruct S); cbn [wasi_call]; apply K.
Qed.

(* ---- seeking ---- *)
Lemma ask_int_at Os w c z : Os (w_log w) c = RInt z -> ask_int Os c w = (Ok z, logged w c (RInt z)).
Proof. intros H. unfold ask_int, bind, ask. rewrite H. reflexivity. Qed.
Lemma put_u64_at w a d p v : guest w a d -> 0 <= p -> p + 8 <= len d -> 0 <= v < 2 ^ 64 ->
  exists d', overwritten d d' p (to_le 8 v) /\ bytes d' /\ (put_u64 (Z.of_nat a) p v ;; ret [E_SUCCESS]) w = (Ok [E_SUCCESS], set_guest w a d').
Proof.
  intros G H1 H2 H3. exists (splice d p (to_le 8 v)). split; [apply splice_over; rewrite ?len_to_le; lia|].
  split; [apply bytes_splice; [exact (guest_bytes _ _ _ G)|apply to_le_bytes]|].
  unfold bind. unfold put_u64. now rewrite (put_u_at w a d 8 p v G) by (change (2 ^ (8 * 8)) with (2 ^ 64); lia).
Qed.
Lemma pos_lseek h size w off wh r : file_pos h size (w_log (logged w (OsLseek h off wh) (RInt r))) = seeks_to size (file_pos h size (w_log w)) off wh.
Proof. cbn. now rewrite Z.eqb_refl. Qed.
Lemma seek_moves Os w fd f a d off wh p size : is_open w fd f -> wasm_type f <> T_DIRECTORY -> has_right f 2 -> guest w a d ->
  0 <= p -> p + 8 <= len d -> seekable Os (host_fd f) size -> 0 <= size -> 0 <= file_pos (host_fd f) size (w_log w) -> 0 <= wh <= 2 ->
  let t := seeks_to size (file_pos (host_fd f) size (w_log w)) off wh in 0 <= t < 2 ^ 64 ->
  exists w' d', wasi_call Os F_fd_seek [fd; off; wh; p] w = (Ok [0], w') /\ guest w' a d' /\ overwritten d d' p (to_le 8 t) /\
  file_pos (host_fd f) size (w_log w') = t /\ w_self w' = w_self w /\ w_pipes w' = w_pipes w.
Proof.
  intros O T R G P1 P2 SK Sz Hp Hw t Ht. cbn [wasi_call]. unfold fd_seek. rewrite (pass_badf w fd f _ O), (pass_dir w fd f _ O T).
  change R_FD_SEEK with (2 ^ 2). rewrite (pass_need w fd f 2 _ O) by (try lia; exact R).
  unfold bind at 1. rewrite (the_mem_guest w a d G). unfold bind at 1. rewrite (the_file_at w fd f (proj1 O)).
  set (h := host_fd f) in *. set (q := file_pos h size (w_log w)) in *. unfold bind at 1.
  assert (Os (w_log w) (OsLseek h 0 wh) = RInt (seeks_to size q 0 wh)) as E1.
  { apply SK; [lia|]. fold q. unfold seeks_to. destruct (wh =? 0); [lia|]. destruct (wh =? 1); lia. }
  rewrite (ask_int_at Os w _ _ E1). set (w1 := logged w _ _). pose proof (pos_lseek h size w 0 wh (seeks_to size q 0 wh)) as Q1. fold w1 q in Q1.
  assert (seeks_to size q 0 wh + off = t) as Et by (unfold t, seeks_to; destruct (wh =? 0); [lia|]; destruct (wh =? 1); lia).
  assert (seeks_to size (seeks_to size q 0 wh) off wh = t) as Et2 by (unfold t, seeks_to; destruct (wh =? 0); [lia|]; destruct (wh =? 1); lia).
  replace (seeks_to size q 0 wh + off <? 0) with false by lia. unfold bind at 1.
  assert (Os (w_log w1) (OsLseek h off wh) = RInt t) as E2.
  { specialize (SK (w_log w1) off wh Hw). rewrite Q1, Et2 in SK. apply SK. lia. }
  rewrite (ask_int_at Os w1 _ _ E2). set (w2 := logged w1 _ _). pose proof (pos_lseek h size w1 off wh t) as Q2. fold w2 in Q2.
  rewrite Q1, Et2 in Q2. assert (guest w2 a d) as G2 by exact G.
  destruct (put_u64_at w2 a d p t G2 P1 P2 Ht) as (d' & D1 & D2 & D3). exists (set_guest w2 a d'), d'. rewrite D3.
  destruct (set_guest_parts w2 a d') as (S1 & S2 & S3). split; [reflexivity|]. split; [eapply guest_set; eassumption|]. split; [exact D1|].
  rewrite S1, S2, S3. split; [exact Q2|now split].
Qed.
Lemma tell_tells Os w fd f a d p size : is_open w fd f -> wasm_type f <> T_DIRECTORY -> has_right f 5 -> guest w a d ->
  0 <= p -> p + 8 <= len d -> seekable Os (host_fd f) size ->
  let t := file_pos (host_fd f) size (w_log w) in 0 <= t < 2 ^ 64 ->
  exists w' d', wasi_call Os F_fd_tell [fd; p] w = (Ok [0], w') /\ guest w' a d' /\ overwritten d d' p (to_le 8 t) /\
  file_pos (host_fd f) size (w_log w') = t /\ w_self w' = w_self w /\ w_pipes w' = w_pipes w.
Proof.
  intros O T R G P1 P2 SK t Ht. cbn [wasi_call]. unfold fd_tell. rewrite (pass_badf w fd f _ O), (pass_dir w fd f _ O T).
  change R_FD_TELL with (2 ^ 5). rewrite (pass_need w fd f 5 _ O) by (try lia; exact R).
  unfold bind at 1. rewrite (the_mem_guest w a d G). unfold bind at 1. rewrite (the_file_at w fd f (proj1 O)).
  unfold bind at 1. set (h := host_fd f) in *.
  assert (Os (w_log w) (OsLseek h 0 SEEK_CUR) = RInt t) as E1.
  { specialize (SK (w_log w) 0 1 ltac:(lia)). fold t in SK. unfold seeks_to in SK. cbn [Z.eqb Pos.eqb] in SK. rewrite Z.add_0_r in SK. apply SK. lia. }
  rewrite (ask_int_at Os w _ _ E1). set (w1 := logged w _ _). pose proof (pos_lseek h size w 0 1 t) as Q1. fold w1 t in Q1.
  unfold seeks_to in Q1. cbn [Z.eqb Pos.eqb] in Q1. rewrite Z.add_0_r in Q1.
  assert (guest w1 a d) as G2 by exact G. destruct (put_u64_at w1 a d p t G2 P1 P2 Ht) as (d' & D1 & D2 & D3). exists (set_guest w1 a d'), d'. rewrite D3.
  destruct (set_guest_parts w1 a d') as (S1 & S2 & S3). split; [reflexivity|]. split; [eapply guest_set; eassumption|]. split; [exact D1|].
  rewrite S1, S2, S3. split; [exact Q1|now split].
Qed.

(* ---- reading and writing at a position ---- *)
Lemma set_logged w a d c r : set_guest (logged w c r) a d = logged (set_guest w a d) c r.
Proof. unfold set_guest, logged. cbn [w_mach]. destruct (nth_error _ a); reflexivity. Qed.
Lemma room_pos d l : Forall (fun b : Z * Z => inside d b /\ 0 <= snd b) l -> 0 <= room l.
Proof. intros F. induction F as [|b l (_ & B) _ IHl]; cbn; [lia|]. unfold room in IHl. lia. Qed.
Definition only_preads (h : Z) (evs : list event) : Prop := Forall (fun e => exists k o, fst e = OsPread h k o) evs.
Definition more_log (w : world) (evs : list event) : world := mkworld (w_self w) (evs ++ w_log w) (w_pipes w) (w_mach w).
Lemma set_more w a d evs : set_guest (more_log w evs) a d = more_log (set_guest w a d) evs.
Proof. unfold set_guest, more_log. cbn [w_mach]. destruct (nth_error _ a); reflexivity. Qed.
Lemma more_more w e1 e2 : more_log (more_log w e1) e2 = more_log w (e2 ++ e1).
Proof. unfold more_log. cbn [w_self w_log w_pipes w_mach]. now rewrite app_assoc. Qed.
Lemma pread_loop_ok Os h content a : holds Os h content -> forall n w d ptr off, guest w a d ->
  0 <= ptr -> 0 <= off -> ptr + 8 * Z.of_nat n <= len d ->
  Forall (fun b => inside d b /\ 0 < snd b /\ apart (fst b) (snd b) ptr (8 * Z.of_nat n)) (iovs d ptr n) ->
  let rest := skipn (Z.to_nat off) content in
  let m := Z.min (room (iovs d ptr n)) (len rest) in
  exists d' evs, filled d (iovs d ptr n) (firstn (Z.to_nat m) rest) d' /\ len d' = len d /\ bytes d' /\ only_preads h evs /\
    pread_loop Os (Z.of_nat a) h n ptr off w = (Ok (off + m), set_guest (more_log w evs) a d').
Proof.
  intros (BC & RD). induction n as [|n IH]; intros w d ptr off G H1 H0 H2 F rest m.
  { exists d, []. unfold m, iovs. cbn [seq map room fold_right pread_loop]. pose proof (len_nonneg rest).
    replace (Z.min 0 (len rest)) with 0 by lia. cbn. repeat split; try easy; [constructor|exact (guest_bytes _ _ _ G)|constructor|].
    unfold ret. rewrite Z.add_0_r. f_equal. rewrite set_same; [now destruct w|exact G]. }
  rewrite iovs_S in *. inversion F as [|? ? (F1 & F2 & F3) F4]; subst.
  destruct (iov d ptr 0) as (p, k) eqn:EV. destruct (iov_range d ptr 0 (guest_bytes _ _ _ G) H1 ltac:(lia)) as (I1 & I2).
  rewrite EV in I1, I2. unfold inside in F1. cbn [fst snd] in *. cbn [pread_loop]. rewrite (get_iov w a d ptr _ G H1) by lia. rewrite EV. cbn [fst snd].
  unfold bind at 1. unfold ask_bytes. unfold bind at 1. unfold ask at 1. rewrite (RD (w_log w) k off) by lia. fold rest. unfold ret at 1.
  set (got := firstn (Z.to_nat k) rest). set (w1 := mkworld _ _ _ _).
  assert (w1 = more_log w [(OsPread h k off, RBytes got)]) as Ew1 by reflexivity. clearbody w1.
  assert (guest w1 a d) as G1 by (subst w1; exact G).
  pose proof (len_nonneg rest) as Lr.
  assert (m = Z.min (k + room (iovs d (ptr + 8) n)) (len rest)) as Em0 by (unfold m; now rewrite iovs_S, EV). clearbody m.
  assert (0 <= room (iovs d (ptr + 8) n)) as Rm.
  { apply (room_pos d). eapply Forall_impl; [|exact F4]. intros b (B1 & B2 & _). split; [exact B1|lia]. }
  assert (only_preads h [(OsPread h k off, RBytes got)]) as OP by (repeat constructor; now exists k, off).
  assert (len got = Z.min k (len rest)) as LG by (unfold got; apply len_firstn; lia). rewrite LG.
  destruct (Z.eqb_spec (Z.min k (len rest)) 0) as [Z0|NZ].
  - assert (rest = []) as E0 by (apply length_zero_iff_nil; unfold len in *; lia).
    exists d, [(OsPread h k off, RBytes got)]. assert (m = 0) as -> by lia. rewrite E0. cbn [Z.to_nat firstn].
    repeat split; try assumption; [constructor|exact (guest_bytes _ _ _ G)|]. unfold ret. rewrite Z.add_0_r. now rewrite <- Ew1, set_same.
  - unfold bind at 1. rewrite (put_bytes_at w1 a d p got G1) by lia. set (d1 := splice d p got).
    assert (bytes got) as BG by (apply bytes_firstn, bytes_skipn, BC).
    assert (bytes d1) as BD by (apply bytes_splice; [exact (guest_bytes _ _ _ G)|exact BG]).
    assert (len d1 = len d) as L1 by (apply len_splice; lia).
    assert (guest (set_guest w1 a d1) a d1) as G2 by (eapply guest_set; eassumption).
    assert (iovs d1 (ptr + 8) n = iovs d (ptr + 8) n) as EI.
    { apply (iovs_same d d1 (ptr + 8) n p got); try lia; [reflexivity|]. unfold apart in *. lia. }
    destruct (Z.ltb_spec (Z.min k (len rest)) k) as [LT|GE].
    + assert (m = len rest) as -> by lia. exists d1, [(OsPread h k off, RBytes got)]. unfold ret. rewrite <- Ew1.
      rewrite (firstn_all2 (n := Z.to_nat (len rest))) by (unfold len; lia).
      replace (Z.min k (len rest)) with (len rest) by lia.
      repeat split; try assumption.
      apply filled_next with (d1 := d1); [fold got; apply splice_over; lia|]. rewrite skipn_all2 by (unfold len in *; lia). constructor.
    + replace (Z.min k (len rest)) with k by lia.
      destruct (IH (set_guest w1 a d1) d1 (ptr + 8) (off + k) G2 ltac:(lia) ltac:(lia) ltac:(lia)) as (d' & evs & Q1 & Q2 & Q3 & Q5 & Q4).
      { rewrite EI. eapply Forall_impl; [|exact F4]. intros b (B1 & B2 & B3). unfold inside, apart in *. lia. }
      assert (skipn (Z.to_nat (off + k)) content = skipn (Z.to_nat k) rest) as ER.
      { unfold rest. rewrite skipn_skipn'. f_equal. lia. }
      rewrite EI, ER in *. exists d', (evs ++ [(OsPread h k off, RBytes got)]). rewrite len_skipn in * by lia.
      set (m' := Z.min (room (iovs d (ptr + 8) n)) (Z.max 0 (len rest - k))) in *. assert (m = k + m') as Em by (unfold m'; lia).
      assert (0 <= m') as Hm' by (unfold m'; lia).
      assert (firstn (Z.to_nat m) rest = got ++ firstn (Z.to_nat m') (skipn (Z.to_nat k) rest)) as EF.
      { rewrite Em, Z2Nat.inj_add by lia. unfold got. rewrite <- (firstn_skipn (Z.to_nat k) rest) at 1.
        rewrite firstn_app_2'. 2:{ rewrite firstn_length. unfold len in *. lia. } reflexivity. }
      repeat split; try assumption; try lia.
      * rewrite EF. apply filled_next with (d1 := d1).
        -- rewrite firstn_app. replace (Z.to_nat k - length got)%nat with O by (unfold len in *; lia). cbn [firstn].
           rewrite app_nil_r, (firstn_all2 got) by (unfold len in *; lia). apply splice_over; lia.
        -- rewrite skipn_app. replace (Z.to_nat k - length got)%nat with O by (unfold len in *; lia).
           rewrite (skipn_all2 got) by (unfold len in *; lia). cbn [app skipn]. exact Q1.
      * apply Forall_app. now split.
      * rewrite Q4. f_equal; [f_equal; lia|]. rewrite set_more, set_set, <- set_more, Ew1, more_more. reflexivity.
Qed.
Lemma fd_pread_ok Os w fd f a d ptr n off x4 content :
  is_open w fd f -> wasm_type f <> T_DIRECTORY -> has_right f 1 -> guest w a d -> holds Os (host_fd f) content ->
  0 <= ptr -> 0 <= n -> 0 <= off -> ptr + 8 * n <= len d ->
  Forall (fun b => inside d b /\ 0 < snd b /\ apart (fst b) (snd b) ptr (8 * n)) (iovs d ptr (Z.to_nat n)) ->
  0 <= x4 -> x4 + 4 <= len d ->
  let rest := skipn (Z.to_nat off) content in
  let m := Z.min (room (iovs d ptr (Z.to_nat n))) (len rest) in m < 2 ^ 32 ->
  exists d1 d' evs, filled d (iovs d ptr (Z.to_nat n)) (firstn (Z.to_nat m) rest) d1 /\ overwritten d1 d' x4 (to_le 4 m) /\
  Forall (fun e => exists k o, fst e = OsPread (host_fd f) k o) evs /\
  wasi_call Os F_fd_pread [fd; ptr; n; off; x4] w =
    (Ok [0], set_guest (mkworld (w_self w) (evs ++ w_log w) (w_pipes w) (w_mach w)) a d').
Proof.
  intros O T R G RD H1 H2 H0 H3 F X1 X2 rest m Hm.
  destruct (pread_loop_ok Os (host_fd f) content a RD (Z.to_nat n) w d ptr off G H1 H0 ltac:(lia)) as (d1 & evs & Q1 & Q2 & Q3 & Q5 & Q4).
  { now rewrite Z2Nat.id by exact H2. }
  fold rest in Q1, Q4. fold m in Q1, Q4.
  assert (0 <= m) as Hm0.
  { unfold m. pose proof (len_nonneg rest). enough (0 <= room (iovs d ptr (Z.to_nat n))) by lia. apply (room_pos d).
    eapply Forall_impl; [|exact F]. intros b (B1 & B2 & _). split; [exact B1|lia]. }
  set (w1 := set_guest (more_log w evs) a d1) in *.
  assert (guest w1 a d1) as G1 by (apply guest_set with (d := d); [exact G|exact Q3]).
  destruct (put_size w1 a d1 x4 m G1 X1 ltac:(lia) ltac:(lia)) as (d' & D1 & D2).
  exists d1, d', evs. split; [exact Q1|split; [exact D1|split; [exact Q5|]]].
  cbn [wasi_call]. unfold fd_pread. rewrite (pass_badf w fd f _ O), (pass_dir w fd f _ O T).
  change R_FD_READ with (2 ^ 1). rewrite (pass_need w fd f 1 _ O) by (try lia; exact R).
  unfold bind at 1. rewrite (the_mem_guest w a d G). unfold bind at 1. rewrite (the_file_at w fd f (proj1 O)).
  unfold bind at 1. rewrite Q4. replace (off + m - off) with m by lia. rewrite D2. unfold w1. now rewrite set_set.
Qed.
Lemma fd_pwrite_ok Os w fd f a d ptr n off x4 size :
  is_open w fd f -> wasm_type f <> T_DIRECTORY -> has_right f 6 -> guest w a d ->
  0 <= ptr -> 0 <= n -> ptr + 8 * n <= len d -> Forall (inside d) (iovs d ptr (Z.to_nat n)) -> 0 <= x4 -> x4 + 4 <= len d ->
  let c := OsPwrite (host_fd f) (gathered d (iovs d ptr (Z.to_nat n))) off in
  Os (w_log w) c = RInt size -> 0 <= size < 2 ^ 32 ->
  exists d', overwritten d d' x4 (to_le 4 size) /\
  wasi_call Os F_fd_pwrite [fd; ptr; n; off; x4] w = (Ok [0], set_guest (logged w c (RInt size)) a d').
Proof.
  intros O T R G H1 H2 H3 F X1 X2 c Rp Sz. destruct (put_size (logged w c (RInt size)) a d x4 size (guest_logged _ _ _ _ _ G) X1 X2 Sz) as (d' & D1 & D2).
  exists d'. split; [exact D1|]. cbn [wasi_call]. unfold fd_pwrite. rewrite (pass_badf w fd f _ O), (pass_dir w fd f _ O T).
  change R_FD_WRITE with (2 ^ 6). rewrite (pass_need w fd f 6 _ O) by (try lia; exact R).
  unfold bind at 1. rewrite (the_mem_guest w a d G). unfold bind at 1. rewrite (the_file_at w fd f (proj1 O)).
  unfold bind at 1. rewrite (gather_ok w a d (Z.to_nat n) G) by (try lia; exact F). cbn [app]. fold c.
  unfold bind at 1. rewrite (ask_int_at Os w c size Rp). exact D2.
Qed.

(* ---- flags ---- *)
Lemma land1_odd x : (Z.land x 1 =? 0) = negb (Z.testbit x 0).
Proof. change 1 with (2 ^ 0) at 1. rewrite land_pow2 by lia. now destruct (Z.testbit x 0). Qed.
Lemma land4_bit x : (Z.land x 4 =? 0) = negb (Z.testbit x 2).
Proof. change 4 with (2 ^ 2) at 1. rewrite land_pow2 by lia. now destruct (Z.testbit x 2). Qed.
Lemma bit_pow2 k i : 0 <= k -> Z.testbit (2 ^ k) i = (i =? k).
Proof. intros H. rewrite Z.pow2_bits_eqb by exact H. now rewrite Z.eqb_sym. Qed.
Lemma flags_bits flag x i a b : 0 <= a -> 0 <= b -> a <> b -> 0 <= i ->
  Z.testbit (let v := Z.land (Z.land flag (Z.lnot (2 ^ a))) (Z.lnot (2 ^ b)) in
    let v := if Z.testbit x 0 then Z.lor v (2 ^ a) else v in if Z.testbit x 2 then Z.lor v (2 ^ b) else v) i =
  if i =? a then Z.testbit x 0 else if i =? b then Z.testbit x 2 else Z.testbit flag i.
Proof.
  intros Ha Hb N Hi. cbn zeta.
  destruct (Z.testbit x 0), (Z.testbit x 2); rewrite ?Z.lor_spec, ?Z.land_spec, ?Z.lnot_spec, ?bit_pow2 by lia;
    destruct (Z.eqb_spec i a), (Z.eqb_spec i b); cbn; rewrite ?andb_true_r, ?andb_false_r, ?orb_true_r, ?orb_false_r; try reflexivity; lia.
Qed.
Lemma set_flags_append Os w fd f x : is_open w fd f -> has_right f 3 ->
  (forall i, 0 < i -> Z.testbit x i = Z.testbit (wasm_flag f) i) ->
  Os (w_log w) (OsSetfl (host_fd f) (Z.lor (Z.land (Z.land (host_flag f) (Z.lnot O_APPEND)) (Z.lnot O_NONBLOCK))
    (Z.lor (if Z.testbit x 0 then O_APPEND else 0) (if Z.testbit x 2 then O_NONBLOCK else 0)))) = RUnit ->
  exists w' g hf, wasi_call Os F_fd_fdstat_set_flags [fd; x] w = (Ok [0], w') /\ is_open w' fd g /\ wasm_flag g = x /\
  w_log w' = (OsSetfl (host_fd f) hf, RUnit) :: w_log w /\ Z.testbit hf 10 = Z.testbit x 0 /\
  (forall i, 0 <= i -> i <> 10 -> i <> 11 -> Z.testbit hf i = Z.testbit (host_flag f) i) /\
  forall fd' e, fd' <> fd -> entry w' fd' e <-> entry w fd' e.
Proof.
  intros O R E Rp. cbn [wasi_call]. unfold fd_fdstat_set_flags. rewrite (pass_badf w fd f _ O).
  change R_FD_FDSTAT_SET_FLAGS with (2 ^ 3). rewrite (pass_need w fd f 3 _ O) by (try lia; exact R).
  unfold bind at 1. rewrite (the_file_at w fd f (proj1 O)). cbn zeta. change (Z.lor FDFLAGS_APPEND FDFLAGS_APPEND) with 1.
  assert (Z.lor (Z.lxor (wasm_flag f) x) 1 = 1) as ->.
  { apply Z.bits_inj'. intros i Hi. rewrite Z.lor_spec, Z.lxor_spec. change 1 with (2 ^ 0). rewrite bit_pow2 by lia.
    destruct (Z.eqb_spec i 0) as [->|N]; [apply orb_true_r|]. rewrite (E i) by lia. now rewrite xorb_nilpotent. }
  cbn [Z.eqb Pos.eqb negb]. unfold FDFLAGS_APPEND, FDFLAGS_NONBLOCK. rewrite land1_odd, land4_bit.
  pose proof (fun i => flags_bits (host_flag f) x i 10 11 ltac:(lia) ltac:(lia) ltac:(lia)) as BH.
  pose proof (fun i => flags_bits (wasm_flag f) x i 0 2 ltac:(lia) ltac:(lia) ltac:(lia)) as BW.
  change (2 ^ 10) with O_APPEND in BH. change (2 ^ 11) with O_NONBLOCK in BH. change (2 ^ 0) with 1 in BW. change (2 ^ 2) with 4 in BW.
  assert (forall hf wf, (forall i, 0 <= i -> Z.testbit hf i = if i =? 10 then Z.testbit x 0 else if i =? 11 then Z.testbit x 2 else Z.testbit (host_flag f) i) ->
    (forall i, 0 <= i -> Z.testbit wf i = if i =? 0 then Z.testbit x 0 else if i =? 2 then Z.testbit x 2 else Z.testbit (wasm_flag f) i) ->
    Os (w_log w) (OsSetfl (host_fd f) hf) = RUnit ->
    exists w' g hf', (put_file fd (set_flags f hf wf) ;; ask_unit Os (OsSetfl (host_fd f) hf) ;; ret [E_SUCCESS]) w = (Ok [0], w') /\ is_open w' fd g /\ wasm_flag g = x /\
      w_log w' = (OsSetfl (host_fd f) hf', RUnit) :: w_log w /\ Z.testbit hf' 10 = Z.testbit x 0 /\
      (forall i, 0 <= i -> i <> 10 -> i <> 11 -> Z.testbit hf' i = Z.testbit (host_flag f) i) /\
      forall fd' e, fd' <> fd -> entry w' fd' e <-> entry w fd' e) as K.
  { intros hf wf Hh Hw Rp'. assert (wf = x) as Ew.
    { apply Z.bits_inj'. intros i Hi. rewrite (Hw i Hi). destruct (Z.eqb_spec i 0) as [->|]; [reflexivity|].
      destruct (Z.eqb_spec i 2) as [->|]; [reflexivity|]. now rewrite (E i) by lia. }
    unfold bind at 1. rewrite (put_file_at w fd f _ (proj1 O)). unfold ask_unit. unfold bind at 1. unfold bind at 1. unfold ask. cbn [with_fd w_log]. rewrite Rp'.
    unfold ret. eexists. exists (set_flags f hf wf), hf. split; [reflexivity|]. destruct O as ((O1 & O2) & O3).
    split; [split; [split; [exact O1|exact (nth_upd_same _ _ _ _ O2)]|exact O3]|]. split; [exact Ew|]. split; [reflexivity|].
    split; [now rewrite Hh by lia|]. split.
    - intros i I1 I2 I3. rewrite Hh by lia. destruct (Z.eqb_spec i 10); [lia|]. now destruct (Z.eqb_spec i 11); [lia|].
    - intros fd' e N. unfold entry. cbn [w_self with_fd p_fd]. split; intros (K0 & K1); (split; [exact K0|]).
      + rewrite nth_upd_other in K1 by lia. exact K1.
      + rewrite nth_upd_other by lia. exact K1. }
  destruct (Z.testbit x 0), (Z.testbit x 2); cbn [negb] in *; (apply K; [exact BH|exact BW|]); rewrite ?Z.lor_0_l, ?Z.lor_0_r in Rp; rewrite ?Z.lor_assoc in Rp; exact Rp.
Qed.
Lemma set_flags_nonblock Os w fd f : is_open w fd f -> has_right f 3 -> wasm_flag f = 0 -> wasi_call Os F_fd_fdstat_set_flags [fd; 4] w = (Ok [28], w).
Proof.
  intros O R E. cbn [wasi_call]. unfold fd_fdstat_set_flags. rewrite (pass_badf w fd f _ O).
  change R_FD_FDSTAT_SET_FLAGS with (2 ^ 3). rewrite (pass_need w fd f 3 _ O) by (try lia; exact R).
  unfold bind at 1. rewrite (the_file_at w fd f (proj1 O)). cbn zeta. now rewrite E.
Qed.

(* ---- times ---- *)
Lemma has_bit x k : 0 <= k -> has x (2 ^ k) = Z.testbit x k.
Proof. intros H. unfold has. rewrite land_pow2 by exact H. pose proof (Z.pow_pos_nonneg 2 k). destruct (Z.testbit x k); [|reflexivity]. now destruct (Z.eqb_spec (2 ^ k) 0); [lia|]. Qed.
Lemma fst_bits x : has x FST_ATIM = Z.testbit x 0 /\ has x FST_ATIM_NOW = Z.testbit x 1 /\ has x FST_MTIM = Z.testbit x 2 /\ has x FST_MTIM_NOW = Z.testbit x 3.
Proof. split; [|split; [|split]]; [apply (has_bit x 0)|apply (has_bit x 1)|apply (has_bit x 2)|apply (has_bit x 3)]; lia. Qed.
Lemma ask_stat_at Os w c i : Os (w_log w) c = RStat i -> ask_stat Os c w = (Ok i, logged w c (RStat i)).
Proof. intros H. unfold ask_stat, bind, ask. rewrite H. reflexivity. Qed.
Lemma ask_unit_at Os w c : Os (w_log w) c = RUnit -> ask_unit Os c w = (Ok tt, logged w c RUnit).
Proof. intros H. unfold ask_unit, bind, ask. rewrite H. reflexivity. Qed.
Lemma set_times_ok Os w fd f at_ mt fl i now : is_open w fd f -> has_right f 23 -> (forall log, Os log (OsTime 0) = RInt now) ->
  Os (w_log w) (OsStatFd (host_fd f)) = RStat i -> (forall log a m, Os log (OsUtimeFd (host_fd f) a m) = RUnit) ->
  Z.testbit fl 3 = false -> ~ (Z.testbit fl 0 = true /\ Z.testbit fl 1 = true) ->
  exists w', wasi_call Os F_fd_filestat_set_times [fd; at_; mt; fl] w = (Ok [0], w') /\ w_self w' = w_self w /\ w_mach w' = w_mach w /\
  exists evs, w_log w' = (OsUtimeFd (host_fd f) (stamp fl 0 1 (st_atime_ns i) at_ now) (stamp fl 2 3 (st_mtime_ns i) mt now), RUnit) :: evs ++ w_log w /\
  Forall (fun e => match fst e with OsStatFd _ | OsTime _ => True | _ => False end) evs.
Proof.
  intros O R Tm St Ut F3 F01. cbn [wasi_call]. unfold fd_filestat_set_times. rewrite (pass_badf w fd f _ O).
  change R_FD_FILESTAT_SET_TIMES with (2 ^ 23). rewrite (pass_need w fd f 23 _ O) by (try lia; exact R).
  destruct (fst_bits fl) as (B0 & B1 & B2 & B3). rewrite B0, B1, B2, B3, F3. rewrite andb_false_r.
  replace (Z.testbit fl 0 && Z.testbit fl 1) with false by (destruct (Z.testbit fl 0), (Z.testbit fl 1); tauto).
  unfold bind at 1. rewrite (the_file_at w fd f (proj1 O)). unfold bind at 1. rewrite (ask_stat_at Os w _ i St). cbn zeta.
  unfold stamp. rewrite F3. set (w1 := logged w _ _).
  destruct (Z.testbit fl 1).
  - unfold bind at 1. rewrite (ask_int_at Os w1 _ now (Tm _)). unfold bind at 1. rewrite ask_unit_at by apply Ut. unfold ret.
    eexists. split; [reflexivity|]. split; [reflexivity|]. split; [reflexivity|]. exists [(OsTime 0, RInt now); (OsStatFd (host_fd f), RStat i)]. split; [reflexivity|now repeat constructor].
  - unfold bind at 1. unfold ret at 1. unfold bind at 1. rewrite ask_unit_at by apply Ut. unfold ret.
    eexists. split; [reflexivity|]. split; [reflexivity|]. split; [reflexivity|]. exists [(OsStatFd (host_fd f), RStat i)]. split; [reflexivity|now repeat constructor].
Qed.

(* ---- several writes, one after the other, that do not overlap ---- *)
Definition puts (d : list Z) (ws : list (Z * list Z)) : list Z := fold_left (fun d x => splice d (fst x) (snd x)) ws d.
Fixpoint ok_writes (n : Z) (ws : list (Z * list Z)) : Prop :=
  match ws with
  | [] => True
  | (p, bs) :: r => 0 <= p /\ p + len bs <= n /\ Forall (fun x => apart p (len bs) (fst x) (len (snd x))) r /\ ok_writes n r
  end.
Lemma len_puts ws : forall d, ok_writes (len d) ws -> len (puts d ws) = len d.
Proof.
  induction ws as [|(p, bs) r IH]; intros d H; [reflexivity|]. destruct H as (H1 & H2 & _ & H4). cbn [puts fold_left fst snd]. fold (puts (splice d p bs) r).
  assert (len (splice d p bs) = len d) as L by (apply len_splice; assumption). rewrite IH by (rewrite L; exact H4). exact L.
Qed.
Lemma puts_other ws : forall d q n, ok_writes (len d) ws -> 0 <= q -> 0 <= n -> Forall (fun x => apart q n (fst x) (len (snd x))) ws ->
  range_of (puts d ws) q n = range_of d q n.
Proof.
  induction ws as [|(p, bs) r IH]; intros d q n H Q N F; [reflexivity|]. destruct H as (H1 & H2 & H3 & H4). inversion F as [|? ? F1 F2]; subst.
  cbn [puts fold_left fst snd]. fold (puts (splice d p bs) r). assert (len (splice d p bs) = len d) as L by (apply len_splice; assumption).
  rewrite IH by (try assumption; rewrite L; exact H4). apply splice_other; assumption.
Qed.
Lemma puts_read ws : forall d p bs, ok_writes (len d) ws -> In (p, bs) ws -> range_of (puts d ws) p (len bs) = bs.
Proof.
  induction ws as [|(q, cs) r IH]; intros d p bs H I; [now destruct I|]. destruct H as (H1 & H2 & H3 & H4).
  cbn [puts fold_left fst snd]. fold (puts (splice d q cs) r). assert (len (splice d q cs) = len d) as L by (apply len_splice; assumption).
  destruct I as [I|I].
  - injection I as -> ->. rewrite puts_other; [now apply splice_read|rewrite L; exact H4|exact H1|apply len_nonneg|exact H3].
  - apply IH; [rewrite L; exact H4|exact I].
Qed.
Lemma puts_nth ws : forall d k, ok_writes (len d) ws -> Forall (fun x => Z.of_nat k < fst x \/ fst x + len (snd x) <= Z.of_nat k) ws ->
  nth_error (puts d ws) k = nth_error d k.
Proof.
  induction ws as [|(q, cs) r IH]; intros d k H F; [reflexivity|]. destruct H as (H1 & H2 & H3 & H4). inversion F as [|? ? F1 F2]; subst. cbn [fst snd] in F1.
  cbn [puts fold_left fst snd]. fold (puts (splice d q cs) r). assert (len (splice d q cs) = len d) as L by (apply len_splice; assumption).
  rewrite IH by (try assumption; rewrite L; exact H4). rewrite nth_splice by assumption.
  now replace ((q <=? Z.of_nat k) && (Z.of_nat k <? q + len cs)) with false by lia.
Qed.
Lemma puts_app d a b : puts d (a ++ b) = puts (puts d a) b.
Proof. apply fold_left_app. Qed.
(* [m] makes the writes [ws] into memory number [a] *)
Definition writes (a : nat) (m : W unit) (ws : list (Z * list Z)) : Prop :=
  Forall (fun x => bytes (snd x)) ws /\
  forall w d, guest w a d -> ok_writes (len d) ws -> m w = (Ok tt, set_guest w a (puts d ws)).
Lemma bytes_puts ws : Forall (fun x => bytes (snd x)) ws -> forall d, bytes d -> bytes (puts d ws).
Proof. intros F. induction F as [|x r F1 _ IH]; intros d B; [exact B|]. cbn [puts fold_left]. apply IH. now apply bytes_splice. Qed.
Lemma ok_app n a b : ok_writes n (a ++ b) -> ok_writes n a /\ ok_writes n b.
Proof.
  induction a as [|(p, bs) r IH]; intros H; [now split|]. destruct H as (H1 & H2 & H3 & H4). destruct (IH H4) as (I1 & I2).
  apply Forall_app in H3. now repeat split.
Qed.
Lemma writes_then a m1 ws1 m2 ws2 : writes a m1 ws1 -> writes a m2 ws2 -> writes a (m1 ;; m2) (ws1 ++ ws2).
Proof.
  intros (B1 & W1) (B2 & W2). split; [apply Forall_app; now split|]. intros w d G K. destruct (ok_app _ _ _ K) as (K1 & K2).
  unfold bind at 1. rewrite (W1 w d G K1). rewrite (W2 _ (puts d ws1)).
  - now rewrite set_set, <- puts_app.
  - eapply guest_set; [exact G|]. apply bytes_puts; [exact B1|exact (guest_bytes _ _ _ G)].
  - now rewrite len_puts.
Qed.
Lemma writes_u a k p v : 0 <= k -> 0 <= v < 2 ^ (8 * k) -> writes a (write_mem (Z.of_nat a) (fun x => mem_put_u k x p v)) [(p, to_le (Z.to_nat k) v)].
Proof.
  intros K V. split; [repeat constructor; apply to_le_bytes|]. intros w d G (H1 & H2 & _). rewrite len_to_le in H2. now rewrite (put_u_at w a d k p v G) by lia.
Qed.
Lemma writes_u8 a p v : 0 <= v < 256 -> writes a (put_u8 (Z.of_nat a) p v) [(p, [v])].
Proof.
  intros V. split; [repeat constructor; lia|]. intros w d G (H1 & H2 & _). change (len [v]) with 1 in H2. now rewrite (put_u8_at w a d p v G) by lia.
Qed.
Lemma writes_bytes a p bs : bytes bs -> writes a (put_bytes (Z.of_nat a) p bs) [(p, bs)].
Proof. intros B. split; [now repeat constructor|]. intros w d G (H1 & H2 & _). now rewrite (put_bytes_at w a d p bs G) by lia. Qed.
Lemma writes_run a m ws w d : writes a m ws -> guest w a d -> ok_writes (len d) ws ->
  m w = (Ok tt, set_guest w a (puts d ws)) /\ guest (set_guest w a (puts d ws)) a (puts d ws).
Proof.
  intros (B & W) G K. split; [now apply W|]. eapply guest_set; [exact G|]. apply bytes_puts; [exact B|exact (guest_bytes _ _ _ G)].
Qed.

(* ---- file attributes ---- *)
Definition stat_writes (p t : Z) (i : statinfo) : list (Z * list Z) :=
  [(p, to_le 8 1); (p + 8, to_le 8 (st_ino i)); (p + 16, [t]); (p + 24, to_le 8 (st_nlink i)); (p + 32, to_le 8 (st_size i));
   (p + 40, to_le 8 (st_atime_ns i)); (p + 48, to_le 8 (st_mtime_ns i)); (p + 56, to_le 8 (st_ctime_ns i))].
Lemma stat_ok n p t i : 0 <= p -> p + 64 <= n -> ok_writes n (stat_writes p t i).
Proof.
  intros H1 H2. unfold stat_writes. cbn [ok_writes]. rewrite !len_to_le. change (len [t]) with 1.
  repeat match goal with |- _ /\ _ => split end; try exact I; try lia;
    repeat (apply Forall_cons; [unfold apart; cbn [fst snd]; rewrite ?len_to_le; change (len [t]) with 1; lia|]); apply Forall_nil.
Qed.
Lemma put_stat_writes a p t i : sane_stat i -> 0 <= t < 256 -> writes a (put_stat (Z.of_nat a) p t i) (stat_writes p t i).
Proof.
  intros (I1 & I2 & I3 & I4 & I5 & I6) T. unfold put_stat, put_u64, stat_writes.
  repeat match goal with |- writes _ (_ ;; _) (?x :: ?r) => apply (writes_then a _ [x] _ r) end;
    first [apply (writes_u a 8); [lia|assumption || (split; [lia|reflexivity])] | now apply writes_u8].
Qed.
Lemma stat_result d p t i : 0 <= p -> p + 64 <= len d -> filestat_at d (puts d (stat_writes p t i)) p t i.
Proof.
  intros H1 H2. pose proof (stat_ok (len d) p t i H1 H2) as K. unfold filestat_at.
  assert (forall q bs, In (q, bs) (stat_writes p t i) -> range_of (puts d (stat_writes p t i)) q (len bs) = bs) as R by (intros q bs I; now apply puts_read).
  split; [now apply len_puts|].
  split; [exact (R (p + 8) (to_le 8 (st_ino i)) ltac:(cbn; tauto))|]. split; [exact (R (p + 16) [t] ltac:(cbn; tauto))|].
  split; [exact (R (p + 24) (to_le 8 (st_nlink i)) ltac:(cbn; tauto))|]. split; [exact (R (p + 32) (to_le 8 (st_size i)) ltac:(cbn; tauto))|].
  split; [exact (R (p + 40) (to_le 8 (st_atime_ns i)) ltac:(cbn; tauto))|]. split; [exact (R (p + 48) (to_le 8 (st_mtime_ns i)) ltac:(cbn; tauto))|].
  split; [exact (R (p + 56) (to_le 8 (st_ctime_ns i)) ltac:(cbn; tauto))|].
  intros k Hk. apply puts_nth; [exact K|]. unfold stat_writes.
  repeat (apply Forall_cons; [cbn [fst snd]; rewrite ?len_to_le; change (len [t]) with 1; lia|]); apply Forall_nil.
Qed.
Lemma filestat_ok Os w fd f a d p i : is_open w fd f -> has_right f 21 -> guest w a d -> 0 <= p -> p + 64 <= len d -> 0 <= wasm_type f < 256 ->
  let c := OsStat (host_name f) None true in Os (w_log w) c = RStat i -> sane_stat i ->
  exists d', filestat_at d d' p (wasm_type f) i /\ wasi_call Os F_fd_filestat_get [fd; p] w = (Ok [0], set_guest (logged w c (RStat i)) a d').
Proof.
  intros O R G P1 P2 T c Rp Si. exists (puts d (stat_writes p (wasm_type f) i)). split; [now apply stat_result|].
  cbn [wasi_call]. unfold fd_filestat_get. rewrite (pass_badf w fd f _ O).
  change R_FD_FILESTAT_GET with (2 ^ 21). rewrite (pass_need w fd f 21 _ O) by (try lia; exact R).
  unfold bind at 1. rewrite (the_mem_guest w a d G). unfold bind at 1. rewrite (the_file_at w fd f (proj1 O)).
  unfold bind at 1. fold c. rewrite (ask_stat_at Os w c i Rp). assert (guest (logged w c (RStat i)) a d) as G1 by exact G.
  destruct (writes_run a _ _ _ d (put_stat_writes a p (wasm_type f) i Si T) G1 (stat_ok _ _ _ _ P1 P2)) as (E & _).
  unfold bind at 1. rewrite E. reflexivity.
Qed.
(* fd_filestat_get never asks about the descriptor *)
Lemma filestat_by_name Os w fd f a d p : is_open w fd f -> has_right f 21 -> guest w a d ->
  exists evs, w_log (snd (wasi_call Os F_fd_filestat_get [fd; p] w)) = evs /\ evs = (OsStat (host_name f) None true, Os (w_log w) (OsStat (host_name f) None true)) :: w_log w.
Proof.
  intros O R G. eexists. split; [reflexivity|]. cbn [wasi_call]. unfold fd_filestat_get. rewrite (pass_badf w fd f _ O).
  change R_FD_FILESTAT_GET with (2 ^ 21). rewrite (pass_need w fd f 21 _ O) by (try lia; exact R).
  unfold bind at 1. rewrite (the_mem_guest w a d G). unfold bind at 1. rewrite (the_file_at w fd f (proj1 O)).
  unfold bind at 1. unfold ask_stat. unfold bind at 1. unfold ask. set (r := Os _ _).
  assert (forall w0 i, w_log (snd ((put_stat (Z.of_nat a) p (wasm_type f) i ;; ret [E_SUCCESS]) w0)) = w_log w0) as K.
  { intros w0 i. apply still_bind; [apply still_put_stat|]. intros _. apply still_ret. }
  destruct r; try reflexivity. unfold ret at 1. now rewrite K.
Qed.

(* ---- fd_fdstat_get ---- *)
Lemma fdstat_ok Os w fd f a d p : is_open w fd f -> guest w a d -> 0 <= p -> p + 24 <= len d ->
  0 <= wasm_type f < 256 -> 0 <= wasm_flag f < 2 ^ 16 -> 0 <= rights_base f < 2 ^ 64 -> 0 <= rights_root f < 2 ^ 64 ->
  exists d', len d' = len d /\ range_of d' p 1 = [wasm_type f] /\ range_of d' (p + 2) 2 = to_le 2 (wasm_flag f) /\
  range_of d' (p + 8) 8 = to_le 8 (rights_base f) /\ range_of d' (p + 16) 8 = to_le 8 (rights_root f) /\
  (forall k, 0 <= k < p \/ p + 24 <= k < len d -> nth_error d' (Z.to_nat k) = nth_error d (Z.to_nat k)) /\
  wasi_call Os F_fd_fdstat_get [fd; p] w = (Ok [0], set_guest w a d').
Proof.
  intros O G P1 P2 T1 T2 T3 T4.
  set (ws := [(p, [wasm_type f]); (p + 2, to_le 2 (wasm_flag f)); (p + 8, to_le 8 (rights_base f)); (p + 16, to_le 8 (rights_root f))]).
  assert (ok_writes (len d) ws) as K.
  { unfold ws. cbn [ok_writes]. rewrite !len_to_le. change (len [wasm_type f]) with 1.
    repeat match goal with |- _ /\ _ => split end; try exact I; try lia;
      repeat (apply Forall_cons; [unfold apart; cbn [fst snd]; rewrite ?len_to_le; lia|]); apply Forall_nil. }
  exists (puts d ws).
  assert (forall q bs, In (q, bs) ws -> range_of (puts d ws) q (len bs) = bs) as R by (intros q bs I; now apply puts_read).
  split; [now apply len_puts|]. split; [exact (R p [wasm_type f] ltac:(cbn; tauto))|]. split; [exact (R (p + 2) (to_le 2 (wasm_flag f)) ltac:(cbn; tauto))|].
  split; [exact (R (p + 8) (to_le 8 (rights_base f)) ltac:(cbn; tauto))|]. split; [exact (R (p + 16) (to_le 8 (rights_root f)) ltac:(cbn; tauto))|].
  split.
  { intros k Hk. apply puts_nth; [exact K|]. unfold ws. repeat (apply Forall_cons; [cbn [fst snd]; rewrite ?len_to_le; change (len [wasm_type f]) with 1; lia|]); apply Forall_nil. }
  cbn [wasi_call]. unfold fd_fdstat_get. rewrite (pass_badf w fd f _ O).
  unfold bind at 1. rewrite (the_mem_guest w a d G). unfold bind at 1. rewrite (the_file_at w fd f (proj1 O)).
  assert (writes a (put_u8 (Z.of_nat a) p (wasm_type f) ;; put_u16 (Z.of_nat a) (p + 2) (wasm_flag f) ;; put_u64 (Z.of_nat a) (p + 8) (rights_base f) ;;
    put_u64 (Z.of_nat a) (p + 16) (rights_root f)) ws) as WR.
  { unfold ws, put_u16, put_u64. repeat match goal with |- writes _ (_ ;; _) (?x :: ?r) => apply (writes_then a _ [x] _ r) end;
    first [apply (writes_u a 8); [lia|assumption] | apply (writes_u a 2); [lia|assumption] | now apply writes_u8]. }
  destruct (writes_run a _ _ w d WR G K) as (E & _).
  revert E. unfold bind. destruct (put_u8 _ _ _ _) as [[[]|e] w1]; [|discriminate]. destruct (put_u16 _ _ _ _) as [[[]|e] w2]; [|discriminate].
  destruct (put_u64 _ (p + 8) _ _) as [[[]|e] w3]; [|discriminate]. intros ->. reflexivity.
Qed.

(* ---- poll_oneoff ---- *)
Lemma get_u8_at w a d p : guest w a d -> 0 <= p -> p + 1 <= len d -> get_u8 (Z.of_nat a) p w = (Ok (le_of (range_of d p 1)), w).
Proof.
  intros G H1 H2. apply read_guest with (d := d); [exact G|]. intros mem D. unfold mem_get_u8. rewrite D.
  assert (exists b, nth_error d (Z.to_nat p) = Some b) as (b & B).
  { destruct (nth_error d (Z.to_nat p)) as [b|] eqn:E; [now exists b|]. apply nth_error_None in E. unfold len in H2. lia. }
  rewrite (index_at d p b H1 B). assert (range_of d p 1 = [b]) as ->; [|cbn; f_equal; lia].
  apply nth_error_ext. intros i. rewrite nth_range_of by lia. destruct i as [|i].
  - change (Z.of_nat 0 <? 1) with true. now rewrite Nat.add_0_r.
  - replace (Z.of_nat (S i) <? 1) with false by lia. now destruct i.
Qed.
Lemma poll_past Os w a d x0 x1 x3 clock t now : guest w a d -> absolute_clock d x0 clock t -> 0 <= clock <= 3 ->
  Os (w_log w) (OsTime clock) = RInt now -> now < t ->
  wasi_call Os F_poll_oneoff [x0; x1; 1; x3] w = (Err EValue, logged w (OsTime clock) (RInt now)).
Proof.
  intros G (P1 & P2 & A1 & A2 & A3 & A4) Hc Rp L. cbn [wasi_call]. unfold poll_oneoff. unfold bind at 1. rewrite (the_mem_guest w a d G).
  unfold bind at 1. change (Z.to_nat 1) with 1%nat. cbn [poll_collect].
  unfold bind at 1. unfold get_u64 at 1. rewrite (get_u_at w a d 8 x0 G) by lia.
  unfold bind at 1. rewrite (get_u8_at w a d (x0 + 8) G) by lia. rewrite A1. cbn [Z.eqb].
  unfold bind at 1. unfold get_u64 at 1. rewrite (get_u_at w a d 8 (x0 + 16) G) by lia. rewrite A2.
  unfold bind at 1. unfold get_u64 at 1. rewrite (get_u_at w a d 8 (x0 + 24) G) by lia. rewrite A3.
  unfold bind at 1. unfold get_u32 at 1. rewrite (get_u_at w a d 4 (x0 + 40) G) by lia.
  unfold bind at 1. unfold help_time. replace ((0 <=? clock) && (clock <=? 3)) with true by lia. rewrite (ask_int_at Os w _ now Rp). cbn zeta.
  replace (has (le_of (range_of d (x0 + 40) 4)) 1) with true by (symmetry; change 1 with (2 ^ 0) at 1; rewrite has_bit by lia; now rewrite Z.bit0_odd).
  unfold ret at 1. cbn [sub_c sub_r sub_w app mapl].
  unfold bind at 1. unfold ret at 1. unfold bind at 1. unfold ret at 1. unfold min_list. cbn [map fold_left].
  replace (now - t <? 0) with true by lia. reflexivity.
Qed.

(* ---- error numbers ---- *)
Definition right_errno {A} (m : W (list A)) (w : world) (P : A -> oserr -> Prop) : Prop :=
  forall n w' c e, m w = (Ok [n], w') -> w_log w' = (c, RFail e) :: w_log w -> P n e.
Definition errno_is (n : Z) (e : oserr) : Prop := wasi_errno e = Some n.
Lemma cons_neq {A} (x : A) l : l = x :: l -> False.
Proof. intros H. apply (f_equal (@length A)) in H. cbn in H. lia. Qed.
Lemma re_ret w n : right_errno (ret [n]) w errno_is.
Proof. intros n' w' c e H L. unfold ret in H. injection H as <- <-. now apply cons_neq in L. Qed.
Lemma re_same {B} (m : W B) k w : snd (m w) = w -> (forall b, right_errno (k b) w errno_is) -> right_errno (let! b := m in k b) w errno_is.
Proof.
  intros S K n w' c e H L. unfold bind in H. destruct (m w) as [[b|x] w1]; cbn [snd] in S; subst w1; [|discriminate H]. exact (K b n w' c e H L).
Qed.
Lemma re_badf fd k w : right_errno k w errno_is -> right_errno (unless_badf fd k) w errno_is.
Proof. intros K. apply re_same; [reflexivity|]. intros p. destruct (help_badf p fd); [apply re_ret|exact K]. Qed.
Lemma file_same fd w : snd (the_file fd w) = w.
Proof. unfold the_file, bind, self, lift. now destruct (py_index _ _). Qed.
Lemma re_need fd r k w : right_errno k w errno_is -> right_errno (need fd r k) w errno_is.
Proof.
  intros K. apply re_same.
  - unfold help_perm, bind. pose proof (file_same fd w) as S. destruct (the_file fd w) as [[f|x] w1]; exact S.
  - intros b. destruct b; [apply re_ret|exact K].
Qed.
Lemma re_escp r nm k w : right_errno k w errno_is -> right_errno (unless_escp r nm k) w errno_is.
Proof. intros K. unfold unless_escp. destruct (help_escp r nm); [apply re_ret|exact K]. Qed.
Lemma re_try Os c h k w : (forall e n, h e = Some n -> errno_is n e) ->
  (forall r l w', k r (logged w c r) = (Ok l, w') -> exists evs, w_log w' = evs ++ (c, r) :: w_log w) ->
  right_errno (ask_try Os c h k) w errno_is.
Proof.
  intros H K n w' c' e E L. unfold ask_try, bind, ask in E. specialize (K (Os (w_log w) c)).
  assert (forall r l, r = Os (w_log w) c -> k r (logged w c r) = (Ok l, w') -> (forall x, r <> RFail x) -> errno_is n e) as K'.
  { intros r l -> Er NF. destruct (K l w' Er) as (evs & Lv). rewrite L in Lv. destruct evs as [|x evs].
    - injection Lv as _ Lv. exfalso. apply (NF e). now symmetry.
    - apply (f_equal (@length event)) in Lv. cbn in Lv. rewrite app_length in Lv. cbn in Lv. unfold event in Lv. lia. }
  destruct (Os (w_log w) c) as [|z| | | | | | |x] eqn:R; try (apply (K' _ _ eq_refl E); discriminate).
  destruct (h x) as [m|] eqn:Hx.
  - unfold ret in E. injection E as <- <-. cbn [w_log] in L. injection L as _ <-. now apply H.
  - unfold os_raise, fail in E. discriminate E.
Qed.
Lemma still_evs {A} (m : W A) c r w l w' : still m -> m (logged w c r) = (Ok l, w') -> exists evs, w_log w' = evs ++ (c, r) :: w_log w.
Proof. intros S E. destruct (S (logged w c r)) as (_ & L). rewrite E in L. cbn [snd] in L. exists []. exact L. Qed.
Lemma re_check p (b : preview1 -> bool) k w : right_errno k w errno_is -> p = [8] ->
  right_errno (let! q := self in if b q then ret p else k) w errno_is.
Proof. intros K ->. apply re_same; [reflexivity|]. intros q. destruct (b q); [apply re_ret|exact K]. Qed.
Definition extends {A} (m : W A) : Prop := forall w, exists evs, w_log (snd (m w)) = evs ++ w_log w.
Lemma ext_still {A} (m : W A) : still m -> extends m.
Proof. intros S w. exists []. now destruct (S w). Qed.
Lemma ext_same {A} (m : W A) : (forall w, w_log (snd (m w)) = w_log w) -> extends m.
Proof. intros S w. exists []. apply S. Qed.
Lemma ext_ask Os c : extends (ask Os c).
Proof. intros w. now exists [(c, Os (w_log w) c)]. Qed.
Lemma ext_bind {A B} (m : W A) (k : A -> W B) : extends m -> (forall a, extends (k a)) -> extends (bind m k).
Proof.
  intros M K w. unfold bind. destruct (M w) as (e1 & E1). destruct (m w) as [[a|x] w1]; cbn [snd] in *; [|exists e1; exact E1].
  destruct (K a w1) as (e2 & E2). exists (e2 ++ e1). now rewrite E2, E1, app_assoc.
Qed.
Ltac ext_tac := repeat first
  [ apply ext_bind; [|intros ?] | apply ext_ask | apply ext_still; solve [still_tac]
  | apply ext_same; intros; reflexivity
  | match goal with |- extends (match ?b with _ => _ end) => destruct b end ].
Ltac re_step := first
  [ apply re_badf | apply re_need | apply re_escp | apply re_ret
  | apply re_same; [first [reflexivity|apply the_mem_same|apply file_same|apply get_str_same]|intros ?]
  | match goal with |- right_errno (if ?b then _ else _) _ _ => destruct b end ].
Lemma errno_right Os f args w : path_call f -> right_errno (wasi_call Os f args) w errno_is.
Proof.
  intros PC. destruct f; try (now destruct PC); clear PC; repeat (destruct args as [|? args]; try (intros ? ? ? ? E; discriminate E)); cbn [wasi_call].
  - unfold path_create_directory. repeat re_step. apply re_try; [intros [| | | | | |err|err] nn; cbn; try discriminate; intros H; exact H|].
    intros r l w' E. apply still_evs in E; [exact E|apply still_ret].
  - unfold path_filestat_get. repeat re_step. apply re_try; [intros [| | | | | |err|err] nn; cbn; try discriminate; intros H; exact H|].
    intros r l w' E. apply still_evs in E; [exact E|]. destruct r; try apply still_fail. apply still_bind; [apply still_put_stat|intros; apply still_ret].
  - unfold path_link. repeat re_step. apply re_try; [intros [| | | | | |err|err] nn; cbn; try discriminate; intros H; exact H|].
    intros r l w' E. apply still_evs in E; [exact E|apply still_ret].
  - unfold path_open. repeat re_step. cbn zeta. repeat re_step. cbn zeta. repeat re_step. apply re_try.
    { intros [| | | | | |err|err] nn; cbn; try discriminate; try (intros H; exact H). unfold errno_is, wasi_errno. destruct (Z.eqb_spec err 40); [subst|discriminate]. intros H; exact H. }
    assert (forall m : W (list Z), extends m -> forall c r l w', m (logged w c r) = (Ok l, w') -> exists evs, w_log w' = evs ++ (c, r) :: w_log w) as X.
    { intros m M c r l w' E. destruct (M (logged w c r)) as (evs & L). rewrite E in L. now exists evs. }
    intros r. apply (X _). destruct r; try (apply ext_still; apply still_fail). unfold ask_bool, ask_stat, os_raise, set_fd, set_self. ext_tac.
  - unfold path_readlink. repeat re_step. apply re_try; [intros [| | | | | |err|err] nn; cbn; try discriminate; intros H; exact H|].
    intros r l w' E. apply still_evs in E; [exact E|]. destruct r; try apply still_fail. cbn zeta. still_tac.
  - unfold path_remove_directory. repeat re_step. apply re_try.
    { intros [| | | | | |err|err] nn; cbn; try discriminate; try (intros H; exact H). unfold errno_is, wasi_errno. destruct (Z.eqb_spec err 39); [subst|discriminate]. intros H; exact H. }
    intros r l w' E. apply still_evs in E; [exact E|apply still_ret].
  - unfold path_rename. repeat re_step. apply re_try.
    { intros [| | | | | |err|err] nn; cbn; try discriminate; try (intros H; exact H). unfold errno_is, wasi_errno. destruct (Z.eqb_spec err 39); [subst|discriminate]. intros H; exact H. }
    intros r l w' E. apply still_evs in E; [exact E|apply still_ret].
  - unfold path_symlink. repeat re_step. apply re_try; [intros [| | | | | |err|err] nn; cbn; try discriminate; intros H; exact H|].
    intros r l w' E. apply still_evs in E; [exact E|apply still_ret].
  - unfold path_unlink_file. repeat re_step. apply re_try; [intros [| | | | | |err|err] nn; cbn; try discriminate; intros H; exact H|].
    intros r l w' E. apply still_evs in E; [exact E|apply still_ret].
Qed.

(* ---- truncating, clocks, random bytes ---- *)
Lemma trunc_needs Os w fd f x1 x2 x3 x4 x5 x6 x7 x8 r w' : is_open w fd f -> ~ has_right f 19 -> Z.testbit x4 3 = true ->
  wasi_call Os F_path_open [fd; x1; x2; x3; x4; x5; x6; x7; x8] w = (r, w') -> w' = w /\ r <> Ok [0].
Proof.
  intros Op N T H. pose proof Op as ((Hf & Nf) & O). cbn [wasi_call] in H. unfold path_open in H.
  rewrite (pass_badf w fd f _ Op) in H. rewrite (need_eq w fd f _ _ (proj1 Op)) in H.
  destruct (_ =? 0); [unfold ret in H; injection H as <- <-; now split|].
  unfold bind at 1 in H. pose proof (the_mem_same w) as S. destruct (the_mem w) as [[a|e] w1]; cbn [snd] in S; subst w1; [|injection H as <- <-; now split].
  unfold bind at 1 in H. rewrite (the_file_at w fd f (proj1 Op)) in H.
  unfold bind at 1 in H. pose proof (get_str_same a x2 x3 w) as S. destruct (get_str a x2 x3 w) as [[nm|e] w1]; cbn [snd] in S; subst w1; [|injection H as <- <-; now split].
  cbn zeta in H. destruct (existsb _ nm); [unfold ret in H; injection H as <- <-; now split|].
  unfold unless_escp in H. destruct (help_escp _ _); [unfold ret in H; injection H as <- <-; now split|].
  change 8 with (2 ^ 3) in H at 1. rewrite has_bit, T in H by lia.
  change R_PATH_FILESTAT_SET_SIZE with (2 ^ 19) in H. rewrite land_pow2 in H by lia. unfold has_right in N.
  destruct (Z.testbit (rights_base f) 19); [congruence|]. cbn [negb andb] in H. unfold ret in H. injection H as <- <-. now split.
Qed.
Lemma clock_time_ok Os w a d id prec p t : guest w a d -> 0 <= id <= 3 -> 0 <= p -> p + 8 <= len d ->
  Os (w_log w) (OsTime id) = RInt t -> 0 <= t < 2 ^ 64 ->
  exists d', overwritten d d' p (to_le 8 t) /\
  wasi_call Os F_clock_time_get [id; prec; p] w = (Ok [0], set_guest (logged w (OsTime id) (RInt t)) a d').
Proof.
  intros G Hi Hp L Rp Ht. cbn [wasi_call]. unfold clock_time_get. unfold bind at 1. rewrite (the_mem_guest w a d G).
  unfold bind at 1. unfold help_time. replace ((0 <=? id) && (id <=? 3)) with true by lia. rewrite (ask_int_at Os w _ t Rp).
  destruct (put_u64_at (logged w (OsTime id) (RInt t)) a d p t G Hp L Ht) as (d' & O & _ & E).
  exists d'. split; [exact O|exact E].
Qed.
Lemma random_ok Os w a d p n bs : guest w a d -> 0 <= n -> 0 <= p -> p + n <= len d -> Os (w_log w) (OsRandom n) = RBytes bs -> bytes bs -> len bs = n ->
  exists d', overwritten d d' p bs /\ wasi_call Os F_random_get [p; n] w = (Ok [0], set_guest (logged w (OsRandom n) (RBytes bs)) a d').
Proof.
  intros G Hn Hp L Rp B Lb. exists (splice d p bs). split; [apply splice_over; lia|].
  cbn [wasi_call]. unfold random_get. unfold bind at 1. rewrite (the_mem_guest w a d G). replace (n <? 0) with false by lia.
  unfold bind at 1. unfold ask_bytes. unfold bind at 1. unfold ask. rewrite Rp.
  change (mkworld (w_self w) ((OsRandom n, RBytes bs) :: w_log w) (w_pipes w) (w_mach w)) with (logged w (OsRandom n) (RBytes bs)).
  unfold ret at 1. unfold bind at 1.
  rewrite (put_bytes_at (logged w (OsRandom n) (RBytes bs)) a d p bs G) by lia. reflexivity.
Qed.

(* ---- directory listings ---- *)
Lemma ltb_before a : forall b, str_ltb b a = false <-> before a b.
Proof.
  induction a as [|x a IH]; intros [|y b]; cbn [str_ltb].
  - split; [constructor|reflexivity].
  - split; [constructor|reflexivity].
  - split; [discriminate|]. intros H. inversion H.
  - split.
    + intros H. apply orb_false_iff in H. destruct H as (H1 & H2). destruct (Z.eq_dec x y) as [->|N].
      * apply before_eq, IH. rewrite Z.eqb_refl in H2. exact H2.
      * apply before_lt. lia.
    + intros H. inversion H; subst.
      * replace (y <? x) with false by lia. replace (y =? x) with false by lia. reflexivity.
      * rewrite Z.ltb_irrefl, Z.eqb_refl. now apply IH.
Qed.
Lemma before_trans a : forall b c, before a b -> before b c -> before a c.
Proof.
  induction a as [|x a IH]; intros b c H K; [constructor|]. inversion H; subst; inversion K; subst;
    try (apply before_lt; lia). apply before_eq. eapply IH; eassumption.
Qed.
Lemma before_total a : forall b, before a b \/ before b a.
Proof.
  induction a as [|x a IH]; intros [|y b]; [left; constructor|left; constructor|right; constructor|]. destruct (Z.lt_total x y) as [H|[->|H]].
  - left. now apply before_lt.
  - destruct (IH b); [left|right]; now apply before_eq.
  - right. now apply before_lt.
Qed.
Lemma insert_perm x l : Permutation (x :: l) (insert_name x l).
Proof.
  induction l as [|y l IH]; [apply Permutation_refl|]. cbn [insert_name]. destruct (str_ltb y x); [|apply Permutation_refl].
  eapply perm_trans; [apply perm_swap|]. now apply perm_skip.
Qed.
Lemma insert_sorted x l : StronglySorted before l -> StronglySorted before (insert_name x l).
Proof.
  induction l as [|y l IH]; intros S; [repeat constructor|]. cbn [insert_name]. inversion S as [|? ? S1 S2]; subst. destruct (str_ltb y x) eqn:E.
  - constructor; [now apply IH|]. apply (Permutation_Forall (insert_perm x l)). constructor; [|exact S2].
    destruct (before_total y x) as [H|H]; [exact H|]. apply ltb_before in H. congruence.
  - apply ltb_before in E. constructor; [exact S|]. constructor; [exact E|]. eapply Forall_impl; [|exact S2]. intros z Hz. eapply before_trans; eassumption.
Qed.
Lemma sort_ok l : Permutation l (sort_names l) /\ StronglySorted before (sort_names l).
Proof.
  induction l as [|x l (P & S)]; [split; constructor|]. cbn [sort_names fold_right]. fold (sort_names l). split.
  - eapply perm_trans; [apply perm_skip; exact P|apply insert_perm].
  - now apply insert_sorted.
Qed.
Lemma type_byte i : 0 <= help_wasm_type i < 256.
Proof. unfold help_wasm_type. cbn zeta. repeat match goal with |- context [if ?b then _ else _] => destruct b end; split; vm_compute; congruence. Qed.
Definition header (info : name -> statinfo) (p number : Z) (s : name) : list (Z * list Z) :=
  [(p, to_le 8 (number + 1)); (p + 8, to_le 8 (st_ino (info s))); (p + 16, to_le 4 (len s)); (p + 20, [help_wasm_type (info s)])].
Fixpoint entries (info : name -> statinfo) (p number : Z) (l : list name) : list (Z * list Z) :=
  match l with
  | [] => []
  | s :: l' => header info p number s ++ (p + 24, s) :: entries info (p + 24 + len s) (number + 1) l'
  end.
Definition within (lo hi : Z) (ws : list (Z * list Z)) : Prop := Forall (fun x => lo <= fst x /\ fst x + len (snd x) <= hi) ws.
Lemma within_apart p n lo hi ws : p + n <= lo -> within lo hi ws -> Forall (fun x => apart p n (fst x) (len (snd x))) ws.
Proof. intros H. apply Forall_impl. intros x Hx. unfold apart. lia. Qed.
Lemma header_within info p number s : within p (p + 24) (header info p number s).
Proof. repeat constructor; cbn [fst snd]; rewrite ?len_to_le; cbn [len length]; try lia; change (len [help_wasm_type (info s)]) with 1; lia. Qed.
Lemma header_ok n info p number s r : 0 <= p -> p + 24 <= n -> within (p + 24) n r -> ok_writes n r -> ok_writes n (header info p number s ++ r).
Proof.
  intros H1 H2 H3 H4. cbn [header app ok_writes]. repeat split; rewrite ?len_to_le; try change (len [help_wasm_type (info s)]) with 1; try lia;
    repeat (apply Forall_cons; [cbn [fst snd]; rewrite ?len_to_le; try change (len [help_wasm_type (info s)]) with 1; unfold apart; lia|]);
    try (apply (within_apart _ _ (p + 24) n); [lia|exact H3]); exact H4.
Qed.
Lemma within_weak lo lo' hi hi' ws : lo' <= lo -> hi <= hi' -> within lo hi ws -> within lo' hi' ws.
Proof. intros H1 H2. apply Forall_impl. intros x Hx. lia. Qed.
Lemma header_writes a info p number s : 0 <= number + 1 < 2 ^ 64 -> 0 <= st_ino (info s) < 2 ^ 64 -> len s < 2 ^ 32 ->
  writes a (put_u64 (Z.of_nat a) p (number + 1) ;; put_u64 (Z.of_nat a) (p + 8) (st_ino (info s)) ;;
            put_u32 (Z.of_nat a) (p + 16) (len s) ;; put_u8 (Z.of_nat a) (p + 20) (help_wasm_type (info s))) (header info p number s).
Proof.
  intros H1 H2 H3. pose proof (len_nonneg s). unfold header.
  apply (writes_then a _ [_] _ [_; _; _]); [apply (writes_u a 8); [lia|exact H1]|].
  apply (writes_then a _ [_] _ [_; _]); [apply (writes_u a 8); [lia|exact H2]|].
  apply (writes_then a _ [_] _ [_]); [apply (writes_u a 4); [lia|change (2 ^ (8 * 4)) with (2 ^ 32); lia]|]. apply writes_u8, type_byte.
Qed.
Lemma seq4 {A} (m1 m2 m3 m4 : W unit) (k : W A) w : (m1 ;; m2 ;; m3 ;; m4 ;; k) w = ((m1 ;; m2 ;; m3 ;; m4) ;; k) w.
Proof. unfold bind. destruct (m1 w) as [[?|?] w1]; [|reflexivity]. destruct (m2 w1) as [[?|?] w2]; [|reflexivity]. now destruct (m3 w2) as [[?|?] w3]. Qed.
Lemma more_nil w : more_log w [] = w.
Proof. now destruct w. Qed.
Lemma ascii_len s : ascii s -> len (utf8 s) = len s.
Proof. intros H. now rewrite ascii_utf8. Qed.
Lemma size_nonneg l : 0 <= size_of l.
Proof. induction l as [|s l IH]; [cbn; lia|]. change (size_of (s :: l)) with (24 + len (utf8 s) + size_of l). pose proof (len_nonneg (utf8 s)). lia. Qed.
Lemma readdir_ok Os a host info bufend : forall l, Forall ascii l -> Forall (statable Os host info) l -> forall w d dirent cookie,
  guest w a d -> 0 <= dirent <= bufend -> bufend <= len d -> 0 <= cookie -> cookie + len l < 2 ^ 64 ->
  exists l1 l2 ws1 evs dirent', l = l1 ++ l2 /\ let ws := entries info dirent cookie l1 ++ ws1 in
  readdir_loop Os (Z.of_nat a) host l bufend dirent cookie w = (Ok (dirent', cookie + len l1), set_guest (more_log w evs) a (puts d ws)) /\
  guest (set_guest (more_log w evs) a (puts d ws)) a (puts d ws) /\ ok_writes (len d) ws /\ within dirent bufend ws /\
  Forall (fun e => match fst e with OsStat _ _ _ => True | _ => False end) evs /\
  match l2 with [] => dirent' = dirent + size_of l1 | s :: _ => bufend < dirent + size_of l1 + 24 + len (utf8 s) end /\ dirent + size_of l1 <= bufend.
Proof.
  induction l as [|s l IH]; intros FA FS w d dirent cookie G Hd Hb Hc Hl.
  - exists [], [], [], [], dirent. split; [reflexivity|]. cbn [entries app]. cbn zeta. rewrite more_nil. change (puts d []) with d.
    rewrite (set_same w a d G). cbn [readdir_loop]. unfold ret. change (len (@nil name)) with 0. rewrite Z.add_0_r.
    repeat split; try assumption; try constructor; cbn [size_of fold_right]; lia.
  - inversion FA as [|? ? A1 A2]; subst. inversion FS as [|? ? S1 S2]; subst. destruct S1 as (L & I & St). pose proof (len_nonneg s) as Ls.
    pose proof (len_nonneg l) as Ll. rewrite len_cons in Hl. cbn [readdir_loop]. destruct (dirent + 24 >? bufend) eqn:E1.
    { exists [], (s :: l), [], [], dirent. split; [reflexivity|]. cbn [entries app]. cbn zeta. rewrite more_nil. change (puts d []) with d.
      rewrite (set_same w a d G). unfold ret. change (len (@nil name)) with 0. rewrite Z.add_0_r.
      repeat split; try assumption; try constructor; cbn [size_of fold_right]; rewrite ?ascii_len by exact A1; lia. }
    unfold bind at 1. rewrite (ask_stat_at Os w _ _ (St _)). set (c := OsStat _ _ _). set (w1 := logged w c (RStat (info s))).
    assert (guest w1 a d) as G1 by exact G. rewrite seq4. unfold bind at 1.
    assert (ok_writes (len d) (header info dirent cookie s)) as K1.
    { rewrite <- (app_nil_r (header _ _ _ _)). apply header_ok; try constructor; lia. }
    destruct (writes_run a _ _ w1 d (header_writes a info dirent cookie s ltac:(lia) I L) G1 K1) as (-> & G2). cbn zeta.
    assert (w1 = more_log w [(c, RStat (info s))]) as W1 by reflexivity.
    destruct (dirent + 24 + len s >? bufend) eqn:E2.
    { exists [], (s :: l), (header info dirent cookie s), [(c, RStat (info s))], (dirent + 24). split; [reflexivity|]. cbn [entries app]. cbn zeta. rewrite <- W1.
      unfold ret. change (len (@nil name)) with 0. rewrite Z.add_0_r. split; [reflexivity|]. split; [exact G2|]. split; [exact K1|].
      split; [eapply within_weak; [| |apply header_within]; lia|]. split; [repeat constructor|]. cbn [size_of fold_right]. rewrite ascii_len by exact A1. lia. }
    unfold bind at 1. unfold lift at 1. rewrite (encode_utf8 s) by now apply ascii_scalar. rewrite (ascii_utf8 s A1).
    set (d1 := puts d (header info dirent cookie s)) in *. assert (len d1 = len d) as Ld1 by now apply len_puts.
    assert (ok_writes (len d1) [(dirent + 24, s)]) as K2 by (cbn [ok_writes]; repeat split; try lia; constructor).
    unfold bind at 1. destruct (writes_run a _ _ _ d1 (writes_bytes a (dirent + 24) s (ascii_bytes s A1)) G2 K2) as (-> & G3).
    rewrite set_set in *. match goal with |- context [set_guest w1 a ?x] => set (d2 := x) in * end. assert (len d2 = len d) as Ld2 by (unfold d2; rewrite len_puts by exact K2; exact Ld1).
    destruct (IH A2 S2 (set_guest w1 a d2) d2 (dirent + 24 + len s) (cookie + 1) G3 ltac:(lia) ltac:(lia) ltac:(lia) ltac:(lia))
      as (l1 & l2 & ws1 & evs & dirent' & El & R). cbn zeta in R. destruct R as (-> & G4 & K3 & W3 & Fe & M & Sz).
    exists (s :: l1), l2, ws1, (evs ++ [(c, RStat (info s))]), dirent'. split; [cbn [app]; now f_equal|]. cbn zeta. cbn [entries].
    rewrite <- app_assoc. cbn [app].
    match goal with |- context [puts d ?x] => assert (puts d x =
      puts d2 (entries info (dirent + 24 + len s) (cookie + 1) l1 ++ ws1)) as Ep by apply puts_app end.
    rewrite Ep. clear Ep. rewrite !set_more, set_set, W1, set_more, more_more in *.
    rewrite len_cons. replace (cookie + 1 + len l1) with (cookie + (len l1 + 1)) by lia.
    change (size_of (s :: l1)) with (24 + len (utf8 s) + size_of l1). rewrite (ascii_len s A1). split; [reflexivity|]. split; [exact G4|].
    assert (ok_writes (len d) ((dirent + 24, s) :: entries info (dirent + 24 + len s) (cookie + 1) l1 ++ ws1)) as K4.
    { cbn [ok_writes]. split; [lia|]. split; [lia|]. rewrite Ld2 in K3. split; [|exact K3]. eapply within_apart; [|exact W3]. lia. }
    assert (within (dirent + 24) bufend ((dirent + 24, s) :: entries info (dirent + 24 + len s) (cookie + 1) l1 ++ ws1)) as W4.
    { constructor; [cbn [fst snd]; lia|]. eapply within_weak; [| |exact W3]; lia. }
    split; [apply header_ok; try lia; [eapply within_weak; [| |exact W4]; lia|exact K4]|].
    split; [apply Forall_app; split; [eapply within_weak; [| |apply header_within]; lia|eapply within_weak; [| |exact W4]; lia]|].
    split; [apply Forall_app; split; [exact Fe|repeat constructor]|]. destruct l2; lia.
Qed.
Lemma entries_listing d info l : Forall ascii l -> forall p n, (forall q bs, In (q, bs) (entries info p n l) -> range_of d q (len bs) = bs) ->
  listing d info (fun s => help_wasm_type (info s)) p n l.
Proof.
  induction 1 as [|s l A _ IH]; intros p n H; [exact I|]. cbn [listing]. rewrite (ascii_utf8 s A). cbn [entries header app] in H.
  assert (forall q k z, (0 <= k)%Z -> In (q, to_le (Z.to_nat k) z) (entries info p n (s :: l)) -> range_of d q k = to_le (Z.to_nat k) z) as X.
  { intros q k z Hk Hi. apply H in Hi. rewrite len_to_le, Z2Nat.id in Hi by exact Hk. exact Hi. }
  split; [apply (X p 8); [lia|cbn; tauto]|]. split; [apply (X (p + 8) 8); [lia|cbn; tauto]|]. split; [apply (X (p + 16) 4); [lia|cbn; tauto]|].
  split; [apply (H (p + 20) [_]); cbn; tauto|]. split; [apply (H (p + 24) s); cbn; tauto|].
  apply IH. intros q bs Hi. apply H. cbn [In]. tauto.
Qed.
Lemma fd_readdir_ok Os w fd f a d buf size number used names info :
  is_open w fd f -> has_right f 14 -> guest w a d -> 0 <= buf -> 0 <= size < 2 ^ 32 -> buf + size <= len d -> 0 <= used -> used + 4 <= len d ->
  apart buf size used 4 -> Os (w_log w) (OsListdir (host_fd f)) = RNames names -> Forall ascii names ->
  Forall (statable Os (host_name f) info) (with_dots names) -> len names + 2 < 2 ^ 64 -> 0 <= number <= len names + 2 ->
  exists sorted l1 l2 w' d', Permutation names sorted /\ StronglySorted before sorted /\
  skipn (Z.to_nat number) (with_dots sorted) = l1 ++ l2 /\
  wasi_call Os F_fd_readdir [fd; buf; size; number; used] w = (Ok [0], w') /\ guest w' a d' /\ len d' = len d /\
  listing d' info (fun s => help_wasm_type (info s)) buf number l1 /\
  match l2 with
  | [] => size_of l1 <= size /\ range_of d' used 4 = to_le 4 (size_of l1)
  | s :: _ => size < size_of (l1 ++ [s]) /\ range_of d' used 4 = to_le 4 size
  end /\
  (forall k, ~ (buf <= Z.of_nat k < buf + size) -> ~ (used <= Z.of_nat k < used + 4) -> nth_error d' k = nth_error d k) /\
  w_self w' = w_self w /\ w_pipes w' = w_pipes w.
Proof.
  intros Op R G Hb Hs Hbl Hu Hul Ap Ls FA FS Hn Hnum. destruct (sort_ok names) as (P & So).
  set (sorted := sort_names names) in *. set (all := with_dots sorted).
  assert (len all = len names + 2) as La.
  { unfold all, with_dots. rewrite !len_cons. unfold len. rewrite (Permutation_length P). unfold name. lia. }
  assert (Forall ascii all) as FA'.
  { unfold all, with_dots. constructor; [repeat constructor; lia|]. constructor; [repeat constructor; lia|]. exact (Permutation_Forall P FA). }
  assert (Forall (statable Os (host_name f) info) all) as FS'.
  { unfold all, with_dots in *. inversion FS as [|? ? F1 F2]; subst. inversion F2 as [|? ? F3 F4]; subst. constructor; [exact F1|]. constructor; [exact F3|]. exact (Permutation_Forall P F4). }
  assert (forall (Q : name -> Prop), Forall Q all -> Forall Q (skipn (Z.to_nat number) all)) as Fs.
  { intros Q F. apply Forall_forall. intros x Hx. rewrite Forall_forall in F. apply F. rewrite <- (firstn_skipn (Z.to_nat number) all). apply in_or_app. now right. }
  set (w1 := logged w (OsListdir (host_fd f)) (RNames names)). assert (guest w1 a d) as G1 by exact G.
  assert (len (skipn (Z.to_nat number) all) = len all - number) as Lk by (rewrite len_skipn; lia).
  destruct (readdir_ok Os a (host_name f) info (buf + size) _ (Fs _ FA') (Fs _ FS') w1 d buf number G1 ltac:(lia) Hbl ltac:(lia) ltac:(lia))
    as (l1 & l2 & ws1 & evs & dirent' & El & X). cbn zeta in X. destruct X as (E & G2 & K & Wi & _ & M & Sz).
  set (ws := entries info buf number l1 ++ ws1) in *. set (w2 := set_guest (more_log w1 evs) a (puts d ws)) in *.
  assert (len (puts d ws) = len d) as Lp by now apply len_puts.
  set (v := if number + len l1 >=? len all then dirent' - buf else size).
  assert (len l1 + len l2 = len all - number) as L12 by (rewrite <- Lk, El, len_app; lia).
  pose proof (size_nonneg l1) as Sn.
  assert (v = match l2 with [] => size_of l1 | _ => size end) as Ev.
  { unfold v. destruct l2 as [|s l2]; [change (len (@nil name)) with 0 in L12; replace (_ >=? _) with true by lia; lia|].
    rewrite len_cons in L12. pose proof (len_nonneg l2). replace (_ >=? _) with false by lia. reflexivity. }
  assert (0 <= v < 2 ^ 32) as Hv by (rewrite Ev; destruct l2; lia).
  assert (ok_writes (len (puts d ws)) [(used, to_le 4 v)]) as K2.
  { cbn [ok_writes]. rewrite len_to_le, Lp. repeat split; try lia. constructor. }
  destruct (writes_run a _ _ w2 _ (writes_u a 4 used v ltac:(lia) Hv) G2 K2) as (E2 & G3). change (Z.to_nat 4) with 4%nat in *.
  exists sorted, l1, l2, (set_guest w2 a (puts (puts d ws) [(used, to_le 4 v)])), (puts (puts d ws) [(used, to_le 4 v)]).
  split; [exact P|]. split; [exact So|]. split; [exact El|]. split; [|split; [exact G3|]].
  - cbn [wasi_call]. unfold fd_readdir. rewrite (pass_badf w fd f _ Op). rewrite (pass_need w fd f 14 _ Op) by (lia || exact R).
    unfold bind at 1. rewrite (the_mem_guest w a d G). unfold bind at 1. rewrite (the_file_at w fd f (proj1 Op)).
    unfold bind at 1. unfold ask_names. unfold bind at 1. unfold ask. rewrite Ls. fold (logged w (OsListdir (host_fd f)) (RNames names)). fold w1. unfold ret at 1.
    cbn zeta. fold sorted. change ([c_dot] :: [c_dot; c_dot] :: sorted) with (with_dots sorted). fold all. unfold bind at 1.
    assert (0 <= number <= len all) as Hx by lia.
    match goal with |- context [readdir_loop _ _ _ ?x _ _ _ _] => change x with (py_slice all number (len all)) end.
    rewrite (py_slice_in all number (len all) Hx (Z.le_refl _)). rewrite firstn_all2 by (rewrite <- Lk; unfold len; rewrite Nat2Z.id; apply le_n). rewrite E.
    match goal with |- context [put_u32 _ _ ?x] => change x with v end. unfold bind. unfold put_u32. now rewrite E2.
  - split; [rewrite len_puts by exact K2; exact Lp|]. split.
    + apply entries_listing; [|].
      { assert (Forall ascii (l1 ++ l2)) as F12 by (rewrite <- El; now apply Fs). apply Forall_app in F12. tauto. }
      intros q bs Hi. rewrite puts_other.
      * apply puts_read; [exact K|]. apply in_or_app. now left.
      * exact K2.
      * assert (In (q, bs) ws) as I2 by (apply in_or_app; now left). unfold within in Wi. rewrite Forall_forall in Wi. apply Wi in I2. cbn in I2. lia.
      * apply len_nonneg.
      * assert (In (q, bs) ws) as I2 by (apply in_or_app; now left). unfold within in Wi. rewrite Forall_forall in Wi. apply Wi in I2. cbn [fst snd] in I2.
        constructor; [|constructor]. cbn [fst snd]. rewrite len_to_le. unfold apart in *. lia.
    + split.
      * assert (range_of (puts (puts d ws) [(used, to_le 4 v)]) used 4 = to_le 4 v) as Rd.
        { pose proof (puts_read _ (puts d ws) used (to_le 4 v) K2 (or_introl eq_refl)) as X. rewrite len_to_le in X. exact X. }
        rewrite Rd, Ev. destruct l2 as [|s l2].
        -- split; [lia|reflexivity].
        -- split; [|reflexivity]. clear -M. assert (forall l, size_of (l ++ [s]) = size_of l + 24 + len (utf8 s)) as Q.
           { induction l as [|x l IH]; [cbn; lia|]. cbn [app]. change (size_of (x :: ?y)) with (24 + len (utf8 x) + size_of y). rewrite IH. lia. }
           rewrite Q. lia.
      * split.
        -- intros k N1 N2. rewrite puts_nth; [|exact K2|].
           ++ apply puts_nth; [exact K|]. eapply Forall_impl; [|exact Wi]. intros x Hx. cbn beta in Hx. lia.
           ++ constructor; [|constructor]. cbn [fst snd]. rewrite len_to_le. lia.
        -- unfold w2. rewrite !set_more, !set_set. unfold set_guest, more_log. destruct (nth_error _ a); now split.
Qed.
