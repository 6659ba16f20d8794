(* Lemmas about the path calls, fd_allocate and poll_oneoff, and about where calls write. *)
From Coq Require Import ZArith List Bool Lia ZifyBool ZifyNat.
From Verif Require Import Py Syntax Store Val Machine Utf8 Os Wasi SpecInt SpecMem SpecFormat SpecWasi SpecPath SpecWasiMore SpecWasiPath
  PyFacts MemFacts DecodeFacts LaxFacts WasiFacts WasiTableFacts WasiMemFacts WasiIoFacts WasiCallFacts WasiPropFacts WasiMoreFacts.
Import ListNotations.
Open Scope Z_scope.

(* ---- names ---- *)
Lemma get_str_at w a d p n s : guest w a d -> text d p n s -> get_str (Z.of_nat a) p n w = (Ok s, w).
Proof.
  intros G (H1 & H2 & H3 & S & T). unfold get_str, bind. rewrite (get_bytes_at w a d p n G H1 H2 H3). rewrite T. unfold lift.
  now rewrite (utf8_roundtrip s S).
Qed.
Lemma bytes_range d p n : bytes d -> bytes (range_of d p n).
Proof. intros H. unfold range_of. apply bytes_firstn, bytes_skipn, H. Qed.
Lemma get_str_inv w a d p n s : guest w a d -> in_memory d (p, n) -> get_str (Z.of_nat a) p n w = (Ok s, w) -> text d p n s.
Proof.
  intros G (H1 & H2 & H3) E. cbn [fst snd] in *. unfold get_str, bind in E. rewrite (get_bytes_at w a d p n G H1 H2 H3) in E. unfold lift in E.
  injection E as E. destruct (utf8_sound _ _ (bytes_range d p n (guest_bytes _ _ _ G)) E) as (S & T). now repeat split.
Qed.
Lemma pass_escp f s k : stays f s -> unless_escp (wasm_name f) s k = k.
Proof.
  intros (rs & l & e & W & P & -> & SF & NE & NA & WK & B). unfold unless_escp. rewrite W. now rewrite (inside_accepted rs l e P SF NE NA WK B).
Qed.
Lemma pass_two w fd f fd' f' (k : W (list Z)) : is_open w fd f -> is_open w fd' f' ->
  (let! p := self in if help_badf p fd || help_badf p fd' then ret [E_BADF] else k) w = k w.
Proof. intros O O'. unfold bind, self. now rewrite (badf_open w fd f O), (badf_open w fd' f' O'). Qed.
Lemma follow_bit x : follow x = Z.testbit x 0.
Proof. exact (has_bit x 0 ltac:(lia)). Qed.

(* ---- one request ---- *)
Definition one_ask (Os : os) (c : oscall) (m : W (list Z)) (w : world) : Prop :=
  m w = (ask_unit Os c ;; ret [E_SUCCESS]) w \/
  exists h, (forall e, h e <> Some 0) /\ m w = ask_try Os c h (fun _ => ret [E_SUCCESS]) w.
Ltac no_zero := let e := fresh "e" in intros e; destruct e; try discriminate; destruct (_ =? _); discriminate.
Ltac through G :=
  repeat match goal with
  | O : is_open ?w ?fd _ |- context [unless_badf ?fd _ ?w] => rewrite (pass_badf w fd _ _ O)
  | O : is_open ?w ?fd ?f, T : wasm_type ?f <> T_DIRECTORY |- context [unless_dir ?fd _ ?w] => rewrite (pass_dir w fd f _ O T)
  | O : is_open ?w ?fd ?f, R : has_right ?f ?b |- context [need ?fd _ _ ?w] => rewrite (pass_need w fd f b _ O ltac:(lia) R)
  | |- context [bind the_mem _ ?w] => unfold bind at 1; rewrite (the_mem_guest w _ _ G)
  | O : is_open ?w ?fd ?f |- context [bind (the_file ?fd) _ ?w] => unfold bind at 1; rewrite (the_file_at w fd f (proj1 O))
  | T : text ?d ?p ?n ?s |- context [bind (get_str _ ?p ?n) _ ?w] => unfold bind at 1; rewrite (get_str_at w _ d p n s G T)
  | S : stays ?f ?s |- context [unless_escp (wasm_name ?f) ?s _] => rewrite (pass_escp f s _ S)
  end.
Lemma asks_head Os w a d f args c ns : guest w a d -> asks w d f args c ns -> Forall (fun x => stays (fst x) (snd x)) ns ->
  one_ask Os c (wasi_call Os f args) w.
Proof.
  intros G A S. destruct A; repeat match goal with H : allowed _ _ _ _ |- _ => destruct H end; cbn [wasi_call];
    repeat match goal with H : Forall _ (_ :: _) |- _ => let h := fresh "St" in inversion H as [|? ? h ?]; subst; cbn [fst snd] in h; clear H end.
  - left. unfold fd_sync, R_FD_SYNC. change 0x10 with (2 ^ 4). through G. reflexivity.
  - left. unfold fd_filestat_set_size, R_FD_FILESTAT_SET_SIZE. change 0x400000 with (2 ^ 22). through G. reflexivity.
  - right. eexists. split; [|unfold path_create_directory; change R_PATH_CREATE_DIRECTORY with (2 ^ 9); through G; reflexivity]. no_zero.
  - right. eexists. split; [|unfold path_remove_directory; change R_PATH_REMOVE_DIRECTORY with (2 ^ 25); through G; reflexivity]. no_zero.
  - right. eexists. split; [|unfold path_unlink_file; change R_PATH_UNLINK_FILE with (2 ^ 26); through G; reflexivity]. no_zero.
  - right. eexists. split; [|unfold path_symlink; change R_PATH_SYMLINK with (2 ^ 24); through G; reflexivity]. no_zero.
  - right. eexists. split; [|unfold path_link; change R_PATH_LINK_SOURCE with (2 ^ 11); change R_PATH_LINK_TARGET with (2 ^ 12);
      rewrite (pass_two w fd f fd' f'); [through G; rewrite follow_bit; reflexivity| assumption | assumption]]. no_zero.
  - right. eexists. split; [|unfold path_rename; change R_PATH_RENAME_SOURCE with (2 ^ 16); change R_PATH_RENAME_TARGET with (2 ^ 17);
      rewrite (pass_two w fd f fd' f'); [through G; reflexivity| assumption | assumption]]. no_zero.
Qed.
Lemma one_ask_result Os c m w : one_ask Os c m w -> exists r, m w = (r, logged w c (Os (w_log w) c)) /\
  (Os (w_log w) c = RUnit -> r = Ok [0]) /\ (forall e, Os (w_log w) c = RFail e -> r <> Ok [0]).
Proof.
  intros [E|(h & Z & E)]; rewrite E; clear E.
  - unfold ask_unit, bind, ask. fold (logged w c (Os (w_log w) c)). destruct (Os (w_log w) c) eqn:E; eexists; (split; [reflexivity|]); split; try discriminate; try reflexivity.
  - unfold ask_try, bind, ask. fold (logged w c (Os (w_log w) c)). destruct (Os (w_log w) c) as [| | | | | | | |e0] eqn:E.
    9: { specialize (Z e0). destruct (h e0) as [n|]; eexists; (split; [reflexivity|]); split; try discriminate. intros e _ K. apply Z. injection K as ->. reflexivity. }
    all: eexists; (split; [reflexivity|]); split; try discriminate; try reflexivity.
Qed.
Lemma one_request Os w a d f args c ns : guest w a d -> asks w d f args c ns -> Forall (fun x => stays (fst x) (snd x)) ns ->
  exists r, wasi_call Os f args w = (r, logged w c (Os (w_log w) c)) /\
  (Os (w_log w) c = RUnit -> r = Ok [0]) /\ (forall e, Os (w_log w) c = RFail e -> r <> Ok [0]).
Proof. intros G A S. apply one_ask_result. eapply asks_head; eassumption. Qed.
Lemma dir_inv fd k w w' f : is_open w fd f -> unless_dir fd k w = (Ok [0], w') -> wasm_type f <> T_DIRECTORY /\ k w = (Ok [0], w').
Proof. intros O H. rewrite (dir_eq w fd f k O) in H. destruct (Z.eqb_spec (wasm_type f) T_DIRECTORY); [discriminate|now split]. Qed.
Lemma two_inv fd fd' (k : W (list Z)) w w' : (let! p := self in if help_badf p fd || help_badf p fd' then ret [E_BADF] else k) w = (Ok [0], w') ->
  exists f f', is_open w fd f /\ is_open w fd' f' /\ k w = (Ok [0], w').
Proof.
  unfold bind, self. destruct (help_badf (w_self w) fd) eqn:E1; [discriminate|]. destruct (help_badf (w_self w) fd') eqn:E2; [discriminate|]. cbn [orb]. intros H.
  assert (unless_badf fd k w = (Ok [0], w')) as H1 by (unfold unless_badf, bind, self; now rewrite E1).
  assert (unless_badf fd' k w = (Ok [0], w')) as H2 by (unfold unless_badf, bind, self; now rewrite E2).
  destruct (badf_inv _ _ _ _ H1) as (f & O & _). destruct (badf_inv _ _ _ _ H2) as (f' & O' & _). now exists f, f'.
Qed.
Lemma str_inv w a d p n (k : name -> W (list Z)) w' : guest w a d -> in_memory d (p, n) ->
  (let! s := get_str (Z.of_nat a) p n in k s) w = (Ok [0], w') -> exists s, text d p n s /\ k s w = (Ok [0], w').
Proof.
  intros G I H. unfold bind in H. pose proof (get_str_same (Z.of_nat a) p n w) as S. destruct (get_str (Z.of_nat a) p n w) as [[s|e] w1] eqn:E; cbn [snd] in S; subst w1; [|discriminate].
  exists s. split; [|exact H]. eapply get_str_inv; eassumption.
Qed.
Lemma escp_inv r s k w w' : unless_escp r s k w = (Ok [0], w') -> k w = (Ok [0], w').
Proof. unfold unless_escp. destruct (help_escp r s); [discriminate|easy]. Qed.
Lemma unit_inv Os c w w' : (ask_unit Os c ;; ret [E_SUCCESS]) w = (Ok [0], w') -> w' = logged w c (Os (w_log w) c) /\ forall e, Os (w_log w) c <> RFail e.
Proof. unfold ask_unit, bind, ask. fold (logged w c (Os (w_log w) c)). destruct (Os (w_log w) c); try discriminate. intros H. injection H as <-. now split. Qed.
Lemma try_inv Os c h w w' : (forall e, h e <> Some 0) -> ask_try Os c h (fun _ => ret [E_SUCCESS]) w = (Ok [0], w') ->
  w' = logged w c (Os (w_log w) c) /\ forall e, Os (w_log w) c <> RFail e.
Proof.
  intros Z. unfold ask_try, bind, ask. fold (logged w c (Os (w_log w) c)). destruct (Os (w_log w) c) as [| | | | | | | |e0].
  9: { specialize (Z e0). destruct (h e0) as [n|]; [|discriminate]. intros K. injection K as -> <-. now destruct Z. }
  all: intros H; injection H as <-; now split.
Qed.
Ltac backwards G H :=
  repeat match type of H with
  | unless_badf _ _ _ = _ => let f := fresh "f" in let O := fresh "O" in apply badf_inv in H; destruct H as (f & O & H)
  | unless_dir ?fd _ ?w = _ => match goal with O : is_open w fd _ |- _ => let T := fresh "T" in apply (dir_inv _ _ _ _ _ O) in H; destruct H as (T & H) end
  | need ?fd (2 ^ ?b) _ ?w = _ => match goal with O : is_open w fd _ |- _ => let R := fresh "R" in apply (need_inv fd b _ _ _ _ O ltac:(lia)) in H; destruct H as (R & H) end
  | bind the_mem _ ?w = _ => unfold bind at 1 in H; rewrite (the_mem_guest w _ _ G) in H
  | bind (the_file ?fd) _ ?w = _ => match goal with O : is_open w fd _ |- _ => unfold bind at 1 in H; rewrite (the_file_at w fd _ (proj1 O)) in H end
  | bind (get_str _ ?p ?n) _ ?w = _ => match goal with I : in_memory _ (p, n) |- _ => let s := fresh "s" in let T := fresh "T" in apply (str_inv _ _ _ _ _ _ _ G I) in H; destruct H as (s & T & H) end
  | unless_escp _ _ _ _ = _ => apply escp_inv in H
  | ask_try _ _ _ _ _ = _ => let L := fresh "L" in apply try_inv in H; [destruct H as (-> & L)|no_zero]
  | bind (ask_unit _ _) _ _ = _ => let L := fresh "L" in apply unit_inv in H; destruct H as (-> & L)
  end.
Ltac asked := do 2 eexists; split; [|split; [reflexivity|assumption]].
Lemma success_asks Os w a d f args rs w' : guest w a d -> names_at f args = Some rs -> Forall (in_memory d) rs ->
  wasi_call Os f args w = (Ok [0], w') ->
  exists c ns, asks w d f args c ns /\ w' = logged w c (Os (w_log w) c) /\ forall e, Os (w_log w) c <> RFail e.
Proof.
  intros G N I H. destruct f; try discriminate N; do 8 (try (destruct args as [|? args]; try discriminate N)); cbn [names_at] in N; injection N as <-; cbn [wasi_call] in H;
    repeat match goal with H : Forall _ (_ :: _) |- _ => let h := fresh "In" in inversion H as [|? ? h ?]; subst; clear H end.
  - unfold fd_filestat_set_size in H. change R_FD_FILESTAT_SET_SIZE with (2 ^ 22) in H. backwards G H. asked. constructor; [now split|assumption].
  - unfold fd_sync in H. change R_FD_SYNC with (2 ^ 4) in H. backwards G H. asked. constructor; [now split|assumption].
  - unfold path_create_directory in H. change R_PATH_CREATE_DIRECTORY with (2 ^ 9) in H. backwards G H. asked. constructor; [now split|assumption].
  - unfold path_link in H. change R_PATH_LINK_SOURCE with (2 ^ 11) in H. change R_PATH_LINK_TARGET with (2 ^ 12) in H.
    apply two_inv in H. destruct H as (f & f' & O & O' & H). backwards G H. asked. rewrite follow_bit. constructor; try assumption; now split.
  - unfold path_remove_directory in H. change R_PATH_REMOVE_DIRECTORY with (2 ^ 25) in H. backwards G H. asked. constructor; [now split|assumption].
  - unfold path_rename in H. change R_PATH_RENAME_SOURCE with (2 ^ 16) in H. change R_PATH_RENAME_TARGET with (2 ^ 17) in H.
    apply two_inv in H. destruct H as (f & f' & O & O' & H). backwards G H. asked. constructor; try assumption; now split.
  - unfold path_symlink in H. change R_PATH_SYMLINK with (2 ^ 24) in H. backwards G H. asked. constructor; try assumption; now split.
  - unfold path_unlink_file in H. change R_PATH_UNLINK_FILE with (2 ^ 26) in H. backwards G H. asked. constructor; [now split|assumption].
Qed.

(* ---- path_filestat_get ---- *)
Lemma path_stat_ok Os w a d fd f flags p n s out i : guest w a d -> allowed w fd f 18 -> text d p n s -> stays f s -> 0 <= out -> out + 64 <= len d ->
  let c := OsStat s (Some (host_fd f)) (Z.testbit flags 0) in Os (w_log w) c = RStat i -> sane_stat i ->
  exists d', filestat_at d d' out (help_wasm_type i) i /\ wasi_call Os F_path_filestat_get [fd; flags; p; n; out] w = (Ok [0], set_guest (logged w c (RStat i)) a d').
Proof.
  intros G (O & R) T S P1 P2 c Rp Si. exists (puts d (stat_writes out (help_wasm_type i) i)). split; [now apply stat_result|].
  cbn [wasi_call]. unfold path_filestat_get. change R_PATH_FILESTAT_GET with (2 ^ 18). through G. rewrite follow_bit. fold c.
  unfold ask_try. unfold bind at 1. unfold ask. rewrite Rp. fold (logged w c (RStat i)).
  assert (guest (logged w c (RStat i)) a d) as G1 by exact G.
  destruct (writes_run a _ _ _ d (put_stat_writes a out (help_wasm_type i) i Si (type_byte i)) G1 (stat_ok _ _ _ _ P1 P2)) as (E & _).
  unfold bind at 1. rewrite E. reflexivity.
Qed.
Lemma path_stat_missing Os w a d fd f flags p n s out : guest w a d -> allowed w fd f 18 -> text d p n s -> stays f s ->
  let c := OsStat s (Some (host_fd f)) (Z.testbit flags 0) in Os (w_log w) c = RFail OEnoent ->
  wasi_call Os F_path_filestat_get [fd; flags; p; n; out] w = (Ok [44], logged w c (RFail OEnoent)).
Proof.
  intros G (O & R) T S c Rp. cbn [wasi_call]. unfold path_filestat_get. change R_PATH_FILESTAT_GET with (2 ^ 18). through G. rewrite follow_bit. fold c.
  unfold ask_try. unfold bind at 1. unfold ask. rewrite Rp. reflexivity.
Qed.

(* ---- path_readlink ---- *)
Lemma ascii_firstn n s : ascii s -> ascii (firstn n s).
Proof. intros H. apply Forall_forall. intros x Hx. unfold ascii in H. rewrite Forall_forall in H. apply H. rewrite <- (firstn_skipn n s). apply in_or_app. now left. Qed.
Lemma readlink_ok Os w a d fd f p n s buf size out t : guest w a d -> allowed w fd f 15 -> text d p n s -> stays f s ->
  0 <= size -> 0 <= buf -> buf + size <= len d -> 0 <= out -> out + 4 <= len d -> apart buf size out 4 -> len d <= 2 ^ 32 ->
  let c := OsReadlink s (host_fd f) in Os (w_log w) c = RName t -> ascii t ->
  let bs := firstn (Z.to_nat size) (utf8 t) in
  exists d' d'', overwritten d d' buf bs /\ overwritten d' d'' out (to_le 4 (len bs)) /\
  wasi_call Os F_path_readlink [fd; p; n; buf; size; out] w = (Ok [0], set_guest (logged w c (RName t)) a d'').
Proof.
  intros G (O & R) T S P0 P1 P2 P3 P4 Ap Ld c Rp A bs.
  assert (bs = firstn (Z.to_nat size) t) as Eb by (unfold bs; now rewrite (ascii_utf8 t A)).
  assert (len bs = Z.min size (len t)) as Lb by (rewrite Eb; now apply len_firstn).
  pose proof (len_nonneg t) as Lt.
  assert (ascii bs) as Ab by (rewrite Eb; now apply ascii_firstn).
  exists (splice d buf bs), (splice (splice d buf bs) out (to_le 4 (len bs))).
  split; [apply splice_over; lia|]. split; [apply splice_over; [lia|]; rewrite len_to_le, len_splice; lia|].
  cbn [wasi_call]. unfold path_readlink. change R_PATH_READLINK with (2 ^ 15). through G. fold c.
  unfold ask_try. unfold bind at 1. unfold ask. rewrite Rp. fold (logged w c (RName t)). cbn zeta.
  assert (py_slice t 0 (Z.min (len t) size) = bs) as ->.
  { rewrite Eb. rewrite py_slice_in by lia. rewrite Z.sub_0_r. change (skipn (Z.to_nat 0) t) with t.
    destruct (Z.min_spec (len t) size) as [(H & ->)|(H & ->)]; [|reflexivity].
    rewrite !firstn_all2; [reflexivity|unfold len in *; lia|unfold len; lia]. }
  unfold bind at 1. unfold lift. rewrite (encode_utf8 bs (ascii_scalar bs Ab)). rewrite (ascii_utf8 bs Ab).
  assert (guest (logged w c (RName t)) a d) as G1 by exact G.
  unfold bind at 1. rewrite (put_bytes_at _ a d buf bs G1) by lia.
  assert (guest (set_guest (logged w c (RName t)) a (splice d buf bs)) a (splice d buf bs)) as G2.
  { apply (guest_set _ a d); [exact G1|]. apply bytes_splice; [exact (guest_bytes _ _ _ G)|now apply ascii_bytes]. }
  unfold bind at 1. unfold put_u32. replace (Z.min (len t) size) with (len bs) by lia.
  rewrite (put_u_at _ a _ 4 out (len bs) G2) by (unfold apart in Ap; rewrite ?len_splice; change (2 ^ (8 * 4)) with (2 ^ 32); lia).
  rewrite set_set. reflexivity.
Qed.

(* ---- path_filestat_set_times ---- *)
Lemma path_times_ok Os w a d fd f flags p n s at_ mt fl i j now : guest w a d -> allowed w fd f 20 -> text d p n s -> stays f s ->
  (forall log, Os log (OsTime 0) = RInt now) ->
  Os (w_log w) (OsStat s (Some (host_fd f)) true) = RStat j -> Os (w_log w) (OsStat s (Some (host_fd f)) (Z.testbit flags 0)) = RStat i ->
  (forall log x y, Os log (OsUtime s (host_fd f) (Z.testbit flags 0) x y) = RUnit) ->
  ~ (Z.testbit fl 0 = true /\ Z.testbit fl 1 = true) -> ~ (Z.testbit fl 2 = true /\ Z.testbit fl 3 = true) ->
  Z.testbit flags 0 = true \/ ((Z.testbit fl 0 = true \/ Z.testbit fl 1 = true) /\ (Z.testbit fl 2 = true \/ Z.testbit fl 3 = true)) ->
  exists w', wasi_call Os F_path_filestat_set_times [fd; flags; p; n; at_; mt; fl] w = (Ok [0], w') /\ w_self w' = w_self w /\ w_mach w' = w_mach w /\
  exists evs, w_log w' = (OsUtime s (host_fd f) (Z.testbit flags 0) (stamp fl 0 1 (st_atime_ns i) at_ now) (stamp fl 2 3 (st_mtime_ns i) mt now), RUnit) :: evs ++ w_log w /\
  Forall (fun e => match fst e with OsStat _ _ _ | OsTime _ => True | _ => False end) evs.
Proof.
  intros G (O & R) T S Tm Sj Si Ut F01 F23 Fo.
  assert (stamp fl 0 1 (st_atime_ns i) at_ now = stamp fl 0 1 (st_atime_ns j) at_ now /\ stamp fl 2 3 (st_mtime_ns i) mt now = stamp fl 2 3 (st_mtime_ns j) mt now) as (-> & ->).
  { destruct Fo as [Fo|(FA & FM)].
    - rewrite Fo, Sj in Si. injection Si as ->. now split.
    - unfold stamp. destruct (Z.testbit fl 0), (Z.testbit fl 1), (Z.testbit fl 2), (Z.testbit fl 3); try tauto; destruct FA; destruct FM; discriminate. }
  cbn [wasi_call]. unfold path_filestat_set_times. change R_PATH_FILESTAT_SET_TIMES with (2 ^ 20). through G.
  destruct (fst_bits fl) as (B0 & B1 & B2 & B3). rewrite B0, B1, B2, B3.
  replace (Z.testbit fl 0 && Z.testbit fl 1) with false by (destruct (Z.testbit fl 0), (Z.testbit fl 1); tauto).
  replace (Z.testbit fl 2 && Z.testbit fl 3) with false by (destruct (Z.testbit fl 2), (Z.testbit fl 3); tauto).
  through G. unfold bind at 1. rewrite (ask_stat_at Os w _ j Sj). cbn zeta. rewrite follow_bit.
  set (w1 := logged w _ _). unfold stamp.
  destruct (Z.testbit fl 1), (Z.testbit fl 3); unfold bind at 1; rewrite ?(ask_int_at Os w1 _ now (Tm _)); unfold ret at 1;
    try (set (w2 := logged w1 _ _)); unfold bind at 1; rewrite ?ask_int_at with (z := now) by apply Tm; try unfold ret at 1;
    unfold ask_try, bind, ask; rewrite Ut; (eexists; split; [reflexivity|]; split; [reflexivity|]; split; [reflexivity|]).
  - exists [(OsTime 0, RInt now); (OsTime 0, RInt now); (OsStat s (Some (host_fd f)) true, RStat j)]. split; [reflexivity|now repeat constructor].
  - exists [(OsTime 0, RInt now); (OsStat s (Some (host_fd f)) true, RStat j)]. split; [reflexivity|now repeat constructor].
  - exists [(OsTime 0, RInt now); (OsStat s (Some (host_fd f)) true, RStat j)]. split; [reflexivity|now repeat constructor].
  - exists [(OsStat s (Some (host_fd f)) true, RStat j)]. split; [reflexivity|now repeat constructor].
Qed.
Lemma path_times_missing Os w a d fd f flags p n s at_ mt fl : guest w a d -> allowed w fd f 20 -> text d p n s -> stays f s ->
  Os (w_log w) (OsStat s (Some (host_fd f)) true) = RFail OEnoent ->
  ~ (Z.testbit fl 0 = true /\ Z.testbit fl 1 = true) -> ~ (Z.testbit fl 2 = true /\ Z.testbit fl 3 = true) ->
  wasi_call Os F_path_filestat_set_times [fd; flags; p; n; at_; mt; fl] w =
    (Err EOS, logged w (OsStat s (Some (host_fd f)) true) (RFail OEnoent)).
Proof.
  intros G (O & R) T S Sj F01 F23.
  cbn [wasi_call]. unfold path_filestat_set_times. change R_PATH_FILESTAT_SET_TIMES with (2 ^ 20). through G.
  destruct (fst_bits fl) as (B0 & B1 & B2 & B3). rewrite B0, B1, B2, B3.
  replace (Z.testbit fl 0 && Z.testbit fl 1) with false by (destruct (Z.testbit fl 0), (Z.testbit fl 1); tauto).
  replace (Z.testbit fl 2 && Z.testbit fl 3) with false by (destruct (Z.testbit fl 2), (Z.testbit fl 3); tauto).
  through G. unfold bind at 1. unfold ask_stat, bind, ask. rewrite Sj. reflexivity.
Qed.

(* ---- fd_allocate ---- *)
Lemma wrote_end c bs : wrote c (len c) bs = c ++ bs.
Proof.
  unfold wrote. rewrite firstn_all2 by (unfold len; lia). replace (len c - len c) with 0 by lia. rewrite skipn_all2 by (unfold len; lia).
  now rewrite app_nil_r.
Qed.
Lemma firstn_zeros n m : 0 <= n <= m -> firstn (Z.to_nat n) (zeros m) = zeros n.
Proof.
  intros H. unfold zeros. replace (Z.to_nat m) with (Z.to_nat n + Z.to_nat (m - n))%nat by lia. rewrite repeat_app.
  rewrite firstn_app, firstn_all2 by (rewrite repeat_length; lia). rewrite repeat_length, Nat.sub_diag. now rewrite app_nil_r.
Qed.
Lemma len_zeros n : 0 <= n -> len (zeros n) = n.
Proof. intros H. unfold len, zeros. rewrite repeat_length. lia. Qed.
Lemma allocate_ok Os w fd f off n c0 c p : allowed w fd f 8 -> wasm_type f <> T_DIRECTORY -> is_file Os (host_fd f) c0 ->
  file_now (host_fd f) c0 (w_log w) = (c, p) -> 0 <= p ->
  exists w' m, wasi_call Os F_fd_allocate [fd; off; n] w = (Ok [0], w') /\ w_self w' = w_self w /\ w_mach w' = w_mach w /\ w_pipes w' = w_pipes w /\
  0 <= m /\ file_now (host_fd f) c0 (w_log w') = (c ++ zeros m, p) /\ (writes_all Os (host_fd f) -> off + n <= len c + m).
Proof.
  intros (O & R) D F E Hp. set (h := host_fd f) in *. cbn [wasi_call]. unfold fd_allocate. change R_FD_ALLOCATE with (2 ^ 8).
  rewrite (pass_badf w fd f _ O), (pass_dir w fd f _ O D), (pass_need w fd f 8 _ O ltac:(lia) R). unfold bind at 1. rewrite (the_file_at w fd f (proj1 O)). fold h.
  pose proof (F (w_log w)) as F0. rewrite E in F0. destruct F0 as ((i & St & Sz) & Sk & _).
  unfold bind at 1. rewrite (ask_stat_at Os w _ i St). cbn zeta. rewrite Sz.
  assert (file_now h c0 ((OsStatFd h, RStat i) :: w_log w) = (c, p)) as E1 by (cbn [file_now fold_right]; fold (file_now h c0 (w_log w)); rewrite E; reflexivity).
  destruct (Z.leb_spec (off + n - len c) 0) as [L|L].
  { exists (logged w (OsStatFd h) (RStat i)), 0. split; [reflexivity|]. do 4 (split; [first [reflexivity|lia]|]). cbn [logged w_log]. rewrite E1. rewrite app_nil_r. split; [reflexivity|]. lia. }
  set (w1 := logged w (OsStatFd h) (RStat i)). assert (file_now h c0 (w_log w1) = (c, p)) as E1' by exact E1. clear E1.
  pose proof (F (w_log w1)) as F1. rewrite E1' in F1. destruct F1 as (_ & Sk1 & _).
  unfold bind at 1. rewrite (ask_int_at Os w1 _ p). 2: { rewrite (Sk1 0 SEEK_CUR); unfold SEEK_CUR, seeks_to; cbn [Z.eqb Pos.eqb]; [f_equal; lia|lia|lia]. }
  set (w2 := logged w1 _ _). assert (file_now h c0 (w_log w2) = (c, p)) as E2.
  { unfold w2. cbn [logged w_log file_now fold_right]. fold (file_now h c0 (w_log w1)). rewrite E1'. cbn [file_by]. rewrite Z.eqb_refl. unfold seeks_to, SEEK_CUR. cbn [Z.eqb Pos.eqb]. f_equal. lia. }
  pose proof (F (w_log w2)) as F2. rewrite E2 in F2. destruct F2 as (_ & Sk2 & _). pose proof (len_nonneg c) as Lc.
  unfold bind at 1. rewrite (ask_int_at Os w2 _ (len c)). 2: { rewrite (Sk2 0 SEEK_END); unfold SEEK_END, seeks_to; cbn [Z.eqb Pos.eqb]; [f_equal; lia|lia|lia]. }
  set (w3 := logged w2 _ _). assert (file_now h c0 (w_log w3) = (c, len c)) as E3.
  { unfold w3. cbn [logged w_log file_now fold_right]. fold (file_now h c0 (w_log w2)). rewrite E2. cbn [file_by]. rewrite Z.eqb_refl. unfold seeks_to, SEEK_END. cbn [Z.eqb Pos.eqb]. f_equal. lia. }
  pose proof (F (w_log w3)) as F3. rewrite E3 in F3. destruct F3 as (_ & _ & W3). destruct (W3 (zeros (off + n - len c))) as (m & Hm & Wr).
  rewrite len_zeros in Hm by lia.
  unfold bind at 1. rewrite (ask_int_at Os w3 _ m Wr).
  set (w4 := logged w3 _ _). assert (file_now h c0 (w_log w4) = (c ++ zeros m, len c + m)) as E4.
  { unfold w4. cbn [logged w_log file_now fold_right]. fold (file_now h c0 (w_log w3)). rewrite E3. cbn [file_by]. rewrite Z.eqb_refl. rewrite wrote_end.
    rewrite firstn_zeros by lia. reflexivity. }
  pose proof (F (w_log w4)) as F4. rewrite E4 in F4. destruct F4 as (_ & Sk4 & _).
  unfold bind at 1. rewrite (ask_int_at Os w4 _ p). 2: { rewrite (Sk4 p SEEK_SET); unfold SEEK_SET, seeks_to; cbn [Z.eqb Pos.eqb]; [reflexivity|lia|lia]. }
  eexists. exists m. split; [reflexivity|]. do 3 (split; [reflexivity|]). split; [lia|]. split.
  - cbn [logged w_log file_now fold_right]. fold (file_now h c0 (w_log w4)). rewrite E4. cbn [file_by]. rewrite Z.eqb_refl. reflexivity.
  - intros WA. rewrite (WA (w_log w3)) in Wr. injection Wr as <-. rewrite len_zeros by lia. lia.
Qed.

(* ---- poll_oneoff ---- *)
Definition timed (Os : os) : Prop := forall log c, 0 <= c <= 3 -> exists t, Os log (OsTime c) = RInt t.
Definition ends_at (x : Z * Z * Z * Z) : Z * Z * Z * Z := let '(u, c, dl, t) := x in (u, c, dl, t + dl).
Definition started (l : list (Z * Z * Z)) (t0 : list Z) : list (Z * Z * Z * Z) := map ends_at (combine l t0).
Lemma clocks_cons s l : clocks_of (s :: l) = match s with SClock u c t => [(u, c, t)] | SFd _ _ _ => [] end ++ clocks_of l.
Proof. reflexivity. Qed.
Lemma fds_cons k s l : fds_of k (s :: l) = match s with SClock _ _ _ => [] | SFd u k' fd => if k' =? k then [(u, fd)] else [] end ++ fds_of k l.
Proof. reflexivity. Qed.
Lemma readings_cons x l t ts : readings (x :: l) (t :: ts) = readings l ts ++ [(OsTime (snd (fst x)), RInt t)].
Proof. reflexivity. Qed.
Lemma time_at Os w c t : 0 <= c <= 3 -> Os (w_log w) (OsTime c) = RInt t -> help_time Os c w = (Ok t, logged w (OsTime c) (RInt t)).
Proof. intros H E. unfold help_time. replace ((0 <=? c) && (c <=? 3)) with true by lia. now apply ask_int_at. Qed.
Lemma le_to_le k v : 0 <= v < 2 ^ (8 * Z.of_nat k) -> le_of (to_le k v) = v.
Proof. intros H. rewrite le_of_to_le. now apply Z.mod_small. Qed.
Lemma range_app {A} (d : list A) p n m : 0 <= p -> 0 <= n -> 0 <= m -> range_of d p (n + m) = range_of d p n ++ range_of d (p + n) m.
Proof.
  intros H1 H2 H3. unfold range_of. rewrite (Z2Nat.inj_add p n) by lia. rewrite <- skipn_skipn'. rewrite (Z2Nat.inj_add n m) by lia. set (l := skipn (Z.to_nat p) d).
  rewrite <- (firstn_skipn (Z.to_nat n) l) at 1. destruct (Nat.le_ge_cases (Z.to_nat n) (length l)) as [L|L].
  - apply firstn_app_2'. rewrite firstn_length. lia.
  - rewrite (skipn_all2 l) by lia. rewrite app_nil_r, firstn_nil, app_nil_r. now rewrite firstn_firstn, Nat.min_r by lia.
Qed.
Lemma collect_ok Os a d : timed Os -> forall l w p s, guest w a d -> subs_at d p l -> Forall (pollable w) l ->
  exists t0, length t0 = length (clocks_of l) /\
  poll_collect Os (Z.of_nat a) (length l) p s w =
    (Ok (inl (mksubs (sub_c s ++ started (clocks_of l) t0) (sub_r s ++ fds_of 1 l) (sub_w s ++ fds_of 2 l))), more_log w (readings (clocks_of l) t0)).
Proof.
  intros Ti. induction l as [|x l IH]; intros w p s G S P.
  { exists []. split; [reflexivity|]. cbn. rewrite !app_nil_r. rewrite more_nil. now destruct s. }
  destruct S as ((H1 & H2 & X) & S). inversion P as [|? ? Px Pl]; subst. cbn [length poll_collect].
  destruct x as [u c dl|u k fd].
  - destruct X as (X1 & X2 & X3 & X4 & X5 & X6 & B1 & B2 & B3).
    unfold bind at 1. unfold get_u64 at 1. rewrite (get_u_at w a d 8 p G) by lia. rewrite X1, le_to_le by exact B1.
    unfold bind at 1. rewrite (get_u8_at w a d (p + 8) G) by lia. rewrite X2. change (le_of [0] =? 0) with true. cbn iota.
    unfold bind at 1. unfold get_u64 at 1. rewrite (get_u_at w a d 8 (p + 16) G) by lia.
    replace (le_of (range_of d (p + 16) 8)) with c.
    2: { change 8 with (4 + 4). rewrite range_app by lia. replace (p + 16 + 4) with (p + 20) by lia. rewrite X3, X4, le_of_app, !le_to_le; [lia|cbn; lia|change (2 ^ (8 * Z.of_nat 4)) with (2 ^ 32); lia]. }
    unfold bind at 1. unfold get_u64 at 1. rewrite (get_u_at w a d 8 (p + 24) G) by lia. rewrite X5, le_to_le by exact B3.
    unfold bind at 1. unfold get_u32 at 1. rewrite (get_u_at w a d 4 (p + 40) G) by lia. rewrite X6, le_to_le by (cbn; lia). change (has 0 1) with false. cbn iota.
    destruct (Ti (w_log w) c B2) as (t & Et). unfold bind at 1. rewrite (time_at Os w c t B2 Et). cbn zeta.
    destruct (IH (logged w (OsTime c) (RInt t)) (p + 48) (mksubs (sub_c s ++ [(u, c, dl, t + dl)]) (sub_r s) (sub_w s)) G S Pl) as (t0 & Lt & E).
    exists (t :: t0). split; [rewrite clocks_cons; cbn [app length]; now rewrite Lt|]. rewrite E. cbn [sub_c sub_r sub_w]. rewrite clocks_cons, !fds_cons. cbn [app].
    rewrite readings_cons. unfold started. cbn [combine map ends_at]. rewrite <- app_assoc. cbn [app]. f_equal.
    change (logged w (OsTime c) (RInt t)) with (more_log w [(OsTime c, RInt t)]). now rewrite more_more.
  - destruct X as (X1 & X2 & X3 & B1 & B2 & B3). destruct Px as (f & O & R).
    unfold bind at 1. unfold get_u64 at 1. rewrite (get_u_at w a d 8 p G) by lia. rewrite X1, le_to_le by exact B1.
    unfold bind at 1. rewrite (get_u8_at w a d (p + 8) G) by lia. rewrite X2. replace (le_of [k]) with k by (cbn; lia).
    replace (k =? 0) with false by lia. replace ((k =? 1) || (k =? 2)) with true by lia.
    unfold bind at 1. unfold get_u32 at 1. rewrite (get_u_at w a d 4 (p + 16) G) by lia. rewrite X3, le_to_le by exact B3.
    unfold bind at 1. unfold self. rewrite (badf_open w fd f O).
    unfold bind at 1. assert (help_perm fd R_POLL_FD_READWRITE w = (Ok false, w)) as ->.
    { unfold help_perm, bind. rewrite (the_file_at w fd f (proj1 O)). unfold ret. do 2 f_equal. change R_POLL_FD_READWRITE with (2 ^ 27).
      pose proof (has_bit (rights_base f) 27 ltac:(lia)) as K. unfold has in K. unfold has_right in R. rewrite R in K. now destruct (Z.land _ _ =? 0). }
    cbn iota. rewrite clocks_cons, !fds_cons. cbn [app].
    destruct B2 as [-> | ->]; cbn [Z.eqb Pos.eqb].
    + destruct (IH w (p + 48) (mksubs (sub_c s) (sub_r s ++ [(u, fd)]) (sub_w s)) G S Pl) as (t0 & Lt & E). exists t0. split; [exact Lt|]. rewrite E. cbn [sub_c sub_r sub_w].
      now rewrite <- app_assoc.
    + destruct (IH w (p + 48) (mksubs (sub_c s) (sub_r s) (sub_w s ++ [(u, fd)])) G S Pl) as (t0 & Lt & E). exists t0. split; [exact Lt|]. rewrite E. cbn [sub_c sub_r sub_w].
      now rewrite <- app_assoc.
Qed.
(* all descriptors of a list are open *)
Definition all_open (w : world) (l : list (Z * Z)) : Prop := Forall (fun x => exists f, is_open w (snd x) f) l.
Lemma fds_open w k l : Forall (pollable w) l -> all_open w (fds_of k l).
Proof.
  induction 1 as [|x l Px _ IH]; [constructor|]. unfold all_open. rewrite fds_cons. destruct x as [u c t|u k' fd]; [exact IH|]. destruct (k' =? k); [|exact IH].
  constructor; [|exact IH]. destruct Px as (f & O & _). now exists f.
Qed.
Lemma host_at w fd f : is_open w fd f -> host_of w fd = host_fd f.
Proof. intros ((_ & N) & _). unfold host_of. now rewrite N. Qed.
Lemma hosts_ok w l : all_open w l -> mapl (fun '(_, fd) => let! f := the_file fd in ret (host_fd f)) l w = (Ok (map (fun x => host_of w (snd x)) l), w).
Proof.
  induction l as [|(u, fd) l IH]; intros H; [reflexivity|]. inversion H as [|? ? (f & O) Hl]; subst. cbn [snd] in O. cbn [mapl map snd].
  unfold bind at 1. unfold bind at 1. rewrite (the_file_at w fd f (proj1 O)). unfold ret at 1. unfold bind at 1. rewrite (IH Hl). unfold ret. now rewrite (host_at w fd f O).
Qed.
Lemma min_ok (l : list (Z * Z * Z)) : forall x : Z * Z * Z, min_list (snd x) (map snd l) = fold_right (fun y m => Z.min (snd y) m) (snd x) l.
Proof.
  intros x. unfold min_list. rewrite fold_symmetric; [|intros; lia|intros; lia]. induction l as [|y l IH]; [reflexivity|]. cbn [map fold_right]. now rewrite IH.
Qed.
Lemma wait_ok l t0 : length t0 = length l -> match started l t0 with [] => 8 * 1000000000 | (_, _, d, _) :: r => min_list d (map (fun '(_, _, d, _) => d) r) end = wait_of l.
Proof.
  destruct l as [|((u, c), dl) l], t0 as [|t t0]; try discriminate; [reflexivity|]. intros L. injection L as L. unfold started. cbn [combine map ends_at wait_of].
  rewrite <- min_ok. cbn [snd]. f_equal. revert t0 L. induction l as [|((u', c'), dl') l IH]; intros [|t' t0] L; try discriminate; [reflexivity|].
  cbn [combine map ends_at snd]. f_equal. apply IH. now injection L.
Qed.
(* the writes of the events *)
Fixpoint event_writes (p : Z) (l : list (Z * Z)) : list (Z * list Z) :=
  match l with
  | [] => []
  | (u, k) :: l' => [(p, to_le 8 u); (p + 8, to_le 2 0); (p + 10, [k])] ++ event_writes (p + 32) l'
  end.
Lemma put_event_ok a p u k : 0 <= u < 2 ^ 64 -> 0 <= k < 256 -> writes a (put_event (Z.of_nat a) p u k) (event_writes p [(u, k)]).
Proof.
  intros U K. unfold put_event, put_u64, put_u16. cbn [event_writes app]. apply (writes_then a _ [(p, to_le 8 u)] _ [(p + 8, to_le 2 0); (p + 10, [k])]); [apply (writes_u a 8); [lia|exact U]|].
  apply (writes_then a _ [(p + 8, to_le 2 0)] _ [(p + 10, [k])]); [apply (writes_u a 2); cbn; lia|now apply writes_u8].
Qed.
Lemma events_within l : forall p, within p (p + 32 * len l) (event_writes p l).
Proof.
  induction l as [|(u, k) l IH]; intros p; [constructor|]. cbn [event_writes]. unfold within in *. rewrite len_cons. pose proof (len_nonneg l).
  repeat (apply Forall_cons; [cbn [fst snd]; rewrite ?len_to_le; change (len [k]) with 1; lia|]). eapply Forall_impl; [|apply (IH (p + 32))]. cbn beta. intros x. lia.
Qed.
Lemma events_ok n l : forall p, 0 <= p -> p + 32 * len l <= n -> ok_writes n (event_writes p l).
Proof.
  induction l as [|(u, k) l IH]; intros p H1 H2; [exact I|]. rewrite len_cons in H2. pose proof (len_nonneg l). cbn [event_writes app ok_writes]. rewrite !len_to_le. change (len [k]) with 1.
  pose proof (events_within l (p + 32)) as Wi.
  assert (forall q m, q + m <= p + 32 -> Forall (fun x => apart q m (fst x) (len (snd x))) (event_writes (p + 32) l)) as Ap.
  { intros q m Hq. eapply within_apart; [exact Hq|exact Wi]. }
  repeat match goal with |- _ /\ _ => split end; try lia; try (apply IH; lia);
    repeat (apply Forall_cons; [unfold apart; cbn [fst snd]; rewrite ?len_to_le; change (len [k]) with 1; lia|]); apply Ap; lia.
Qed.
Lemma event_app l1 : forall p l2, event_writes p (l1 ++ l2) = event_writes p l1 ++ event_writes (p + 32 * len l1) l2.
Proof.
  induction l1 as [|(u, k) l1 IH]; intros p l2; [cbn [app event_writes]; f_equal; change (len (@nil (Z * Z))) with 0; lia|].
  cbn [app event_writes]. rewrite IH. rewrite len_cons. replace (p + 32 + 32 * len l1) with (p + 32 * (len l1 + 1)) by lia. reflexivity.
Qed.
Lemma events_read d l : forall p, (forall q bs, In (q, bs) (event_writes p l) -> range_of d q (len bs) = bs) -> events_at d p l.
Proof.
  induction l as [|(u, k) l IH]; intros p H; [exact I|]. cbn [event_writes app] in H. cbn [events_at].
  split; [exact (H p (to_le 8 u) ltac:(cbn; tauto))|]. split; [exact (H (p + 8) (to_le 2 0) ltac:(cbn; tauto))|]. split; [exact (H (p + 10) [k] ltac:(cbn; tauto))|].
  apply IH. intros q bs I. apply H. cbn. tauto.
Qed.
Definition user_ok (x : Z * Z) : Prop := 0 <= fst x < 2 ^ 64.
Lemma one_event a d w p u k : guest w a d -> 0 <= u < 2 ^ 64 -> 0 <= k < 256 -> 0 <= p -> p + 32 <= len d ->
  put_event (Z.of_nat a) p u k w = (Ok tt, set_guest w a (puts d (event_writes p [(u, k)]))) /\
  guest (set_guest w a (puts d (event_writes p [(u, k)]))) a (puts d (event_writes p [(u, k)])) /\ len (puts d (event_writes p [(u, k)])) = len d.
Proof.
  intros G U K H1 H2. assert (ok_writes (len d) (event_writes p [(u, k)])) as Ok1 by (apply events_ok; [lia|change (len [(u, k)]) with 1; lia]).
  destruct (writes_run a _ _ w d (put_event_ok a p u k U K) G Ok1) as (E & G1). split; [exact E|]. split; [exact G1|]. now apply len_puts.
Qed.
Lemma clocks_ok Os a : timed Os -> forall l t0 w d p n, length t0 = length l -> guest w a d -> Forall (fun x => 0 <= fst (fst x) < 2 ^ 64 /\ 0 <= snd (fst x) <= 3) l ->
  0 <= p -> p + 32 * len l <= len d ->
  exists t1, length t1 = length l /\ let evs := due l t0 t1 in len evs <= len l /\ let d' := puts d (event_writes p evs) in
  poll_clocks Os (Z.of_nat a) (started l t0) p n w = (Ok (p + 32 * len evs, n + len evs), more_log (set_guest w a d') (readings l t1)) /\
  guest (more_log (set_guest w a d') (readings l t1)) a d' /\ len d' = len d.
Proof.
  intros Ti. induction l as [|((u, c), dl) l IH]; intros t0 w d p n Lt G V H1 H2.
  - destruct t0; [|discriminate]. exists []. split; [reflexivity|]. cbn [due]. split; [cbn; lia|]. cbn zeta. cbn [event_writes puts fold_left]. rewrite (set_same w a d G).
    change (readings [] []) with (@nil event). rewrite more_nil. split; [cbn; unfold ret; do 2 f_equal; f_equal; lia|]. now split.
  - destruct t0 as [|t t0]; [discriminate|]. injection Lt as Lt. inversion V as [|? ? (Vu & Vc) Vl]; subst. cbn [fst snd] in Vu, Vc. rewrite len_cons in H2. pose proof (len_nonneg l) as Ll.
    change (started ((u, c, dl) :: l) (t :: t0)) with ((u, c, dl, t + dl) :: started l t0). cbn [poll_clocks].
    destruct (Ti (w_log w) c Vc) as (t' & Et). unfold bind at 1. rewrite (time_at Os w c t' Vc Et). set (w1 := logged w _ _).
    destruct (Z.ltb_spec t' (t + dl)) as [L|L].
    + destruct (IH t0 w1 d p n Lt G Vl H1 ltac:(lia)) as (t1 & L1 & L2 & E & G2 & L3). exists (t' :: t1). split; [cbn; now rewrite L1|]. cbn [due].
      replace (t + dl <=? t') with false by lia. cbn [app]. split; [rewrite len_cons; lia|]. cbn zeta. rewrite E. rewrite readings_cons. cbn [fst snd].
      assert (more_log (set_guest w1 a (puts d (event_writes p (due l t0 t1)))) (readings l t1) =
              more_log (set_guest w a (puts d (event_writes p (due l t0 t1)))) (readings l t1 ++ [(OsTime c, RInt t')])) as Q.
      { rewrite <- !set_more. f_equal. change w1 with (more_log w [(OsTime c, RInt t')]). now rewrite more_more. }
      rewrite <- Q. now repeat split.
    + destruct (one_event a d w1 p u 0 G Vu ltac:(lia) H1 ltac:(lia)) as (E1 & G1 & L1').
      set (d1 := puts d (event_writes p [(u, 0)])) in *. unfold bind at 1. rewrite E1.
      destruct (IH t0 (set_guest w1 a d1) d1 (p + 32) (n + 1) Lt G1 Vl ltac:(lia) ltac:(lia)) as (t1 & L1 & L2 & E & G2 & L3).
      exists (t' :: t1). split; [cbn; now rewrite L1|]. cbn [due]. replace (t + dl <=? t') with true by lia.
      change ([(u, 0)] ++ due l t0 t1) with ([(u, 0)] ++ due l t0 t1). set (evs := due l t0 t1) in *. cbn zeta.
      assert (len ([(u, 0)] ++ evs) = 1 + len evs) as Le by (cbn [app]; rewrite len_cons; lia). split; [rewrite Le, len_cons; lia|].
      assert (puts d (event_writes p ([(u, 0)] ++ evs)) = puts d1 (event_writes (p + 32) evs)) as Pu.
      { rewrite event_app. change (p + 32 * len [(u, 0)]) with (p + 32). apply puts_app. }
      rewrite Pu, Le. rewrite readings_cons. cbn [fst snd].
      assert (more_log (set_guest (set_guest w1 a d1) a (puts d1 (event_writes (p + 32) evs))) (readings l t1) =
              more_log (set_guest w a (puts d1 (event_writes (p + 32) evs))) (readings l t1 ++ [(OsTime c, RInt t')])) as Q.
      { rewrite set_set. rewrite <- !set_more. f_equal. change w1 with (more_log w [(OsTime c, RInt t')]). now rewrite more_more. }
      rewrite <- Q. split; [rewrite E; do 2 f_equal; f_equal; lia|]. split; [exact G2|]. now rewrite L3.
Qed.
Lemma open_same w w1 fd f : w_self w1 = w_self w -> is_open w fd f -> is_open w1 fd f.
Proof. intros E O. unfold is_open, entry in *. now rewrite E. Qed.
Lemma self_set w a d : w_self (set_guest w a d) = w_self w.
Proof. apply set_guest_parts. Qed.
Lemma files_ok a w0 hs k : 0 <= k < 256 -> forall l w d p n, w_self w = w_self w0 -> all_open w0 l -> guest w a d -> Forall user_ok l ->
  0 <= p -> p + 32 * len l <= len d ->
  let evs := ready w0 k l hs in let d' := puts d (event_writes p evs) in len evs <= len l /\
  poll_files (Z.of_nat a) l hs k p n w = (Ok (p + 32 * len evs, n + len evs), set_guest w a d') /\
  guest (set_guest w a d') a d' /\ len d' = len d.
Proof.
  intros K. induction l as [|(u, fd) l IH]; intros w d p n Sf A G V H1 H2.
  - cbn zeta. unfold ready. cbn [filter map event_writes puts fold_left]. rewrite (set_same w a d G). split; [lia|]. split; [cbn; unfold ret; do 2 f_equal; f_equal; lia|]. now split.
  - inversion A as [|? ? (f & O) Al]; subst. inversion V as [|? ? Vu Vl]; subst. cbn [snd] in O. unfold user_ok in Vu. cbn [fst] in Vu. rewrite len_cons in H2. pose proof (len_nonneg l) as Ll.
    cbn [poll_files]. unfold bind at 1. rewrite (the_file_at w fd f (proj1 (open_same _ _ _ _ Sf O))). cbn zeta. unfold ready. cbn [filter snd]. rewrite (host_at w0 fd f O).
    destruct (existsb (Z.eqb (host_fd f)) hs).
    + cbn [map fst]. fold (ready w0 k l hs). destruct (one_event a d w p u k G Vu K H1 ltac:(lia)) as (E1 & G1 & L1). set (d1 := puts d (event_writes p [(u, k)])) in *.
      unfold bind at 1. rewrite E1. destruct (IH (set_guest w a d1) d1 (p + 32) (n + 1) ltac:(now rewrite self_set) Al G1 Vl ltac:(lia) ltac:(lia)) as (L2 & E & G2 & L3).
      set (evs := ready w0 k l hs) in *. change ((u, k) :: evs) with ([(u, k)] ++ evs).
      assert (len ([(u, k)] ++ evs) = 1 + len evs) as Le by (cbn [app]; rewrite len_cons; lia). split; [rewrite Le, len_cons; lia|].
      assert (puts d (event_writes p ([(u, k)] ++ evs)) = puts d1 (event_writes (p + 32) evs)) as Pu.
      { rewrite event_app. change (p + 32 * len [(u, k)]) with (p + 32). apply puts_app. }
      rewrite Pu, Le. rewrite set_set in E, G2. split; [rewrite E; do 2 f_equal; f_equal; lia|]. split; [exact G2|]. now rewrite L3.
    + fold (ready w0 k l hs). destruct (IH w d p n Sf Al G Vl H1 ltac:(lia)) as (L2 & E & G2 & L3). cbn zeta in *. split; [rewrite len_cons; lia|]. now repeat split.
Qed.
Lemma split_len d l : forall p, subs_at d p l -> len (clocks_of l) + len (fds_of 1 l) + len (fds_of 2 l) = len l.
Proof.
  induction l as [|x l IH]; intros p H; [reflexivity|]. destruct H as ((_ & _ & X) & H). specialize (IH _ H). rewrite clocks_cons, !fds_cons, len_cons.
  destruct x as [u c t|u k fd]; cbn [app].
  - rewrite len_cons. lia.
  - destruct X as (_ & _ & _ & _ & [-> | ->] & _); cbn [Z.eqb Pos.eqb app]; rewrite len_cons; lia.
Qed.
Lemma clocks_valid d l : forall p, subs_at d p l -> Forall (fun x => 0 <= fst (fst x) < 2 ^ 64 /\ 0 <= snd (fst x) <= 3) (clocks_of l) /\ Forall (fun x => 0 <= snd x) (clocks_of l) /\
  Forall user_ok (fds_of 1 l) /\ Forall user_ok (fds_of 2 l).
Proof.
  induction l as [|x l IH]; intros p H; [repeat split; constructor|]. destruct H as ((_ & _ & X) & H). destruct (IH _ H) as (I1 & I2 & I3 & I4). rewrite clocks_cons, !fds_cons.
  destruct x as [u c t|u k fd]; cbn [app].
  - destruct X as (_ & _ & _ & _ & _ & _ & B1 & B2 & B3). repeat split; try assumption; constructor; try assumption; cbn [fst snd]; lia.
  - destruct X as (_ & _ & _ & B1 & [-> | ->] & _); cbn [Z.eqb Pos.eqb app]; repeat split; try assumption; constructor; assumption.
Qed.
Lemma wait_pos l : Forall (fun x => 0 <= snd x) l -> 0 <= wait_of l.
Proof.
  destruct l as [|x l]; intros H; [cbn; lia|]. inversion H as [|? ? Hx Hl]; subst. cbn [wait_of]. induction Hl as [|y l Hy Hl IH]; cbn [fold_right]; [exact Hx|].
  assert (0 <= fold_right (fun y m => Z.min (snd y) m) (snd x) l) by (apply IH; now constructor). lia.
Qed.
Lemma log_set w a d : w_log (set_guest w a d) = w_log w.
Proof. apply set_guest_parts. Qed.
Lemma pipes_set w a d : w_pipes (set_guest w a d) = w_pipes w.
Proof. apply set_guest_parts. Qed.
Lemma poll_ok Os w a d l x0 x1 x3 : guest w a d -> len d <= 2 ^ 32 -> subs_at d x0 l -> Forall (pollable w) l -> timed Os ->
  (forall log rd wr t, exists ry wy, Os log (OsSelect rd wr t) = RReady ry wy) ->
  0 <= x1 -> x1 + 32 * len l <= len d -> 0 <= x3 -> x3 + 4 <= len d -> apart x1 (32 * len l) x3 4 ->
  let cl := clocks_of l in
  exists t0 t1 ry wy w' d', wasi_call Os F_poll_oneoff [x0; x1; len l; x3] w = (Ok [0], w') /\
  length t0 = length cl /\ length t1 = length cl /\
  w_log w' = readings cl t1 ++ (OsSelect (map (fun x => host_of w (snd x)) (fds_of 1 l)) (map (fun x => host_of w (snd x)) (fds_of 2 l)) (wait_of cl), RReady ry wy)
             :: readings cl t0 ++ w_log w /\
  w_self w' = w_self w /\ w_pipes w' = w_pipes w /\ guest w' a d' /\ len d' = len d /\
  let evs := due cl t0 t1 ++ ready w 1 (fds_of 1 l) ry ++ ready w 2 (fds_of 2 l) wy in
  events_at d' x1 evs /\ range_of d' x3 4 = to_le 4 (len evs) /\
  forall k, 0 <= k < len d -> outside [(x1, 32 * len evs); (x3, 4)] k -> nth_error d' (Z.to_nat k) = nth_error d (Z.to_nat k).
Proof.
  intros G Ld S P Ti Se H1 H2 H3 H4 Ap cl. destruct (clocks_valid d l x0 S) as (V1 & V2 & V3 & V4). pose proof (split_len d l x0 S) as SL. fold cl in V1, V2, SL.
  cbn [wasi_call]. unfold poll_oneoff. unfold bind at 1. rewrite (the_mem_guest w a d G).
  destruct (collect_ok Os a d Ti l w x0 (mksubs [] [] []) G S P) as (t0 & L0 & E0). fold cl in L0, E0. unfold bind at 1.
  replace (Z.to_nat (len l)) with (length l) by (unfold len; lia). rewrite E0. cbn [sub_c sub_r sub_w app]. rewrite (wait_ok cl t0 L0). clear E0.
  set (w1 := more_log w (readings cl t0)). assert (w_self w1 = w_self w) as S1 by reflexivity.
  assert (forall k, all_open w1 (fds_of k l)) as A1 by (intros k; exact (fds_open w k l P)).
  unfold bind at 1. rewrite (hosts_ok w1 _ (A1 1)). unfold bind at 1. rewrite (hosts_ok w1 _ (A1 2)).
  change (host_of w1) with (host_of w). pose proof (wait_pos cl V2) as Wp. replace (wait_of cl <? 0) with false by lia.
  set (c := OsSelect _ _ _). destruct (Se (w_log w1) (map (fun x => host_of w (snd x)) (fds_of 1 l)) (map (fun x => host_of w (snd x)) (fds_of 2 l)) (wait_of cl)) as (ry & wy & Es). fold c in Es.
  unfold bind at 1. unfold ask. rewrite Es. fold (logged w1 c (RReady ry wy)). set (w2 := logged w1 c (RReady ry wy)).
  assert (guest w2 a d) as G2 by exact G. pose proof (len_nonneg cl) as N0. pose proof (len_nonneg (fds_of 1 l)) as N1. pose proof (len_nonneg (fds_of 2 l)) as N2.
  destruct (clocks_ok Os a Ti cl t0 w2 d x1 0 L0 G2 V1 H1 ltac:(lia)) as (t1 & L1 & Le1 & E1 & G3 & Ld1).
  unfold bind at 1. rewrite E1. clear E1. set (e1 := due cl t0 t1) in *. set (d1 := puts d (event_writes x1 e1)) in *. set (w3 := more_log (set_guest w2 a d1) (readings cl t1)) in *.
  pose proof (len_nonneg e1) as M1.
  assert (w_self w3 = w_self w) as S3 by (unfold w3; cbn [more_log w_self]; now rewrite self_set).
  destruct (files_ok a w ry 1 ltac:(lia) (fds_of 1 l) w3 d1 (x1 + 32 * len e1) (0 + len e1) S3 (fds_open w 1 l P) G3 V3 ltac:(lia) ltac:(lia)) as (Le2 & E2 & G4 & Ld2).
  unfold bind at 1. rewrite E2. clear E2. set (e2 := ready w 1 (fds_of 1 l) ry) in *. set (d2 := puts d1 (event_writes (x1 + 32 * len e1) e2)) in *. set (w4 := set_guest w3 a d2) in *.
  pose proof (len_nonneg e2) as M2.
  assert (w_self w4 = w_self w) as S4 by (unfold w4; now rewrite self_set).
  destruct (files_ok a w wy 2 ltac:(lia) (fds_of 2 l) w4 d2 (x1 + 32 * len e1 + 32 * len e2) (0 + len e1 + len e2) S4 (fds_open w 2 l P) G4 V4 ltac:(lia) ltac:(lia)) as (Le3 & E3 & G5 & Ld3).
  unfold bind at 1. rewrite E3. clear E3. set (e3 := ready w 2 (fds_of 2 l) wy) in *. set (d3 := puts d2 (event_writes (x1 + 32 * len e1 + 32 * len e2) e3)) in *. set (w5 := set_guest w4 a d3) in *.
  pose proof (len_nonneg e3) as M3.
  assert (len (e1 ++ e2 ++ e3) = len e1 + len e2 + len e3) as Lev by (unfold len; rewrite !app_length; lia).
  replace (0 + len e1 + len e2 + len e3) with (len (e1 ++ e2 ++ e3)) by lia. set (evs := e1 ++ e2 ++ e3) in *.
  assert (d3 = puts d (event_writes x1 evs)) as D3.
  { unfold d3, d2, d1, evs. rewrite !event_app, !puts_app. reflexivity. }
  unfold apart in Ap. unfold bind at 1. unfold put_u32. rewrite (put_u_at w5 a d3 4 x3 (len evs) G5) by (try lia; change (2 ^ (8 * 4)) with (2 ^ 32); lia). unfold ret.
  set (d4 := splice d3 x3 (to_le (Z.to_nat 4) (len evs))).
  assert (len (to_le (Z.to_nat 4) (len evs)) = 4) as L4 by now rewrite len_to_le.
  assert (ok_writes (len d) (event_writes x1 evs)) as OKe by (apply events_ok; lia).
  exists t0, t1, ry, wy. eexists. exists d4. split; [reflexivity|]. split; [exact L0|]. split; [exact L1|].
  split.
  { rewrite log_set. unfold w5, w4, w3. rewrite !log_set. cbn [more_log w_log]. rewrite log_set. reflexivity. }
  split; [rewrite self_set; unfold w5; now rewrite self_set|].
  split; [rewrite pipes_set; unfold w5, w4, w3; rewrite !pipes_set; cbn [more_log w_pipes]; now rewrite pipes_set|].
  split; [apply (guest_set _ a d3 d4 G5); apply bytes_splice; [exact (guest_bytes _ _ _ G5)|apply to_le_bytes]|].
  split; [unfold d4; rewrite len_splice; lia|].
  cbn zeta. split; [|split].
  - apply events_read. intros q bs I. assert (x1 <= q /\ q + len bs <= x1 + 32 * len evs) as (Q1 & Q2).
    { pose proof (events_within evs x1) as W. unfold within in W. rewrite Forall_forall in W. exact (W _ I). }
    unfold d4. rewrite splice_other; [| lia | lia | lia | apply len_nonneg | unfold apart; lia].
    rewrite D3. now apply puts_read.
  - pose proof (splice_read d3 x3 (to_le (Z.to_nat 4) (len evs)) ltac:(lia) ltac:(lia)) as K. rewrite L4 in K. exact K.
  - intros k Hk Ou. assert (k < x1 \/ x1 + 32 * len evs <= k) as O1 by exact (Forall_inv Ou). assert (k < x3 \/ x3 + 4 <= k) as O3 by exact (Forall_inv (Forall_inv_tail Ou)). unfold d4. rewrite nth_splice by lia.
    rewrite L4. replace ((x3 <=? Z.of_nat (Z.to_nat k)) && (Z.of_nat (Z.to_nat k) <? x3 + 4)) with false by lia.
    rewrite D3. apply puts_nth; [exact OKe|]. eapply Forall_impl; [|exact (events_within evs x1)]. cbn beta. intros x Hx. lia.
Qed.
