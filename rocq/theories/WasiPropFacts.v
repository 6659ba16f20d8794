(* The lemmas of the other files put into the shape of the theorems of PropWasi.v. *)
From Coq Require Import ZArith List Bool Lia ZifyBool ZifyNat.
From Verif Require Import Py Syntax Store Val Machine Utf8 Os Wasi SpecMem SpecFormat SpecWasi SpecPath PyFacts WasiFacts WasiTableFacts
  WasiMemFacts WasiIoFacts WasiCallFacts PathFacts.
Import ListNotations.
Open Scope Z_scope.

Lemma closed_stays Os w w1 fd h f args : wasi_call Os F_fd_close [fd] w = (Ok [0], w1) -> In fd (descriptors f args) ->
  let w2 := history Os w1 h in wasi_call Os f args w2 = (Ok [8], w2).
Proof.
  intros H D w2. apply (bad_descriptor Os w2 f args fd); [|exact D]. apply shut_not_open. apply shut_history. now apply (close_shuts Os w).
Qed.
Lemma inv_weaken init w : inv init w -> inv' init w.
Proof. intros ((T1 & T2 & T3) & O). split; [exact T2|]. split; [exact T3|exact O]. Qed.
Lemma whole_run init Os cwd h0 n0 h1 n1 h2 n2 args dirs envs w h : sane init Os ->
  In h0 init -> In h1 init -> In h2 init -> h0 <> h1 -> h0 <> h2 -> h1 <> h2 -> w_log w = [] ->
  let w1 := snd (new_preview1 Os cwd (h0, n0, (h1, n1), (h2, n2)) args dirs envs w) in
  let w2 := history Os w1 h in
  only_live init (w_log (snd (main_finally Os w2))).
Proof.
  intros SN I0 I1 I2 N1 N2 N3 L w1 w2. pose proof (new_ok init Os cwd h0 n0 h1 n1 h2 n2 args dirs envs w SN I0 I1 I2 N1 N2 N3 L) as (T & O).
  fold w1 in T, O. pose proof (inv_history init Os h SN w1 T O) as V. apply (finally_ok init Os w2 SN). now apply inv_weaken.
Qed.
Lemma open_fresh Os w0 h a d w' x0 x1 x2 x3 x4 x5 x6 x7 x8 : let w := history Os w0 h in guest w a d -> 0 <= x8 -> x8 + 4 <= len d ->
  wasi_call Os F_path_open [x0; x1; x2; x3; x4; x5; x6; x7; x8] w = (Ok [0], w') ->
  exists fd g d', guest w' a d' /\ overwritten d d' x8 (to_le 4 fd) /\ 0 <= fd < 2 ^ 32 /\ is_open w' fd g /\
  (forall h1 h2 f, h = h1 ++ h2 -> ~ entry (history Os w0 h1) fd f) /\
  (forall k e, entry w k e -> entry w' k e).
Proof.
  intros w G H1 H2 H. destruct (path_open_ok Os w w' a d x0 x1 x2 x3 x4 x5 x6 x7 x8 G H1 H2 H) as (f & g & d' & _ & _ & T & Og & _ & _ & G' & D & L).
  exists (len (p_fd (w_self w))), g, d'. pose proof (len_nonneg (p_fd (w_self w))).
  split; [exact G'|]. split; [exact D|]. split; [lia|]. split; [split; [exact (entry_new w w' g T)|exact Og]|]. split.
  - intros h1 h2 e Eh En. pose proof (fresh_history Os w0 h1 h2 _ e En) as F. rewrite <- Eh in F. fold w in F. lia.
  - intros k e (K0 & K). split; [exact K0|]. rewrite T. rewrite nth_error_app1; [exact K|]. apply nth_error_Some. now rewrite K.
Qed.
Lemma open_rights Os w w' a d x0 x1 x2 x3 x4 x5 x6 x7 x8 : guest w a d -> 0 <= x8 -> x8 + 4 <= len d ->
  wasi_call Os F_path_open [x0; x1; x2; x3; x4; x5; x6; x7; x8] w = (Ok [0], w') ->
  exists f g d' fd, is_open w x0 f /\ has_right f 13 /\ guest w' a d' /\ overwritten d d' x8 (to_le 4 fd) /\ 0 <= fd < 2 ^ 32 /\ is_open w' fd g /\
  subset (rights_base g) x5 /\ subset (rights_root g) x6.
Proof.
  intros G H1 H2 H. destruct (path_open_ok Os w w' a d x0 x1 x2 x3 x4 x5 x6 x7 x8 G H1 H2 H) as (f & g & d' & O & R & T & Og & S1 & S2 & G' & D & L).
  exists f, g, d', (len (p_fd (w_self w))). pose proof (len_nonneg (p_fd (w_self w))).
  split; [exact O|]. split; [exact R|]. split; [exact G'|]. split; [exact D|]. split; [lia|]. split; [split; [exact (entry_new w w' g T)|exact Og]|now split].
Qed.
(* fd_fdstat_set_rights: exactly the subsets are accepted *)
Lemma set_rights_exact Os w fd f b r : is_open w fd f -> 0 <= rights_base f -> 0 <= rights_root f -> 0 <= b -> 0 <= r ->
  exists w', (subset b (rights_base f) /\ subset r (rights_root f) /\ wasi_call Os F_fd_fdstat_set_rights [fd; b; r] w = (Ok [0], w') /\
    (exists g, is_open w' fd g /\ rights_base g = b /\ rights_root g = r) /\ forall k e, k <> fd -> entry w' k e <-> entry w k e) \/
  (~ (subset b (rights_base f) /\ subset r (rights_root f)) /\ w' = w /\ wasi_call Os F_fd_fdstat_set_rights [fd; b; r] w = (Ok [76], w)).
Proof.
  intros O P1 P2 P3 P4. destruct (set_rights_call Os w fd f b r O) as [E|(S1 & S2 & E)].
  - exists w. right. split; [|now split]. intros (S1 & S2). pose proof (set_rights_succeeds Os w fd f b r O P1 P2 P3 P4 S1 S2) as K. rewrite E in K. discriminate K.
  - eexists. left. split; [exact S1|]. split; [exact S2|]. split; [exact E|]. destruct O as ((O0 & O1) & O2). split.
    + exists (set_rights f b r). split; [|now split]. split; [|exact O2]. split; [exact O0|]. cbn [with_fd w_self p_fd]. exact (nth_upd_same _ _ _ _ O1).
    + intros k e N. unfold entry. cbn [with_fd w_self p_fd]. split; intros (K0 & K1); (split; [exact K0|]).
      * rewrite nth_upd_other in K1 by lia. exact K1.
      * rewrite nth_upd_other by lia. exact K1.
Qed.
Lemma rights_fall Os h w fd f : entry w fd f -> Forall (no_move fd) h ->
  exists f', entry (history Os w h) fd f' /\ subset (rights_base f') (rights_base f) /\ subset (rights_root f') (rights_root f).
Proof. intros E N. exact (rights_history Os h w fd f E N). Qed.

(* ---- paths ---- *)
Lemma below_longer d e : below d e -> below_or_longer d e.
Proof.
  intros (l & ->). destruct (list_eq_dec (list_eq_dec Z.eq_dec) d []) as [->|N]; [now left|]. right.
  destruct (exists_last N) as (up & c & ->). exists up, c, [], l. split; [reflexivity|]. now rewrite app_nil_r, <- app_assoc.
Qed.
Lemma open_inside Os w r w' x0 x1 x2 x3 x4 x5 x6 x7 x8 :
  wasi_call Os F_path_open [x0; x1; x2; x3; x4; x5; x6; x7; x8] w = (r, w') -> w_log w' <> w_log w ->
  exists f nm flags rep evs, is_open w x0 f /\ w_log w' = evs ++ (OsOpen nm flags 420 (Some (host_fd f)), rep) :: w_log w /\
  Forall (fun e => exists h, fst e = OsIsdir h \/ fst e = OsIsfile h \/ fst e = OsStatFd h) evs /\
  forall rs l e, Forall proper rs -> host_name f = rooted rs -> Forall slash_free l -> l <> [] -> nm = joined l ->
  (absolute nm /\ walks [] l e) \/ (~ absolute nm /\ walks rs l e) -> below_or_longer rs e.
Proof.
  intros H N. destruct (path_open_checked Os w r w' x0 x1 x2 x3 x4 x5 x6 x7 x8 H) as [K|(f & nm & fl & evs & rep & O & ES & LG & EV)]; [contradiction|].
  exists f, nm, fl, rep, evs. repeat split; try assumption; try apply O. intros rs l e P Hn F Nl -> [(A & W)|(A & W)]; rewrite Hn in ES.
  - exact (escp_absolute rs l e P F A W ES).
  - now apply (escp_relative rs l e P F Nl A W).
Qed.
Lemma inside_accepted rs l e : Forall proper rs -> Forall slash_free l -> l <> [] -> ~ absolute (joined l) -> walks rs l e ->
  below rs e -> help_escp (rooted rs) (joined l) = false.
Proof. intros P F N A W B. apply (escp_relative rs l e P F N A W). now apply below_longer. Qed.

(* ---- fd_seek ---- *)
Lemma seek_unmoved Os w fd off wh p e w' : wasi_call Os F_fd_seek [fd; off; wh; p] w = (Ok [e], w') -> e <> 0 ->
  w' = w \/ exists f r, is_open w fd f /\ r + off < 0 /\ w' = logged w (OsLseek (host_fd f) 0 wh) (RInt r).
Proof.
  intros H N. destruct (seek_error Os w fd off wh p e w' H N) as [E|(_ & f & r & O & L & E)]; [now left|]. right. now exists f, r.
Qed.
Lemma seek_cur_unmoved Os w fd off p e w' h size : wasi_call Os F_fd_seek [fd; off; 1; p] w = (Ok [e], w') -> e <> 0 ->
  file_pos h size (w_log w') = file_pos h size (w_log w).
Proof.
  intros H N. destruct (seek_unmoved Os w fd off 1 p e w' H N) as [->|(f & r & _ & _ & ->)]; [reflexivity|].
  unfold logged, file_pos. cbn [w_log fold_right moved_by]. destruct (host_fd f =? h); [|reflexivity].
  set (x := fold_right _ _ _). unfold seeks_to. change (1 =? 0) with false. change (1 =? 1) with true. cbn iota. lia.
Qed.
(* ---- fd_prestat_get ---- *)
Lemma prestat_dirs Os w fd f a d p : is_open w fd f -> guest w a d -> Forall scalar (wasm_name f) -> len (utf8 (wasm_name f)) < 2 ^ 32 ->
  0 <= p -> p + 8 <= len d -> 3 <= fd ->
  if fd <? 3 + p_dirs (w_self w)
  then exists d1 d', overwritten d d1 p [0] /\ overwritten d1 d' (p + 4) (to_le 4 (len (utf8 (wasm_name f)))) /\
       wasi_call Os F_fd_prestat_get [fd; p] w = (Ok [0], set_guest w a d')
  else wasi_call Os F_fd_prestat_get [fd; p] w = (Ok [8], w).
Proof.
  intros O G S L P1 P2 F. pose proof (prestat_call Os w fd f a d p O G S L P1 P2) as K.
  replace (fd <? 3 + p_dirs (w_self w)) with (fd - 2 <=? p_dirs (w_self w)) by lia. exact K.
Qed.
