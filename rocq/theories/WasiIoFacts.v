(* Writing from and reading into buffers. *)
From Coq Require Import ZArith List Bool Lia ZifyBool ZifyNat.
From Verif Require Import Py Syntax Store Val Machine Utf8 Os Wasi SpecMem SpecFormat SpecWasi PyFacts MemFacts WasiFacts WasiTableFacts WasiMemFacts.
Import ListNotations.
Open Scope Z_scope.

(* ---- the opening checks, passed ---- *)
Lemma pass_badf w fd f k : is_open w fd f -> unless_badf fd k w = k w.
Proof. intros O. unfold unless_badf, bind, self. now rewrite (badf_open w fd f O). Qed.
Lemma pass_dir w fd f k : is_open w fd f -> wasm_type f <> T_DIRECTORY -> unless_dir fd k w = k w.
Proof.
  intros (E & _) T. unfold unless_dir, help_idir. unfold bind at 1. unfold bind at 1. rewrite (the_file_at w fd f E).
  unfold ret. now destruct (Z.eqb_spec (wasm_type f) T_DIRECTORY).
Qed.
Lemma pass_need w fd f bit k : is_open w fd f -> 0 <= bit -> has_right f bit -> need fd (2 ^ bit) k w = k w.
Proof.
  intros (E & _) Hb R. rewrite (need_eq w fd f _ _ E). rewrite land_pow2 by exact Hb. unfold has_right in R. rewrite R.
  pose proof (Z.pow_pos_nonneg 2 bit). now destruct (Z.eqb_spec (2 ^ bit) 0); [lia|].
Qed.
Lemma open_set_guest w a d fd f : is_open w fd f -> is_open (set_guest w a d) fd f.
Proof. unfold is_open, entry. now rewrite (proj1 (set_guest_parts w a d)). Qed.

(* ---- buffers ---- *)
Lemma iovs_S d ptr n : iovs d ptr (S n) = iov d ptr 0 :: iovs d (ptr + 8) n.
Proof.
  unfold iovs. cbn [seq map]. f_equal. rewrite <- seq_shift, map_map. apply map_ext. intros k. unfold iov. f_equal; do 2 f_equal; lia.
Qed.
Lemma iov_range d ptr k : bytes d -> 0 <= ptr -> ptr + 8 * Z.of_nat k + 8 <= len d ->
  0 <= fst (iov d ptr k) < 2 ^ 32 /\ 0 <= snd (iov d ptr k) < 2 ^ 32.
Proof.
  intros B H1 H2. unfold iov. cbn [fst snd]. split.
  - pose proof (le_of_bound (range_of d (ptr + 8 * Z.of_nat k) 4) (bytes_range_of _ _ _ B)) as H. rewrite len_range_of in H by lia. exact H.
  - pose proof (le_of_bound (range_of d (ptr + 8 * Z.of_nat k + 4) 4) (bytes_range_of _ _ _ B)) as H. rewrite len_range_of in H by lia. exact H.
Qed.
Lemma get_iov {A} w a d ptr (k : Z -> Z -> W A) : guest w a d -> 0 <= ptr -> ptr + 8 <= len d ->
  (let! eptr := get_u32 (Z.of_nat a) ptr in let! elen := get_u32 (Z.of_nat a) (ptr + 4) in k eptr elen) w =
  k (fst (iov d ptr 0)) (snd (iov d ptr 0)) w.
Proof.
  intros G H1 H2. unfold bind at 1. unfold get_u32 at 1. rewrite (get_u_at w a d 4 ptr G) by lia.
  unfold bind at 1. unfold get_u32 at 1. rewrite (get_u_at w a d 4 (ptr + 4) G) by lia. unfold iov. cbn [fst snd].
  now replace (ptr + 8 * Z.of_nat 0) with ptr by lia.
Qed.
Lemma gather_ok w a d n : guest w a d -> forall ptr acc, 0 <= ptr -> ptr + 8 * Z.of_nat n <= len d -> Forall (inside d) (iovs d ptr n) ->
  gather (Z.of_nat a) n ptr acc w = (Ok (acc ++ gathered d (iovs d ptr n)), w).
Proof.
  intros G. induction n as [|n IH]; intros ptr acc H1 H2 F; cbn [gather].
  { unfold ret, iovs, gathered. cbn. now rewrite app_nil_r. }
  rewrite iovs_S in *. inversion F as [|? ? F1 F2]; subst.
  destruct (iov_range d ptr 0 (guest_bytes _ _ _ G) H1 ltac:(lia)) as (I1 & I2). unfold inside in F1.
  rewrite (get_iov w a d ptr _ G H1) by lia.
  unfold bind at 1. rewrite (get_bytes_at w a d _ _ G) by lia. rewrite IH by (try lia; exact F2).
  unfold gathered. cbn [map concat]. now rewrite app_assoc.
Qed.

(* ---- fd_write ---- *)
Lemma stream_file fd f w : is_open w fd f -> help_pipe fd w = (Ok (match stream_of fd f with Some _ => true | None => false end), w).
Proof.
  intros (E & _). unfold help_pipe, stream_of. destruct (fd <? 3); [|reflexivity]. unfold bind. now rewrite (the_file_at w fd f E).
Qed.
Lemma stream_write_os Os w fd f d : is_open w fd f -> stream_of fd f = None ->
  stream_write Os fd f d w = ask_int Os (OsWrite (host_fd f) d) w.
Proof. intros O S. unfold stream_write. unfold bind at 1. rewrite (stream_file fd f w O), S. reflexivity. Qed.
Lemma stream_some fd f i : stream_of fd f = Some i -> pipe f = Some i.
Proof. unfold stream_of. destruct (fd <? 3); [tauto|discriminate]. Qed.
Lemma stream_write_pipe Os w fd f d i : is_open w fd f -> stream_of fd f = Some i ->
  stream_write Os fd f d w = pipe_write i d w.
Proof. intros O S. unfold stream_write. unfold bind at 1. rewrite (stream_file fd f w O), S. now rewrite (stream_some fd f i S). Qed.

Lemma fd_write_head Os w fd f a d ptr n x3 : is_open w fd f -> wasm_type f <> T_DIRECTORY -> has_right f 6 -> guest w a d ->
  0 <= ptr -> 0 <= n -> ptr + 8 * n <= len d -> Forall (inside d) (iovs d ptr (Z.to_nat n)) ->
  fd_write Os fd ptr n x3 w =
  (let! size := stream_write Os fd f (gathered d (iovs d ptr (Z.to_nat n))) in put_u32 (Z.of_nat a) x3 size ;; ret [E_SUCCESS]) w.
Proof.
  intros O T R G H1 H2 H3 F. unfold fd_write. rewrite (pass_badf w fd f _ O), (pass_dir w fd f _ O T).
  change R_FD_WRITE with (2 ^ 6). rewrite (pass_need w fd f 6 _ O) by (try lia; exact R).
  unfold bind at 1. rewrite (the_mem_guest w a d G). unfold bind at 1. rewrite (the_file_at w fd f (proj1 O)).
  unfold bind at 1. rewrite (gather_ok w a d (Z.to_nat n) G) by (try lia; exact F). reflexivity.
Qed.
Lemma guest_logged w a d c r : guest w a d -> guest (logged w c r) a d.
Proof. exact (fun H => H). Qed.
Lemma guest_pipe w a d i b : guest w a d -> guest (set_pipe w i b) a d.
Proof. exact (fun H => H). Qed.
Lemma put_size w a d p v : guest w a d -> 0 <= p -> p + 4 <= len d -> 0 <= v < 2 ^ 32 ->
  exists d', overwritten d d' p (to_le 4 v) /\ (put_u32 (Z.of_nat a) p v ;; ret [E_SUCCESS]) w = (Ok [E_SUCCESS], set_guest w a d').
Proof.
  intros G H1 H2 H3. exists (splice d p (to_le 4 v)). split; [apply splice_over; rewrite ?len_to_le; lia|].
  unfold bind. unfold put_u32. now rewrite (put_u_at w a d 4 p v G) by (change (2 ^ (8 * 4)) with (2 ^ 32); lia).
Qed.
Lemma fd_write_os Os w fd f a d ptr n x3 size :
  is_open w fd f -> wasm_type f <> T_DIRECTORY -> has_right f 6 -> guest w a d -> stream_of fd f = None ->
  0 <= ptr -> 0 <= n -> ptr + 8 * n <= len d -> Forall (inside d) (iovs d ptr (Z.to_nat n)) -> 0 <= x3 -> x3 + 4 <= len d ->
  let c := OsWrite (host_fd f) (gathered d (iovs d ptr (Z.to_nat n))) in
  Os (w_log w) c = RInt size -> 0 <= size < 2 ^ 32 ->
  exists d', overwritten d d' x3 (to_le 4 size) /\
  wasi_call Os F_fd_write [fd; ptr; n; x3] w = (Ok [E_SUCCESS], set_guest (logged w c (RInt size)) a d').
Proof.
  intros O T R G S H1 H2 H3 F X1 X2 c Rp Sz. destruct (put_size (logged w c (RInt size)) a d x3 size (guest_logged _ _ _ _ _ G) X1 X2 Sz) as (d' & D1 & D2).
  exists d'. split; [exact D1|]. cbn [wasi_call]. rewrite (fd_write_head Os w fd f a d ptr n x3 O T R G H1 H2 H3 F).
  unfold bind at 1. rewrite (stream_write_os Os w fd f _ O S). unfold ask_int. unfold bind at 1. unfold ask. fold c. rewrite Rp. exact D2.
Qed.
Lemma bio_write_end b d : bio_pos b = len (bio_data b) ->
  bio_write b d = (len d, mkbio (bio_data b ++ d) (len (bio_data b) + len d)).
Proof.
  intros H. unfold bio_write. destruct d as [|x d].
  - change (len (@nil Z)) with 0. rewrite app_nil_r, Z.add_0_r, <- H. now destruct b.
  - rewrite H. replace (len (bio_data b) - len (bio_data b)) with 0 by lia. change (zeros 0) with (@nil Z). rewrite app_nil_r.
    rewrite firstn_all2 by (unfold len; lia). rewrite skipn_all2 by (unfold len; lia). now rewrite app_nil_r.
Qed.
Lemma fd_write_pipe Os w fd f a d ptr n x3 i b :
  is_open w fd f -> wasm_type f <> T_DIRECTORY -> has_right f 6 -> guest w a d -> stream_of fd f = Some i ->
  nth_error (w_pipes w) i = Some b -> bio_pos b = len (bio_data b) ->
  0 <= ptr -> 0 <= n -> ptr + 8 * n <= len d -> Forall (inside d) (iovs d ptr (Z.to_nat n)) -> 0 <= x3 -> x3 + 4 <= len d ->
  let data := gathered d (iovs d ptr (Z.to_nat n)) in len data < 2 ^ 32 ->
  exists d', overwritten d d' x3 (to_le 4 (len data)) /\
  wasi_call Os F_fd_write [fd; ptr; n; x3] w =
    (Ok [E_SUCCESS], set_guest (set_pipe w i (mkbio (bio_data b ++ data) (len (bio_data b) + len data))) a d').
Proof.
  intros O T R G S Hb Pb H1 H2 H3 F X1 X2 data Sz. pose proof (len_nonneg data).
  set (w1 := set_pipe _ _ _). destruct (put_size w1 a d x3 (len data) (guest_pipe _ _ _ _ _ G) X1 X2 ltac:(lia)) as (d' & D1 & D2).
  exists d'. split; [exact D1|]. cbn [wasi_call]. rewrite (fd_write_head Os w fd f a d ptr n x3 O T R G H1 H2 H3 F).
  unfold bind at 1. rewrite (stream_write_pipe Os w fd f _ i O S). fold data. unfold pipe_write. rewrite Hb, (bio_write_end b data Pb). exact D2.
Qed.

(* ---- fd_read ---- *)
Lemma iov_same d d1 ptr k p bs : 0 <= p -> p + len bs <= len d -> d1 = splice d p bs -> 0 <= ptr ->
  apart p (len bs) ptr (8 * Z.of_nat k + 8) -> iov d1 ptr k = iov d ptr k.
Proof.
  intros P1 P2 -> H A. unfold iov, apart in *. f_equal; f_equal; apply splice_other; unfold apart; lia.
Qed.
Lemma iovs_same d d1 ptr n p bs : 0 <= p -> p + len bs <= len d -> d1 = splice d p bs -> 0 <= ptr ->
  apart p (len bs) ptr (8 * Z.of_nat n) -> iovs d1 ptr n = iovs d ptr n.
Proof.
  intros P1 P2 E H A. unfold iovs. apply map_ext_in. intros k Hk. apply in_seq in Hk. unfold apart in *.
  apply (iov_same d d1 ptr k p bs); try assumption. unfold apart. lia.
Qed.
Lemma len_firstn {A} n (l : list A) : 0 <= n -> len (firstn (Z.to_nat n) l) = Z.min n (len l).
Proof. intros H. unfold len. rewrite firstn_length. lia. Qed.
Lemma len_skipn {A} n (l : list A) : 0 <= n -> len (skipn (Z.to_nat n) l) = Z.max 0 (len l - n).
Proof. intros H. unfold len. rewrite skipn_length. lia. Qed.

Lemma firstn_app_2' {A} (l1 l2 : list A) n m : length l1 = n -> firstn (n + m) (l1 ++ l2) = l1 ++ firstn m l2.
Proof. intros <-. apply firstn_app_2. Qed.
Lemma skipn_skipn' {A} (l : list A) : forall n m, skipn m (skipn n l) = skipn (n + m) l.
Proof. induction l as [|x l IH]; intros [|n] m; cbn [skipn Nat.add]; try reflexivity; [now rewrite !skipn_nil|apply IH]. Qed.
(* a stream read by [stream_read]: [rest w] is what is still to come, [next w n] the world after reading n bytes *)
Record stream_ok (Os : os) (fd : Z) (f : file) (a : nat) (rest : world -> list Z) (next : world -> Z -> world) (P : world -> Prop) : Prop := {
  so_read : forall w n, P w -> 0 <= n -> stream_read Os fd f n w = (Ok (firstn (Z.to_nat n) (rest w)), next w n);
  so_next : forall w n, P w -> 0 <= n -> P (next w n) /\ rest (next w n) = skipn (Z.to_nat n) (rest w) /\ w_mach (next w n) = w_mach w;
  so_set : forall w d, P w -> P (set_guest w a d) /\ rest (set_guest w a d) = rest w;
  so_bytes : forall w, P w -> bytes (rest w)
}.
Lemma guest_mach w w' a d : w_mach w' = w_mach w -> guest w a d -> guest w' a d.
Proof. intros E. unfold guest. now rewrite E. Qed.
Lemma mach_set w w1 a d : w_mach w1 = w_mach w -> w_mach (set_guest w1 a d) = w_mach (set_guest w a d).
Proof. intros E. unfold set_guest. rewrite E. now destruct (nth_error _ a). Qed.
Lemma read_loop_ok Os fd f a rest next P : stream_ok Os fd f a rest next P -> forall n w d ptr size, P w -> guest w a d ->
  0 <= ptr -> ptr + 8 * Z.of_nat n <= len d ->
  Forall (fun b => inside d b /\ 0 < snd b /\ apart (fst b) (snd b) ptr (8 * Z.of_nat n)) (iovs d ptr n) ->
  let m := Z.min (room (iovs d ptr n)) (len (rest w)) in
  exists d' w', filled d (iovs d ptr n) (firstn (Z.to_nat m) (rest w)) d' /\ len d' = len d /\ bytes d' /\
    read_loop Os (Z.of_nat a) fd f n ptr size w = (Ok (size + m), w') /\
    P w' /\ guest w' a d' /\ rest w' = skipn (Z.to_nat m) (rest w) /\ w_mach w' = w_mach (set_guest w a d').
Proof.
  intros SO. induction n as [|n IH]; intros w d ptr size Pw G H1 H2 F m.
  { exists d, w. unfold m, iovs. cbn [seq map room fold_right read_loop]. pose proof (len_nonneg (rest w)).
    replace (Z.min 0 (len (rest w))) with 0 by lia. cbn. repeat split; try easy; [constructor|exact (guest_bytes _ _ _ G)| |].
    - unfold ret. now rewrite Z.add_0_r.
    - now rewrite set_same. }
  rewrite iovs_S in *. inversion F as [|? ? (F1 & F2 & F3) F4]; subst.
  destruct (iov d ptr 0) as (p, k) eqn:EV. destruct (iov_range d ptr 0 (guest_bytes _ _ _ G) H1 ltac:(lia)) as (I1 & I2).
  rewrite EV in I1, I2. unfold inside in F1. cbn [fst snd] in *. cbn [read_loop]. rewrite (get_iov w a d ptr _ G H1) by lia. rewrite EV. cbn [fst snd].
  destruct SO as [SR SN SS SB]. unfold bind at 1. rewrite (SR w k Pw) by lia.
  destruct (SN w k Pw ltac:(lia)) as (N1 & N2 & N3). set (w1 := next w k) in *. assert (guest w1 a d) as G1 by (eapply guest_mach; eassumption).
  pose proof (len_nonneg (rest w)) as Lr. 
  assert (m = Z.min (k + room (iovs d (ptr + 8) n)) (len (rest w))) as Em0 by (unfold m; now rewrite iovs_S, EV). clearbody m.
  assert (0 <= room (iovs d (ptr + 8) n)) as Rm.
  { clear -F4. induction F4 as [|b l (_ & B & _) _ IHl]; cbn; [lia|]. unfold room in IHl. lia. }
  rewrite len_firstn by lia. destruct (Z.eqb_spec (Z.min k (len (rest w))) 0) as [Z0|NZ].
  - assert (rest w = []) as E0 by (apply length_zero_iff_nil; unfold len in *; lia).
    exists d, w1. assert (m = 0) as -> by lia. rewrite E0. cbn [Z.to_nat firstn skipn].
    repeat split; try assumption; [constructor|exact (guest_bytes _ _ _ G)|unfold ret; now rewrite Z.add_0_r| |].
    { rewrite N2, E0. now rewrite skipn_nil. } now rewrite set_same.
  - set (got := firstn (Z.to_nat k) (rest w)). assert (len got = Z.min k (len (rest w))) as LG by (unfold got; apply len_firstn; lia).
    unfold bind at 1. rewrite (put_bytes_at w1 a d p got G1) by lia. set (d1 := splice d p got).
    assert (bytes got) as BG by (apply bytes_firstn, (SB w Pw)).
    assert (bytes d1) as BD by (apply bytes_splice; [exact (guest_bytes _ _ _ G)|exact BG]).
    assert (len d1 = len d) as L1 by (apply len_splice; lia).
    assert (guest (set_guest w1 a d1) a d1) as G2 by (eapply guest_set; eassumption).
    assert (iovs d1 (ptr + 8) n = iovs d (ptr + 8) n) as EI.
    { apply (iovs_same d d1 (ptr + 8) n p got); try lia; [reflexivity|]. unfold apart in *. lia. }
    destruct (SS w1 d1 N1) as (S1 & S2).
    destruct (Z.ltb_spec (Z.min k (len (rest w))) k) as [LT|GE].
    + (* the stream ends here *)
      assert (m = len (rest w)) as -> by lia. exists d1, (set_guest w1 a d1). unfold ret.
      rewrite (firstn_all2 (n := Z.to_nat (len (rest w)))) by (unfold len; lia). rewrite (skipn_all2 (n := Z.to_nat (len (rest w)))) by (unfold len; lia).
      replace (Z.min k (len (rest w))) with (len (rest w)) by lia.
      repeat split; try assumption.
      * apply filled_next with (d1 := d1); [fold got; apply splice_over; lia|]. rewrite skipn_all2 by (unfold len in *; lia). constructor.
      * rewrite S2, N2. apply skipn_all2. unfold len in *. lia.
      * now apply mach_set.
    + replace (Z.min k (len (rest w))) with k by lia.
      destruct (IH (set_guest w1 a d1) d1 (ptr + 8) (size + k) S1 G2 ltac:(lia) ltac:(lia)) as (d' & w' & Q1 & Q2 & Q3 & Q4 & Q5 & Q6 & Q7 & Q8).
      { rewrite EI. eapply Forall_impl; [|exact F4]. intros b (B1 & B2 & B3). unfold inside, apart in *. lia. }
      rewrite EI, S2, N2 in *. exists d', w'. rewrite len_skipn in * by lia.
      set (m' := Z.min (room (iovs d (ptr + 8) n)) (Z.max 0 (len (rest w) - k))) in *. assert (m = k + m') as Em by (unfold m'; lia).
      assert (0 <= m') as Hm' by (unfold m'; lia).
      assert (firstn (Z.to_nat m) (rest w) = got ++ firstn (Z.to_nat m') (skipn (Z.to_nat k) (rest w))) as EF.
      { rewrite Em, Z2Nat.inj_add by lia. unfold got. rewrite <- (firstn_skipn (Z.to_nat k) (rest w)) at 1.
        rewrite firstn_app_2'. 2:{ rewrite firstn_length. unfold len in *. lia. } reflexivity. }
      repeat split; try assumption; try lia.
      * rewrite EF. apply filled_next with (d1 := d1).
        -- rewrite firstn_app. replace (Z.to_nat k - length got)%nat with O by (unfold len in *; lia). cbn [firstn].
           rewrite app_nil_r, (firstn_all2 got) by (unfold len in *; lia). apply splice_over; lia.
        -- rewrite skipn_app. replace (Z.to_nat k - length got)%nat with O by (unfold len in *; lia).
           rewrite (skipn_all2 got) by (unfold len in *; lia). cbn [app skipn]. exact Q1.
      * rewrite Q4. do 2 f_equal. lia.
      * rewrite Q7, skipn_skipn'. f_equal. lia.
      * rewrite Q8, set_set. now apply mach_set.
Qed.

Lemma fd_read_head Os w fd f a d ptr n x3 : is_open w fd f -> wasm_type f <> T_DIRECTORY -> has_right f 1 -> guest w a d ->
  fd_read Os fd ptr n x3 w =
  (let! size := read_loop Os (Z.of_nat a) fd f (Z.to_nat n) ptr 0 in put_u32 (Z.of_nat a) x3 size ;; ret [E_SUCCESS]) w.
Proof.
  intros O T R G. unfold fd_read. rewrite (pass_badf w fd f _ O), (pass_dir w fd f _ O T).
  change R_FD_READ with (2 ^ 1). rewrite (pass_need w fd f 1 _ O) by (try lia; exact R).
  unfold bind at 1. rewrite (the_mem_guest w a d G). unfold bind at 1. rewrite (the_file_at w fd f (proj1 O)). reflexivity.
Qed.
(* what both kinds of streams have in common *)
Lemma fd_read_gen Os w fd f a d ptr n x3 rest next P : stream_ok Os fd f a rest next P -> P w ->
  is_open w fd f -> wasm_type f <> T_DIRECTORY -> has_right f 1 -> guest w a d ->
  0 <= ptr -> 0 <= n -> ptr + 8 * n <= len d ->
  Forall (fun b => inside d b /\ 0 < snd b /\ apart (fst b) (snd b) ptr (8 * n)) (iovs d ptr (Z.to_nat n)) ->
  0 <= x3 -> x3 + 4 <= len d ->
  let m := Z.min (room (iovs d ptr (Z.to_nat n))) (len (rest w)) in m < 2 ^ 32 ->
  exists d1 d' w', filled d (iovs d ptr (Z.to_nat n)) (firstn (Z.to_nat m) (rest w)) d1 /\ overwritten d1 d' x3 (to_le 4 m) /\
  wasi_call Os F_fd_read [fd; ptr; n; x3] w = (Ok [E_SUCCESS], set_guest w' a d') /\
  P w' /\ rest w' = skipn (Z.to_nat m) (rest w) /\ w_mach w' = w_mach (set_guest w a d1).
Proof.
  intros SO Pw O T R G H1 H2 H3 F X1 X2 m Hm.
  destruct (read_loop_ok Os fd f a rest next P SO (Z.to_nat n) w d ptr 0 Pw G H1 ltac:(lia)) as (d1 & w1 & Q1 & Q2 & Q3 & Q4 & Q5 & Q6 & Q7 & Q8).
  { now rewrite Z2Nat.id by exact H2. }
  fold m in Q1, Q4, Q7. rewrite Z.add_0_l in Q4.
  assert (0 <= m) as Hm0.
  { unfold m. assert (0 <= room (iovs d ptr (Z.to_nat n))); [|pose proof (len_nonneg (rest w)); lia].
    clear -F. induction F as [|b l (_ & B & _) _ IHl]; cbn; [lia|]. unfold room in IHl. lia. }
  destruct (put_size w1 a d1 x3 m Q6 X1 ltac:(lia) ltac:(lia)) as (d' & D1 & D2).
  exists d1, d', w1. split; [exact Q1|split; [exact D1|split; [|split; [exact Q5|split; [exact Q7|exact Q8]]]]].
  cbn [wasi_call]. rewrite (fd_read_head Os w fd f a d ptr n x3 O T R G). unfold bind at 1. rewrite Q4. exact D2.
Qed.
Lemma stream_read_os Os w fd f n : is_open w fd f -> stream_of fd f = None ->
  stream_read Os fd f n w = ask_bytes Os (OsRead (host_fd f) n) w.
Proof. intros O S. unfold stream_read. unfold bind at 1. rewrite (stream_file fd f w O), S. reflexivity. Qed.
Lemma stream_read_pipe Os w fd f n i : is_open w fd f -> stream_of fd f = Some i -> stream_read Os fd f n w = pipe_read i n w.
Proof. intros O S. unfold stream_read. unfold bind at 1. rewrite (stream_file fd f w O), S. now rewrite (stream_some fd f i S). Qed.

(* what is still to be read of in-memory stream number i *)
Definition pipe_rest (i : nat) (w : world) : list Z := match nth_error (w_pipes w) i with Some b => unread b | None => [] end.
Definition pipe_next (i : nat) (w : world) (n : Z) : world :=
  match nth_error (w_pipes w) i with Some b => set_pipe w i (snd (bio_read b n)) | None => w end.
Lemma fd_read_pipe Os w fd f a d ptr n x3 i b :
  is_open w fd f -> wasm_type f <> T_DIRECTORY -> has_right f 1 -> guest w a d -> stream_of fd f = Some i ->
  nth_error (w_pipes w) i = Some b -> 0 <= bio_pos b -> bytes (bio_data b) ->
  0 <= ptr -> 0 <= n -> ptr + 8 * n <= len d ->
  Forall (fun b => inside d b /\ 0 < snd b /\ apart (fst b) (snd b) ptr (8 * n)) (iovs d ptr (Z.to_nat n)) ->
  0 <= x3 -> x3 + 4 <= len d ->
  let m := Z.min (room (iovs d ptr (Z.to_nat n))) (len (unread b)) in m < 2 ^ 32 ->
  exists d1 d' b', filled d (iovs d ptr (Z.to_nat n)) (firstn (Z.to_nat m) (unread b)) d1 /\ overwritten d1 d' x3 (to_le 4 m) /\
  bio_data b' = bio_data b /\ unread b' = skipn (Z.to_nat m) (unread b) /\
  wasi_call Os F_fd_read [fd; ptr; n; x3] w = (Ok [E_SUCCESS], set_guest (set_pipe w i b') a d').
Proof.
  intros O T R G S Hb Pb Bb H1 H2 H3 F X1 X2 m Hm.
  set (P := fun w0 : world => w_self w0 = w_self w /\ w_log w0 = w_log w /\
    exists b0, w_pipes w0 = upd (w_pipes w) i b0 /\ bio_data b0 = bio_data b /\ 0 <= bio_pos b0).
  assert (forall b0, nth_error (upd (w_pipes w) i b0) i = Some b0) as NB by (intros b0; eapply nth_upd_same, Hb).
  assert (pipe_rest i w = unread b) as ER by (unfold pipe_rest; now rewrite Hb).
  assert (stream_ok Os fd f a (pipe_rest i) (pipe_next i) P) as SO.
  { split.
    - intros w0 k (P1 & P2 & b0 & P3 & P4 & P5) Hk. rewrite (stream_read_pipe Os w0 fd f k i); [|unfold is_open, entry; rewrite P1; exact O|exact S].
      unfold pipe_read, pipe_rest, pipe_next, set_pipe. rewrite P3, NB. reflexivity.
    - intros w0 k (P1 & P2 & b0 & P3 & P4 & P5) Hk. unfold pipe_rest, pipe_next. rewrite P3, NB. cbn [set_pipe w_pipes w_mach]. rewrite P3, upd_twice, NB.
      unfold bio_read. cbn [snd]. pose proof (len_nonneg (firstn (Z.to_nat k) (skipn (Z.to_nat (bio_pos b0)) (bio_data b0)))) as Lk. split; [|split; [|reflexivity]].
      + unfold P. cbn [set_pipe w_self w_log w_pipes]. repeat split; try assumption. eexists. rewrite P3, upd_twice. split; [reflexivity|]. cbn [bio_data bio_pos]. split; [exact P4|lia].
      + unfold unread. cbn [bio_data bio_pos]. rewrite skipn_skipn'. rewrite len_firstn by exact Hk. unfold len. rewrite skipn_length.
        destruct (Z.le_gt_cases k (Z.of_nat (length (bio_data b0) - Z.to_nat (bio_pos b0)))) as [LE|GT].
        * f_equal. lia.
        * rewrite !skipn_all2 by lia. reflexivity.
    - intros w0 d0 (P1 & P2 & P3). destruct (set_guest_parts w0 a d0) as (E1 & E2 & E3). split; [|unfold pipe_rest; now rewrite E3].
      unfold P. now rewrite E1, E2, E3.
    - intros w0 (P1 & P2 & b0 & P3 & P4 & P5). unfold pipe_rest. rewrite P3, NB. unfold unread. rewrite P4. now apply bytes_skipn. }
  assert (P w) as Pw.
  { repeat split. exists b. rewrite upd_id by exact Hb. now repeat split. }
  destruct (fd_read_gen Os w fd f a d ptr n x3 (pipe_rest i) (pipe_next i) P SO Pw O T R G H1 H2 H3 F X1 X2) as (d1 & d' & w' & Q1 & Q2 & Q3 & Q4 & Q5 & Q6).
  { rewrite ER. exact Hm. }
  rewrite ER in Q1, Q2, Q5. fold m in Q1, Q2, Q5. destruct Q4 as (P1 & P2 & b0 & P3 & P4 & P5). exists d1, d', b0.
  assert (pipe_rest i w' = unread b0) as E0 by (unfold pipe_rest; now rewrite P3, NB). rewrite E0 in Q5.
  split; [exact Q1|split; [exact Q2|split; [exact P4|split; [exact Q5|]]]]. rewrite Q3. f_equal.
  transitivity (set_guest (set_guest (set_pipe w i b0) a d1) a d'); [|apply set_set]. f_equal.
  destruct w' as [s l p k]. cbn in P1, P2, P3, Q6. subst s l p k. destruct (set_guest_parts (set_pipe w i b0) a d1) as (E1 & E2 & E3).
  destruct (set_guest (set_pipe w i b0) a d1) as [s l p k] eqn:E. cbn in E1, E2, E3. subst s l p. f_equal.
  rewrite <- (mach_set w (set_pipe w i b0) a d1 eq_refl). now rewrite E.
Qed.
Lemma fd_read_os Os w fd f a d ptr n x3 rest :
  is_open w fd f -> wasm_type f <> T_DIRECTORY -> has_right f 1 -> guest w a d -> stream_of fd f = None ->
  readable Os (host_fd f) rest ->
  0 <= ptr -> 0 <= n -> ptr + 8 * n <= len d ->
  Forall (fun b => inside d b /\ 0 < snd b /\ apart (fst b) (snd b) ptr (8 * n)) (iovs d ptr (Z.to_nat n)) ->
  0 <= x3 -> x3 + 4 <= len d ->
  let m := Z.min (room (iovs d ptr (Z.to_nat n))) (len (rest (w_log w))) in m < 2 ^ 32 ->
  exists d1 d' evs, filled d (iovs d ptr (Z.to_nat n)) (firstn (Z.to_nat m) (rest (w_log w))) d1 /\ overwritten d1 d' x3 (to_le 4 m) /\
  Forall (fun e => exists k, fst e = OsRead (host_fd f) k) evs /\ rest (evs ++ w_log w) = skipn (Z.to_nat m) (rest (w_log w)) /\
  wasi_call Os F_fd_read [fd; ptr; n; x3] w =
    (Ok [E_SUCCESS], set_guest (mkworld (w_self w) (evs ++ w_log w) (w_pipes w) (w_mach w)) a d').
Proof.
  intros O T R G S RD H1 H2 H3 F X1 X2 m Hm.
  set (P := fun w0 : world => w_self w0 = w_self w /\ w_pipes w0 = w_pipes w /\
    exists evs, w_log w0 = evs ++ w_log w /\ Forall (fun e => exists k, fst e = OsRead (host_fd f) k) evs).
  set (next := fun w0 k => logged w0 (OsRead (host_fd f) k) (RBytes (firstn (Z.to_nat k) (rest (w_log w0))))).
  assert (stream_ok Os fd f a (fun w0 => rest (w_log w0)) next P) as SO.
  { split.
    - intros w0 k (P1 & P2 & P3) Hk. rewrite (stream_read_os Os w0 fd f k); [|unfold is_open, entry; rewrite P1; exact O|exact S].
      unfold ask_bytes, bind, ask. destruct (RD (w_log w0)) as (_ & RD'). rewrite (proj1 (RD' k Hk)). reflexivity.
    - intros w0 k (P1 & P2 & evs & P3 & P4) Hk. destruct (RD (w_log w0)) as (_ & RD'). destruct (RD' k Hk) as (_ & RR). split; [|split; [exact RR|reflexivity]].
      repeat split; try assumption. unfold next, logged. cbn [w_log]. rewrite P3. exists ((OsRead (host_fd f) k, RBytes (firstn (Z.to_nat k) (rest (evs ++ w_log w)))) :: evs).
      split; [reflexivity|]. constructor; [now exists k|exact P4].
    - intros w0 d0 (P1 & P2 & P3). destruct (set_guest_parts w0 a d0) as (E1 & E2 & E3). split; [|now rewrite E2].
      unfold P. now rewrite E1, E2, E3.
    - intros w0 _. apply RD. }
  assert (P w) as Pw by (repeat split; exists []; split; [reflexivity|constructor]).
  destruct (fd_read_gen Os w fd f a d ptr n x3 _ next P SO Pw O T R G H1 H2 H3 F X1 X2 Hm) as (d1 & d' & w' & Q1 & Q2 & Q3 & Q4 & Q5 & Q6).
  fold m in Q1, Q2, Q5. destruct Q4 as (P1 & P2 & evs & P3 & P4). exists d1, d', evs. rewrite P3 in Q5.
  split; [exact Q1|split; [exact Q2|split; [exact P4|split; [exact Q5|]]]]. rewrite Q3. f_equal. set (w0 := mkworld (w_self w) (evs ++ w_log w) (w_pipes w) (w_mach w)).
  transitivity (set_guest (set_guest w0 a d1) a d'); [|apply set_set]. f_equal.
  destruct w' as [s l p k]. cbn in P1, P2, P3, Q6. subst s l p k. destruct (set_guest_parts w0 a d1) as (E1 & E2 & E3).
  destruct (set_guest w0 a d1) as [s l p k] eqn:E. cbn in E1, E2, E3. subst s l p. f_equal.
  rewrite <- (mach_set w w0 a d1 eq_refl). now rewrite E.
Qed.
