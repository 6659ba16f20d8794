(* Where WASI calls write: only in the ranges for their results. *)
From Coq Require Import ZArith List Bool Lia ZifyBool ZifyNat.
From Verif Require Import Py Syntax Store Val Machine Utf8 Os Wasi SpecInt SpecMem SpecFormat SpecWasi SpecPath SpecWasiMore SpecWasiPath
  PyFacts MemFacts WasiFacts WasiTableFacts WasiMemFacts WasiIoFacts WasiCallFacts WasiMoreFacts WasiGrowFacts.
Import ListNotations.
Open Scope Z_scope.

Definition framed {A} (a : nat) (rs : list (Z * Z)) (m : W A) : Prop := forall w d, guest w a d -> Forall (in_memory d) rs ->
  exists d', guest (snd (m w)) a d' /\ len d' = len d /\
  (forall k, 0 <= k < len d -> outside rs k -> nth_error d' (Z.to_nat k) = nth_error d (Z.to_nat k)) /\
  w_mach (snd (m w)) = w_mach (set_guest w a d').
Lemma framed_same {A} a rs (m : W A) : (forall w, w_mach (snd (m w)) = w_mach w) -> framed a rs m.
Proof.
  intros H w d G _. exists d. split; [now apply (guest_mach w)|]. split; [reflexivity|]. split; [reflexivity|]. now rewrite (set_same w a d G).
Qed.
Lemma framed_bind {A B} a rs (m : W A) (k : A -> W B) : framed a rs m -> (forall x, framed a rs (k x)) -> framed a rs (bind m k).
Proof.
  intros Hm Hk w d G I. destruct (Hm w d G I) as (d1 & G1 & L1 & N1 & M1). unfold bind. destruct (m w) as [[x|e] w1]; cbn [snd] in *; [|exists d1; now repeat split].
  assert (Forall (in_memory d1) rs) as I1 by (eapply Forall_impl; [|exact I]; unfold in_memory; now rewrite L1).
  destruct (Hk x w1 d1 G1 I1) as (d2 & G2 & L2 & N2 & M2). exists d2. split; [exact G2|]. split; [congruence|]. split.
  - intros j Hj O. rewrite N2 by (rewrite ?L1; assumption). now apply N1.
  - rewrite M2. rewrite <- (set_set w a d1 d2). apply mach_set. exact M1.
Qed.
Lemma framed_mem {B} a rs (k : Z -> W B) : framed a rs (k (Z.of_nat a)) -> framed a rs (bind the_mem k).
Proof. intros H w d G I. unfold bind. rewrite (the_mem_guest w a d G). now apply H. Qed.
(* [n] bytes at [p] lie in one of the ranges *)
Definition covered (rs : list (Z * Z)) (p n : Z) : Prop := exists r, In r rs /\ fst r <= p /\ p + n <= fst r + snd r.
Lemma covered_in d rs p n : Forall (in_memory d) rs -> covered rs p n -> 0 <= n -> 0 <= p /\ p + n <= len d.
Proof. intros I (r & Hr & H1 & H2) H3. rewrite Forall_forall in I. destruct (I r Hr) as (J1 & J2 & J3). lia. Qed.
Lemma covered_out rs p n k : outside rs k -> covered rs p n -> k < p \/ p + n <= k.
Proof. intros O (r & Hr & H1 & H2). unfold outside in O. rewrite Forall_forall in O. specialize (O r Hr). lia. Qed.
Lemma framed_splice {A} a rs (m : W A) (p n : Z) : 0 <= n -> covered rs p n ->
  (forall w d, guest w a d -> 0 <= p -> p + n <= len d -> snd (m w) = w \/ exists bs, len bs = n /\ bytes bs /\ snd (m w) = set_guest w a (splice d p bs)) -> framed a rs m.
Proof.
  intros Hn C H w d G I. destruct (covered_in d rs p n I C Hn) as (H1 & H2). destruct (H w d G H1 H2) as [-> | (bs & Lb & Bb & ->)].
  - exists d. split; [exact G|]. split; [reflexivity|]. split; [reflexivity|]. now rewrite (set_same w a d G).
  - exists (splice d p bs). split; [apply (guest_set w a d); [exact G|apply bytes_splice; [exact (guest_bytes _ _ _ G)|exact Bb]]|]. split; [apply len_splice; lia|]. split; [|reflexivity].
    intros k Hk O. rewrite nth_splice by lia. pose proof (covered_out rs p n k O C). replace (_ && _) with false by lia. reflexivity.
Qed.
Lemma framed_put_u a rs k p v : 0 <= k -> covered rs p k -> framed a rs (write_mem (Z.of_nat a) (fun x => mem_put_u k x p v)).
Proof.
  intros Hk C. apply (framed_splice a rs _ p k Hk C). intros w d G H1 H2. destruct ((0 <=? v) && (v <? 2 ^ (8 * k))) eqn:E.
  - right. exists (to_le (Z.to_nat k) v). rewrite len_to_le. split; [lia|]. split; [apply to_le_bytes|]. now rewrite (put_u_at w a d k p v G) by lia.
  - left. unfold write_mem. destruct (py_index _ _) as [x|e]; [|reflexivity]. cbn [Py.rbind]. unfold mem_put_u, pack_u, to_bytes_u. rewrite E. reflexivity.
Qed.
Lemma framed_put_u8 a rs p v : covered rs p 1 -> framed a rs (put_u8 (Z.of_nat a) p v).
Proof.
  intros C. apply (framed_splice a rs _ p 1 ltac:(lia) C). intros w d G H1 H2. destruct ((0 <=? v) && (v <? 256)) eqn:E.
  - right. exists [v]. split; [reflexivity|]. split; [repeat constructor; lia|]. now rewrite (put_u8_at w a d p v G) by lia.
  - left. unfold put_u8, write_mem. destruct (py_index _ _) as [x|e]; [|reflexivity]. cbn [Py.rbind]. unfold mem_put_u8. rewrite E. reflexivity.
Qed.
Lemma framed_file a rs i : framed a rs (the_file i).
Proof. now apply framed_same. Qed.
Lemma framed_the_mem a rs : framed a rs the_mem.
Proof. apply framed_same. intros w. unfold the_mem. now destruct (k_frame (w_mach w)). Qed.
Lemma framed_pipe_write a rs i d : framed a rs (pipe_write i d).
Proof. apply framed_same. intros w. unfold pipe_write. destruct (nth_error (w_pipes w) i); [|easy]. now destruct (bio_write _ _). Qed.
Ltac cover := first [eexists; split; [left; reflexivity|cbn [fst snd]; lia] | eexists; split; [right; left; reflexivity|cbn [fst snd]; lia]].
Ltac frame_step :=
  match goal with
  | |- framed _ _ (ret _) => now apply framed_same
  | |- framed _ _ (fail _) => now apply framed_same
  | |- framed _ _ (lift _) => now apply framed_same
  | |- framed _ _ self => now apply framed_same
  | |- framed _ _ (set_self _) => now apply framed_same
  | |- framed _ _ (the_file _) => now apply framed_same
  | |- framed _ _ the_mem => apply framed_the_mem
  | |- framed _ _ (read_mem _ _) => now apply framed_same
  | |- framed _ _ (get_u8 _ _) => now apply framed_same
  | |- framed _ _ (get_u32 _ _) => now apply framed_same
  | |- framed _ _ (get_u64 _ _) => now apply framed_same
  | |- framed _ _ (get_bytes _ _ _) => now apply framed_same
  | |- framed _ _ (put_u8 _ _ _) => apply framed_put_u8; cover
  | |- framed _ _ (put_u16 _ _ _) => apply framed_put_u; [lia|cover]
  | |- framed _ _ (put_u32 _ _ _) => apply framed_put_u; [lia|cover]
  | |- framed _ _ (put_u64 _ _ _) => apply framed_put_u; [lia|cover]
  | |- framed _ _ (pipe_write _ _) => apply framed_pipe_write
  | |- framed _ _ (ask _ _) => now apply framed_same
  | |- framed _ _ (bind the_mem _) => apply framed_mem
  | |- framed _ _ (bind _ _) => apply framed_bind; [|intros ?]
  | |- framed _ _ (if ?b then _ else _) => destruct b
  | |- framed _ _ (match ?x with _ => _ end) => destruct x
  | |- framed _ _ (ask_unit _ _) => unfold ask_unit
  | |- framed _ _ (ask_int _ _) => unfold ask_int
  | |- framed _ _ (ask_bytes _ _) => unfold ask_bytes
  | |- framed _ _ (ask_names _ _) => unfold ask_names
  | |- framed _ _ (ask_stat _ _) => unfold ask_stat
  | |- framed _ _ (ask_bool _ _) => unfold ask_bool
  | |- framed _ _ (ask_try _ _ _ _) => unfold ask_try
  | |- framed _ _ (os_raise _) => unfold os_raise
  | |- framed _ _ (put_file _ _) => unfold put_file
  | |- framed _ _ (set_fd _) => unfold set_fd
  | |- framed _ _ (get_str _ _ _) => unfold get_str
  | |- framed _ _ (put_stat _ _ _ _) => unfold put_stat
  | |- framed _ _ (help_time _ _) => unfold help_time
  | |- framed _ _ (help_idir _) => unfold help_idir
  | |- framed _ _ (help_perm _ _) => unfold help_perm
  | |- framed _ _ (help_pipe _) => unfold help_pipe
  | |- framed _ _ (help_sock _) => unfold help_sock
  | |- framed _ _ (stream_write _ _ _ _) => unfold stream_write
  | |- framed _ _ (unless_badf _ _) => unfold unless_badf
  | |- framed _ _ (unless_dir _ _) => unfold unless_dir
  | |- framed _ _ (need _ _ _) => unfold need
  | |- framed _ _ (unless_sock _ _) => unfold unless_sock
  | |- framed _ _ (unless_escp _ _ _) => unfold unless_escp
  end.
Ltac frame_tac := cbn zeta; repeat (frame_step; cbn beta zeta).
Lemma framed_gather a rs b n : forall ptr acc, framed a rs (gather b n ptr acc).
Proof. induction n as [|n IH]; intros; cbn [gather]; frame_tac. apply IH. Qed.
Lemma call_framed Os a f args rs : results f args = Some rs -> framed a rs (wasi_call Os f args).
Proof.
  intros R. destruct f; try discriminate R; (do 10 (try (destruct args as [|? args]; try discriminate R; try (now apply framed_same)))); cbn [results] in R;
    try discriminate R; injection R as <-; cbn [wasi_call].
  all: unfold args_sizes_get, clock_res_get, clock_time_get, environ_sizes_get, fd_advise, fd_allocate, fd_close,
     fd_datasync, fd_fdstat_get, fd_fdstat_set_flags, fd_fdstat_set_rights, fd_filestat_get, fd_filestat_set_size, fd_filestat_set_times,
     fd_prestat_get, fd_pwrite, fd_renumber, fd_seek, fd_sync, fd_tell, fd_write,
     path_create_directory, path_filestat_get, path_filestat_set_times, path_link, path_open, path_remove_directory, path_rename, path_symlink,
     path_unlink_file, proc_exit, proc_raise, sched_yield, sock_accept, sock_send, sock_shutdown, put_sizes;
     repeat (frame_tac; try apply framed_gather).
Qed.
