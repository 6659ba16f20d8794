(* No WASI call does more to the machine than writing into memories, and none makes a memory shorter. *)
From Coq Require Import ZArith List Bool Lia ZifyBool ZifyNat.
From Verif Require Import Py Syntax Store Val Machine Utf8 Os Wasi SpecMem SpecFormat SpecWasi PyFacts MemFacts
  WasiFacts WasiTableFacts.
Import ListNotations.
Open Scope Z_scope.

Lemma len_slice_set {A} (l v : list A) a : len l <= len (py_slice_set l a (a + len v) v).
Proof.
  unfold py_slice_set, py_bound. pose proof (len_nonneg l). pose proof (len_nonneg v). unfold len in *.
  rewrite !app_length, firstn_length, skipn_length. destruct (a <? 0) eqn:E1; destruct (a + Z.of_nat (length v) <? 0) eqn:E2; lia.
Qed.
Lemma grown_refl x : grown x x.
Proof. unfold grown. repeat split. lia. Qed.
Lemma grown_all l : Forall2 grown l l.
Proof. induction l; constructor; [apply grown_refl|assumption]. Qed.
Lemma grown_trans l1 : forall l2 l3, Forall2 grown l1 l2 -> Forall2 grown l2 l3 -> Forall2 grown l1 l3.
Proof.
  induction l1 as [|x l1 IH]; intros l2 l3 H K; inversion H; subst; inversion K; subst; constructor.
  - unfold grown in *. (repeat match goal with h : _ /\ _ |- _ => destruct h end; repeat split; try congruence; lia).
  - eapply IH; eassumption.
Qed.
Lemma grown_upd l : forall k x y, nth_error l k = Some x -> grown x y -> Forall2 grown l (upd l k y).
Proof.
  induction l as [|z l IH]; intros [|k] x y H G; try discriminate; cbn [upd]; constructor; try apply grown_refl.
  - injection H as ->. exact G.
  - apply grown_all.
  - eapply IH; eassumption.
Qed.
Lemma only_refl k : only_memories k k.
Proof. repeat split; [now destruct k as [[]]|apply grown_all]. Qed.
Lemma only_trans k1 k2 k3 : only_memories k1 k2 -> only_memories k2 k3 -> only_memories k1 k3.
Proof.
  intros (A1 & A2 & A3 & A4 & A5) (B1 & B2 & B3 & B4 & B5). repeat split; try congruence.
  - rewrite B4. rewrite A4. destruct (k_store k1). reflexivity.
  - eapply grown_trans; eassumption.
Qed.
Definition grows {A} (m : W A) : Prop := forall w, only_memories (w_mach w) (w_mach (snd (m w))).
Lemma grows_same {A} (m : W A) : (forall w, w_mach (snd (m w)) = w_mach w) -> grows m.
Proof. intros H w. rewrite H. apply only_refl. Qed.
Lemma grows_ret {A} (a : A) : grows (ret a).
Proof. now apply grows_same. Qed.
Lemma grows_fail {A} e : grows (fail e : W A).
Proof. now apply grows_same. Qed.
Lemma grows_lift {A} (r : res A) : grows (lift r).
Proof. now apply grows_same. Qed.
Lemma grows_self : grows self.
Proof. now apply grows_same. Qed.
Lemma grows_set p : grows (set_self p).
Proof. now apply grows_same. Qed.
Lemma grows_file i : grows (the_file i).
Proof. now apply grows_same. Qed.
Lemma grows_mem : grows the_mem.
Proof. apply grows_same. intros w. unfold the_mem. now destruct (k_frame (w_mach w)). Qed.
Lemma grows_read {A} a (f : meminst -> res A) : grows (read_mem a f).
Proof. now apply grows_same. Qed.
Lemma index_nth {A} (l : list A) a x : py_index l a = Ok x -> exists k, nth_error l k = Some x /\ forall y, py_setitem l a y = Ok (upd l k y).
Proof.
  unfold py_index, py_setitem. cbn zeta. set (i := if a <? 0 then a + len l else a). intros H. destruct (i <? 0) eqn:E; [discriminate|].
  destruct (nth_error l (Z.to_nat i)) as [z|] eqn:N; [|discriminate]. apply Ok_inj in H. subst z. exists (Z.to_nat i). split; [exact N|].
  intros y. apply nth_lt in N. cbn [orb]. now replace (len l <=? i) with false by (unfold len; lia).
Qed.
Lemma grows_write a f : (forall x y, f x = Ok y -> grown x y) -> grows (write_mem a f).
Proof.
  intros H w. unfold write_mem. destruct (py_index (s_mems (k_store (w_mach w))) a) as [x|e] eqn:E; cbn [Py.rbind]; [|apply only_refl].
  destruct (f x) as [y|e] eqn:Ef; cbn [Py.rbind]; [|apply only_refl]. destruct (index_nth _ _ _ E) as (k & N & S). rewrite S.
  cbn [snd with_mems w_mach]. split; [reflexivity|split; [reflexivity|split; [reflexivity|split]]]; [now destruct (k_store (w_mach w))|].
  destruct (k_store (w_mach w)); cbn in *. eapply grown_upd; [exact N|]. now apply H.
Qed.
Lemma grown_put x p d : grown x (mem_put x p d).
Proof. unfold mem_put, grown. cbn. repeat split. apply len_slice_set. Qed.
Lemma grown_put_u k x p v y : mem_put_u k x p v = Ok y -> 0 <= k -> grown x y.
Proof.
  unfold mem_put_u, pack_u, to_bytes_u. intros H Hk. destruct (_ && _); [|discriminate]. cbn [Py.rbind] in H. apply Ok_inj in H. subst y.
  unfold grown. cbn. repeat split. replace (p + k) with (p + len (to_le (Z.to_nat k) v)) by (rewrite len_to_le; lia). apply len_slice_set.
Qed.
Lemma grown_put_u8 x p v y : mem_put_u8 x p v = Ok y -> grown x y.
Proof.
  unfold mem_put_u8. intros H. destruct (_ && _); [|discriminate]. cbn [Py.rbind] in H. destruct (py_setitem (mi_data x) p v) as [l|] eqn:E; [|discriminate].
  cbn [Py.rbind] in H. apply Ok_inj in H. subst y. unfold grown. cbn. repeat split.
  unfold py_setitem in E. destruct (_ || _); [discriminate|]. apply Ok_inj in E. subst l. unfold len. rewrite upd_length. lia.
Qed.
Lemma grows_put_bytes a p d : grows (put_bytes a p d).
Proof. apply grows_write. intros x y H. apply Ok_inj in H. subst y. apply grown_put. Qed.
Lemma grows_put8 a p v : grows (put_u8 a p v).
Proof. apply grows_write. intros x y H. eapply grown_put_u8, H. Qed.
Lemma grows_put_u a k p v : 0 <= k -> grows (write_mem a (fun x => mem_put_u k x p v)).
Proof. intros Hk. apply grows_write. intros x y H. eapply grown_put_u; [exact H|exact Hk]. Qed.
Lemma grows_put16 a p v : grows (put_u16 a p v).
Proof. now apply grows_put_u. Qed.
Lemma grows_put32 a p v : grows (put_u32 a p v).
Proof. now apply grows_put_u. Qed.
Lemma grows_put64 a p v : grows (put_u64 a p v).
Proof. now apply grows_put_u. Qed.
Lemma grows_bind {A B} (m : W A) (k : A -> W B) : grows m -> (forall a, grows (k a)) -> grows (bind m k).
Proof.
  intros H K w. unfold bind. specialize (H w). destruct (m w) as [[a|e] w']; cbn [snd] in *; [|exact H].
  eapply only_trans; [exact H|apply K].
Qed.
Lemma grows_pipe_read i n : grows (pipe_read i n).
Proof. apply grows_same. intros w. unfold pipe_read. destruct (nth_error (w_pipes w) i); [|easy]. now destruct (bio_read _ _). Qed.
Lemma grows_pipe_write i d : grows (pipe_write i d).
Proof. apply grows_same. intros w. unfold pipe_write. destruct (nth_error (w_pipes w) i); [|easy]. now destruct (bio_write _ _). Qed.
Lemma grows_ask Os c : grows (ask Os c).
Proof. now apply grows_same. Qed.
Lemma grows_mapl {A B} (f : A -> W B) l : (forall x, grows (f x)) -> grows (mapl f l).
Proof.
  intros H. induction l as [|x l IH]; cbn [mapl]; [apply grows_ret|].
  apply grows_bind; [apply H|]. intros y. apply grows_bind; [exact IH|]. intros ys. apply grows_ret.
Qed.
Ltac grow_step :=
  match goal with
  | |- grows (ret _) => apply grows_ret
  | |- grows (fail _) => apply grows_fail
  | |- grows (lift _) => apply grows_lift
  | |- grows self => apply grows_self
  | |- grows (set_self _) => apply grows_set
  | |- grows (the_file _) => apply grows_file
  | |- grows the_mem => apply grows_mem
  | |- grows (read_mem _ _) => apply grows_read
  | |- grows (get_u8 _ _) => apply grows_read
  | |- grows (get_u32 _ _) => apply grows_read
  | |- grows (get_u64 _ _) => apply grows_read
  | |- grows (get_bytes _ _ _) => apply grows_read
  | |- grows (put_u8 _ _ _) => apply grows_put8
  | |- grows (put_u16 _ _ _) => apply grows_put16
  | |- grows (put_u32 _ _ _) => apply grows_put32
  | |- grows (put_u64 _ _ _) => apply grows_put64
  | |- grows (put_bytes _ _ _) => apply grows_put_bytes
  | |- grows (pipe_read _ _) => apply grows_pipe_read
  | |- grows (pipe_write _ _) => apply grows_pipe_write
  | |- grows (ask _ _) => apply grows_ask
  | |- grows (bind _ _) => apply grows_bind; [|intros ?]
  | |- grows (mapl _ _) => apply grows_mapl; intros ?
  | |- grows (if ?b then _ else _) => destruct b
  | |- grows (match ?x with _ => _ end) => destruct x
  | |- grows (ask_unit _ _) => unfold ask_unit
  | |- grows (ask_int _ _) => unfold ask_int
  | |- grows (ask_bytes _ _) => unfold ask_bytes
  | |- grows (ask_names _ _) => unfold ask_names
  | |- grows (ask_stat _ _) => unfold ask_stat
  | |- grows (ask_bool _ _) => unfold ask_bool
  | |- grows (ask_try _ _ _ _) => unfold ask_try
  | |- grows (os_raise _) => unfold os_raise
  | |- grows (put_file _ _) => unfold put_file
  | |- grows (set_fd _) => unfold set_fd
  | |- grows (get_str _ _ _) => unfold get_str
  | |- grows (put_stat _ _ _ _) => unfold put_stat
  | |- grows (put_event _ _ _ _) => unfold put_event
  | |- grows (help_time _ _) => unfold help_time
  | |- grows (help_idir _) => unfold help_idir
  | |- grows (help_perm _ _) => unfold help_perm
  | |- grows (help_pipe _) => unfold help_pipe
  | |- grows (help_sock _) => unfold help_sock
  | |- grows (stream_read _ _ _ _) => unfold stream_read
  | |- grows (stream_write _ _ _ _) => unfold stream_write
  | |- grows (unless_badf _ _) => unfold unless_badf
  | |- grows (unless_dir _ _) => unfold unless_dir
  | |- grows (need _ _ _) => unfold need
  | |- grows (unless_sock _ _) => unfold unless_sock
  | |- grows (unless_escp _ _ _) => unfold unless_escp
  end.
Ltac grow_tac := cbn zeta; repeat (grow_step; cbn beta zeta).
Lemma grows_put_strings a l : forall ptr buf, grows (put_strings a l ptr buf).
Proof. induction l as [|e l IH]; intros; cbn [put_strings]; grow_tac. apply IH. Qed.
Lemma grows_pread Os a h n : forall ptr offs, grows (pread_loop Os a h n ptr offs).
Proof. induction n as [|n IH]; intros; cbn [pread_loop]; grow_tac. apply IH. Qed.
Lemma grows_gather a n : forall ptr acc, grows (gather a n ptr acc).
Proof. induction n as [|n IH]; intros; cbn [gather]; grow_tac. apply IH. Qed.
Lemma grows_read_loop Os a fd f n : forall ptr size, grows (read_loop Os a fd f n ptr size).
Proof. induction n as [|n IH]; intros; cbn [read_loop]; grow_tac. apply IH. Qed.
Lemma grows_readdir Os a host l bufend : forall dirent cookie, grows (readdir_loop Os a host l bufend dirent cookie).
Proof. induction l as [|nm l IH]; intros; cbn [readdir_loop]; grow_tac. apply IH. Qed.
Lemma grows_collect Os a n : forall addr s, grows (poll_collect Os a n addr s).
Proof. induction n as [|n IH]; intros; cbn [poll_collect]; grow_tac; apply IH. Qed.
Lemma grows_clocks Os a l : forall outs neve, grows (poll_clocks Os a l outs neve).
Proof. induction l as [|(((u, c), d), e) l IH]; intros; cbn [poll_clocks]; grow_tac; apply IH. Qed.
Lemma grows_files a l r k : forall outs neve, grows (poll_files a l r k outs neve).
Proof. induction l as [|(u, c) l IH]; intros; cbn [poll_files]; grow_tac; apply IH. Qed.
Lemma grows_total a n : forall ptr acc, grows (iov_total a n ptr acc).
Proof. induction n as [|n IH]; intros; cbn [iov_total]; grow_tac. apply IH. Qed.
Lemma grows_scatter a n : forall ptr d offs, grows (scatter a n ptr d offs).
Proof. induction n as [|n IH]; intros; cbn [scatter]; grow_tac; apply IH. Qed.
Ltac grow_loop := first [apply grows_put_strings | apply grows_pread | apply grows_gather | apply grows_read_loop | apply grows_readdir
  | apply grows_collect | apply grows_clocks | apply grows_files | apply grows_total | apply grows_scatter ].
Lemma call_grows Os f args : grows (wasi_call Os f args).
Proof.
  destruct f; (do 10 (try (destruct args as [|? args]; try (apply grows_fail)))); cbn [wasi_call].
  all: unfold args_get, args_sizes_get, clock_res_get, clock_time_get, environ_get, environ_sizes_get, fd_advise, fd_allocate, fd_close,
     fd_datasync, fd_fdstat_get, fd_fdstat_set_flags, fd_fdstat_set_rights, fd_filestat_get, fd_filestat_set_size, fd_filestat_set_times, fd_pread,
     fd_prestat_dir_name, fd_prestat_get, fd_pwrite, fd_read, fd_readdir, fd_renumber, fd_seek, fd_sync, fd_tell, fd_write,
     path_create_directory, path_filestat_get, path_filestat_set_times, path_link, path_open, path_readlink, path_remove_directory, path_rename, path_symlink,
     path_unlink_file, poll_oneoff, proc_exit, proc_raise, random_get, sched_yield, sock_accept, sock_recv, sock_send, sock_shutdown, put_sizes;
     repeat (grow_tac; try grow_loop).
Qed.
Lemma history_grows Os h : (forall x, In x h -> exists f args, x = Call f args) -> forall w, only_memories (w_mach w) (w_mach (history Os w h)).
Proof.
  induction h as [|x h IH]; intros H w; [apply only_refl|]. destruct (H x (or_introl eq_refl)) as (f & args & ->).
  cbn [history fold_left]. eapply only_trans; [apply (call_grows Os f args w)|]. apply IH. intros y Hy. apply H. now right.
Qed.
