(* Every WASI function does the same in worlds that have the same own memory, and touches no other memory. *)
From Coq Require Import ZArith List Bool Lia ZifyBool ZifyNat.
From Verif Require Import Py Syntax Store Val Basic Machine Utf8 Os Wasi WasiRun SpecMem SpecFormat SpecIsolate SpecAgree SpecWasi SpecWasiRun SpecWasiInside PyFacts MemFacts
  WasiFacts WasiTableFacts WasiGrowFacts.
Import ListNotations.
Open Scope Z_scope.

Section own.
Variable P : nat -> Prop.
Record alike (w w' : world) : Prop := mk_alike {
  al_outer : same_outer w w';
  al_own : forall a, own_memory (w_mach w) a <-> P a;
  al_own' : forall a, own_memory (w_mach w') a <-> P a;
  al_nat : natural_memories (w_mach w);
  al_nat' : natural_memories (w_mach w');
  al_mems : forall a, P a -> nth_error (s_mems (k_store (w_mach w'))) a = nth_error (s_mems (k_store (w_mach w))) a
}.
Definition others (w w1 : world) : Prop := forall a, ~ P a -> nth_error (s_mems (k_store (w_mach w1))) a = nth_error (s_mems (k_store (w_mach w))) a.
Definition pw {A} (c : W A) : Prop := forall w w', alike w w' ->
  fst (c w') = fst (c w) /\ alike (snd (c w)) (snd (c w')) /\ others w (snd (c w)).
Lemma alike_same w w' w1 w1' : alike w w' -> w_mach w1 = w_mach w -> w_mach w1' = w_mach w' -> same_outer w1 w1' -> alike w1 w1'.
Proof. intros [] E E' O. constructor; rewrite ?E, ?E'; assumption. Qed.
(* parts that leave the machine alone *)
Lemma pw_outer {A} (c : W A) : (forall w w', same_outer w w' -> fst (c w') = fst (c w) /\ same_outer (snd (c w)) (snd (c w'))) -> (forall w, w_mach (snd (c w)) = w_mach w) -> pw c.
Proof.
  intros H K w w' HA. destruct (H w w' (al_outer _ _ HA)) as [H1 H2]. split; [exact H1|]. split; [exact (alike_same _ _ _ _ HA (K w) (K w') H2)|].
  intros a _. now rewrite K.
Qed.
Lemma pw_ret {A} (a : A) : pw (ret a).
Proof. apply pw_outer; [|reflexivity]. intros w w' H. split; [reflexivity|exact H]. Qed.
Lemma pw_fail {A} e : pw (fail e : W A).
Proof. apply pw_outer; [|reflexivity]. intros w w' H. split; [reflexivity|exact H]. Qed.
Lemma pw_lift {A} (r : res A) : pw (lift r).
Proof. apply pw_outer; [|reflexivity]. intros w w' H. split; [reflexivity|exact H]. Qed.
Lemma pw_self : pw self.
Proof. apply pw_outer; [|reflexivity]. intros w w' H. split; [unfold self; cbn; now rewrite (proj1 H)|exact H]. Qed.
Lemma pw_set p : pw (set_self p).
Proof. apply pw_outer; [|reflexivity]. intros w w' (H1 & H2 & H3). split; [reflexivity|]. unfold same_outer. cbn. auto. Qed.
Lemma pw_pipe_read i n : pw (pipe_read i n).
Proof.
  apply pw_outer.
  - intros w w' (H1 & H2 & H3). unfold pipe_read. rewrite H3. destruct (nth_error (w_pipes w) i); [|split; [reflexivity|now repeat split]].
    destruct (bio_read _ _). split; [reflexivity|]. unfold same_outer. cbn. now rewrite ?H1, ?H2, ?H3.
  - intros w. unfold pipe_read. destruct (nth_error (w_pipes w) i); [|easy]. now destruct (bio_read _ _).
Qed.
Lemma pw_pipe_write i d : pw (pipe_write i d).
Proof.
  apply pw_outer.
  - intros w w' (H1 & H2 & H3). unfold pipe_write. rewrite H3. destruct (nth_error (w_pipes w) i); [|split; [reflexivity|now repeat split]].
    destruct (bio_write _ _). split; [reflexivity|]. unfold same_outer. cbn. now rewrite ?H1, ?H2, ?H3.
  - intros w. unfold pipe_write. destruct (nth_error (w_pipes w) i); [|easy]. now destruct (bio_write _ _).
Qed.
Lemma pw_ask Os c : pw (ask Os c).
Proof.
  apply pw_outer; [|reflexivity]. intros w w' (H1 & H2 & H3). unfold ask. cbn. rewrite H2. split; [reflexivity|]. unfold same_outer. cbn. now rewrite ?H1, ?H2, ?H3.
Qed.
Lemma pw_bind {A B} (c : W A) (k : A -> W B) : pw c -> (forall a, pw (k a)) -> pw (bind c k).
Proof.
  intros H K w w' HA. unfold bind. destruct (H w w' HA) as (H1 & H2 & H3). destruct (c w) as [[a|e] w1], (c w') as [[a'|e'] w1']; cbn [fst snd] in *; try discriminate H1.
  - injection H1 as ->. destruct (K a w1 w1' H2) as (K1 & K2 & K3). split; [exact K1|]. split; [exact K2|]. intros x Hx. rewrite (K3 x Hx). exact (H3 x Hx).
  - injection H1 as ->. split; [reflexivity|]. split; assumption.
Qed.
Lemma pw_mapl {A B} (f : A -> W B) l : (forall x, pw (f x)) -> pw (mapl f l).
Proof.
  intros H. induction l as [|x l IH]; cbn [mapl]; [apply pw_ret|].
  apply pw_bind; [apply H|]. intros y. apply pw_bind; [exact IH|]. intros ys. apply pw_ret.
Qed.
(* the own memory *)
Definition own (z : Z) : Prop := exists a, P a /\ z = Z.of_nat a.
Lemma own_one w a b : (forall x, own_memory (w_mach w) x <-> P x) -> P a -> P b -> a = b.
Proof.
  intros H Pa Pb. apply H in Pa, Pb. destruct Pa as (fr & fs & E & N), Pb as (fr' & fs' & E' & N'). rewrite E in E'. injection E' as <- <-. rewrite N in N'. injection N' as N'. lia.
Qed.
Lemma mem_cases w : (forall a, own_memory (w_mach w) a <-> P a) -> natural_memories (w_mach w) ->
  (exists a, P a /\ snd (the_mem w) = w /\ fst (the_mem w) = match nth_error (s_mems (k_store (w_mach w))) a with Some _ => Ok (Z.of_nat a) | None => Err EIndex end) \/
  ((forall a, ~ P a) /\ the_mem w = (Err EIndex, w)).
Proof.
  intros HO HN. unfold the_mem. destruct (k_frame (w_mach w)) as [|fr fs] eqn:E.
  { right. split; [|reflexivity]. intros a Ha. apply HO in Ha. destruct Ha as (fr & fs & E' & _). congruence. }
  specialize (HN fr fs E). destruct (m_mems (mod_of (k_store (w_mach w)) (fr_module fr))) as [|z l] eqn:EM.
  { right. split; [|reflexivity]. intros a Ha. apply HO in Ha. destruct Ha as (fr' & fs' & E' & N). rewrite E in E'. injection E' as <- <-. rewrite EM in N. discriminate N. }
  left. apply Forall_cons_iff in HN. destruct HN as [Hz _]. exists (Z.to_nat z). split; [|split; [reflexivity|]].
  - apply HO. exists fr, fs. split; [exact E|]. rewrite EM. cbn. now rewrite Z2Nat.id.
  - cbn [fst]. replace (py_index (z :: l) 0) with (Ok z) by reflexivity. cbn [Py.rbind].
    rewrite <- (Z2Nat.id z) at 1 by exact Hz. destruct (nth_error (s_mems (k_store (w_mach w))) (Z.to_nat z)) as [x|] eqn:N.
    + rewrite (py_index_nth _ _ _ N). cbn. now rewrite Z2Nat.id.
    + unfold py_index. cbn zeta. replace (Z.of_nat (Z.to_nat z) <? 0) with false by lia. cbn. replace (Z.of_nat (Z.to_nat z) <? 0) with false by lia. rewrite Nat2Z.id, N. reflexivity.
Qed.
Lemma pw_with_mem {B} (k : Z -> W B) : (forall z, own z -> pw (k z)) -> pw (bind the_mem k).
Proof.
  intros K w w' HA. unfold bind.
  destruct (mem_cases w (al_own _ _ HA) (al_nat _ _ HA)) as [(a & Pa & S1 & F1)|[NP ->]];
  destruct (mem_cases w' (al_own' _ _ HA) (al_nat' _ _ HA)) as [(a' & Pa' & S2 & F2)|[NP' E2]].
  - rewrite (own_one w a' a (al_own _ _ HA) Pa' Pa) in F2. rewrite (al_mems _ _ HA a Pa) in F2.
    destruct (the_mem w) as [r w1], (the_mem w') as [r' w1']. cbn [fst snd] in *. subst w1 w1'. rewrite <- F1 in F2. subst r'.
    destruct r as [z|e]; [|split; [reflexivity|split; [exact HA|intros x _; reflexivity]]].
    apply (K z); [|exact HA]. exists a. split; [exact Pa|]. destruct (nth_error _ a); congruence.
  - destruct (NP' a Pa).
  - destruct (NP a' Pa').
  - rewrite E2. split; [reflexivity|split; [exact HA|intros x _; reflexivity]].
Qed.
Lemma own_index {A} (l l' : list A) a : nth_error l' a = nth_error l a -> py_index l' (Z.of_nat a) = py_index l (Z.of_nat a).
Proof.
  intros H. unfold py_index. cbn zeta. replace (Z.of_nat a <? 0) with false by lia. cbn. replace (Z.of_nat a <? 0) with false by lia. now rewrite Nat2Z.id, H.
Qed.
Lemma pw_read {A} z (f : meminst -> res A) : own z -> pw (read_mem z f).
Proof.
  intros (a & Pa & ->) w w' HA. unfold read_mem. cbn [fst snd]. rewrite (own_index _ _ _ (al_mems _ _ HA a Pa)).
  split; [reflexivity|]. split; [exact HA|intros x _; reflexivity].
Qed.
Lemma own_mems w x a : own_memory (w_mach (with_mems w x)) a <-> own_memory (w_mach w) a.
Proof. unfold own_memory, with_mems. cbn [w_mach k_frame k_store]. destruct (k_store (w_mach w)). reflexivity. Qed.
Lemma nat_mems w x : natural_memories (w_mach w) -> natural_memories (w_mach (with_mems w x)).
Proof. unfold natural_memories, with_mems. cbn [w_mach k_frame k_store]. destruct (k_store (w_mach w)). intros H. exact H. Qed.
Lemma mems_mems w x : s_mems (k_store (w_mach (with_mems w x))) = x.
Proof. unfold with_mems. cbn [w_mach k_store]. destruct (k_store (w_mach w)). reflexivity. Qed.
Lemma upd_other {A} (l : list A) : forall a b y, a <> b -> nth_error (upd l a y) b = nth_error l b.
Proof. induction l as [|x l IH]; intros [|a] [|b] y H; cbn; try reflexivity; try congruence. apply IH. congruence. Qed.
Lemma upd_at {A} (l : list A) : forall a x y, nth_error l a = Some x -> nth_error (upd l a y) a = Some y.
Proof. induction l as [|z l IH]; intros [|a] x y H; cbn in *; try discriminate H; [reflexivity|]. eapply IH, H. Qed.
Lemma setitem_nth {A} (l : list A) a x y : nth_error l a = Some x -> py_setitem l (Z.of_nat a) y = Ok (upd l a y).
Proof.
  intros N. apply nth_lt in N. unfold py_setitem. cbn zeta. replace (Z.of_nat a <? 0) with false by lia. replace (Z.of_nat a <? 0) with false by lia. cbn [orb].
  replace (len l <=? Z.of_nat a) with false by (unfold len; lia). now rewrite Nat2Z.id.
Qed.
Lemma pw_write z f : own z -> pw (write_mem z f).
Proof.
  intros (a & Pa & ->) w w' HA. pose proof (al_mems _ _ HA a Pa) as EM. unfold write_mem. rewrite (own_index _ _ _ EM).
  assert (NO : forall e, fst (Err e : res unit, w') = fst (Err e : res unit, w) /\ alike w w' /\ others w w) by (intros e; split; [reflexivity|split; [exact HA|intros x _; reflexivity]]).
  destruct (nth_error (s_mems (k_store (w_mach w))) a) as [x|] eqn:N.
  2:{ replace (py_index (s_mems (k_store (w_mach w))) (Z.of_nat a)) with (Err EIndex : res meminst); [apply NO|].
      unfold py_index. cbn zeta. replace (Z.of_nat a <? 0) with false by lia. cbn. replace (Z.of_nat a <? 0) with false by lia. now rewrite Nat2Z.id, N. }
  rewrite (py_index_nth _ _ _ N). cbn [Py.rbind]. destruct (f x) as [y|e]; cbn [Py.rbind]; [|apply NO].
  rewrite (setitem_nth _ _ _ y N), (setitem_nth _ _ _ y EM). cbn [fst snd]. split; [reflexivity|]. split.
  - destruct HA as [A1 A2 A3 A4 A5 A6]. constructor.
    + exact A1.
    + intros b. rewrite own_mems. apply A2.
    + intros b. rewrite own_mems. apply A3.
    + apply nat_mems, A4.
    + apply nat_mems, A5.
    + intros b Pb. rewrite !mems_mems, (own_one w b a A2 Pb Pa), (upd_at _ _ _ y N), (upd_at _ _ _ y EM). reflexivity.
  - intros b Hb. rewrite mems_mems. apply upd_other. intros <-. exact (Hb Pa).
Qed.
Ltac pw_step :=
  match goal with
  | |- pw (bind the_mem _) => apply pw_with_mem; intros ? ?
  | |- pw (ret _) => apply pw_ret
  | |- pw (fail _) => apply pw_fail
  | |- pw (lift _) => apply pw_lift
  | |- pw self => apply pw_self
  | |- pw (set_self _) => apply pw_set
  | |- pw (the_file _) => unfold the_file
  | |- pw (read_mem _ _) => apply pw_read; assumption
  | |- pw (get_u8 _ _) => apply pw_read; assumption
  | |- pw (get_u32 _ _) => apply pw_read; assumption
  | |- pw (get_u64 _ _) => apply pw_read; assumption
  | |- pw (get_bytes _ _ _) => apply pw_read; assumption
  | |- pw (put_u8 _ _ _) => apply pw_write; assumption
  | |- pw (put_u16 _ _ _) => apply pw_write; assumption
  | |- pw (put_u32 _ _ _) => apply pw_write; assumption
  | |- pw (put_u64 _ _ _) => apply pw_write; assumption
  | |- pw (put_bytes _ _ _) => apply pw_write; assumption
  | |- pw (pipe_read _ _) => apply pw_pipe_read
  | |- pw (pipe_write _ _) => apply pw_pipe_write
  | |- pw (ask _ _) => apply pw_ask
  | |- pw (bind _ _) => apply pw_bind; [|intros ?]
  | |- pw (mapl _ _) => apply pw_mapl; intros ?
  | |- pw (if ?b then _ else _) => destruct b
  | |- pw (match ?x with _ => _ end) => destruct x
  | |- pw (ask_unit _ _) => unfold ask_unit
  | |- pw (ask_int _ _) => unfold ask_int
  | |- pw (ask_bytes _ _) => unfold ask_bytes
  | |- pw (ask_names _ _) => unfold ask_names
  | |- pw (ask_stat _ _) => unfold ask_stat
  | |- pw (ask_bool _ _) => unfold ask_bool
  | |- pw (ask_try _ _ _ _) => unfold ask_try
  | |- pw (os_raise _) => unfold os_raise
  | |- pw (put_file _ _) => unfold put_file
  | |- pw (set_fd _) => unfold set_fd
  | |- pw (get_str _ _ _) => unfold get_str
  | |- pw (put_stat _ _ _ _) => unfold put_stat
  | |- pw (put_event _ _ _ _) => unfold put_event
  | |- pw (help_time _ _) => unfold help_time
  | |- pw (help_idir _) => unfold help_idir
  | |- pw (help_perm _ _) => unfold help_perm
  | |- pw (help_pipe _) => unfold help_pipe
  | |- pw (help_sock _) => unfold help_sock
  | |- pw (stream_read _ _ _ _) => unfold stream_read
  | |- pw (stream_write _ _ _ _) => unfold stream_write
  | |- pw (unless_badf _ _) => unfold unless_badf
  | |- pw (unless_dir _ _) => unfold unless_dir
  | |- pw (need _ _ _) => unfold need
  | |- pw (unless_sock _ _) => unfold unless_sock
  | |- pw (unless_escp _ _ _) => unfold unless_escp
  end.
Ltac pw_tac := cbn zeta; repeat (pw_step; cbn beta zeta).
Lemma pw_put_strings a l : own a -> forall ptr buf, pw (put_strings a l ptr buf).
Proof. intros Ha. induction l as [|e l IH]; intros; cbn [put_strings]; pw_tac. apply IH. Qed.
Lemma pw_pread Os a h n : own a -> forall ptr offs, pw (pread_loop Os a h n ptr offs).
Proof. intros Ha. induction n as [|n IH]; intros; cbn [pread_loop]; pw_tac. apply IH. Qed.
Lemma pw_gather a n : own a -> forall ptr acc, pw (gather a n ptr acc).
Proof. intros Ha. induction n as [|n IH]; intros; cbn [gather]; pw_tac. apply IH. Qed.
Lemma pw_read_loop Os a fd f n : own a -> forall ptr size, pw (read_loop Os a fd f n ptr size).
Proof. intros Ha. induction n as [|n IH]; intros; cbn [read_loop]; pw_tac. apply IH. Qed.
Lemma pw_readdir Os a host l bufend : own a -> forall dirent cookie, pw (readdir_loop Os a host l bufend dirent cookie).
Proof. intros Ha. induction l as [|nm l IH]; intros; cbn [readdir_loop]; pw_tac. apply IH. Qed.
Lemma pw_collect Os a n : own a -> forall addr s, pw (poll_collect Os a n addr s).
Proof. intros Ha. induction n as [|n IH]; intros; cbn [poll_collect]; pw_tac; apply IH. Qed.
Lemma pw_clocks Os a l : own a -> forall outs neve, pw (poll_clocks Os a l outs neve).
Proof. intros Ha. induction l as [|(((u, c), d), e) l IH]; intros; cbn [poll_clocks]; pw_tac; apply IH. Qed.
Lemma pw_files a l r k : own a -> forall outs neve, pw (poll_files a l r k outs neve).
Proof. intros Ha. induction l as [|(u, c) l IH]; intros; cbn [poll_files]; pw_tac; apply IH. Qed.
Lemma pw_total a n : own a -> forall ptr acc, pw (iov_total a n ptr acc).
Proof. intros Ha. induction n as [|n IH]; intros; cbn [iov_total]; pw_tac. apply IH. Qed.
Lemma pw_scatter a n : own a -> forall ptr d offs, pw (scatter a n ptr d offs).
Proof. intros Ha. induction n as [|n IH]; intros; cbn [scatter]; pw_tac; apply IH. Qed.
Ltac pw_loop := first [apply pw_put_strings | apply pw_pread | apply pw_gather | apply pw_read_loop | apply pw_readdir
  | apply pw_collect | apply pw_clocks | apply pw_files | apply pw_total | apply pw_scatter ]; assumption.
Lemma call_pw Os f args : pw (wasi_call Os f args).
Proof.
  destruct f; (do 10 (try (destruct args as [|? args]; try (apply pw_fail)))); cbn [wasi_call].
  all: unfold args_get, args_sizes_get, clock_res_get, clock_time_get, environ_get, environ_sizes_get, fd_advise, fd_allocate, fd_close,
     fd_datasync, fd_fdstat_get, fd_fdstat_set_flags, fd_fdstat_set_rights, fd_filestat_get, fd_filestat_set_size, fd_filestat_set_times, fd_pread,
     fd_prestat_dir_name, fd_prestat_get, fd_pwrite, fd_read, fd_readdir, fd_renumber, fd_seek, fd_sync, fd_tell, fd_write,
     path_create_directory, path_filestat_get, path_filestat_set_times, path_link, path_open, path_readlink, path_remove_directory, path_rename, path_symlink,
     path_unlink_file, poll_oneoff, proc_exit, proc_raise, random_get, sched_yield, sock_accept, sock_recv, sock_send, sock_shutdown, put_sizes;
     repeat (pw_tac; try pw_loop).
Qed.
Lemma host_pw Os hid ps : pw (wasi_host Os hid ps).
Proof.
  unfold wasi_host. destruct (nth_error wasi_methods hid) as [[[nm t] f]|]; [|apply pw_fail].
  apply pw_bind; [apply pw_lift|intros zs]. apply pw_bind; [apply call_pw|intros rs; apply pw_ret].
Qed.
End own.
