(* The interpreter itself never raises the exceptions by which proc_exit ends a program. *)
From Coq Require Import ZArith List Bool Lia.
From Verif Require Import Py Arith Floatops Val Opcode Numeric Syntax Store Basic Machine Utf8 Os Wasi WasiRun SpecWasiRun.
Import ListNotations.
Open Scope Z_scope.

Definition nx {A} (r : res A) : Prop := match r with Ok _ => True | Err e => no_exit e end.
Lemma nx_bind {A B} (r : res A) (f : A -> res B) : nx r -> (forall a, nx (f a)) -> nx (rbind r f).
Proof. intros H K. destruct r as [a|e]; [apply K|exact H]. Qed.
Lemma nx_mapl {A B} (f : A -> res B) l : (forall a, nx (f a)) -> nx (rmapl f l).
Proof. intros H. induction l as [|a l IH]; [exact I|]. cbn [rmapl]. apply nx_bind; [apply H|]. intros b. apply nx_bind; [exact IH|]. intros; exact I. Qed.
Lemma nx_fold {A B} (f : res A -> B -> res A) l : (forall r b, nx r -> nx (f r b)) -> forall r, nx r -> nx (fold_left f l r).
Proof. intros H. induction l as [|b l IH]; intros r R; [exact R|]. cbn [fold_left]. apply IH, H, R. Qed.
Lemma nx_map {A B} (f : A -> B) (r : res A) : nx r -> nx (rmap f r).
Proof. intros H. destruct r as [a|e]; [exact I|exact H]. Qed.
Ltac head t := match t with ?f _ => head f | _ => t end.
Ltac nx := repeat (cbv beta zeta; match goal with
  | H : nx ?r |- nx ?r => exact H
  | |- nx (Ok _) => exact I
  | |- nx (Err _) => exact I
  | |- nx (rbind _ _) => apply nx_bind; [|intro]
  | |- nx (rmap _ _) => apply nx_map
  | |- nx (rmapl _ _) => apply nx_mapl; intro
  | |- nx (fold_left _ _ _) => apply nx_fold; [intros ? ? ?|]
  | |- nx (match ?x with _ => _ end) => destruct x
  | |- nx (?f _) => let h := head f in unfold h
  end).
Lemma nx_index {A} (l : list A) i : nx (py_index l i).
Proof. unfold py_index. nx. Qed.
Lemma nx_assert b : nx (py_assert b).
Proof. destruct b; exact I. Qed.
Definition nx_num (n : numop) : Prop :=
  match n with
  | N0 f => forall args, nx (f args)
  | N1 f => forall args a, nx (f args a)
  | N2 f => forall args a b, nx (f args a b)
  | N3 f => forall args a b c, nx (f args a b c)
  end.
Lemma nx_scalar F o n : num_scalar F o = Some n -> nx_num n.
Proof.
  destruct o; intros H; try discriminate H; injection H as <-; unfold op1, op2, op3, wr0; cbn [nx_num]; intros; timeout 10 nx.
Qed.
Lemma nx_simd F o n : num_simd F o = Some n -> nx_num n.
Proof.
  destruct o; intros H; try discriminate H; injection H as <-; unfold op1, op2, op3, wr0; cbn [nx_num]; intros; nx.
Qed.

Definition nxs {S A} (e : ST S A) : Prop := forall s, nx (fst (e s)).
Lemma ns_bind {S A B} (e : ST S A) (f : A -> ST S B) : nxs e -> (forall a, nxs (f a)) -> nxs (bind e f).
Proof. intros H K s. unfold bind. specialize (H s). destruct (e s) as [[a|x] s']; [apply K|exact H]. Qed.
Lemma ns_ret {S A} (a : A) : nxs (ret a : ST S A).
Proof. intros s. exact I. Qed.
Lemma ns_lift {S A} (r : res A) : nx r -> nxs (lift r : ST S A).
Proof. intros H s. exact H. Qed.
Lemma ns_forl {S A} (f : A -> ST S unit) l : (forall a, nxs (f a)) -> nxs (forl f l).
Proof. intros H. induction l as [|a l IH]; [apply ns_ret|]. apply ns_bind; [apply H|]. intros _. exact IH. Qed.
Lemma ns_mapl {S A B} (f : A -> ST S B) l : (forall a, nxs (f a)) -> nxs (mapl f l).
Proof. intros H. induction l as [|a l IH]; [apply ns_ret|]. apply ns_bind; [apply H|]. intros b. apply ns_bind; [exact IH|]. intros. apply ns_ret. Qed.
Ltac leaf := let s := fresh in intro s; cbn; repeat match goal with |- nx (fst (match ?x with _ => _ end)) => destruct x | |- nx (match ?x with _ => _ end) => destruct x end; cbn; exact I.
Ltac known := fail.
Ltac ns := repeat (cbv beta zeta; match goal with
  | |- _ => known
  | H : nxs ?e |- nxs ?e => exact H
  | |- nxs (ret _) => apply ns_ret
  | |- nxs (fail _) => intro; exact I
  | |- nxs (lift _) => apply ns_lift; nx
  | |- nxs (assert _) => apply ns_lift, nx_assert
  | |- nxs (bind _ _) => apply ns_bind; [|intro]
  | |- nxs (forl _ _) => apply ns_forl; intro
  | |- nxs (mapl _ _) => apply ns_mapl; intro
  | |- nxs (match ?x with _ => _ end) => destruct x
  | |- nxs (fun _ => _) => leaf
  | |- nxs (?f _) => let h := head f in unfold h
  | |- nxs ?c => unfold c
  end).
Lemma ns_load F mr o args : nxs (exec_basic F mr o args).
Proof.
  unfold exec_basic. destruct (num_op F o) as [n|] eqn:E.
  - assert (nx_num n) as H.
    { unfold num_op in E. destruct (num_scalar F o) eqn:E1; [injection E as <-; exact (nx_scalar _ _ _ E1)|exact (nx_simd _ _ _ E)]. }
    clear E. destruct n; cbn [nx_num exec_num] in *; unfold pushr; ns; apply H.
  - clear E. destruct (load_op o) as [[size conv]|] eqn:E.
    + assert (forall d, nx (conv d)) as H. { destruct o; try discriminate E; injection E as <- <-; intros d; nx. }
      clear E. unfold pushr. apply ns_bind; [ns|]. intros off. apply ns_bind; [ns|]. intros d. apply ns_bind; [apply ns_lift, H|]. intros. ns.
    + clear E. destruct (store_op o); [ns|]. destruct o; cbn [exec_misc]; try (intro; exact I); ns.
Qed.
Lemma ns_popn n : nxs (popn n).
Proof. induction n as [|n IH]; cbn [popn]; ns. Qed.
Lemma ns_basic {A} (f : modref -> B A) : (forall mr, nxs (f mr)) -> nxs (on_basic f).
Proof. intros H m. unfold on_basic. destruct (k_frame m) as [|fr fs]; [exact I|]. specialize (H (fr_module fr) (mkb (k_store m) (fr_locals fr) (k_value m))). now destruct (f _ _). Qed.
Lemma nx_from_alls F ts vs : nx (from_alls F ts vs).
Proof. unfold from_alls. nx. Qed.
Lemma nx_into_all F v : nx (into_all F v).
Proof. nx. Qed.
Lemma ns_br l : nxs (evaluate_br l).
Proof. unfold evaluate_br. apply ns_bind; [ns|]. intros m. apply ns_bind; [ns|]. intros _. destruct (nth_error _ _); [|intro; exact I]. apply ns_bind; [ns|]. intros _. apply ns_bind; [apply ns_popn|]. intros. ns. Qed.
Ltac known ::= first [apply ns_popn | apply ns_br].
Section step.
Variables (F : fops) (host : hostcode).
Hypothesis HH : forall hid ps, nxs (host hid ps).
Lemma ns_call a : nxs (evaluate_call F host a).
Proof.
  unfold evaluate_call. apply ns_bind; [ns|]. intros m. apply ns_bind; [apply ns_lift, nx_index|]. intros f. apply ns_bind; [apply ns_popn|]. intros args. cbv zeta. destruct f as [t h c|t hid]; [ns|].
  apply ns_bind; [apply ns_lift, nx_mapl; apply nx_into_all|]. intros ps. apply ns_bind; [apply HH|]. intros rs. apply ns_bind; [apply ns_lift, nx_from_alls|]. intros. ns.
Qed.
Ltac known ::= first [apply ns_popn | apply ns_br | apply ns_call].
Lemma ns_exec lb fr i : nxs (exec F host lb fr i).
Proof.
  destruct i as [bt b|bt b|bt b1 b2|o args]; cbn [exec]; try (timeout 20 ns; fail).
  destruct o; try (apply ns_basic; intros; apply ns_load).
  all: ns.
Qed.
Lemma ns_step : nxs (step F host).
Proof.
  unfold step. apply ns_bind; [ns|]. intros m. destruct (k_label m) as [|lb ls]; [intro; exact I|]. apply ns_bind; [ns|]. intros fr.
  destruct (Nat.eqb _ _); [ns|]. destruct (nth_error _ _); [|intro; exact I]. cbv zeta. apply ns_bind; [ns|]. intros. apply ns_bind; [ns|]. intros. apply ns_exec.
Qed.
End step.

(* the WASI functions *)
Definition roe (w : world) : bool := p_return_on_exit (w_self w).
Definition wx {A} (e : W A) : Prop := forall w, nx (fst (e w)) /\ roe (snd (e w)) = roe w.
Lemma wx_bind {A B} (e : W A) (f : A -> W B) : wx e -> (forall a, wx (f a)) -> wx (bind e f).
Proof. intros H K w. unfold bind. specialize (H w). destruct (e w) as [[a|x] w1]; [|exact H]. destruct (K a w1) as [K1 K2]. split; [exact K1|]. now rewrite K2. Qed.
Lemma wx_ret {A} (a : A) : wx (ret a).
Proof. intros w. now split. Qed.
Lemma wx_fail {A} e : no_exit e -> wx (fail e : W A).
Proof. intros H w. now split. Qed.
Lemma wx_lift {A} (r : res A) : nx r -> wx (lift r).
Proof. intros H w. now split. Qed.
Lemma wx_mapl {A B} (f : A -> W B) l : (forall x, wx (f x)) -> wx (mapl f l).
Proof. intros H. induction l as [|x l IH]; cbn [mapl]; [apply wx_ret|]. apply wx_bind; [apply H|]. intros y. apply wx_bind; [exact IH|]. intros. apply wx_ret. Qed.
Lemma wx_self : wx self.
Proof. intros w. now split. Qed.
Lemma wx_set_fd l : wx (set_fd l).
Proof. intros w. now split. Qed.
Lemma wx_mem : wx the_mem.
Proof. intros w. unfold the_mem. destruct (k_frame (w_mach w)); cbn [fst snd]; split; trivial; [exact I|]. nx. Qed.
Lemma wx_read {A} a (f : meminst -> res A) : (forall x, nx (f x)) -> wx (read_mem a f).
Proof. intros H w. unfold read_mem. cbn [fst snd]. split; [|reflexivity]. apply nx_bind; [apply nx_index|exact H]. Qed.
Lemma wx_write a f : (forall x, nx (f x)) -> wx (write_mem a f).
Proof.
  intros H w. unfold write_mem. match goal with |- context [match ?x with Ok _ => _ | Err _ => _ end] => assert (nx x) as K end.
  { apply nx_bind; [apply nx_index|]. intros x. apply nx_bind; [apply H|]. intros y. nx. }
  destruct (rbind _ _); split; trivial.
Qed.
Lemma wx_pipe_read i n : wx (pipe_read i n).
Proof. intros w. unfold pipe_read. destruct (nth_error _ _); [|now split]. destruct (bio_read _ _). now split. Qed.
Lemma wx_pipe_write i d : wx (pipe_write i d).
Proof. intros w. unfold pipe_write. destruct (nth_error _ _); [|now split]. destruct (bio_write _ _). now split. Qed.
Lemma nx_encode s : nx (utf8_encode s).
Proof. induction s as [|c s IH]; [exact I|]. cbn [utf8_encode]. apply nx_bind; [nx|]. intros. apply nx_bind; [exact IH|]. intros. exact I. Qed.
Lemma nx_decode n : forall b, (length b <= n)%nat -> nx (utf8_decode b).
Proof.
  induction n as [|n IH]; intros b L; [destruct b; [exact I|cbn in L; lia]|].
  destruct b as [|b0 r]; [exact I|]. cbn [utf8_decode]. cbn [length] in L.
  repeat match goal with |- nx (if ?x then _ else _) => destruct x | |- nx (match ?x with _ => _ end) => destruct x; cbn [length] in L
    | |- nx (rbind _ _) => apply nx_bind; [apply IH; lia|intros; exact I] | |- nx (Err _) => exact I end.
Qed.
Section pass.
Variable Os : os.
Hypothesis NE : never_exits Os.
Lemma wx_asks {A} c (f : reply -> W A) : (forall r, (forall e, r = RFail (OEother e) -> no_exit e) -> wx (f r)) -> wx (bind (ask Os c) f).
Proof. intros H w. unfold bind, ask. assert (wx (f (Os (w_log w) c))) as K by (apply H; intros e E; exact (NE _ _ _ E)). destruct (K (mkworld (w_self w) ((c, Os (w_log w) c) :: w_log w) (w_pipes w) (w_mach w))) as [K1 K2]. split; [exact K1|]. now rewrite K2. Qed.
Lemma wx_raise {A} (e : oserr) : (forall x, RFail e = RFail (OEother x) -> no_exit x) -> wx (os_raise e : W A).
Proof. intros H. apply wx_fail. destruct e; try exact I. now apply H. Qed.
Lemma wx_try c handler k : (forall r, wx (k r)) -> wx (ask_try Os c handler k).
Proof. intros K. apply wx_asks. intros r Hr. destruct r; try apply K. destruct (handler e); [apply wx_ret|now apply wx_raise]. Qed.
Lemma wx_ask c : wx (ask Os c).
Proof. intros w. now split. Qed.
Lemma wx_unit c : wx (ask_unit Os c).
Proof. apply wx_asks. intros [] Hr; try (now apply wx_fail); try apply wx_ret. now apply wx_raise. Qed.
Lemma wx_int c : wx (ask_int Os c).
Proof. apply wx_asks. intros [] Hr; try (now apply wx_fail); try apply wx_ret. now apply wx_raise. Qed.
Lemma wx_bytes c : wx (ask_bytes Os c).
Proof. apply wx_asks. intros [] Hr; try (now apply wx_fail); try apply wx_ret. now apply wx_raise. Qed.
Lemma wx_names c : wx (ask_names Os c).
Proof. apply wx_asks. intros [] Hr; try (now apply wx_fail); try apply wx_ret. now apply wx_raise. Qed.
Lemma wx_stat c : wx (ask_stat Os c).
Proof. apply wx_asks. intros [] Hr; try (now apply wx_fail); try apply wx_ret. now apply wx_raise. Qed.
Lemma wx_bool c : wx (ask_bool Os c).
Proof. apply wx_asks. intros [] Hr; apply wx_ret. Qed.
Ltac wstep :=
  match goal with
  | |- wx (ret _) => apply wx_ret
  | |- wx (fail _) => apply wx_fail; exact I
  | |- wx (lift (utf8_encode _)) => apply wx_lift, nx_encode
  | |- wx (lift (utf8_decode _)) => apply wx_lift, (nx_decode _ _ (le_n _))
  | |- wx (lift _) => apply wx_lift; nx
  | |- wx self => apply wx_self
  | |- wx (set_fd _) => apply wx_set_fd
  | |- wx the_mem => apply wx_mem
  | |- wx (read_mem _ _) => apply wx_read; intro; nx
  | |- wx (write_mem _ _) => apply wx_write; intro; nx
  | |- wx (pipe_read _ _) => apply wx_pipe_read
  | |- wx (pipe_write _ _) => apply wx_pipe_write
  | |- wx (ask_try _ _ _ _) => apply wx_try; intro
  | |- wx (ask_unit _ _) => apply wx_unit
  | |- wx (ask_int _ _) => apply wx_int
  | |- wx (ask_bytes _ _) => apply wx_bytes
  | |- wx (ask_names _ _) => apply wx_names
  | |- wx (ask_stat _ _) => apply wx_stat
  | |- wx (ask_bool _ _) => apply wx_bool
  | |- wx (bind (ask _ _) _) => apply wx_asks; intros ? ?
  | |- wx (os_raise _) => apply wx_raise; assumption
  | |- wx (bind _ _) => apply wx_bind; [|intro]
  | |- wx (mapl _ _) => apply wx_mapl; intro
  | |- wx (if ?b then _ else _) => destruct b
  | |- wx (match ?x with _ => _ end) => destruct x
  | |- wx (put_file _ _) => unfold put_file
  | |- wx (the_file _) => unfold the_file
  | |- wx (get_u8 _ _) => unfold get_u8
  | |- wx (get_u32 _ _) => unfold get_u32
  | |- wx (get_u64 _ _) => unfold get_u64
  | |- wx (get_bytes _ _ _) => unfold get_bytes
  | |- wx (put_u8 _ _ _) => unfold put_u8
  | |- wx (put_u16 _ _ _) => unfold put_u16
  | |- wx (put_u32 _ _ _) => unfold put_u32
  | |- wx (put_u64 _ _ _) => unfold put_u64
  | |- wx (put_bytes _ _ _) => unfold put_bytes
  | |- wx (get_str _ _ _) => unfold get_str
  | |- wx (put_stat _ _ _ _) => unfold put_stat
  | |- wx (put_event _ _ _ _) => unfold put_event
  | |- wx (help_time _ _) => unfold help_time
  | |- wx (help_idir _) => unfold help_idir
  | |- wx (help_perm _ _) => unfold help_perm
  | |- wx (help_pipe _) => unfold help_pipe
  | |- wx (help_sock _) => unfold help_sock
  | |- wx (stream_read _ _ _ _) => unfold stream_read
  | |- wx (stream_write _ _ _ _) => unfold stream_write
  | |- wx (unless_badf _ _) => unfold unless_badf
  | |- wx (unless_dir _ _) => unfold unless_dir
  | |- wx (need _ _ _) => unfold need
  | |- wx (unless_sock _ _) => unfold unless_sock
  | |- wx (unless_escp _ _ _) => unfold unless_escp
  end.
Ltac wt := cbn zeta; repeat (wstep; cbn beta zeta).
Lemma wx_put_strings a l : forall ptr buf, wx (put_strings a l ptr buf).
Proof. induction l as [|e l IH]; intros; cbn [put_strings]; wt. apply IH. Qed.
Lemma wx_pread a h n : forall ptr offs, wx (pread_loop Os a h n ptr offs).
Proof. induction n as [|n IH]; intros; cbn [pread_loop]; wt. apply IH. Qed.
Lemma wx_gather a n : forall ptr acc, wx (gather a n ptr acc).
Proof. induction n as [|n IH]; intros; cbn [gather]; wt. apply IH. Qed.
Lemma wx_read_loop a fd f n : forall ptr size, wx (read_loop Os a fd f n ptr size).
Proof. induction n as [|n IH]; intros; cbn [read_loop]; wt. apply IH. Qed.
Lemma wx_readdir a host l bufend : forall dirent cookie, wx (readdir_loop Os a host l bufend dirent cookie).
Proof. induction l as [|nm l IH]; intros; cbn [readdir_loop]; wt. apply IH. Qed.
Lemma wx_collect a n : forall addr s, wx (poll_collect Os a n addr s).
Proof. induction n as [|n IH]; intros; cbn [poll_collect]; wt; apply IH. Qed.
Lemma wx_clocks a l : forall outs neve, wx (poll_clocks Os a l outs neve).
Proof. induction l as [|(((u, c), d), e) l IH]; intros; cbn [poll_clocks]; wt; apply IH. Qed.
Lemma wx_files a l r k : forall outs neve, wx (poll_files a l r k outs neve).
Proof. induction l as [|(u, c) l IH]; intros; cbn [poll_files]; wt; apply IH. Qed.
Lemma wx_total a n : forall ptr acc, wx (iov_total a n ptr acc).
Proof. induction n as [|n IH]; intros; cbn [iov_total]; wt. apply IH. Qed.
Lemma wx_scatter a n d : forall ptr offs, wx (scatter a n ptr d offs).
Proof. induction n as [|n IH]; intros; cbn [scatter]; wt; try apply IH. Qed.
Ltac wloop := first [apply wx_put_strings | apply wx_pread | apply wx_gather | apply wx_read_loop | apply wx_readdir
  | apply wx_collect | apply wx_clocks | apply wx_files | apply wx_total | apply wx_scatter ].
Lemma wx_call f args : f <> F_proc_exit -> wx (wasi_call Os f args).
Proof.
  intros NP.
  destruct f; try (now contradiction NP); (do 10 (try (destruct args as [|? args]; try (apply wx_fail; exact I)))); cbn [wasi_call].
  all: unfold args_get, args_sizes_get, clock_res_get, clock_time_get, environ_get, environ_sizes_get, fd_advise, fd_allocate, fd_close,
     fd_datasync, fd_fdstat_get, fd_fdstat_set_flags, fd_fdstat_set_rights, fd_filestat_get, fd_filestat_set_size, fd_filestat_set_times, fd_pread,
     fd_prestat_dir_name, fd_prestat_get, fd_pwrite, fd_read, fd_readdir, fd_renumber, fd_seek, fd_sync, fd_tell, fd_write,
     path_create_directory, path_filestat_get, path_filestat_set_times, path_link, path_open, path_readlink, path_remove_directory, path_rename, path_symlink,
     path_unlink_file, poll_oneoff, proc_raise, random_get, sched_yield, sock_accept, sock_recv, sock_send, sock_shutdown, put_sizes;
     repeat (wt; try wloop).
Qed.
Lemma exit_call c w : wasi_call Os F_proc_exit [c] w = (Err (if roe w then ESystemExit c else EExit c), w).
Proof. cbn [wasi_call]. unfold proc_exit, bind, self, roe. now destruct (p_return_on_exit (w_self w)). Qed.
End pass.
