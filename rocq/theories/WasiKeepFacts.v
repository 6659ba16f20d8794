(* A pass over the WASI functions: what they return, which requests they make, and that memories and streams keep holding bytes. *)
From Coq Require Import ZArith List Bool Lia ZifyBool ZifyNat.
From Verif Require Import Py Syntax Store Val Machine Utf8 Os Wasi SpecMem SpecFormat SpecWasi PyFacts MemFacts
  WasiFacts WasiTableFacts WasiGrowFacts.
Import ListNotations.
Open Scope Z_scope.

Definition reply_bytes (r : reply) : Prop := match r with RBytes d => bytes d | _ => True end.
Definition errno (e : Z) : Prop := 0 <= e <= 76.
Definition one_errno (l : list Z) : Prop := exists e, l = [e] /\ errno e.
Definition holds_bytes (w : world) : Prop :=
  Forall (fun b => bytes (bio_data b)) (w_pipes w) /\ Forall (fun m => bytes (mi_data m)) (s_mems (k_store (w_mach w))).

Lemma encode_char_bytes c b : encode_char c = Ok b -> bytes b.
Proof.
  unfold encode_char. intros H. repeat match type of H with (if ?x then _ else _) = _ => destruct x eqn:? end; try discriminate; apply Ok_inj in H; subst b;
    repeat constructor; try lia; match goal with |- context [?a mod ?b] => pose proof (Z.mod_pos_bound a b ltac:(lia)) | |- context [?a / ?b] =>
      assert (0 <= a / b) by (apply Z.div_pos; lia); assert (a / b < 64) by (apply Z.div_lt_upper_bound; lia) end; lia.
Qed.
Lemma encode_bytes s : forall b, utf8_encode s = Ok b -> bytes b.
Proof.
  induction s as [|c s IH]; intros b H; cbn [utf8_encode] in H; [apply Ok_inj in H; subst b; constructor|].
  destruct (encode_char c) as [x|] eqn:E; [|discriminate]. cbn [rbind] in H. destruct (utf8_encode s) as [y|]; [|discriminate]. cbn [rbind] in H.
  apply Ok_inj in H. subst b. apply bytes_app. split; [exact (encode_char_bytes _ _ E)|exact (IH _ eq_refl)].
Qed.
Lemma Forall_upd {A} (P : A -> Prop) l : forall k y, Forall P l -> P y -> Forall P (upd l k y).
Proof. induction l as [|x l IH]; intros [|k] y H Hy; cbn [upd]; inversion H; subst; constructor; auto. Qed.
Lemma bytes_upd l k y : bytes l -> 0 <= y < 256 -> bytes (upd l k y).
Proof. intros. now apply Forall_upd. Qed.

Section pass.
Variables (S : Prop) (Os : os) (Q : oscall -> Prop).
Hypothesis HS : S -> forall log c, reply_bytes (Os log c).
Definition wok (w : world) : Prop := S -> holds_bytes w.
Definition sbytes (d : list Z) : Prop := S -> bytes d.
Definition keeps {A} (e : W A) (P : A -> Prop) : Prop := forall w, wok w ->
  wok (snd (e w)) /\ (exists evs, w_log (snd (e w)) = evs ++ w_log w /\ Forall (fun ev => Q (fst ev)) evs) /\
  (forall a, fst (e w) = Ok a -> P a).
Lemma keeps_id {A} (e : W A) (P : A -> Prop) : (forall w, w_pipes (snd (e w)) = w_pipes w /\ w_mach (snd (e w)) = w_mach w /\ w_log (snd (e w)) = w_log w) ->
  (forall w a, wok w -> fst (e w) = Ok a -> P a) -> keeps e P.
Proof.
  intros H K w Hw. destruct (H w) as (H1 & H2 & H3). split; [unfold wok, holds_bytes; now rewrite H1, H2|]. split; [exists []; split; [now rewrite H3|constructor]|].
  intros a. now apply K.
Qed.
Lemma keeps_ret {A} (a : A) (P : A -> Prop) : P a -> keeps (ret a) P.
Proof. intros H. apply keeps_id; [easy|]. intros w a' _ E. apply Ok_inj in E. now subst. Qed.
Lemma keeps_fail {A} e P : keeps (fail e : W A) P.
Proof. now apply keeps_id. Qed.
Lemma keeps_lift {A} (r : res A) : keeps (lift r) (fun _ => True).
Proof. now apply keeps_id. Qed.
Lemma keeps_encode s : keeps (lift (utf8_encode s)) sbytes.
Proof. apply keeps_id; [easy|]. intros w a _ E _. exact (encode_bytes _ _ E). Qed.
Lemma keeps_self : keeps self (fun _ => True).
Proof. now apply keeps_id. Qed.
Lemma keeps_set p : keeps (set_self p) (fun _ => True).
Proof. now apply keeps_id. Qed.
Lemma keeps_file i : keeps (the_file i) (fun _ => True).
Proof. now apply keeps_id. Qed.
Lemma keeps_mem : keeps the_mem (fun _ => True).
Proof. apply keeps_id; [|easy]. intros w. unfold the_mem. now destruct (k_frame (w_mach w)). Qed.
Lemma keeps_read {A} a (f : meminst -> res A) : keeps (read_mem a f) (fun _ => True).
Proof. now apply keeps_id. Qed.
Lemma keeps_get_bytes a p n : keeps (get_bytes a p n) sbytes.
Proof.
  apply keeps_id; [easy|]. intros w d Hw E s. destruct (Hw s) as [_ HM]. unfold get_bytes, read_mem in E. cbn [fst] in E.
  destruct (py_index (s_mems (k_store (w_mach w))) a) as [x|] eqn:EX; [|discriminate]. cbn [rbind] in E. apply Ok_inj in E. subst d.
  destruct (index_nth _ _ _ EX) as (k & N & _). unfold mem_get. apply bytes_slice. apply nth_error_In in N. exact (proj1 (Forall_forall _ _) HM _ N).
Qed.
Lemma keeps_write a f : (forall x y, (S -> bytes (mi_data x)) -> f x = Ok y -> S -> bytes (mi_data y)) -> keeps (write_mem a f) (fun _ => True).
Proof.
  intros H w Hw. unfold write_mem. destruct (py_index (s_mems (k_store (w_mach w))) a) as [x|e] eqn:E; cbn [rbind].
  2:{ split; [exact Hw|]. split; [exists []; split; [reflexivity|constructor]|easy]. }
  destruct (f x) as [y|e] eqn:Ef; cbn [rbind]. 2:{ split; [exact Hw|]. split; [exists []; split; [reflexivity|constructor]|easy]. }
  destruct (index_nth _ _ _ E) as (k & N & S'). rewrite S'. cbn [snd fst with_mems w_mach w_log]. split; [|split; [exists []; split; [reflexivity|constructor]|easy]].
  intros s. destruct (Hw s) as [HP HM]. split; [exact HP|]. cbn. destruct (k_store (w_mach w)); cbn in *. apply Forall_upd; [exact HM|].
  apply (H x); [|exact Ef|exact s]. intros _. apply nth_error_In in N. exact (proj1 (Forall_forall _ _) HM _ N).
Qed.
Lemma keeps_put_bytes a p d : sbytes d -> keeps (put_bytes a p d) (fun _ => True).
Proof. intros Hd. apply keeps_write. intros x y Hx E s. apply Ok_inj in E. subst y. unfold mem_put. cbn. apply bytes_slice_set; [now apply Hx|now apply Hd]. Qed.
Lemma keeps_put8 a p v : keeps (put_u8 a p v) (fun _ => True).
Proof.
  apply keeps_write. intros x y Hx H s. unfold mem_put_u8 in H. destruct (_ && _) eqn:B; [|discriminate]. cbn [rbind] in H.
  destruct (py_setitem (mi_data x) p v) as [l|] eqn:E; [|discriminate]. cbn [rbind] in H. apply Ok_inj in H. subst y. cbn.
  unfold py_setitem in E. destruct (_ || _); [discriminate|]. apply Ok_inj in E. subst l. apply bytes_upd; [now apply Hx|lia].
Qed.
Lemma keeps_put_u a k p v : keeps (write_mem a (fun x => mem_put_u k x p v)) (fun _ => True).
Proof.
  apply keeps_write. intros x y Hx H s. unfold mem_put_u, pack_u, to_bytes_u in H. destruct (_ && _); [|discriminate]. cbn [rbind] in H. apply Ok_inj in H. subst y.
  cbn. apply bytes_slice_set; [now apply Hx|apply to_le_bytes].
Qed.
Lemma keeps_bind {A B} (e : W A) (f : A -> W B) P R : keeps e P -> (forall a, P a -> keeps (f a) R) -> keeps (bind e f) R.
Proof.
  intros H K w Hw. unfold bind. destruct (H w Hw) as (H1 & (ev & H2 & H3) & H4). destruct (e w) as [[a|x] w1]; cbn [fst snd] in *.
  2:{ split; [exact H1|]. split; [now exists ev|easy]. }
  destruct (K a (H4 a eq_refl) w1 H1) as (K1 & (ev' & K2 & K3) & K4). split; [exact K1|]. split; [|exact K4].
  exists (ev' ++ ev). split; [now rewrite K2, H2, app_assoc|]. apply Forall_app. now split.
Qed.
Lemma keeps_ask c : Q c -> keeps (ask Os c) (fun r => S -> reply_bytes r).
Proof.
  intros HQ w Hw. unfold ask. cbn [fst snd w_log]. split; [exact Hw|]. split.
  - exists [(c, Os (w_log w) c)]. split; [reflexivity|]. now repeat constructor.
  - intros r E s. apply Ok_inj in E. subst r. now apply HS.
Qed.
Lemma keeps_pipe_read i n : keeps (pipe_read i n) sbytes.
Proof.
  intros w Hw. unfold pipe_read. destruct (nth_error (w_pipes w) i) as [b|] eqn:N; cbn [bio_read fst snd w_log].
  2:{ split; [exact Hw|]. split; [exists []; split; [reflexivity|constructor]|easy]. }
  split; [|split; [exists []; split; [reflexivity|constructor]|]].
  - intros s. destruct (Hw s) as [HP HM]. split; [|exact HM]. cbn. apply Forall_upd; [exact HP|]. cbn. apply nth_error_In in N. exact (proj1 (Forall_forall _ _) HP _ N).
  - intros d E s. apply Ok_inj in E. subst d. destruct (Hw s) as [HP HM]. apply bytes_firstn, bytes_skipn. apply nth_error_In in N. exact (proj1 (Forall_forall _ _) HP _ N).
Qed.
Lemma bio_write_bytes b d : bytes (bio_data b) -> bytes d -> bytes (bio_data (snd (bio_write b d))).
Proof.
  intros Hb Hd. unfold bio_write. destruct d as [|x d]; [exact Hb|]. cbn [snd bio_data].
  assert (bytes (bio_data b ++ zeros (bio_pos b - len (bio_data b)))) as B by (apply bytes_app; split; [exact Hb|apply bytes_zeros]).
  apply bytes_app. split; [now apply bytes_firstn|]. apply bytes_app. split; [exact Hd|now apply bytes_skipn].
Qed.
Lemma keeps_pipe_write i d : sbytes d -> keeps (pipe_write i d) (fun _ => True).
Proof.
  intros Hd w Hw. unfold pipe_write. destruct (nth_error (w_pipes w) i) as [b|] eqn:N.
  2:{ split; [exact Hw|]. split; [exists []; split; [reflexivity|constructor]|easy]. }
  destruct (bio_write b d) as [n b'] eqn:E. cbn [fst snd w_log]. split; [|split; [exists []; split; [reflexivity|constructor]|easy]].
  intros s. destruct (Hw s) as [HP HM]. split; [|exact HM]. cbn. apply Forall_upd; [exact HP|]. replace b' with (snd (bio_write b d)) by now rewrite E.
  apply bio_write_bytes; [|now apply Hd]. apply nth_error_In in N. exact (proj1 (Forall_forall _ _) HP _ N).
Qed.
Lemma keeps_mapl {A B} (f : A -> W B) l : (forall x, keeps (f x) (fun _ => True)) -> keeps (mapl f l) (fun _ => True).
Proof.
  intros H. induction l as [|x l IH]; cbn [mapl]; [now apply keeps_ret|].
  eapply keeps_bind; [apply H|]. intros y _. eapply keeps_bind; [exact IH|]. intros ys _. now apply keeps_ret.
Qed.
Lemma keeps_try c handler k : Q c -> (forall e n, handler e = Some n -> errno n) -> (forall r, (S -> reply_bytes r) -> keeps (k r) one_errno) ->
  keeps (ask_try Os c handler k) one_errno.
Proof.
  intros HQ HH HK. unfold ask_try. eapply keeps_bind; [exact (keeps_ask c HQ)|]. cbn beta. intros r Hr.
  destruct r; try (now apply HK). destruct (handler e) as [n|] eqn:E; [|apply keeps_fail]. apply keeps_ret. exists n. split; [reflexivity|exact (HH _ _ E)].
Qed.
Lemma keeps_ask_unit c : Q c -> keeps (ask_unit Os c) (fun _ => True).
Proof. intros HQ. eapply keeps_bind; [exact (keeps_ask c HQ)|]. intros [] _; try apply keeps_fail. now apply keeps_ret. Qed.
Lemma keeps_ask_int c : Q c -> keeps (ask_int Os c) (fun _ => True).
Proof. intros HQ. eapply keeps_bind; [exact (keeps_ask c HQ)|]. intros [] _; try apply keeps_fail. now apply keeps_ret. Qed.
Lemma keeps_ask_names c : Q c -> keeps (ask_names Os c) (fun _ => True).
Proof. intros HQ. eapply keeps_bind; [exact (keeps_ask c HQ)|]. intros [] _; try apply keeps_fail. now apply keeps_ret. Qed.
Lemma keeps_ask_stat c : Q c -> keeps (ask_stat Os c) (fun _ => True).
Proof. intros HQ. eapply keeps_bind; [exact (keeps_ask c HQ)|]. intros [] _; try apply keeps_fail. now apply keeps_ret. Qed.
Lemma keeps_ask_bool c : Q c -> keeps (ask_bool Os c) (fun _ => True).
Proof. intros HQ. eapply keeps_bind; [exact (keeps_ask c HQ)|]. intros [] _; now apply keeps_ret. Qed.
Lemma keeps_ask_bytes c : Q c -> keeps (ask_bytes Os c) sbytes.
Proof. intros HQ. eapply keeps_bind; [exact (keeps_ask c HQ)|]. intros [] Hr; try apply keeps_fail. now apply keeps_ret. Qed.
Lemma keeps_any {A} (e : W A) P : keeps e P -> keeps e (fun _ => True).
Proof. intros H w Hw. destruct (H w Hw) as (H1 & H2 & _). split; [exact H1|split; [exact H2|easy]]. Qed.

Hypothesis HQ : forall c, match c with OsAccept _ _ | OsRecv _ _ _ | OsSend _ _ | OsShutdown _ _ => False | _ => True end -> Q c.
Ltac q_tac := (apply HQ; exact I) || (match goal with H : forall c, Q c |- _ => apply H end).
Ltac p_tac := cbn beta; first [exact I | assumption | (eexists; split; [reflexivity|vm_compute; split; discriminate]) | (vm_compute; split; discriminate) | (match goal with H : _ \/ _ |- _ => destruct H end; (eexists; split; [reflexivity|assumption])) | (eexists; split; [reflexivity|assumption]) | idtac].
Ltac k_post e := match e with
  | ask_bytes _ _ => constr:(sbytes)
  | pipe_read _ _ => constr:(sbytes)
  | stream_read _ _ _ _ => constr:(sbytes)
  | lift (utf8_encode _) => constr:(sbytes)
  | get_bytes _ _ _ => constr:(sbytes)
  | gather _ _ _ _ => constr:(sbytes)
  | ask _ _ => constr:(fun r => S -> reply_bytes r)
  | poll_collect _ _ _ _ _ => constr:(fun r : (subs + Z)%type => match r with inr v => errno v | inl _ => True end)
  end.
Ltac k_step :=
  match goal with
  | |- keeps (ret _) _ => apply keeps_ret; p_tac
  | |- keeps (fail _) _ => apply keeps_fail
  | |- keeps (lift (utf8_encode _)) sbytes => apply keeps_encode
  | |- keeps (lift _) _ => apply keeps_lift
  | |- keeps self _ => apply keeps_self
  | |- keeps (set_self _) _ => apply keeps_set
  | |- keeps (the_file _) _ => apply keeps_file
  | |- keeps the_mem _ => apply keeps_mem
  | |- keeps (read_mem _ _) _ => apply keeps_read
  | |- keeps (get_u8 _ _) _ => apply keeps_read
  | |- keeps (get_u32 _ _) _ => apply keeps_read
  | |- keeps (get_u64 _ _) _ => apply keeps_read
  | |- keeps (get_bytes _ _ _) sbytes => apply keeps_get_bytes
  | |- keeps (get_bytes _ _ _) _ => apply keeps_read
  | |- keeps (put_u8 _ _ _) _ => apply keeps_put8
  | |- keeps (put_u16 _ _ _) _ => apply keeps_put_u
  | |- keeps (put_u32 _ _ _) _ => apply keeps_put_u
  | |- keeps (put_u64 _ _ _) _ => apply keeps_put_u
  | |- keeps (put_bytes _ _ _) _ => apply keeps_put_bytes; try assumption
  | |- keeps (pipe_read _ _) _ => apply keeps_pipe_read
  | |- keeps (pipe_write _ _) _ => apply keeps_pipe_write; assumption
  | |- keeps (ask _ _) _ => apply keeps_ask; q_tac
  | |- keeps (ask_try _ _ _ _) _ => apply keeps_try; [q_tac|let E := fresh in intros ? ? E; repeat (match type of E with context [match ?x with _ => _ end] => destruct x end; try discriminate E); injection E as <-; vm_compute; split; discriminate|intros ? ?]
  | |- keeps (ask_unit _ _) _ => apply keeps_ask_unit; q_tac
  | |- keeps (ask_int _ _) _ => apply keeps_ask_int; q_tac
  | |- keeps (ask_bytes _ _) _ => apply keeps_ask_bytes; q_tac
  | |- keeps (ask_names _ _) _ => apply keeps_ask_names; q_tac
  | |- keeps (ask_stat _ _) _ => apply keeps_ask_stat; q_tac
  | |- keeps (ask_bool _ _) _ => apply keeps_ask_bool; q_tac
  | |- keeps (bind ?e _) _ => (let P := k_post e in apply (keeps_bind e _ P); [|let a := fresh "a" in let H := fresh "Ha" in intros a H; cbn beta in H]) ||
                              (apply (keeps_bind e _ (fun _ => True)); [|intros ? _])
  | |- keeps (mapl _ _) _ => apply keeps_mapl; intros ?
  | |- keeps (if ?b then _ else _) _ => destruct b
  | |- keeps (match ?x with _ => _ end) _ => destruct x
  | |- keeps (os_raise _) _ => unfold os_raise
  | |- keeps (put_file _ _) _ => unfold put_file
  | |- keeps (set_fd _) _ => unfold set_fd
  | |- keeps (get_str _ _ _) _ => unfold get_str
  | |- keeps (put_stat _ _ _ _) _ => unfold put_stat
  | |- keeps (put_event _ _ _ _) _ => unfold put_event
  | |- keeps (help_time _ _) _ => unfold help_time
  | |- keeps (help_idir _) _ => unfold help_idir
  | |- keeps (help_perm _ _) _ => unfold help_perm
  | |- keeps (help_pipe _) _ => unfold help_pipe
  | |- keeps (help_sock _) _ => unfold help_sock
  | |- keeps (stream_read _ _ _ _) _ => unfold stream_read
  | |- keeps (stream_write _ _ _ _) _ => unfold stream_write
  | |- keeps (unless_badf _ _) _ => unfold unless_badf
  | |- keeps (unless_dir _ _) _ => unfold unless_dir
  | |- keeps (need _ _ _) _ => unfold need
  | |- keeps (unless_sock _ _) _ => unfold unless_sock
  | |- keeps (unless_escp _ _ _) _ => unfold unless_escp
  end.
Ltac k_tac := cbn zeta; repeat (k_step; cbn beta zeta).
Lemma keeps_put_strings a l : forall ptr buf, keeps (put_strings a l ptr buf) (fun _ => True).
Proof. induction l as [|e l IH]; intros; cbn [put_strings]; k_tac. apply IH. Qed.
Lemma keeps_pread a h n : forall ptr offs, keeps (pread_loop Os a h n ptr offs) (fun _ => True).
Proof. induction n as [|n IH]; intros; cbn [pread_loop]; k_tac. apply IH. Qed.
Lemma keeps_gather a n : forall ptr acc, sbytes acc -> keeps (gather a n ptr acc) sbytes.
Proof. induction n as [|n IH]; intros; cbn [gather]; k_tac. apply IH. intros s. apply bytes_app. split; [now apply H|now apply Ha]. Qed.
Lemma keeps_read_loop a fd f n : forall ptr size, keeps (read_loop Os a fd f n ptr size) (fun _ => True).
Proof. induction n as [|n IH]; intros; cbn [read_loop]; k_tac. apply IH. Qed.
Lemma keeps_readdir a host l bufend : forall dirent cookie, keeps (readdir_loop Os a host l bufend dirent cookie) (fun _ => True).
Proof. induction l as [|nm l IH]; intros; cbn [readdir_loop]; k_tac. apply IH. Qed.
Lemma keeps_collect a n : forall addr s, keeps (poll_collect Os a n addr s) (fun r => match r with inr e => errno e | _ => True end).
Proof. induction n as [|n IH]; intros; cbn [poll_collect]; k_tac; apply IH. Qed.
Lemma keeps_clocks a l : forall outs neve, keeps (poll_clocks Os a l outs neve) (fun _ => True).
Proof. induction l as [|(((u, c), d), e) l IH]; intros; cbn [poll_clocks]; k_tac; apply IH. Qed.
Lemma keeps_files a l r k : forall outs neve, keeps (poll_files a l r k outs neve) (fun _ => True).
Proof. induction l as [|(u, c) l IH]; intros; cbn [poll_files]; k_tac; apply IH. Qed.
Lemma keeps_total a n : forall ptr acc, keeps (iov_total a n ptr acc) (fun _ => True).
Proof. induction n as [|n IH]; intros; cbn [iov_total]; k_tac. apply IH. Qed.
Lemma keeps_scatter a n d : sbytes d -> forall ptr offs, keeps (scatter a n ptr d offs) (fun _ => True).
Proof. intros Hd. induction n as [|n IH]; intros; cbn [scatter]; k_tac; try apply IH. intros s. apply bytes_slice. now apply Hd. Qed.
Ltac k_loop := first [apply keeps_put_strings | apply keeps_pread | (apply keeps_gather; intros _; constructor) | apply keeps_read_loop | apply keeps_readdir
  | apply keeps_collect | apply keeps_clocks | apply keeps_files | apply keeps_total | (apply keeps_scatter; assumption) ].
Definition sock_fun (f : wfun) : bool := match f with F_sock_accept | F_sock_recv | F_sock_send | F_sock_shutdown => true | _ => false end.
Lemma call_keeps f args : (sock_fun f = true -> forall c, Q c) -> keeps (wasi_call Os f args) one_errno.
Proof.
  intros HSO.
  destruct f; (do 10 (try (destruct args as [|? args]; try (apply keeps_fail)))); cbn [wasi_call]; cbn [sock_fun] in HSO; try (specialize (HSO eq_refl)).
  all: unfold args_get, args_sizes_get, clock_res_get, clock_time_get, environ_get, environ_sizes_get, fd_advise, fd_allocate, fd_close,
     fd_datasync, fd_fdstat_get, fd_fdstat_set_flags, fd_fdstat_set_rights, fd_filestat_get, fd_filestat_set_size, fd_filestat_set_times, fd_pread,
     fd_prestat_dir_name, fd_prestat_get, fd_pwrite, fd_read, fd_readdir, fd_renumber, fd_seek, fd_sync, fd_tell, fd_write,
     path_create_directory, path_filestat_get, path_filestat_set_times, path_link, path_open, path_readlink, path_remove_directory, path_rename, path_symlink,
     path_unlink_file, poll_oneoff, proc_exit, proc_raise, random_get, sched_yield, sock_accept, sock_recv, sock_send, sock_shutdown, put_sizes;
     repeat (k_tac; try k_loop).
Qed.
End pass.
