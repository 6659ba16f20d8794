(* The WASI methods and the descriptor table: which calls leave it alone, which host descriptors they touch. *)
From Coq Require Import ZArith List Bool Lia.
From Verif Require Import Py Syntax Store Val Machine Utf8 Os Wasi SpecMem SpecWasi PyFacts.
Import ListNotations.
Open Scope Z_scope.

(* ---- computations that change neither the Preview1 object nor the log ---- *)
Definition still {A} (m : W A) : Prop := forall w, w_self (snd (m w)) = w_self w /\ w_log (snd (m w)) = w_log w.
Lemma still_ret {A} (a : A) : still (ret a).
Proof. now intros w. Qed.
Lemma still_fail {A} e : still (fail e : W A).
Proof. now intros w. Qed.
Lemma still_lift {A} (r : res A) : still (lift r).
Proof. now intros w. Qed.
Lemma still_self : still self.
Proof. now intros w. Qed.
Lemma still_file i : still (the_file i).
Proof. now intros w. Qed.
Lemma still_mem : still the_mem.
Proof. intros w. unfold the_mem. now destruct (k_frame (w_mach w)). Qed.
Lemma still_read {A} a (f : meminst -> res A) : still (read_mem a f).
Proof. now intros w. Qed.
Lemma still_write a f : still (write_mem a f).
Proof.
  intros w. unfold write_mem.
  now destruct (let? x := py_index (s_mems (k_store (w_mach w))) a in
                let? y := f x in py_setitem (s_mems (k_store (w_mach w))) a y).
Qed.
Lemma still_bind {A B} (m : W A) (k : A -> W B) : still m -> (forall a, still (k a)) -> still (bind m k).
Proof.
  intros H K w. unfold bind. destruct (H w) as (H1 & H2). destruct (m w) as [[a|e] w']; cbn [snd] in *; [|easy].
  destruct (K a w') as (K1 & K2). split; congruence.
Qed.
Lemma still_pipe_read i n : still (pipe_read i n).
Proof. intros w. unfold pipe_read. destruct (nth_error (w_pipes w) i); [|easy]. now destruct (bio_read _ _). Qed.
Lemma still_pipe_write i d : still (pipe_write i d).
Proof. intros w. unfold pipe_write. destruct (nth_error (w_pipes w) i); [|easy]. now destruct (bio_write _ _). Qed.
Lemma still_mapl {A B} (f : A -> W B) l : (forall x, still (f x)) -> still (mapl f l).
Proof.
  intros H. induction l as [|x l IH]; cbn [mapl]; [apply still_ret|].
  apply still_bind; [apply H|]. intros y. apply still_bind; [exact IH|]. intros ys. apply still_ret.
Qed.

Ltac still_tac :=
  repeat first
    [ apply still_ret | apply still_fail | apply still_lift | apply still_self | apply still_file | apply still_mem
    | apply still_read | apply still_write | apply still_pipe_read | apply still_pipe_write
    | apply still_bind; [|intros ?]
    | match goal with |- still (if ?b then _ else _) => destruct b end ].
Lemma still_put_strings a l : forall ptr buf, still (put_strings a l ptr buf).
Proof. induction l as [|e l IH]; intros ptr buf; cbn [put_strings]; still_tac. apply IH. Qed.
Lemma still_put_stat a p t i : still (put_stat a p t i).
Proof. unfold put_stat. still_tac. Qed.
Lemma still_gather a n : forall ptr acc, still (gather a n ptr acc).
Proof. induction n as [|n IH]; intros; cbn [gather]; still_tac. apply IH. Qed.
Lemma still_iov_total a n : forall ptr acc, still (iov_total a n ptr acc).
Proof. induction n as [|n IH]; intros; cbn [iov_total]; still_tac. apply IH. Qed.
Lemma still_scatter a n : forall ptr d offs, still (scatter a n ptr d offs).
Proof. induction n as [|n IH]; intros; cbn [scatter]; still_tac; apply IH. Qed.
Lemma still_put_event a o u k : still (put_event a o u k).
Proof. unfold put_event. still_tac. Qed.
Lemma still_help_pipe fd : still (help_pipe fd).
Proof. unfold help_pipe. still_tac. Qed.
Lemma still_poll_files a l ready k : forall outs neve, still (poll_files a l ready k outs neve).
Proof.
  induction l as [|(u, fd) l IH]; intros; cbn [poll_files]; still_tac; try apply IH.
Qed.
Lemma still_raise {A} e : still (os_raise e : W A).
Proof. unfold os_raise. apply still_fail. Qed.

(* ---- computations that leave the Preview1 object [p] alone and touch only host descriptors of open entries ---- *)
Definition held (p : preview1) (h : Z) : Prop := exists f, In f (p_fd p) /\ wasm_open f = true /\ host_fd f = h.
Definition neutral (c : oscall) : Prop := match c with OsOpen _ _ _ _ | OsClose _ => False | _ => True end.
Definition calm (p : preview1) (evs : list event) : Prop :=
  Forall (fun e => neutral (fst e) /\ Forall (held p) (uses (fst e))) evs.
Definition quiet {A} (p : preview1) (w : world) (m : W A) : Prop :=
  w_self w = p -> w_self (snd (m w)) = p /\ exists evs, w_log (snd (m w)) = evs ++ w_log w /\ calm p evs.

Lemma quiet_still {A} p w (m : W A) : still m -> quiet p w m.
Proof. intros H Hp. destruct (H w) as (H1 & H2). split; [congruence|]. exists []. split; [exact H2|constructor]. Qed.
Lemma quiet_bind {A B} p w (m : W A) (k : A -> W B) :
  quiet p w m -> (forall a w', w_self w = p -> m w = (Ok a, w') -> quiet p w' (k a)) -> quiet p w (bind m k).
Proof.
  intros H K Hp. destruct (H Hp) as (H1 & evs & H2 & H3). unfold bind. destruct (m w) as [[a|e] w'] eqn:E; cbn [snd] in *.
  - destruct (K a w' Hp eq_refl H1) as (K1 & evs' & K2 & K3). split; [exact K1|]. exists (evs' ++ evs).
    rewrite K2, H2, app_assoc. split; [reflexivity|]. now apply Forall_app.
  - split; [exact H1|]. now exists evs.
Qed.
Lemma quiet_next {A B} p w (m : W A) (k : A -> W B) :
  quiet p w m -> (forall a w', quiet p w' (k a)) -> quiet p w (bind m k).
Proof. intros H K. apply quiet_bind; [exact H|]. intros. apply K. Qed.
Lemma quiet_ask p w c Os : neutral c -> Forall (held p) (uses c) -> quiet p w (ask Os c).
Proof.
  intros N U Hp. unfold ask. cbn [snd w_self w_log]. split; [exact Hp|]. exists [(c, Os (w_log w) c)].
  split; [reflexivity|]. repeat constructor; assumption.
Qed.
Ltac ask_tac := intros N U; apply quiet_next; [now apply quiet_ask|]; intros r w'; destruct r; apply quiet_still; try apply still_ret; try apply still_raise; try apply still_fail.
Lemma quiet_ask_unit p w c Os : neutral c -> Forall (held p) (uses c) -> quiet p w (ask_unit Os c).
Proof. ask_tac. Qed.
Lemma quiet_ask_int p w c Os : neutral c -> Forall (held p) (uses c) -> quiet p w (ask_int Os c).
Proof. ask_tac. Qed.
Lemma quiet_ask_bytes p w c Os : neutral c -> Forall (held p) (uses c) -> quiet p w (ask_bytes Os c).
Proof. ask_tac. Qed.
Lemma quiet_ask_names p w c Os : neutral c -> Forall (held p) (uses c) -> quiet p w (ask_names Os c).
Proof. ask_tac. Qed.
Lemma quiet_ask_stat p w c Os : neutral c -> Forall (held p) (uses c) -> quiet p w (ask_stat Os c).
Proof. ask_tac. Qed.
Lemma quiet_ask_bool p w c Os : neutral c -> Forall (held p) (uses c) -> quiet p w (ask_bool Os c).
Proof. ask_tac. Qed.
Lemma quiet_ask_try p w c h k Os : neutral c -> Forall (held p) (uses c) -> (forall r w', quiet p w' (k r)) ->
  quiet p w (ask_try Os c h k).
Proof.
  intros N U K. apply quiet_next; [now apply quiet_ask|]. intros r w'. destruct r; try apply K.
  destruct (h e); apply quiet_still; [apply still_ret|apply still_raise].
Qed.
Lemma quiet_time p w id Os : quiet p w (help_time Os id).
Proof.
  unfold help_time. destruct ((0 <=? id) && (id <=? 3)); [apply quiet_ask_int; [easy|constructor]|apply quiet_still, still_ret].
Qed.

(* ---- the opening checks ---- *)
Lemma nth_lt {A} (l : list A) i x : nth_error l i = Some x -> (i < length l)%nat.
Proof. intros H. apply nth_error_Some. congruence. Qed.
Lemma badf_false p fd : help_badf p fd = false ->
  0 <= fd < len (p_fd p) /\ exists f, nth_error (p_fd p) (Z.to_nat fd) = Some f /\ wasm_open f = true.
Proof.
  unfold help_badf. intros H. apply orb_false_iff in H. destruct H as (H & H3). apply orb_false_iff in H. destruct H as (H1 & H2).
  split; [lia|]. destruct (nth_error (p_fd p) (Z.to_nat fd)) as [f|]; [|discriminate]. exists f. split; [reflexivity|].
  now apply negb_false_iff in H3.
Qed.
Lemma badf_open w fd f : is_open w fd f -> help_badf (w_self w) fd = false.
Proof.
  intros ((H0 & H1) & H2). unfold help_badf. rewrite H1, H2. assert (fd < len (p_fd (w_self w))).
  { apply nth_lt in H1. unfold len. lia. }
  replace (fd <? 0) with false by lia. now replace (len (p_fd (w_self w)) <=? fd) with false by lia.
Qed.
Lemma badf_closed w fd : not_open w fd -> help_badf (w_self w) fd = true.
Proof.
  intros H. destruct (help_badf (w_self w) fd) eqn:E; [reflexivity|]. apply badf_false in E. destruct E as (E0 & f & E1 & E2).
  exfalso. apply (H f). split; [split; [lia|exact E1]|exact E2].
Qed.
Lemma badf_true w fd : help_badf (w_self w) fd = true -> not_open w fd.
Proof. intros H f Hf. apply badf_open in Hf. congruence. Qed.
Lemma index_at {A} (l : list A) i x : 0 <= i -> nth_error l (Z.to_nat i) = Some x -> py_index l i = Ok x.
Proof.
  intros H E. unfold py_index. replace (i <? 0) with false by lia. cbn zeta. replace (i <? 0) with false by lia.
  now rewrite E.
Qed.

Lemma quiet_badf p w fd k : (help_badf p fd = false -> quiet p w k) -> quiet p w (unless_badf fd k).
Proof.
  intros H Hp. unfold unless_badf, bind, self. rewrite Hp. destruct (help_badf p fd) eqn:E.
  - split; [exact Hp|]. exists []. split; [reflexivity|constructor].
  - now apply H.
Qed.
Lemma quiet_check {A} p w (m : W bool) (x y : W A) : still m -> quiet p w x -> (forall w', quiet p w' y) ->
  (forall w', quiet p w' x) -> quiet p w (let! b := m in if b : bool then x else y).
Proof. intros H X Y X'. apply quiet_next; [now apply quiet_still|]. intros b w'. destruct b; [apply X'|apply Y]. Qed.
Lemma still_check {A} (m : W bool) (x y : W A) : still m -> still x -> still y -> still (let! b := m in if b : bool then x else y).
Proof. intros H X Y. apply still_bind; [exact H|]. intros b. now destruct b. Qed.
Lemma quiet_need p w fd r k : (forall w', quiet p w' k) -> quiet p w (need fd r k).
Proof.
  intros K. unfold need. apply quiet_check; try (intros; apply quiet_still, still_ret); [|exact K].
  unfold help_perm. still_tac.
Qed.
Lemma quiet_dir p w fd k : (forall w', quiet p w' k) -> quiet p w (unless_dir fd k).
Proof.
  intros K. unfold unless_dir. apply quiet_check; try (intros; apply quiet_still, still_ret); [|exact K].
  unfold help_idir. still_tac.
Qed.
Lemma quiet_sock p w fd k : (forall w', quiet p w' k) -> quiet p w (unless_sock fd k).
Proof.
  intros K. unfold unless_sock. apply quiet_check; try (intros; apply quiet_still, still_ret); [|exact K].
  unfold help_sock. still_tac.
Qed.
Lemma quiet_escp p w r n k : quiet p w k -> quiet p w (unless_escp r n k).
Proof. intros K. unfold unless_escp. destruct (help_escp r n); [apply quiet_still, still_ret|exact K]. Qed.
Lemma quiet_file {A} p w fd (k : file -> W A) : help_badf p fd = false ->
  (forall f w', held p (host_fd f) -> quiet p w' (k f)) -> quiet p w (bind (the_file fd) k).
Proof.
  intros H K Hp. apply badf_false in H. destruct H as (H0 & f & H1 & H2).
  unfold bind, the_file, self, lift. cbn. rewrite Hp, (index_at _ _ f) by (try lia; exact H1).
  apply K; [|exact Hp]. exists f. split; [now apply nth_error_In in H1|now split].
Qed.

(* ---- every method but five is quiet ---- *)
Ltac held_tac := repeat first [assumption | apply Forall_nil | apply Forall_cons].
Ltac quiet_step :=
  match goal with
  | |- quiet _ _ (ret _) => apply quiet_still, still_ret
  | |- quiet _ _ (fail _) => apply quiet_still, still_fail
  | |- quiet _ _ (os_raise _) => apply quiet_still, still_raise
  | |- quiet _ _ (unless_badf _ _) => apply quiet_badf; intros ?
  | |- quiet _ _ (need _ _ _) => apply quiet_need; intros ?
  | |- quiet _ _ (unless_dir _ _) => apply quiet_dir; intros ?
  | |- quiet _ _ (unless_sock _ _) => apply quiet_sock; intros ?
  | |- quiet _ _ (unless_escp _ _ _) => apply quiet_escp
  | H : help_badf _ ?fd = false |- quiet _ _ (bind (the_file ?fd) _) => apply (quiet_file _ _ _ _ H); intros ? ? ?
  | |- quiet _ _ (ask_try _ _ _ _) => apply quiet_ask_try; [exact I|held_tac|intros ? ?]
  | |- quiet _ _ (bind (ask_unit _ _) _) => apply quiet_next; [apply quiet_ask_unit; [exact I|held_tac]|intros ? ?]
  | |- quiet _ _ (bind (ask_int _ _) _) => apply quiet_next; [apply quiet_ask_int; [exact I|held_tac]|intros ? ?]
  | |- quiet _ _ (bind (ask_bytes _ _) _) => apply quiet_next; [apply quiet_ask_bytes; [exact I|held_tac]|intros ? ?]
  | |- quiet _ _ (bind (ask_names _ _) _) => apply quiet_next; [apply quiet_ask_names; [exact I|held_tac]|intros ? ?]
  | |- quiet _ _ (bind (ask_stat _ _) _) => apply quiet_next; [apply quiet_ask_stat; [exact I|held_tac]|intros ? ?]
  | |- quiet _ _ (bind (help_time _ _) _) => apply quiet_next; [apply quiet_time|intros ? ?]
  | |- quiet _ _ (bind (if _ then _ else _) _) => apply quiet_next; [|intros ? ?]
  | |- quiet _ _ (ask_int _ _) => apply quiet_ask_int; [exact I|held_tac]
  | |- quiet _ _ (ask_bytes _ _) => apply quiet_ask_bytes; [exact I|held_tac]
  | |- quiet _ _ (if ?b then _ else _) => destruct b
  | |- quiet _ _ (match ?x with _ => _ end) => destruct x
  | |- quiet _ _ (bind _ _) => apply quiet_next; [apply quiet_still; solve [still_tac | apply still_put_stat | apply still_put_strings | apply still_gather | apply still_scatter | apply still_iov_total | apply still_put_event | apply still_help_pipe]|intros ? ?]
  end.
Ltac quiet_tac := cbn zeta; repeat (quiet_step; cbn zeta).

Lemma quiet_stream_read Os p w fd f n : held p (host_fd f) -> quiet p w (stream_read Os fd f n).
Proof.
  intros H. unfold stream_read. quiet_tac; apply quiet_still, still_pipe_read.
Qed.
Lemma quiet_stream_write Os p w fd f d : held p (host_fd f) -> quiet p w (stream_write Os fd f d).
Proof. intros H. unfold stream_write. quiet_tac; apply quiet_still, still_pipe_write. Qed.
Lemma quiet_pread Os p a h n : held p h -> forall w ptr offs, quiet p w (pread_loop Os a h n ptr offs).
Proof. intros H. induction n as [|n IH]; intros; cbn [pread_loop]; quiet_tac. apply IH. Qed.
Lemma quiet_read_loop Os p a fd f n : held p (host_fd f) -> forall w ptr size, quiet p w (read_loop Os a fd f n ptr size).
Proof.
  intros H. induction n as [|n IH]; intros; cbn [read_loop]; quiet_tac.
  apply quiet_next; [now apply quiet_stream_read|]. intros d ?. quiet_tac. apply IH.
Qed.
Lemma quiet_readdir Os p a host l bufend : forall w dirent cookie, quiet p w (readdir_loop Os a host l bufend dirent cookie).
Proof. induction l as [|nm l IH]; intros; cbn [readdir_loop]; quiet_tac. apply IH. Qed.
Lemma quiet_collect Os p a n : forall w addr s, quiet p w (poll_collect Os a n addr s).
Proof. induction n as [|n IH]; intros; cbn [poll_collect]; quiet_tac; try apply IH. Qed.
Lemma quiet_clocks Os p a l : forall w outs neve, quiet p w (poll_clocks Os a l outs neve).
Proof. induction l as [|(((u, c), d), e) l IH]; intros; cbn [poll_clocks]; quiet_tac; apply IH. Qed.

(* the descriptors that poll_oneoff collects are open ones *)
Definition good_subs (p : preview1) (s : subs) : Prop :=
  Forall (fun x => help_badf p (snd x) = false) (sub_r s) /\ Forall (fun x => help_badf p (snd x) = false) (sub_w s).
Lemma quiet_self_eq {A} p w (m : W A) r w' : quiet p w m -> w_self w = p -> m w = (r, w') -> w_self w' = p.
Proof. intros H Hp E. destruct (H Hp) as (H1 & _). now rewrite E in H1. Qed.
Lemma bind_ok {S A B} (m : ST S A) (k : A -> ST S B) s b s' : bind m k s = (Ok b, s') ->
  exists a s1, m s = (Ok a, s1) /\ k a s1 = (Ok b, s').
Proof. unfold bind. destruct (m s) as [[a|e] s1]; [|discriminate]. intros H. now exists a, s1. Qed.
Lemma collect_good Os p a n : forall w addr s s' w', w_self w = p -> good_subs p s ->
  poll_collect Os a n addr s w = (Ok (inl s'), w') -> good_subs p s'.
Proof.
  induction n as [|n IH]; intros w addr s s' w' Hp G E; cbn [poll_collect] in E.
  { unfold ret in E. now injection E as -> ->. }
  apply bind_ok in E. destruct E as (u & w1 & E1 & E). assert (w_self w1 = p) as P1 by (eapply quiet_self_eq; [apply quiet_still, still_read|exact Hp|exact E1]).
  apply bind_ok in E. destruct E as (ty & w2 & E2 & E). assert (w_self w2 = p) as P2 by (eapply quiet_self_eq; [apply quiet_still, still_read|exact P1|exact E2]).
  destruct (ty =? 0).
  - apply bind_ok in E. destruct E as (x3 & w3 & E3 & E). assert (w_self w3 = p) as P3 by (eapply quiet_self_eq; [apply quiet_still, still_read|exact P2|exact E3]).
    apply bind_ok in E. destruct E as (x4 & w4 & E4 & E). assert (w_self w4 = p) as P4 by (eapply quiet_self_eq; [apply quiet_still, still_read|exact P3|exact E4]).
    apply bind_ok in E. destruct E as (x5 & w5 & E5 & E). assert (w_self w5 = p) as P5 by (eapply quiet_self_eq; [apply quiet_still, still_read|exact P4|exact E5]).
    apply bind_ok in E. destruct E as (x6 & w6 & E6 & E). assert (w_self w6 = p) as P6 by (eapply quiet_self_eq; [apply quiet_time|exact P5|exact E6]).
    cbn zeta in E. eapply IH; [exact P6| |exact E]. exact G.
  - destruct ((ty =? 1) || (ty =? 2)); [|eapply IH; eassumption].
    apply bind_ok in E. destruct E as (fd & w3 & E3 & E). assert (w_self w3 = p) as P3 by (eapply quiet_self_eq; [apply quiet_still, still_read|exact P2|exact E3]).
    apply bind_ok in E. destruct E as (p' & w4 & E4 & E). unfold self in E4. injection E4 as <- <-. rewrite P3 in E.
    destruct (help_badf p fd) eqn:Hb; [unfold ret in E; discriminate|].
    apply bind_ok in E. destruct E as (b & w5 & E5 & E).
    assert (w_self w5 = p) as P5. { eapply quiet_self_eq; [apply quiet_still|exact P3|exact E5]. unfold help_perm. still_tac. }
    destruct b; [unfold ret in E; discriminate|].
    destruct G as (G1 & G2).
    destruct (ty =? 1); (eapply IH; [exact P5| |exact E]); split; cbn [sub_r sub_w]; try assumption;
      apply Forall_app; (split; [assumption|]); constructor; try constructor; exact Hb.
Qed.
Lemma mapl_held p l : forall w hs w', w_self w = p -> Forall (fun x : Z * Z => help_badf p (snd x) = false) l ->
  mapl (fun '(_, fd) => let! f := the_file fd in ret (host_fd f)) l w = (Ok hs, w') -> Forall (held p) hs.
Proof.
  induction l as [|(u, fd) l IH]; intros w hs w' Hp G E; cbn [mapl] in E.
  { unfold ret in E. injection E as <- <-. constructor. }
  inversion G as [|x l' Gx Gl]; subst x l'. cbn [snd] in Gx.
  apply bind_ok in E. destruct E as (h & w1 & E1 & E). apply bind_ok in E. destruct E as (hs' & w2 & E2 & E).
  unfold ret in E. injection E as <- <-.
  apply badf_false in Gx. destruct Gx as (G0 & f & G1 & G2).
  unfold bind, the_file, self, lift, ret in E1. cbn in E1. rewrite Hp, (index_at _ _ f) in E1 by (try lia; exact G1).
  injection E1 as <- <-. constructor; [|eapply IH; eassumption].
  exists f. split; [now apply nth_error_In in G1|now split].
Qed.
Lemma quiet_poll Os p w x0 x1 x2 x3 : quiet p w (poll_oneoff Os x0 x1 x2 x3).
Proof.
  assert (forall l : list (Z * Z), still (mapl (fun '(_, fd) => let! f := the_file fd in ret (host_fd f)) l)) as SM.
  { intros l. apply still_mapl. intros (u, fd). still_tac. }
  apply quiet_next; [apply quiet_still, still_mem|]. intros a w1.
  apply quiet_bind; [apply quiet_collect|]. intros r w2 P1 E2.
  destruct r as [s|e]; [|apply quiet_still, still_ret].
  assert (good_subs p s) as (G1 & G2). { eapply collect_good; [exact P1| |exact E2]. split; constructor. }
  clear E2 P1 w1. cbn zeta.
  apply quiet_bind; [apply quiet_still, SM|]. intros rd w3 P2 E3.
  assert (Forall (held p) rd) as H1 by (eapply mapl_held; [exact P2|exact G1|exact E3]).
  apply quiet_bind; [apply quiet_still, SM|]. intros wr w4 P3 E4.
  assert (Forall (held p) wr) as H2 by (eapply mapl_held; [exact P3|exact G2|exact E4]).
  match goal with |- quiet _ _ (if ?b then _ else _) => destruct b end; [apply quiet_still, still_fail|].
  apply quiet_next; [apply quiet_ask; [exact I|now apply Forall_app]|]. intros r w5.
  destruct r; try (apply quiet_still, still_fail).
  apply quiet_next; [apply quiet_clocks|]. intros (o1, n1) w6.
  apply quiet_still. still_tac; try apply still_poll_files; destruct a0; still_tac; try apply still_poll_files.
  destruct a0; still_tac.
Qed.

Definition changes_table (f : wfun) : bool :=
  match f with
  | F_fd_close | F_fd_fdstat_set_flags | F_fd_fdstat_set_rights | F_fd_renumber | F_path_open => true
  | _ => false
  end.
Lemma quiet_two p w fd fd' (k : W (list Z)) : (help_badf p fd = false -> help_badf p fd' = false -> quiet p w k) ->
  quiet p w (let! p := self in if help_badf p fd || help_badf p fd' then ret [E_BADF] else k).
Proof.
  intros H Hp. unfold bind, self. rewrite Hp. destruct (help_badf p fd || help_badf p fd') eqn:E.
  - split; [exact Hp|]. exists []. split; [reflexivity|constructor].
  - apply orb_false_iff in E. destruct E. now apply H.
Qed.
Lemma quiet_prestat p w fd (k : preview1 -> W (list Z)) : (help_badf p fd = false -> forall q, quiet p w (k q)) ->
  quiet p w (let! p := self in if help_badf p fd || (fd - 2 >? p_dirs p) then ret [E_BADF] else k p).
Proof.
  intros H Hp. unfold bind, self. rewrite Hp. destruct (help_badf p fd || (fd - 2 >? p_dirs p)) eqn:E.
  - split; [exact Hp|]. exists []. split; [reflexivity|constructor].
  - apply orb_false_iff in E. destruct E. now apply H.
Qed.
Lemma quiet_call Os p w f args : changes_table f = false -> quiet p w (wasi_call Os f args).
Proof.
  intros T. destruct f; try discriminate T; clear T;
    (do 10 (try (destruct args as [|? args]; try (apply quiet_still, still_fail)))); cbn [wasi_call].
  all: try (unfold args_get, args_sizes_get, put_sizes, clock_res_get, clock_time_get, environ_get, environ_sizes_get, fd_advise, fd_allocate,
     fd_datasync, fd_fdstat_get, fd_filestat_get, fd_filestat_set_size, fd_filestat_set_times, fd_sync, fd_tell, fd_seek,
     path_create_directory, path_filestat_get, path_filestat_set_times, path_readlink, path_remove_directory, path_symlink,
     path_unlink_file, proc_exit, proc_raise, random_get, sched_yield, sock_accept, sock_recv, sock_send, sock_shutdown, get_str; quiet_tac; fail).
  - unfold environ_sizes_get, put_sizes. quiet_tac.
  - unfold fd_pread. quiet_tac. apply quiet_next; [now apply quiet_pread|]. intros ? ?. quiet_tac.
  - apply quiet_prestat. intros H _. quiet_tac.
  - apply quiet_prestat. intros H _. quiet_tac.
  - unfold fd_pwrite. quiet_tac.
  - unfold fd_read. quiet_tac. apply quiet_next; [now apply quiet_read_loop|]. intros ? ?. quiet_tac.
  - unfold fd_readdir. quiet_tac. apply quiet_next; [apply quiet_readdir|]. intros (?, ?) ?. quiet_tac.
  - unfold fd_write. quiet_tac. apply quiet_next; [now apply quiet_stream_write|]. intros ? ?. quiet_tac.
  - apply quiet_two. intros H1 H2. unfold get_str. quiet_tac.
  - apply quiet_two. intros H1 H2. unfold get_str. quiet_tac.
  - apply quiet_poll.
Qed.

(* ---- the five methods that change the table ---- *)
Lemma setitem_at {A} (l : list A) i x : 0 <= i < len l -> py_setitem l i x = Ok (upd l (Z.to_nat i) x).
Proof.
  intros H. unfold py_setitem. replace (i <? 0) with false by lia. cbn zeta.
  replace ((i <? 0) || (len l <=? i)) with false by lia. reflexivity.
Qed.
Lemma the_file_at w fd f : entry w fd f -> the_file fd w = (Ok f, w).
Proof. intros (H0 & H1). unfold the_file, bind, self, lift. cbn. now rewrite (index_at _ _ f). Qed.
Definition with_fd (w : world) (l : list file) : world :=
  mkworld (mkpre (p_args (w_self w)) (p_dirs (w_self w)) (p_envs (w_self w)) l (p_return_on_exit (w_self w)))
    (w_log w) (w_pipes w) (w_mach w).
Lemma put_file_at w fd f g : entry w fd f -> put_file fd g w = (Ok tt, with_fd w (upd (p_fd (w_self w)) (Z.to_nat fd) g)).
Proof.
  intros (H0 & H1). unfold put_file, bind, self, lift. cbn. rewrite setitem_at; [reflexivity|].
  apply nth_lt in H1. unfold len. lia.
Qed.
