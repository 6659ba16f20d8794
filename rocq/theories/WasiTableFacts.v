(* How a WASI call may change the descriptor table and the log, and what follows for histories. *)
From Coq Require Import ZArith List Bool Lia.
From Verif Require Import Py Syntax Store Val Machine Utf8 Os Wasi SpecMem SpecWasi PyFacts WasiFacts.
Import ListNotations.
Open Scope Z_scope.

Lemma py_index_entry w fd f : 0 <= fd -> py_index (p_fd (w_self w)) fd = Ok f -> entry w fd f.
Proof.
  intros H E. split; [exact H|]. unfold py_index in E. replace (fd <? 0) with false in E by lia. cbn zeta in E.
  replace (fd <? 0) with false in E by lia. destruct (nth_error (p_fd (w_self w)) (Z.to_nat fd)); congruence.
Qed.

(* the closed version of an entry *)
Definition closed (f : file) : file := set_wasm_open (set_host_open f false) false.
(* an entry after a change that keeps its host descriptor and its status, and adds no rights *)
Definition same_host (f g : file) : Prop :=
  host_fd g = host_fd f /\ host_open g = host_open f /\ wasm_open g = wasm_open f /\ wasm_type g = wasm_type f /\
  subset (rights_base g) (rights_base f) /\ subset (rights_root g) (rights_root f).
(* events that concern only the host descriptor [h] *)
Definition about (h : Z) (evs : list event) : Prop :=
  Forall (fun e => neutral (fst e) /\ uses (fst e) = [h]) evs.

(* [mv]: the descriptors of an fd_renumber *)
Inductive effect (Os : os) (mv : option (Z * Z)) (w w' : world) : Prop :=
| Eff_quiet evs : w_self w' = w_self w -> w_log w' = evs ++ w_log w -> calm (w_self w) evs -> effect Os mv w w'
| Eff_edit fd f g evs : is_open w fd f -> same_host f g ->
    p_fd (w_self w') = upd (p_fd (w_self w)) (Z.to_nat fd) g -> w_log w' = evs ++ w_log w ->
    calm (w_self w) evs -> effect Os mv w w'
| Eff_detach fd f : is_open w fd f -> wasm_type f = T_CHARACTER_DEVICE ->
    p_fd (w_self w') = upd (p_fd (w_self w)) (Z.to_nat fd) (set_wasm_open f false) -> w_log w' = w_log w -> effect Os mv w w'
| Eff_close fd f : is_open w fd f ->
    p_fd (w_self w') = upd (p_fd (w_self w)) (Z.to_nat fd) (closed f) ->
    w_log w' = (OsClose (host_fd f), RUnit) :: w_log w -> effect Os mv w w'
| Eff_close_fails fd f : is_open w fd f -> w_self w' = w_self w ->
    w_log w' = (OsClose (host_fd f), Os (w_log w) (OsClose (host_fd f))) :: w_log w ->
    Os (w_log w) (OsClose (host_fd f)) <> RUnit -> effect Os mv w w'
| Eff_move fd fd' stem dest log : mv = Some (fd, fd') -> is_open w fd stem -> is_open w fd' dest ->
    (if wasm_type dest =? T_CHARACTER_DEVICE then log = w_log w else log = (OsClose (host_fd dest), RUnit) :: w_log w) ->
    p_fd (w_self w') = upd (upd (p_fd (w_self w)) (Z.to_nat fd') stem) (Z.to_nat fd) (closed stem) ->
    w_log w' = log -> effect Os mv w w'
| Eff_open fd f nm flag h evs g : is_open w fd f ->
    Os (w_log w) (OsOpen nm flag 0x1a4 (Some (host_fd f))) = RInt h ->
    w_log w' = evs ++ (OsOpen nm flag 0x1a4 (Some (host_fd f)), RInt h) :: w_log w -> about h evs ->
    p_fd (w_self w') = p_fd (w_self w) ++ [g] -> host_fd g = h -> host_open g = true -> wasm_open g = true ->
    (exists i, wasm_type g = help_wasm_type i) -> effect Os mv w w'
| Eff_open_fails fd f nm flag evs : is_open w fd f -> w_self w' = w_self w ->
    let c := OsOpen nm flag 0x1a4 (Some (host_fd f)) in
    w_log w' = evs ++ (c, Os (w_log w) c) :: w_log w ->
    (evs = [] \/ exists h, Os (w_log w) c = RInt h /\ about h evs) -> effect Os mv w w'.

Lemma upd_twice {A} (l : list A) : forall k x y, upd (upd l k x) k y = upd l k y.
Proof. induction l as [|z l IH]; intros [|k] x y; cbn [upd]; try reflexivity. now rewrite IH. Qed.
Lemma nth_upd_same {A} (l : list A) k x y : nth_error l k = Some x -> nth_error (upd l k y) k = Some y.
Proof. intros H. apply nth_lt in H. rewrite nth_error_upd, Nat.eqb_refl. now destruct (Nat.ltb_spec k (length l)); [|lia]. Qed.
Lemma nth_upd_other {A} (l : list A) k j y : j <> k -> nth_error (upd l k y) j = nth_error l j.
Proof. intros H. rewrite nth_error_upd. now destruct (Nat.eqb_spec j k). Qed.

(* ---- each call has one of these effects ---- *)
Lemma eff_of_quiet {A} Os mv w (m : W A) : quiet (w_self w) w m -> effect Os mv w (snd (m w)).
Proof. intros Q. destruct (Q eq_refl) as (Q1 & evs & Q2 & Q3). eapply Eff_quiet; eassumption. Qed.
Lemma eff_same Os mv w : effect Os mv w w.
Proof. apply (Eff_quiet Os mv w w []); [reflexivity|reflexivity|constructor]. Qed.
Lemma eff_badf Os mv w fd k : (forall f, is_open w fd f -> effect Os mv w (snd (k w))) -> effect Os mv w (snd (unless_badf fd k w)).
Proof.
  intros H. unfold unless_badf, bind, self. destruct (help_badf (w_self w) fd) eqn:E; [apply eff_same|].
  apply badf_false in E. destruct E as (E0 & f & E1 & E2). apply (H f). split; [split; [lia|exact E1]|exact E2].
Qed.
Lemma need_eq w fd f r k : entry w fd f ->
  need fd r k w = if Z.land (rights_base f) r =? 0 then (Ok [E_NOTCAPABLE], w) else k w.
Proof.
  intros E. unfold need, help_perm. unfold bind at 1. unfold bind at 1. rewrite (the_file_at w fd f E). unfold ret.
  now destruct (Z.land (rights_base f) r =? 0).
Qed.
Lemma subset_refl a : subset a a.
Proof. now intros i Hi. Qed.
Lemma land_subset a b : Z.land a b = b -> subset b a.
Proof. intros H i Hi Hb. rewrite <- H, Z.land_spec in Hb. now apply andb_prop in Hb. Qed.
Lemma held_entry w fd f : is_open w fd f -> held (w_self w) (host_fd f).
Proof. intros ((H0 & H1) & H2). exists f. split; [now apply nth_error_In in H1|now split]. Qed.

Lemma eff_close Os mv w fd : effect Os mv w (snd (fd_close Os fd w)).
Proof.
  apply eff_badf. intros f Ho. pose proof Ho as (He & Hw).
  unfold bind at 1. rewrite (the_file_at w fd f He). unfold bind at 1.
  destruct (wasm_type f =? T_CHARACTER_DEVICE) eqn:T.
  - unfold ret at 1. unfold bind at 1. rewrite (the_file_at w fd f He). unfold bind at 1. rewrite (put_file_at w fd f _ He).
    cbn [snd ret]. eapply Eff_detach; [exact Ho|lia|reflexivity|reflexivity].
  - unfold bind at 1. unfold ask_unit. unfold bind at 1. unfold ask.
    destruct (Os (w_log w) (OsClose (host_fd f))) eqn:R;
      try (cbn [snd fail os_raise]; eapply Eff_close_fails; [exact Ho|reflexivity|cbn [w_log]; rewrite R; reflexivity|congruence]).
    cbn [ret]. set (w1 := mkworld _ _ _ _). assert (entry w1 fd f) as E1 by exact He.
    rewrite (put_file_at w1 fd f _ E1). unfold bind at 1.
    set (w2 := with_fd w1 _). assert (entry w2 fd (set_host_open f false)) as E2.
    { split; [apply He|]. unfold w2, w1. cbn. destruct He as (H0 & H1). eapply nth_upd_same, H1. }
    rewrite (the_file_at w2 fd _ E2). unfold bind at 1. rewrite (put_file_at w2 fd _ _ E2). cbn [snd].
    eapply Eff_close; [exact Ho| |reflexivity]. unfold w2, w1. cbn. now rewrite upd_twice.
Qed.

Lemma eff_set_flags Os mv w fd x : effect Os mv w (snd (fd_fdstat_set_flags Os fd x w)).
Proof.
  apply eff_badf. intros f Ho. pose proof Ho as (He & Hw). rewrite (need_eq w fd f _ _ He).
  destruct (_ =? 0); [apply eff_same|]. unfold bind at 1. rewrite (the_file_at w fd f He). cbn zeta.
  match goal with |- context [if ?b then ret [E_INVAL] else _] => destruct b end; [apply eff_same|].
  match goal with |- context [let '(_, _) := ?b in _] => destruct b as (hf, wf) end.
  match goal with |- context [let '(_, _) := ?b in _] => destruct b as (hf', wf') end.
  unfold bind at 1. rewrite (put_file_at w fd f _ He). unfold bind at 1. set (w1 := with_fd w _).
  unfold ask_unit. unfold bind at 1. unfold ask.
  assert (forall w2, p_fd (w_self w2) = p_fd (w_self w1) -> w_log w2 = (OsSetfl (host_fd f) hf', Os (w_log w1) (OsSetfl (host_fd f) hf')) :: w_log w1 ->
    effect Os mv w w2) as K.
  { intros w2 S L. eapply (Eff_edit Os mv w w2 fd f); [exact Ho| |exact S| |].
    - unfold same_host, set_flags; cbn. repeat split; apply subset_refl.
    - rewrite L. apply (app_assoc [_] []).
    - constructor; [|constructor]. split; [exact I|]. constructor; [|constructor]. eapply held_entry, Ho. }
  destruct (Os (w_log w1) (OsSetfl (host_fd f) hf')); cbn [snd ret fail os_raise]; apply K; reflexivity.
Qed.
Lemma eff_set_rights Os mv w fd x y : effect Os mv w (snd (fd_fdstat_set_rights fd x y w)).
Proof.
  apply eff_badf. intros f Ho. pose proof Ho as (He & Hw). unfold bind at 1. rewrite (the_file_at w fd f He).
  destruct (Z.eqb_spec (Z.land (rights_base f) x) x) as [B1|]; cbn [negb]; [|apply eff_same].
  destruct (Z.eqb_spec (Z.land (rights_root f) y) y) as [B2|]; cbn [negb]; [|apply eff_same].
  unfold bind at 1. rewrite (put_file_at w fd f _ He). cbn [snd ret].
  eapply (Eff_edit Os mv w _ fd f _ []); [exact Ho| |reflexivity|reflexivity|constructor].
  unfold same_host, set_rights; cbn. repeat split; now apply land_subset.
Qed.
Lemma eff_renumber Os w fd fd' : effect Os (Some (fd, fd')) w (snd (fd_renumber Os fd fd' w)).
Proof.
  unfold fd_renumber. unfold bind at 1. unfold self.
  destruct (help_badf (w_self w) fd || help_badf (w_self w) fd') eqn:B; [apply eff_same|].
  apply orb_false_iff in B. destruct B as (B1 & B2). apply badf_false in B1, B2.
  destruct B1 as (B0 & stem & B1 & Bw), B2 as (C0 & dest & C1 & Cw).
  assert (is_open w fd stem) as Hs by (split; [split; [lia|exact B1]|exact Bw]).
  assert (is_open w fd' dest) as Hd by (split; [split; [lia|exact C1]|exact Cw]).
  unfold bind at 1. rewrite (the_file_at w fd' dest (proj1 Hd)). unfold bind at 1.
  assert (forall w1, w_self w1 = w_self w ->
    (if wasm_type dest =? T_CHARACTER_DEVICE then w_log w1 = w_log w else w_log w1 = (OsClose (host_fd dest), RUnit) :: w_log w) ->
    effect Os (Some (fd, fd')) w (snd ((let! stem := the_file fd in put_file fd' stem ;; let! stem := the_file fd in
      put_file fd (set_wasm_open (set_host_open stem false) false) ;; ret [E_SUCCESS]) w1))) as K.
  { intros w1 S1 L1. assert (entry w1 fd stem) as E1 by (split; [lia|now rewrite S1]).
    assert (entry w1 fd' dest) as E1' by (split; [lia|now rewrite S1]).
    unfold bind at 1. rewrite (the_file_at w1 fd stem E1). unfold bind at 1. rewrite (put_file_at w1 fd' dest _ E1').
    set (w2 := with_fd w1 _). assert (entry w2 fd stem) as E2.
    { split; [lia|]. unfold w2. cbn. rewrite S1. destruct (Nat.eq_dec (Z.to_nat fd) (Z.to_nat fd')) as [E|N].
      - rewrite <- E. eapply nth_upd_same, B1.
      - rewrite nth_upd_other by exact N. exact B1. }
    unfold bind at 1. rewrite (the_file_at w2 fd stem E2). unfold bind at 1. rewrite (put_file_at w2 fd stem _ E2). cbn [snd ret].
    eapply (Eff_move Os _ w _ fd fd' stem dest); [reflexivity|exact Hs|exact Hd|exact L1| |reflexivity].
    unfold w2. cbn. now rewrite S1. }
  destruct (wasm_type dest =? T_CHARACTER_DEVICE) eqn:T.
  - unfold ret at 1. now apply K.
  - unfold ask_unit. unfold bind at 1. unfold ask.
    destruct (Os (w_log w) (OsClose (host_fd dest))) eqn:R;
      try (cbn [snd fail os_raise]; eapply Eff_close_fails; [exact Hd|reflexivity|cbn [w_log]; rewrite R; reflexivity|congruence]).
    unfold ret at 1. apply K; reflexivity.
Qed.
Lemma the_mem_same w : snd (the_mem w) = w.
Proof. unfold the_mem. now destruct (k_frame (w_mach w)). Qed.
Lemma get_str_same a p n w : snd (get_str a p n w) = w.
Proof. unfold get_str, get_bytes, read_mem, bind, lift. now destruct (let? x := py_index (s_mems (k_store (w_mach w))) a in Ok (mem_get x p n)). Qed.
(* the calls on the descriptor just opened *)
Definition opened (w : world) (p : preview1) (h : Z) (log : list event) : Prop :=
  w_self w = p /\ exists evs, w_log w = evs ++ log /\ about h evs.
Lemma opened_more Os w p h log c : opened w p h log -> neutral c -> uses c = [h] ->
  opened (mkworld (w_self w) ((c, Os (w_log w) c) :: w_log w) (w_pipes w) (w_mach w)) p h log.
Proof.
  intros (S & evs & L & B) N U. split; [exact S|]. exists ((c, Os (w_log w) c) :: evs). cbn [w_log]. rewrite L.
  split; [reflexivity|]. constructor; [now split|exact B].
Qed.
Lemma ask_bool_opened Os w p h log c : opened w p h log -> neutral c -> uses c = [h] ->
  exists b w', ask_bool Os c w = (Ok b, w') /\ opened w' p h log.
Proof.
  intros O N U. unfold ask_bool, bind, ask. set (w' := mkworld _ _ _ _).
  assert (opened w' p h log) as O' by now apply opened_more.
  destruct (Os (w_log w) c) eqn:R; (eexists; exists w'; split; [reflexivity|exact O']).
Qed.
Lemma ask_stat_opened Os w p h log c : opened w p h log -> neutral c -> uses c = [h] ->
  exists r w', ask_stat Os c w = (r, w') /\ opened w' p h log.
Proof.
  intros O N U. unfold ask_stat, bind, ask. set (w' := mkworld _ _ _ _).
  assert (opened w' p h log) as O' by now apply opened_more.
  destruct (Os (w_log w) c) eqn:R; (eexists; exists w'; split; [reflexivity|exact O']).
Qed.
Lemma eff_path_open Os mv w x0 x1 x2 x3 x4 x5 x6 x7 x8 :
  effect Os mv w (snd (path_open Os x0 x1 x2 x3 x4 x5 x6 x7 x8 w)).
Proof.
  apply eff_badf. intros f Ho. pose proof Ho as (He & Hw). rewrite (need_eq w x0 f _ _ He).
  destruct (_ =? 0); [apply eff_same|]. unfold bind at 1. pose proof (the_mem_same w) as M.
  destruct (the_mem w) as [[a|e] w1]; cbn [snd] in M; subst w1; [|apply eff_same].
  unfold bind at 1. rewrite (the_file_at w x0 f He). unfold bind at 1. pose proof (get_str_same a x2 x3 w) as G.
  destruct (get_str a x2 x3 w) as [[nm|e] w1]; cbn [snd] in G; subst w1; [|apply eff_same]. cbn zeta.
  destruct (existsb (Z.eqb 0) nm); [apply eff_same|]. unfold unless_escp.
  destruct (help_escp (host_name f) nm); [apply eff_same|].
  match goal with |- context [if ?b then ret [E_PERM] else _] => destruct b end; [apply eff_same|].
  generalize (open_flags x1 x4 x5 x7) as flag. intros flag.
  unfold bind at 1. unfold self. unfold ask_try. unfold bind at 1. unfold ask at 1.
  set (c := OsOpen nm flag 0x1a4 (Some (host_fd f))).
  assert (forall w', w_self w' = w_self w -> w_log w' = (c, Os (w_log w) c) :: w_log w -> effect Os mv w w') as F.
  { intros w' S L. eapply (Eff_open_fails Os mv w w' x0 f nm flag []); [exact Ho|exact S|exact L|now left]. }
  destruct (Os (w_log w) c) eqn:R; try (apply F; [reflexivity|reflexivity]).
  2:{ match goal with |- context [match ?x with Some _ => _ | None => _ end] => destruct x end; (apply F; [reflexivity|reflexivity]). }
  rename z into h.
  assert (forall w', opened w' (w_self w) h ((c, RInt h) :: w_log w) -> effect Os mv w w') as F'.
  { intros w' (S & evs & L & B). eapply (Eff_open_fails Os mv w w' x0 f nm flag evs); [exact Ho|exact S|cbn zeta; fold c; now rewrite R|].
    right. exists h. split; [exact R|exact B]. }
  set (w1 := mkworld _ _ _ _). assert (opened w1 (w_self w) h ((c, RInt h) :: w_log w)) as O1.
  { split; [reflexivity|]. exists []. split; [reflexivity|constructor]. }
  clearbody w1. clear F. unfold bind at 1.
  destruct (ask_bool_opened Os w1 _ h _ (OsIsdir h) O1 I eq_refl) as (b1 & w2 & -> & O2).
  match goal with |- context [let '(_, _) := ?b in _] => destruct b as (bb, qq) end. unfold bind at 1.
  destruct (ask_bool_opened Os w2 _ h _ (OsIsfile h) O2 I eq_refl) as (b2 & w3 & -> & O3).
  match goal with |- context [let '(_, _) := ?b in _] => destruct b as (bb', qq') end. unfold bind at 1.
  destruct (ask_stat_opened Os w3 _ h _ (OsStatFd h) O3 I eq_refl) as (r & w4 & -> & O4).
  destruct r as [i|e]; [|apply F', O4]. unfold bind at 1. unfold self.
  unfold set_fd at 1. unfold bind at 1. unfold bind at 1. unfold self, set_self. unfold bind at 1.
  set (w5 := mkworld _ _ _ _).
  assert (forall w', w_self w' = w_self w5 -> w_log w' = w_log w5 -> effect Os mv w w') as K.
  { intros w' S L. destruct O4 as (S4 & evs & L4 & B4).
    eapply (Eff_open Os mv w w' x0 f nm flag h evs); [exact Ho|exact R|rewrite L; exact L4|exact B4|rewrite S; unfold w5; cbn; now rewrite S4|reflexivity|reflexivity|reflexivity|now exists i]. }
  pose proof (still_write a (fun x => mem_put_u 4 x x8 (len (p_fd (w_self w)))) w5) as (T1 & T2).
  unfold put_u32. destruct (write_mem a _ w5) as [[u|e] w6]; cbn [snd ret] in *; now apply K.
Qed.
Definition moves (f : wfun) (args : list Z) : option (Z * Z) :=
  match f, args with F_fd_renumber, [a; b] => Some (a, b) | _, _ => None end.
Lemma call_effect Os w f args : effect Os (moves f args) w (snd (wasi_call Os f args w)).
Proof.
  destruct (changes_table f) eqn:T; [|apply eff_of_quiet, quiet_call, T].
  destruct f; try discriminate T; clear T; (do 10 (try (destruct args as [|? args]; try apply eff_same))); cbn [wasi_call].
  - apply eff_close.
  - apply eff_set_flags.
  - apply eff_set_rights.
  - apply eff_renumber.
  - apply eff_path_open.
Qed.

(* ---- closed entries ---- *)
Definition shut (w : world) (fd : Z) : Prop := exists f, entry w fd f /\ wasm_open f = false.
Lemma shut_not_open w fd : shut w fd -> not_open w fd.
Proof. intros (f & (H0 & H1) & H2) g ((_ & G1) & G2). congruence. Qed.
Lemma open_not_shut w fd fd' f : shut w fd -> is_open w fd' f -> Z.to_nat fd <> Z.to_nat fd'.
Proof. intros (g & (H0 & H1) & H2) ((G0 & G1) & G2) E. rewrite E in H1. congruence. Qed.
Lemma shut_upd w fd fd' f : shut w fd -> is_open w fd' f -> forall g,
  exists h, nth_error (upd (p_fd (w_self w)) (Z.to_nat fd') g) (Z.to_nat fd) = Some h /\ wasm_open h = false.
Proof.
  intros S O g. pose proof (open_not_shut w fd fd' f S O) as N. destruct S as (h & (H0 & H1) & H2). exists h.
  now rewrite nth_upd_other by exact N.
Qed.
Lemma shut_effect Os mv w w' fd : effect Os mv w w' -> shut w fd -> shut w' fd.
Proof.
  intros E S. assert (0 <= fd) as H0 by (destruct S as (f & (H & _) & _); exact H).
  assert (forall h, nth_error (p_fd (w_self w')) (Z.to_nat fd) = Some h -> wasm_open h = false -> shut w' fd) as D.
  { intros h H1 H2. exists h. split; [now split|exact H2]. }
  destruct E as [evs S1 L C|fd1 f g evs O SH T L C|fd1 f O TY T L|fd1 f O T L|fd1 f O S1 L R|fd1 fd2 stem dest log MV Os1 Od C T L
    |fd1 f nm flag h evs g O R L B T G1 G2 G3|fd1 f nm flag evs O S1 c L B].
  - destruct S as (f & (_ & H1) & H2). apply (D f); [now rewrite S1|exact H2].
  - destruct (shut_upd w fd fd1 f S O g) as (h & H1 & H2). apply (D h); [now rewrite T|exact H2].
  - destruct (shut_upd w fd fd1 f S O (set_wasm_open f false)) as (h & H1 & H2). apply (D h); [now rewrite T|exact H2].
  - destruct (shut_upd w fd fd1 f S O (closed f)) as (h & H1 & H2). apply (D h); [now rewrite T|exact H2].
  - destruct S as (g & (_ & H1) & H2). apply (D g); [now rewrite S1|exact H2].
  - pose proof (open_not_shut w fd fd1 stem S Os1) as N1. pose proof (open_not_shut w fd fd2 dest S Od) as N2.
    destruct S as (h & (_ & H1) & H2). apply (D h); [|exact H2]. rewrite T, !nth_upd_other by assumption. exact H1.
  - destruct S as (h' & (_ & H1) & H2). apply (D h'); [|exact H2]. rewrite T, nth_error_app1; [exact H1|]. now apply nth_lt in H1.
  - destruct S as (g & (_ & H1) & H2). apply (D g); [now rewrite S1|exact H2].
Qed.
Lemma shut_history Os h : forall w fd, shut w fd -> shut (history Os w h) fd.
Proof.
  induction h as [|x h IH]; intros w fd S; [exact S|]. cbn [history fold_left]. apply IH. destruct x as [f args|m pipes].
  - cbn [act]. eapply shut_effect; [apply call_effect|exact S].
  - exact S.
Qed.
Lemma bad_descriptor Os w f args fd : not_open w fd -> In fd (descriptors f args) -> wasi_call Os f args w = (Ok [E_BADF], w).
Proof.
  intros N D. apply badf_closed in N.
  destruct f; cbn [descriptors] in D; try contradiction D;
    (do 10 (try (destruct args as [|? args]; try contradiction D)));
    cbn [In] in D; repeat (destruct D as [D|D]; try contradiction D; try subst fd); try contradiction D; subst;
    cbn [wasi_call];
    unfold fd_advise, fd_allocate, fd_close, fd_datasync, fd_fdstat_get, fd_fdstat_set_flags, fd_fdstat_set_rights, fd_filestat_get, fd_filestat_set_size, fd_filestat_set_times, fd_pread, fd_prestat_dir_name, fd_prestat_get, fd_pwrite, fd_read, fd_readdir, fd_renumber, fd_seek, fd_sync, fd_tell, fd_write, path_create_directory, path_filestat_get, path_filestat_set_times, path_link, path_open, path_readlink, path_remove_directory, path_rename, path_symlink, path_unlink_file, sock_accept, sock_recv, sock_send, sock_shutdown, unless_badf, bind at 1, self;
    rewrite N; rewrite ?orb_true_r; reflexivity.
Qed.
Lemma close_shuts Os w w1 fd : wasi_call Os F_fd_close [fd] w = (Ok [E_SUCCESS], w1) -> shut w1 fd.
Proof.
  cbn [wasi_call]. unfold fd_close, unless_badf. unfold bind at 1. unfold self.
  destruct (help_badf (w_self w) fd) eqn:B; [discriminate|]. apply badf_false in B. destruct B as (B0 & f & B1 & Bw).
  assert (entry w fd f) as He by (split; [lia|exact B1]).
  unfold bind at 1. rewrite (the_file_at w fd f He). intros H.
  apply bind_ok in H. destruct H as (u & w2 & _ & H). apply bind_ok in H. destruct H as (g & w3 & E3 & H).
  apply bind_ok in H. destruct H as (u' & w4 & E4 & H). unfold ret in H. injection H as <-.
  assert (w3 = w2) as -> by (unfold the_file, bind, self, lift in E3; cbn in E3; now injection E3).
  assert (entry w2 fd g) as Hg.
  { apply py_index_entry; [lia|]. unfold the_file, bind, self, lift in E3. cbn in E3. now injection E3. }
  rewrite (put_file_at w2 fd g _ Hg) in E4. injection E4 as _ <-.
  exists (set_wasm_open g false). split; [|reflexivity]. split; [lia|]. cbn. destruct Hg as (_ & Hg). eapply nth_upd_same, Hg.
Qed.

(* ---- host descriptors ---- *)
Lemma live_neutral init c r log h : neutral c -> (live init ((c, r) :: log) h <-> live init log h).
Proof. destruct c; cbn; intros N; try contradiction; reflexivity. Qed.
Lemma live_neutrals init evs log h : Forall (fun e : event => neutral (fst e)) evs -> (live init (evs ++ log) h <-> live init log h).
Proof.
  induction 1 as [|(c, r) evs N _ IH]; [reflexivity|]. cbn [app]. rewrite live_neutral by exact N. exact IH.
Qed.
Lemma only_live_more init evs log : Forall (fun e : event => neutral (fst e) /\ Forall (live init log) (uses (fst e))) evs ->
  only_live init log -> only_live init (evs ++ log).
Proof.
  induction 1 as [|(c, r) evs (N & U) Hevs IH]; intros O; [exact O|]. cbn [app only_live]. split; [|now apply IH].
  cbn [fst] in U. eapply Forall_impl; [|exact U]. intros h Hh. apply live_neutrals; [|exact Hh].
  eapply Forall_impl; [|exact Hevs]. now intros e (H & _).
Qed.
Lemma held_live init w h : table_ok init w -> held (w_self w) h -> live init (w_log w) h.
Proof. intros (T1 & T2 & _) (f & F1 & F2 & <-). apply T2; [exact F1|]. now apply T1. Qed.
Lemma calm_neutral p evs : calm p evs -> Forall (fun e : event => neutral (fst e)) evs.
Proof. apply Forall_impl. now intros e (H & _). Qed.
Lemma about_neutral h evs : about h evs -> Forall (fun e : event => neutral (fst e)) evs.
Proof. apply Forall_impl. now intros e (H & _). Qed.
Lemma calm_only init w evs : table_ok init w -> calm (w_self w) evs -> only_live init (w_log w) -> only_live init (evs ++ w_log w).
Proof.
  intros T C O. apply only_live_more; [|exact O]. eapply Forall_impl; [|exact C]. intros e (N & U). split; [exact N|].
  eapply Forall_impl; [|exact U]. intros h. now apply held_live.
Qed.

Section Table.
Variable init : list Z.
(* the conditions on a table, apart from the world it sits in *)
Definition tab_ok (log : list event) (t : list file) : Prop :=
  (forall f, In f t -> wasm_open f = true -> host_open f = true) /\
  (forall f, In f t -> host_open f = true -> live init log (host_fd f)) /\
  (forall i j f g, nth_error t i = Some f -> nth_error t j = Some g ->
     host_open f = true -> host_open g = true -> host_fd f = host_fd g -> i = j).
Lemma tab_log log log' t : (forall h, live init log h -> live init log' h) -> tab_ok log t -> tab_ok log' t.
Proof. intros H (T1 & T2 & T3). split; [exact T1|split; [|exact T3]]. intros f F1 F2. apply H. now apply T2. Qed.
Lemma tab_edit log t k f g : tab_ok log t -> nth_error t k = Some f ->
  (wasm_open g = true -> host_open g = true) -> (host_open g = true -> host_open f = true /\ host_fd g = host_fd f) ->
  tab_ok log (upd t k g).
Proof.
  intros (T1 & T2 & T3) Hk G1 G2. pose proof (nth_lt _ _ _ Hk) as L.
  assert (forall i x, nth_error (upd t k g) i = Some x -> host_open x = true ->
            exists y, nth_error t i = Some y /\ host_open y = true /\ host_fd x = host_fd y) as B.
  { intros i x Hx Ox. rewrite nth_error_upd in Hx. destruct (Nat.eqb_spec i k) as [EQ|N]; [subst i|].
    - destruct (Nat.ltb_spec k (length t)); [|discriminate]. injection Hx as <-. exists f. destruct (G2 Ox). now split.
    - now exists x. }
  split; [|split].
  - intros x Hx Wx. apply In_nth_error in Hx. destruct Hx as (i & Hx). rewrite nth_error_upd in Hx.
    destruct (Nat.eqb_spec i k) as [EQ|N]; [subst i|].
    + destruct (Nat.ltb_spec k (length t)); [|discriminate]. injection Hx as <-. now apply G1.
    + apply T1; [now apply nth_error_In in Hx|exact Wx].
  - intros x Hx Ox. apply In_nth_error in Hx. destruct Hx as (i & Hx). destruct (B i x Hx Ox) as (y & Y1 & Y2 & ->).
    apply T2; [now apply nth_error_In in Y1|exact Y2].
  - intros i j x y Hx Hy Ox Oy E. destruct (B i x Hx Ox) as (x' & X1 & X2 & X3). destruct (B j y Hy Oy) as (y' & Y1 & Y2 & Y3).
    eapply (T3 i j x' y'); congruence.
Qed.
(* the entry that owns [h] is closed together with [h] *)
Lemma tab_close log t k f g r : tab_ok log t -> nth_error t k = Some f -> host_open f = true ->
  wasm_open g = false -> host_open g = false -> tab_ok ((OsClose (host_fd f), r) :: log) (upd t k g).
Proof.
  intros (T1 & T2 & T3) Hk Of G1 G2. pose proof (nth_lt _ _ _ Hk) as L.
  destruct (tab_edit log t k f g (conj T1 (conj T2 T3)) Hk) as (U1 & U2 & U3); [congruence|congruence|].
  split; [exact U1|split; [|exact U3]]. intros f0 H Of0. cbn [live]. split.
  - intros E.
    apply In_nth_error in H. destruct H as (i & Hi). rewrite nth_error_upd in Hi. destruct (Nat.eqb_spec i k) as [EQ|N]; [subst i|].
    + destruct (Nat.ltb_spec k (length t)); [|discriminate]. injection Hi as <-. congruence.
    + apply N. now apply (T3 i k f0 f).
  - now apply U2.
Qed.
End Table.
Lemma table_tab init w : table_ok init w <-> tab_ok init (w_log w) (p_fd (w_self w)).
Proof. reflexivity. Qed.

Lemma inv_effect init Os mv w w' : sane init Os -> effect Os mv w w' -> table_ok init w -> only_live init (w_log w) ->
  table_ok init w' /\ only_live init (w_log w').
Proof.
  intros SN E T O. rewrite table_tab. pose proof T as T'. rewrite table_tab in T'.
  destruct E as [evs S1 L C|fd1 f g evs Op SH T1 L C|fd1 f Op TY T1 L|fd1 f Op T1 L|fd1 f Op S1 L R|fd1 fd2 stem dest log MV Os1 Od C T1 L
    |fd1 f nm flag h evs g Op R L B T1 G1 G2 G3|fd1 f nm flag evs Op S1 c L B].
  - rewrite S1, L. split; [|now apply (calm_only init w)]. eapply tab_log; [|exact T'].
    intros h. now apply live_neutrals, calm_neutral with (p := w_self w).
  - rewrite T1, L. split; [|now apply (calm_only init w)]. destruct SH as (H1 & H2 & H3 & _).
    apply tab_edit with (f := f).
    + eapply tab_log; [|exact T']. intros h. now apply live_neutrals, calm_neutral with (p := w_self w).
    + apply Op.
    + rewrite H3, H2. destruct T' as (U1 & _). apply U1. destruct Op as ((_ & Op) & _). now apply nth_error_In in Op.
    + rewrite H1, H2. tauto.
  - rewrite T1, L. split; [|exact O]. apply tab_edit with (f := f); [exact T'|apply Op|discriminate|tauto].
  - rewrite T1, L. assert (held (w_self w) (host_fd f)) as Hd by (eapply held_entry, Op). split.
    + apply tab_close; [exact T'|apply Op| |reflexivity|reflexivity]. destruct T' as (U1 & _). apply U1; [|apply Op].
      destruct Op as ((_ & Op) & _). now apply nth_error_In in Op.
    + cbn [only_live uses]. split; [|exact O]. constructor; [|constructor]. now apply held_live.
  - exfalso. apply R. specialize (SN (w_log w) (OsClose (host_fd f))). cbn in SN. apply SN. apply held_live; [exact T|]. eapply held_entry, Op.
  - assert (held (w_self w) (host_fd dest)) as Hd by (eapply held_entry, Od).
    destruct Os1 as ((P0 & P1) & Pw), Od as ((Q0 & Q1) & Qw).
    assert (host_open stem = true) as Hso by (destruct T' as (U1 & _); apply U1; [now apply nth_error_In in P1|exact Pw]).
    assert (host_open dest = true) as Hdo by (destruct T' as (U1 & _); apply U1; [now apply nth_error_In in Q1|exact Qw]).
    rewrite T1, L. split.
    + destruct (Nat.eq_dec (Z.to_nat fd1) (Z.to_nat fd2)) as [EQ|NE].
      * rewrite EQ, upd_twice. rewrite EQ in P1. assert (stem = dest) as -> by congruence.
        destruct (wasm_type dest =? T_CHARACTER_DEVICE); subst log.
        -- apply tab_edit with (f := dest); [exact T'|exact Q1|discriminate|discriminate].
        -- now apply tab_close.
      * set (t := p_fd (w_self w)) in *.
        (* first close both, then give dest the host descriptor of stem *)
        assert (tab_ok init log (upd t (Z.to_nat fd2) (closed dest))) as A.
        { destruct (wasm_type dest =? T_CHARACTER_DEVICE); subst log.
          - apply tab_edit with (f := dest); [exact T'|exact Q1|discriminate|discriminate].
          - now apply tab_close. }
        assert (forall i, i <> Z.to_nat fd2 -> nth_error (upd t (Z.to_nat fd2) (closed dest)) i = nth_error t i) as N2.
        { intros i Hi. now apply nth_upd_other. }
        destruct A as (A1 & A2 & A3).
        assert (forall i x, nth_error (upd (upd t (Z.to_nat fd2) stem) (Z.to_nat fd1) (closed stem)) i = Some x ->
           (i = Z.to_nat fd2 /\ x = stem) \/ (i = Z.to_nat fd1 /\ x = closed stem) \/
           (i <> Z.to_nat fd1 /\ i <> Z.to_nat fd2 /\ nth_error t i = Some x)) as CS.
        { intros i x Hx. rewrite nth_error_upd in Hx. destruct (Nat.eqb_spec i (Z.to_nat fd1)) as [->|M1].
          - rewrite upd_length in Hx. destruct (Nat.ltb_spec (Z.to_nat fd1) (length t)); [|discriminate]. injection Hx as <-. right. left. now split.
          - rewrite nth_error_upd in Hx. destruct (Nat.eqb_spec i (Z.to_nat fd2)) as [->|M2].
            + destruct (Nat.ltb_spec (Z.to_nat fd2) (length t)); [|discriminate]. injection Hx as <-. left. now split.
            + right. right. now repeat split. }
        assert (live init log (host_fd stem)) as LS.
        { apply A2; [|exact Hso]. apply nth_error_In with (Z.to_nat fd1). now rewrite N2. }
        split; [|split].
        -- intros x Hx Wx. apply In_nth_error in Hx. destruct Hx as (i & Hx).
           destruct (CS i x Hx) as [(_ & ->)|[(_ & ->)|(M1 & M2 & M3)]]; [exact Hso|discriminate Wx|].
           apply A1; [|exact Wx]. apply nth_error_In with i. now rewrite N2.
        -- intros x Hx Ox. apply In_nth_error in Hx. destruct Hx as (i & Hx).
           destruct (CS i x Hx) as [(_ & ->)|[(_ & ->)|(M1 & M2 & M3)]]; [exact LS|discriminate Ox|].
           apply A2; [|exact Ox]. apply nth_error_In with i. now rewrite N2.
        -- intros i j x y Hx Hy Ox Oy EH. destruct T' as (_ & _ & U3).
           destruct (CS i x Hx) as [(-> & ->)|[(-> & ->)|(M1 & M2 & M3)]]; try discriminate Ox;
           destruct (CS j y Hy) as [(-> & ->)|[(-> & ->)|(M1' & M2' & M3')]]; try discriminate Oy; try reflexivity.
           ++ exfalso. apply M1'. now apply (U3 j (Z.to_nat fd1) y stem).
           ++ exfalso. apply M1. now apply (U3 i (Z.to_nat fd1) x stem).
           ++ now apply (U3 i j x y).
    + destruct (wasm_type dest =? T_CHARACTER_DEVICE); subst log; [exact O|]. cbn [only_live uses]. split; [|exact O].
      constructor; [|constructor]. now apply held_live.
  - set (log1 := (OsOpen nm flag 0x1a4 (Some (host_fd f)), RInt h) :: w_log w) in *.
    assert (~ live init (w_log w) h) as NL.
    { specialize (SN (w_log w) (OsOpen nm flag 0x1a4 (Some (host_fd f)))). cbn in SN. now apply SN. }
    assert (forall x, live init (evs ++ log1) x <-> x = h \/ live init (w_log w) x) as LV.
    { intros x. rewrite live_neutrals by (eapply about_neutral, B). reflexivity. }
    destruct T' as (U1 & U2 & U3). rewrite T1, L. split; [split; [|split]|].
    + intros x Hx Wx. apply in_app_or in Hx. destruct Hx as [Hx|[<-|[]]]; [now apply U1|exact G2].
    + intros x Hx Ox. apply LV. apply in_app_or in Hx. destruct Hx as [Hx|[<-|[]]]; [right; now apply U2|now left].
    + intros i j x y Hx Hy Ox Oy EH.
      assert (forall i x, nth_error (p_fd (w_self w) ++ [g]) i = Some x ->
                nth_error (p_fd (w_self w)) i = Some x \/ (i = length (p_fd (w_self w)) /\ x = g)) as CS.
      { intros i0 x0 H0. destruct (Nat.lt_ge_cases i0 (length (p_fd (w_self w)))) as [Lt|Ge].
        - rewrite nth_error_app1 in H0 by exact Lt. now left.
        - right. rewrite nth_error_app2 in H0 by exact Ge. destruct (i0 - length (p_fd (w_self w)))%nat as [|n] eqn:D.
          + injection H0 as <-. split; [lia|reflexivity].
          + destruct n; discriminate. }
      destruct (CS i x Hx) as [X|(-> & ->)], (CS j y Hy) as [Y|(-> & ->)]; try reflexivity.
      * now apply (U3 i j x y).
      * exfalso. apply NL. rewrite <- G1, <- EH. apply U2; [now apply nth_error_In in X|exact Ox].
      * exfalso. apply NL. rewrite <- G1, EH. apply U2; [now apply nth_error_In in Y|exact Oy].
    + apply only_live_more.
      * eapply Forall_impl; [|exact B]. intros e (N & U). split; [exact N|]. rewrite U. constructor; [|constructor]. now left.
      * unfold log1. cbn [only_live uses]. split; [|exact O]. constructor; [|constructor]. apply held_live; [exact T|]. eapply held_entry, Op.
  - assert (held (w_self w) (host_fd f)) as Hd by (eapply held_entry, Op). rewrite S1, L.
    assert (only_live init ((c, Os (w_log w) c) :: w_log w)) as O1.
    { unfold c at 1. cbn [only_live uses]. split; [|exact O]. constructor; [|constructor]. now apply held_live. }
    assert (forall x, live init (w_log w) x -> live init ((c, Os (w_log w) c) :: w_log w) x) as LV.
    { intros x Hx. unfold c at 1. cbn [live]. destruct (Os (w_log w) c); try exact Hx. now right. }
    destruct B as [->|(h & R & B)]; cbn [app].
    + split; [|exact O1]. eapply tab_log; [|exact T']. exact LV.
    + split.
      * eapply tab_log; [|exact T']. intros x Hx. apply live_neutrals; [eapply about_neutral, B|]. now apply LV.
      * apply only_live_more; [|exact O1]. eapply Forall_impl; [|exact B]. intros e (N & U). split; [exact N|]. rewrite U.
        constructor; [|constructor]. unfold c at 1. cbn [live]. rewrite R. now left.
Qed.
Lemma inv_history init Os h : sane init Os -> forall w, table_ok init w -> only_live init (w_log w) ->
  table_ok init (history Os w h) /\ only_live init (w_log (history Os w h)).
Proof.
  intros SN. induction h as [|x h IH]; intros w T O; [now split|]. cbn [history fold_left].
  destruct x as [f args|m pipes]; cbn [act].
  - destruct (inv_effect init Os _ w _ SN (call_effect Os w f args) T O) as (T' & O'). now apply IH.
  - now apply IH.
Qed.

(* ---- the table only grows, rights only shrink ---- *)
Lemma length_effect Os mv w w' : effect Os mv w w' -> (length (p_fd (w_self w)) <= length (p_fd (w_self w')))%nat.
Proof.
  intros E.
  destruct E as [evs S1 L C|fd1 f g evs Op SH T1 L C|fd1 f Op TY T1 L|fd1 f Op T1 L|fd1 f Op S1 L R|fd1 fd2 stem dest log MV Os1 Od C T1 L
    |fd1 f nm flag h evs g Op R L B T1 G1 G2 G3|fd1 f nm flag evs Op S1 c L B]; try (rewrite S1; lia); rewrite T1, ?upd_length, ?app_length; cbn; lia.
Qed.
Lemma length_history Os h : forall w, (length (p_fd (w_self w)) <= length (p_fd (w_self (history Os w h))))%nat.
Proof.
  induction h as [|x h IH]; intros w; [reflexivity|]. cbn [history fold_left]. etransitivity; [|apply IH]. destruct x as [f args|m pipes].
  - cbn [act]. eapply length_effect, call_effect.
  - reflexivity.
Qed.
Definition less_rights (f g : file) : Prop := subset (rights_base g) (rights_base f) /\ subset (rights_root g) (rights_root f).
Lemma less_refl f : less_rights f f.
Proof. split; apply subset_refl. Qed.
Lemma less_trans f g h : less_rights f g -> less_rights g h -> less_rights f h.
Proof. intros (A & B) (C & D). split; intros i Hi H; [apply A|apply B]; try exact Hi; [now apply C|now apply D]. Qed.
Lemma rights_upd w fd f fd1 e g : entry w fd f -> entry w fd1 e -> less_rights e g ->
  exists f', nth_error (upd (p_fd (w_self w)) (Z.to_nat fd1) g) (Z.to_nat fd) = Some f' /\ less_rights f f'.
Proof.
  intros (H0 & H1) (E0 & E1) L. destruct (Nat.eq_dec (Z.to_nat fd) (Z.to_nat fd1)) as [EQ|N].
  - rewrite EQ in *. exists g. split; [eapply nth_upd_same, H1|]. assert (e = f) as <- by congruence. exact L.
  - exists f. rewrite nth_upd_other by exact N. split; [exact H1|apply less_refl].
Qed.
Lemma rights_effect Os mv w w' fd f : effect Os mv w w' -> entry w fd f -> (forall a, mv <> Some (a, fd)) ->
  exists f', entry w' fd f' /\ less_rights f f'.
Proof.
  intros E He NM. pose proof He as (H0 & H1).
  assert (forall f', nth_error (p_fd (w_self w')) (Z.to_nat fd) = Some f' -> less_rights f f' -> exists f', entry w' fd f' /\ less_rights f f') as D.
  { intros f' F L. exists f'. now split. }
  destruct E as [evs S1 L C|fd1 g0 g evs Op SH T1 L C|fd1 g Op TY T1 L|fd1 g Op T1 L|fd1 g Op S1 L R|fd1 fd2 stem dest log MV Os1 Od C T1 L
    |fd1 g0 nm flag h evs g Op R L B T1 G1 G2 G3|fd1 g nm flag evs Op S1 c L B]; try (apply (D f); [now rewrite S1|apply less_refl]).
  - destruct (rights_upd w fd f fd1 g0 g He (proj1 Op)) as (f' & F1 & F2); [destruct SH as (_ & _ & _ & _ & SH); exact SH|].
    apply (D f'); [now rewrite T1|exact F2].
  - destruct (rights_upd w fd f fd1 g (set_wasm_open g false) He (proj1 Op) (less_refl g)) as (f' & F1 & F2).
    apply (D f'); [now rewrite T1|exact F2].
  - destruct (rights_upd w fd f fd1 g (closed g) He (proj1 Op) (less_refl g)) as (f' & F1 & F2).
    apply (D f'); [now rewrite T1|exact F2].
  - subst mv. assert (fd <> fd2) as N by (intros ->; now apply (NM fd1)). destruct Od as ((D0 & _) & _), Os1 as ((S0 & S1) & _).
    assert (Z.to_nat fd <> Z.to_nat fd2) as N' by lia. destruct (Nat.eq_dec (Z.to_nat fd) (Z.to_nat fd1)) as [EQ|N1].
    + apply (D (closed stem)).
      * rewrite T1, EQ. apply nth_upd_same with (x := stem). now rewrite nth_upd_other by congruence.
      * rewrite EQ in H1. assert (stem = f) as -> by congruence. split; apply subset_refl.
    + apply (D f); [|apply less_refl]. now rewrite T1, !nth_upd_other by assumption.
  - apply (D f); [|apply less_refl]. rewrite T1, nth_error_app1; [exact H1|]. now apply nth_lt in H1.
Qed.

(* no call of the history renumbers something onto [fd] *)
Lemma rights_history Os h : forall w fd f, entry w fd f -> Forall (no_move fd) h ->
  exists f', entry (history Os w h) fd f' /\ less_rights f f'.
Proof.
  induction h as [|x h IH]; intros w fd f He N; [exists f; split; [exact He|apply less_refl]|].
  inversion N as [|? ? N1 N2]; subst. cbn [history fold_left].
  assert (exists g, entry (act Os w x) fd g /\ less_rights f g) as (g & G1 & G2).
  { destruct x as [c args|m pipes]; [|exists f; split; [exact He|apply less_refl]]. cbn [act].
    eapply rights_effect; [apply call_effect|exact He|]. intros a E. unfold moves in E. apply (N1 a).
    destruct c; try discriminate E. destruct args as [|? [|? [|]]]; try discriminate E. now injection E as -> ->. }
  destruct (IH (act Os w x) fd g G1 N2) as (f' & F1 & F2). exists f'. split; [exact F1|now apply (less_trans f g)].
Qed.

(* ---- the constructor ---- *)
Lemma tab_add init log t g c h evs : tab_ok init log t -> ~ live init log h -> about h evs ->
  (exists p fl md d, c = OsOpen p fl md d) -> host_fd g = h -> host_open g = true ->
  tab_ok init (evs ++ (c, RInt h) :: log) (t ++ [g]).
Proof.
  intros (U1 & U2 & U3) NL B (p & fl & md & d & ->) G1 G2.
  assert (forall x, live init (evs ++ (OsOpen p fl md d, RInt h) :: log) x <-> x = h \/ live init log x) as LV.
  { intros x. rewrite live_neutrals by (eapply about_neutral, B). reflexivity. }
  split; [|split].
  - intros x Hx Wx. apply in_app_or in Hx. destruct Hx as [Hx|[<-|[]]]; [now apply U1|exact G2].
  - intros x Hx Ox. apply LV. apply in_app_or in Hx. destruct Hx as [Hx|[<-|[]]]; [right; now apply U2|now left].
  - intros i j x y Hx Hy Ox Oy EH.
    assert (forall i x, nth_error (t ++ [g]) i = Some x -> nth_error t i = Some x \/ (i = length t /\ x = g)) as CS.
    { intros i0 x0 H0. destruct (Nat.lt_ge_cases i0 (length t)) as [Lt|Ge].
      - rewrite nth_error_app1 in H0 by exact Lt. now left.
      - right. rewrite nth_error_app2 in H0 by exact Ge. destruct (i0 - length t)%nat as [|n] eqn:D.
        + injection H0 as <-. split; [lia|reflexivity].
        + destruct n; discriminate. }
    destruct (CS i x Hx) as [X|(-> & ->)], (CS j y Hy) as [Y|(-> & ->)]; try reflexivity.
    + now apply (U3 i j x y).
    + exfalso. apply NL. rewrite <- G1, <- EH. apply U2; [now apply nth_error_In in X|exact Ox].
    + exfalso. apply NL. rewrite <- G1, EH. apply U2; [now apply nth_error_In in Y|exact Oy].
Qed.
Definition inv (init : list Z) (w : world) : Prop := table_ok init w /\ only_live init (w_log w).
Lemma preopen_ok init Os cwd l : sane init Os -> forall w, inv init w -> inv init (snd (preopen Os cwd l w)).
Proof.
  intros SN. induction l as [|(k, v) l IH]; intros w (T & O); cbn [preopen]; [now split|].
  unfold ask_int. unfold bind at 1. unfold bind at 1. unfold ask. set (c := OsOpen _ _ _ None).
  set (w1 := mkworld _ _ _ _).
  assert (forall x, live init (w_log w) x -> live init (w_log w1) x) as LV.
  { intros x Hx. unfold w1, c. cbn [w_log live]. destruct (Os _ _); try exact Hx. now right. }
  assert (table_ok init w1) as T1 by (rewrite table_tab in *; eapply tab_log; [exact LV|exact T]).
  assert (only_live init (w_log w1)) as O1 by (unfold w1, c; cbn [w_log only_live uses]; split; [constructor|exact O]).
  destruct (Os (w_log w) c) as [|h| | | | | | |] eqn:R; try (split; [exact T1|exact O1]). unfold ret.
  unfold bind at 1. unfold self at 1. unfold bind at 1. unfold set_fd. unfold bind at 1. unfold self, set_self.
  apply IH. split; [|exact O1].
  rewrite table_tab. cbn [w_self p_fd w_log]. apply (tab_add init (w_log w) _ _ c h []); try reflexivity.
  - exact T.
  - specialize (SN (w_log w) c). unfold c in SN at 1. now apply SN.
  - constructor.
  - unfold c. now repeat eexists.
Qed.
Lemma new_ok init Os cwd h0 n0 h1 n1 h2 n2 args dirs envs w : sane init Os ->
  In h0 init -> In h1 init -> In h2 init -> h0 <> h1 -> h0 <> h2 -> h1 <> h2 -> w_log w = [] ->
  inv init (snd (new_preview1 Os cwd (h0, n0, (h1, n1), (h2, n2)) args dirs envs w)).
Proof.
  intros SN I0 I1 I2 N1 N2 N3 L. unfold new_preview1. cbn zeta. unfold bind at 1. unfold set_self at 1.
  apply preopen_ok; [exact SN|]. split; [|cbn [w_log]; rewrite L; exact I].
  split; [|split]; cbn [w_self p_fd w_log].
  - intros f F _. destruct F as [<-|[<-|[<-|[]]]]; reflexivity.
  - rewrite L. intros f F _. destruct F as [<-|[<-|[<-|[]]]]; assumption.
  - intros i j f g Hi Hj _ _ E. destruct i as [|[|[|[|i]]]]; try discriminate Hi; destruct j as [|[|[|[|j]]]]; try discriminate Hj; try reflexivity;
      injection Hi as <-; injection Hj as <-; cbn in E; congruence.
Qed.

(* ---- the end of main ---- *)
(* without the condition on entries open for the guest, which the end of main does not maintain *)
Definition inv' (init : list Z) (w : world) : Prop :=
  (forall f, In f (p_fd (w_self w)) -> host_open f = true -> live init (w_log w) (host_fd f)) /\
  (forall i j f g, nth_error (p_fd (w_self w)) i = Some f -> nth_error (p_fd (w_self w)) j = Some g ->
     host_open f = true -> host_open g = true -> host_fd f = host_fd g -> i = j) /\
  only_live init (w_log w).
Lemma skipn_step {A} (t : list A) : forall n x r, x :: r = skipn n t -> nth_error t n = Some x /\ r = skipn (S n) t.
Proof.
  induction t as [|y t IH]; intros [|n] x r; cbn [skipn]; try discriminate; [now intros [= -> ->]|]. intros H.
  destruct (IH n x r H) as (H1 & ->). split; [exact H1|]. now destruct t.
Qed.
Lemma skipn_upd {A} (t : list A) : forall n x, skipn (S n) (upd t n x) = skipn (S n) t.
Proof. induction t as [|y t IH]; intros [|n] x; try reflexivity. cbn [upd]. rewrite !skipn_cons. apply IH. Qed.
Lemma close_from_ok init Os l : sane init Os -> forall i w, inv' init w -> 0 <= i ->
  l = skipn (Z.to_nat i) (p_fd (w_self w)) -> inv' init (snd (close_from Os i l w)).
Proof.
  intros SN. induction l as [|f l IH]; intros i w V Hi E; cbn [close_from]; [exact V|].
  apply skipn_step in E. destruct E as (Hf & E). replace (S (Z.to_nat i)) with (Z.to_nat (i + 1)) in E by lia.
  unfold bind at 1. destruct (wasm_type f =? T_CHARACTER_DEVICE); [|destruct (host_open f) eqn:Ho].
  - unfold ret. apply IH; [exact V|lia|exact E].
  - unfold bind at 1. unfold ask_unit. unfold bind at 1. unfold ask. destruct V as (V1 & V2 & V3).
    assert (live init (w_log w) (host_fd f)) as LV by (apply V1; [now apply nth_error_In in Hf|exact Ho]).
    specialize (SN (w_log w) (OsClose (host_fd f))) as R. cbn in R. rewrite (R LV). unfold ret.
    set (w1 := mkworld _ _ _ _). assert (entry w1 i f) as E1 by now split.
    rewrite (put_file_at w1 i f _ E1). pose proof (nth_lt _ _ _ Hf) as Lt. apply IH; [|lia|].
    + assert (forall k x, nth_error (upd (p_fd (w_self w)) (Z.to_nat i) (set_host_open f false)) k = Some x -> host_open x = true ->
                k <> Z.to_nat i /\ nth_error (p_fd (w_self w)) k = Some x) as CS.
      { intros k x Hk Ox. destruct (Nat.eq_dec k (Z.to_nat i)) as [->|N].
        - rewrite (nth_upd_same _ _ f) in Hk by exact Hf. injection Hk as <-. discriminate Ox.
        - now rewrite nth_upd_other in Hk. }
      split; [|split].
      * cbn [with_fd w_self p_fd w_log w1]. intros x Hx Ox. apply In_nth_error in Hx. destruct Hx as (k & Hk).
        destruct (CS k x Hk Ox) as (N & Hk'). cbn [live]. split.
        -- intros EQ. apply N. now apply (V2 k (Z.to_nat i) x f).
        -- apply V1; [now apply nth_error_In in Hk'|exact Ox].
      * cbn [with_fd w_self p_fd w_log w1]. intros k j x y Hk Hj Ox Oy EQ.
        destruct (CS k x Hk Ox) as (_ & Hk'). destruct (CS j y Hj Oy) as (_ & Hj'). now apply (V2 k j x y).
      * cbn [with_fd w_log w1 only_live uses]. split; [|exact V3]. constructor; [exact LV|constructor].
    + cbn [with_fd w_self p_fd w1]. rewrite E. replace (Z.to_nat (i + 1)) with (S (Z.to_nat i)) by lia. symmetry. apply skipn_upd.
  - unfold ret. apply IH; [exact V|lia|exact E].
Qed.
Lemma rewind_inv init i w : inv' init w -> inv' init (snd (rewind i w)) /\ w_self (snd (rewind i w)) = w_self w.
Proof. intros V. unfold rewind. now destruct (nth_error (w_pipes w) i). Qed.
Lemma finally_ok init Os w : sane init Os -> inv' init w -> inv' init (snd (main_finally Os w)).
Proof.
  intros SN V. unfold main_finally. unfold bind at 1. unfold self. unfold bind at 1.
  match goal with |- context [forl ?f ?l w] =>
    assert (forall w, inv' init w -> inv' init (snd (forl f l w)) /\ w_self (snd (forl f l w)) = w_self w) as K end.
  { generalize (py_slice (p_fd (w_self w)) 1 3). intros l. induction l as [|x l IH]; intros v Hv; cbn [forl]; [now split|].
    unfold bind. destruct (pipe x) as [p|].
    - destruct (rewind_inv init p v Hv) as (R1 & R2). destruct (rewind p v) as [[u|e] v1]; cbn [snd] in *; [|now split].
      destruct (IH v1 R1) as (I1 & I2). split; [exact I1|congruence].
    - unfold ret at 1. unfold ret at 1. now apply IH. }
  specialize (K w V). destruct (forl _ _ w) as [[u|e] w1]; cbn [snd] in *; destruct K as (K1 & K2); [|exact K1].
  destruct (Z.le_gt_cases 3 (len (p_fd (w_self w)))) as [G|G].
  - apply close_from_ok; [exact SN|exact K1|lia|]. rewrite K2, py_slice_in by lia.
    apply firstn_all2. rewrite skipn_length. unfold len. lia.
  - replace (py_slice (p_fd (w_self w)) 3 (len (p_fd (w_self w)))) with (@nil file); [exact K1|].
    unfold py_slice, py_bound. cbn zeta. rewrite (skipn_all2 (n := Z.to_nat _)); [symmetry; apply firstn_nil|].
    change (3 <? 0) with false. cbn iota. unfold len in *. lia.
Qed.
