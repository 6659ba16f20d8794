(* Facts about the end of main: which host descriptors it leaves open. *)
From Coq Require Import ZArith List Bool Lia.
From Verif Require Import Py Floatops Val Opcode Numeric Syntax Store Basic Machine Utf8 Os Wasi WasiRun
  SpecInt SpecNum SpecMachine SpecControl SpecType SpecWasi SpecWasiRun PyFacts ValFacts ControlFacts MemFacts SpecWasiMore WasiFacts WasiTableFacts.
Import ListNotations.
Open Scope Z_scope.

(* an open descriptor is one of [init], or an entry from 3 on that is no character device has it *)
Definition tracked (init : list Z) (log : list event) (t : list file) : Prop :=
  forall d, live init log d -> In d init \/
    exists k f, (3 <= k)%nat /\ nth_error t k = Some f /\ host_open f = true /\ host_fd f = d /\ wasm_type f <> T_CHARACTER_DEVICE.
Lemma plain_type i : Z.land (st_mode i) 0xf000 <> 0x2000 -> help_wasm_type i <> T_CHARACTER_DEVICE.
Proof.
  intros H. unfold help_wasm_type. cbn zeta. destruct (_ =? 0x6000); [discriminate|]. destruct (_ =? 0x2000) eqn:E; [lia|].
  repeat (destruct (_ =? _); [discriminate|]). discriminate.
Qed.
Lemma tracked_app init log t g : tracked init log t -> tracked init log (t ++ [g]).
Proof.
  intros T d L. destruct (T d L) as [I|(k & f & K & N & R)]; [now left|]. right. exists k, f. split; [exact K|]. split; [|exact R].
  rewrite nth_error_app1; [exact N|]. apply nth_error_Some. congruence.
Qed.
Lemma tracked_new init log t g c h evs : tracked init log t -> (3 <= length t)%nat -> about h evs -> (exists p fl md d, c = OsOpen p fl md d) ->
  host_fd g = h -> host_open g = true -> wasm_type g <> T_CHARACTER_DEVICE -> tracked init (evs ++ (c, RInt h) :: log) (t ++ [g]).
Proof.
  intros T L3 B (p & fl & md & d & ->) G1 G2 G3 x L. rewrite live_neutrals in L by (eapply about_neutral, B). destruct L as [->|L].
  - right. exists (length t), g. split; [exact L3|]. split; [|easy]. rewrite nth_error_app2, Nat.sub_diag by lia. reflexivity.
  - exact (tracked_app init log t g T x L).
Qed.
Lemma tracked_log init log log' t : (forall d, live init log' d -> live init log d) -> tracked init log t -> tracked init log' t.
Proof. intros H T d L. exact (T d (H d L)). Qed.

Lemma open_tracks init Os w x0 x1 x2 x3 x4 x5 x6 x7 x8 : plain_files Os -> (3 <= length (p_fd (w_self w)))%nat -> tracked init (w_log w) (p_fd (w_self w)) ->
  let w' := snd (path_open Os x0 x1 x2 x3 x4 x5 x6 x7 x8 w) in tracked init (w_log w') (p_fd (w_self w')).
Proof.
  intros PF L3 T. cbv zeta.
  set (P := fun w' => tracked init (w_log w') (p_fd (w_self w'))). match goal with |- tracked _ (w_log ?v) _ => change (P v) end. assert (P w) as PW by exact T. clear T.
  unfold path_open, unless_badf. unfold bind at 1. unfold self at 1. destruct (help_badf (w_self w) x0) eqn:B; [exact PW|].
  apply badf_false in B. destruct B as (B0 & f & B1 & Bw). assert (entry w x0 f) as He by (split; [lia|exact B1]).
  rewrite (need_eq w x0 f _ _ He).
  destruct (_ =? 0); [exact PW|]. pose proof (the_mem_same w) as M. unfold bind at 1.
  destruct (the_mem w) as [[a|e] w1]; cbn [snd] in M; subst w1; [|exact PW].
  unfold bind at 1. rewrite (the_file_at w x0 f He). unfold bind at 1. pose proof (get_str_same a x2 x3 w) as G.
  destruct (get_str a x2 x3 w) as [[nm|e] w1]; cbn [snd] in G; subst w1; [|exact PW]. cbn zeta.
  destruct (existsb (Z.eqb 0) nm); [exact PW|]. unfold unless_escp.
  destruct (help_escp (host_name f) nm); [exact PW|].
  match goal with |- context [if ?b then ret [E_PERM] else _] => destruct b end; [exact PW|].
  generalize (open_flags x1 x4 x5 x7) as flag. intros flag.
  unfold bind at 1. unfold self. unfold ask_try. unfold bind at 1. unfold ask at 1.
  set (c := OsOpen nm flag 0x1a4 (Some (host_fd f))).
  assert (forall w', w_self w' = w_self w -> w_log w' = (c, Os (w_log w) c) :: w_log w -> (forall h, Os (w_log w) c <> RInt h) -> P w') as F.
  { intros w' S L N. unfold P. rewrite S, L. eapply tracked_log; [|exact PW]. intros d H. cbn in H. destruct (Os (w_log w) c); try exact H. now destruct (N z). }
  destruct (Os (w_log w) c) eqn:R; try (apply F; [reflexivity|reflexivity|discriminate]).
  2:{ match goal with |- context [match ?x with Some _ => _ | None => _ end] => destruct x end; (apply F; [reflexivity|reflexivity|discriminate]). }
  rename z into h.
  set (w1 := mkworld _ _ _ _). assert (opened w1 (w_self w) h ((c, RInt h) :: w_log w)) as O1.
  { split; [reflexivity|]. exists []. split; [reflexivity|constructor]. }
  clearbody w1. clear F. unfold bind at 1.
  destruct (ask_bool_opened Os w1 _ h _ (OsIsdir h) O1 I eq_refl) as (b1 & w2 & -> & O2).
  match goal with |- context [let '(_, _) := ?b in _] => destruct b as (bb, qq) end. unfold bind at 1.
  destruct (ask_bool_opened Os w2 _ h _ (OsIsfile h) O2 I eq_refl) as (b2 & w3 & -> & O3).
  match goal with |- context [let '(_, _) := ?b in _] => destruct b as (bb', qq') end. unfold bind at 1.
  destruct (PF (w_log w3) h) as (i & Hi & Ht).
  pose proof (opened_more Os w3 _ h _ (OsStatFd h) O3 I eq_refl) as O4.
  unfold ask_stat at 1. unfold bind at 1. unfold ask at 1. rewrite Hi in *. unfold ret at 1. set (w4 := mkworld _ _ _ _) in *.
  unfold bind at 1. unfold self. unfold set_fd at 1. unfold bind at 1. unfold bind at 1. unfold self, set_self. unfold bind at 1.
  set (w5 := mkworld _ _ _ _).
  assert (forall w', w_self w' = w_self w5 -> w_log w' = w_log w5 -> P w') as K.
  { intros w' S L. destruct O4 as (S4 & evs & L4 & B4). unfold P. rewrite S, L. unfold w5. cbn [w_self p_fd w_log]. rewrite L4, S4.
    apply tracked_new; try reflexivity; [exact PW|exact L3|exact B4|now repeat eexists|now apply plain_type]. }
  pose proof (still_write a (fun x => mem_put_u 4 x x8 (len (p_fd (w_self w)))) w5) as (T1 & T2).
  unfold put_u32. destruct (write_mem a _ w5) as [[u|e] w6]; cbn [snd ret] in *; now apply K.
Qed.

(* ---- only path_open opens files ---- *)
Definition opens (c : oscall) : Prop := match c with OsOpen _ _ _ _ => True | _ => False end.
Definition unopening {A} (m : W A) : Prop := forall w, exists evs, w_log (snd (m w)) = evs ++ w_log w /\ Forall (fun e : event => ~ opens (fst e)) evs.
Lemma un_still {A} (m : W A) : still m -> unopening m.
Proof. intros H w. exists []. split; [apply H|constructor]. Qed.
Lemma un_bind {A B} (m : W A) (k : A -> W B) : unopening m -> (forall a, unopening (k a)) -> unopening (bind m k).
Proof.
  intros H K w. unfold bind. destruct (H w) as (e1 & L1 & N1). destruct (m w) as [[a|e] w1]; cbn [snd] in *; [|now exists e1].
  destruct (K a w1) as (e2 & L2 & N2). exists (e2 ++ e1). rewrite L2, L1, app_assoc. split; [reflexivity|]. now apply Forall_app.
Qed.
Lemma un_ask Os c : ~ opens c -> unopening (ask_unit Os c).
Proof.
  intros N. unfold ask_unit. apply un_bind.
  - intros w. exists [(c, Os (w_log w) c)]. split; [reflexivity|]. constructor; [exact N|constructor].
  - intros r. apply un_still. destruct r; try apply still_fail; try apply still_raise. apply still_ret.
Qed.
Lemma un_put i f : unopening (put_file i f).
Proof.
  intros w. exists []. split; [|constructor]. unfold put_file, bind, self, lift. destruct (py_setitem _ _ _); reflexivity.
Qed.
Ltac un := repeat match goal with
  | |- unopening (bind _ _) => apply un_bind; [|intro]
  | |- unopening (put_file _ _) => apply un_put
  | |- unopening (ask_unit _ _) => apply un_ask; exact (fun x => x)
  | |- unopening (unless_badf _ _) => unfold unless_badf
  | |- unopening (need _ _ _) => unfold need, help_perm
  | |- unopening (if ?b then _ else _) => destruct b
  | |- unopening (let '(_, _) := ?p in _) => destruct p
  | |- unopening (let x := _ in _) => cbv zeta
  | |- unopening (ret _) => apply un_still, still_ret
  | |- unopening (fail _) => apply un_still, still_fail
  | |- unopening self => apply un_still, still_self
  | |- unopening (the_file _) => apply un_still, still_file
  end.
Lemma un_call Os f args : f <> F_path_open -> unopening (wasi_call Os f args).
Proof.
  intros N. destruct (changes_table f) eqn:T.
  - destruct f; try discriminate T; try contradiction; clear T N; (do 10 (try (destruct args as [|? args]; try (apply un_still, still_fail)))); cbn [wasi_call].
    + unfold fd_close. un.
    + unfold fd_fdstat_set_flags. un.
    + unfold fd_fdstat_set_rights. un.
    + unfold fd_renumber. un.
  - intros w. destruct (quiet_call Os (w_self w) w f args T eq_refl) as (_ & evs & L & C). exists evs. split; [exact L|].
    apply calm_neutral in C. eapply Forall_impl; [|exact C]. intros [c r] H O. cbn [fst] in *. destruct c; exact H || exact O.
Qed.
Lemma live_same init w w' : w_log w' = w_log w -> forall d, live init (w_log w') d -> live init (w_log w) d.
Proof. now intros ->. Qed.
Lemma tracked_upd init log t k f g : tracked init log t -> nth_error t k = Some f -> (wasm_type f = T_CHARACTER_DEVICE \/
   (host_open g = host_open f /\ host_fd g = host_fd f /\ wasm_type g = wasm_type f)) -> tracked init log (upd t k g).
Proof.
  intros T N D d L. destruct (T d L) as [I|(j & x & J & Nx & O & E & C)]; [now left|]. right. destruct (Nat.eq_dec j k) as [->|NE].
  - rewrite N in Nx. injection Nx as <-. destruct D as [D|(D1 & D2 & D3)]; [contradiction|]. exists k, g. split; [exact J|]. split; [eapply nth_upd_same, N|].
    rewrite D1, D2, D3. easy.
  - exists j, x. split; [exact J|]. split; [now rewrite nth_upd_other|easy].
Qed.
Lemma tracked_close init log t k f g r : tracked init log t -> nth_error t k = Some f -> tracked init ((OsClose (host_fd f), r) :: log) (upd t k g).
Proof.
  intros T N d L. cbn in L. destruct L as (NE & L). destruct (T d L) as [I|(j & x & J & Nx & O & E & C)]; [now left|]. right. exists j, x.
  split; [exact J|]. split; [|easy]. rewrite nth_upd_other; [exact Nx|]. intros ->. rewrite N in Nx. injection Nx as <-. congruence.
Qed.
Lemma call_tracks init Os w f args : sane init Os -> plain_files Os -> table_ok init w -> not_to_std (Call f args) -> (3 <= length (p_fd (w_self w)))%nat ->
  tracked init (w_log w) (p_fd (w_self w)) -> let w' := snd (wasi_call Os f args w) in tracked init (w_log w') (p_fd (w_self w')).
Proof.
  intros SN PF TO NS L3 T. cbv zeta. assert (f = F_path_open \/ f <> F_path_open) as [->|NO] by (destruct f; (now left) || (right; discriminate)).
  { do 10 (destruct args as [|? args]; try exact T). now apply open_tracks. }
  destruct (un_call Os f args NO w) as (ev & EL & EN).
  destruct (call_effect Os w f args) as [evs S L C|fd x g evs O SH S L C|fd x O TY S L|fd x O S L|fd x O S L R|fd fd' stem dest log MV O O' LG S L|fd x nm fl h evs g O R L A S|fd x nm fl evs O S c L A].
  - rewrite S, L. eapply tracked_log; [|exact T]. intros d. rewrite live_neutrals; [easy|]. eapply calm_neutral, C.
  - rewrite S, L. destruct O as ((F0 & FN) & _). destruct SH as (H1 & H2 & H3 & H4 & _). eapply tracked_log with (log := w_log w).
    + intros d. rewrite live_neutrals; [easy|]. eapply calm_neutral, C.
    + eapply tracked_upd; [exact T|exact FN|]. right. easy.
  - rewrite S, L. destruct O as ((F0 & FN) & _). eapply tracked_upd; [exact T|exact FN|]. now left.
  - rewrite S, L. destruct O as ((F0 & FN) & _). eapply tracked_close; [exact T|exact FN].
  - exfalso. apply R. apply (SN (w_log w) (OsClose (host_fd x))). destruct O as ((F0 & FN) & OW). apply nth_error_In in FN. apply TO; [exact FN|]. now apply TO.
  - rewrite S, L. subst log. destruct O as ((F0 & FN) & _), O' as ((F0' & FN') & _).
    assert (3 <= fd') as L3'. { destruct f; try discriminate MV. destruct args as [|a [|b [|? ?]]]; try discriminate MV. injection MV as -> ->. now apply (NS fd fd'). }
    intros d LV. assert (exists lg, live init lg d /\ lg = w_log w /\ (wasm_type dest <> T_CHARACTER_DEVICE -> d <> host_fd dest)) as (lg & LV' & -> & ND).
    { destruct (wasm_type dest =? T_CHARACTER_DEVICE) eqn:TY.
      - exists (w_log w). rewrite LG in LV. split; [exact LV|]. split; [reflexivity|]. apply Z.eqb_eq in TY. contradiction.
      - rewrite LG in LV. destruct LV as (NE & LV). exists (w_log w). now split. }
    destruct (T d LV') as [I|(j & x & J & Nx & Op & E & C)]; [now left|]. right.
    assert (j <> Z.to_nat fd') as NJ. { intros ->. rewrite FN' in Nx. injection Nx as <-. now apply (ND C). }
    destruct (Nat.eq_dec j (Z.to_nat fd)) as [->|NJ'].
    + rewrite FN in Nx. injection Nx as <-. exists (Z.to_nat fd'), stem. split; [lia|]. split; [|easy].
      rewrite nth_upd_other by congruence. eapply nth_upd_same, FN'.
    + exists j, x. split; [exact J|]. split; [|easy]. now rewrite !nth_upd_other.
  - exfalso. rewrite L in EL. change (evs ++ (OsOpen nm fl 420 (Some (host_fd x)), RInt h) :: w_log w) with (evs ++ [(OsOpen nm fl 420 (Some (host_fd x)), RInt h)] ++ w_log w) in EL.
    rewrite app_assoc in EL. apply app_inv_tail in EL. subst ev. apply Forall_app in EN. destruct EN as (_ & EN). inversion EN as [|? ? Q]. now apply Q.
  - exfalso. rewrite L in EL. change (evs ++ (c, Os (w_log w) c) :: w_log w) with (evs ++ [(c, Os (w_log w) c)] ++ w_log w) in EL.
    rewrite app_assoc in EL. apply app_inv_tail in EL. subst ev. apply Forall_app in EN. destruct EN as (_ & EN). inversion EN as [|? ? Q]. now apply Q.
Qed.
Lemma history_tracks init Os h : sane init Os -> plain_files Os -> forall w, Forall not_to_std h -> table_ok init w -> only_live init (w_log w) -> (3 <= length (p_fd (w_self w)))%nat ->
  tracked init (w_log w) (p_fd (w_self w)) -> tracked init (w_log (history Os w h)) (p_fd (w_self (history Os w h))).
Proof.
  intros SN PF. induction h as [|x h IH]; intros w NS TO OL L3 T; [exact T|]. inversion NS as [|? ? N1 N2]; subst.
  change (history Os w (x :: h)) with (history Os (act Os w x) h). destruct (inv_history init Os [x] SN w TO OL) as (TO' & OL').
  change (history Os w [x]) with (act Os w x) in *. apply IH; [exact N2|exact TO'|exact OL'| |].
  - pose proof (length_history Os [x] w) as LH. change (history Os w [x]) with (act Os w x) in LH. lia.
  - destruct x as [f a|m p]; [|exact T]. now apply call_tracks.
Qed.
Lemma preopen_tracks init Os cwd l : forall w, (3 <= length (p_fd (w_self w)))%nat -> tracked init (w_log w) (p_fd (w_self w)) ->
  let w' := snd (preopen Os cwd l w) in (3 <= length (p_fd (w_self w')))%nat /\ tracked init (w_log w') (p_fd (w_self w')).
Proof.
  cbv zeta. set (P := fun w' => (3 <= length (p_fd (w_self w')))%nat /\ tracked init (w_log w') (p_fd (w_self w'))).
  assert (forall w, P w -> P (snd (preopen Os cwd l w))) as K; [|intros w A B; now apply K].
  induction l as [|(k, v) l IH]; intros w (L3 & T); cbn [preopen]; [now split|].
  unfold ask_int. unfold bind at 1. unfold bind at 1. unfold ask. set (c := OsOpen _ _ _ None).
  destruct (Os (w_log w) c) as [|h| | | | | | |] eqn:R; try (split; [exact L3|eapply tracked_log; [|exact T]; intros ? H; exact H]). unfold ret.
  unfold bind at 1. unfold self at 1. unfold bind at 1. unfold set_fd. unfold bind at 1. unfold self, set_self.
  apply IH. split.
  - cbn [w_self p_fd]. rewrite app_length. lia.
  - cbn [w_self p_fd w_log]. apply (tracked_new init (w_log w) _ _ c h []); try reflexivity; [exact T|exact L3|constructor|now repeat eexists|discriminate].
Qed.
Lemma new_tracks init Os cwd h0 n0 h1 n1 h2 n2 args dirs envs w : w_log w = [] ->
  let w' := snd (new_preview1 Os cwd (h0, n0, (h1, n1), (h2, n2)) args dirs envs w) in
  (3 <= length (p_fd (w_self w')))%nat /\ tracked init (w_log w') (p_fd (w_self w')).
Proof.
  intros L. unfold new_preview1. cbn zeta. unfold bind at 1 2 3. unfold set_self at 1 2 3. apply preopen_tracks; [cbn; lia|].
  cbn [w_log w_self p_fd]. rewrite L. intros d H. now left.
Qed.
(* what close_from leaves: the entries before [i] are no longer open *)
Definition shut_from (t : list file) (i : nat) : Prop :=
  forall k f, (3 <= k < i)%nat -> nth_error t k = Some f -> wasm_type f = T_CHARACTER_DEVICE \/ host_open f = false.
Lemma close_tracks init Os l : forall i w w', tracked init (w_log w) (p_fd (w_self w)) -> (3 <= i)%nat -> shut_from (p_fd (w_self w)) i ->
  l = skipn i (p_fd (w_self w)) -> close_from Os (Z.of_nat i) l w = (Ok tt, w') ->
  tracked init (w_log w') (p_fd (w_self w')) /\ shut_from (p_fd (w_self w')) (i + length l) /\ (length (p_fd (w_self w')) <= i + length l)%nat.
Proof.
  induction l as [|f l IH]; intros i w w' T I3 SF E C; cbn [close_from] in C.
  - injection C as <-. rewrite Nat.add_0_r. split; [exact T|]. split; [exact SF|]. symmetry in E. pose proof (f_equal (@length _) E) as EL. rewrite skipn_length in EL. cbn in EL. lia.
  - apply skipn_step in E. destruct E as (Hf & E). replace (Z.of_nat i + 1) with (Z.of_nat (S i)) in C by lia. cbn [length]. rewrite Nat.add_succ_r, <- Nat.add_succ_l.
    assert (SF' : wasm_type f = T_CHARACTER_DEVICE \/ host_open f = false -> shut_from (p_fd (w_self w)) (S i)).
    { intros D k x K N. destruct (Nat.eq_dec k i) as [->|NE]; [rewrite Hf in N; now injection N as <-|]. apply (SF k x); [lia|exact N]. }
    unfold bind at 1 in C. destruct (wasm_type f =? T_CHARACTER_DEVICE) eqn:TY; [|destruct (host_open f) eqn:HO].
    + unfold ret in C. apply (IH (S i) w w'); try assumption; [lia|]. apply SF'. left. lia.
    + unfold bind at 1 in C. unfold ask_unit in C. unfold bind at 1 in C. unfold ask in C. destruct (Os (w_log w) (OsClose (host_fd f))) eqn:R; try discriminate C.
      unfold ret in C. set (w1 := mkworld _ _ _ _) in *. assert (entry w1 (Z.of_nat i) f) as E1 by (split; [lia|now rewrite Nat2Z.id]).
      rewrite (put_file_at w1 (Z.of_nat i) f _ E1), Nat2Z.id in C. refine (IH (S i) _ w' _ _ _ _ C); [|lia|..].
      * cbn [with_fd w_self p_fd w_log w1]. eapply tracked_close; [exact T|exact Hf].
      * cbn [with_fd w_self p_fd w_log w1]. intros k x K N. destruct (Nat.eq_dec k i) as [->|NE].
        -- rewrite (nth_upd_same _ _ f) in N by exact Hf. injection N as <-. now right.
        -- rewrite nth_upd_other in N by exact NE. apply (SF k x); [lia|exact N].
      * cbn [with_fd w_self p_fd w1]. rewrite E. symmetry. apply skipn_upd.
    + unfold ret in C. apply (IH (S i) w w'); try assumption; [lia|]. apply SF'. now right.
Qed.
Lemma rewinds_self l : forall w, w_self (snd (forl (fun f => match pipe f with Some i => rewind i | None => ret tt end) l w)) = w_self w /\
  w_log (snd (forl (fun f => match pipe f with Some i => rewind i | None => ret tt end) l w)) = w_log w.
Proof.
  induction l as [|x l IH]; intros w; cbn [forl]; [now split|]. unfold bind. destruct (pipe x) as [i|].
  - unfold rewind. destruct (nth_error (w_pipes w) i); [|now split]. destruct (IH (mkworld (w_self w) (w_log w) (upd (w_pipes w) i (mkbio (bio_data b) 0)) (w_mach w))) as (A & B). now split.
  - apply IH.
Qed.
Lemma finally_tracks init Os w w' : (3 <= length (p_fd (w_self w)))%nat -> tracked init (w_log w) (p_fd (w_self w)) -> main_finally Os w = (Ok tt, w') ->
  forall d, live init (w_log w') d -> In d init.
Proof.
  intros L3 T C. unfold main_finally in C. unfold bind at 1 in C. unfold self in C. unfold bind at 1 in C.
  pose proof (rewinds_self (py_slice (p_fd (w_self w)) 1 3) w) as (S & L).
  destruct (forl _ _ w) as [[u|e] w1]; cbn [snd] in *; [|discriminate C].
  assert (E : py_slice (p_fd (w_self w)) 3 (len (p_fd (w_self w))) = skipn 3 (p_fd (w_self w1))).
  { rewrite S, py_slice_in by (unfold len; lia). apply firstn_all2. rewrite skipn_length. unfold len. lia. }
  apply (close_tracks init Os _ 3 w1 w') in C; try assumption; [|now rewrite S, L|lia|intros k f K; lia].
  destruct C as (T' & SF & LN). intros d LV. destruct (T' d LV) as [I|(k & f & K & N & O & _ & TY)]; [exact I|]. exfalso.
  assert (k < length (p_fd (w_self w')))%nat by (apply nth_error_Some; congruence).
  destruct (SF k f) as [A|A]; [lia|exact N|contradiction|congruence].
Qed.
Lemma all_closed init Os cwd h0 n0 h1 n1 h2 n2 args dirs envs w h w' :
  sane init Os -> In h0 init -> In h1 init -> In h2 init -> h0 <> h1 -> h0 <> h2 -> h1 <> h2 -> w_log w = [] ->
  plain_files Os -> Forall not_to_std h ->
  main_finally Os (history Os (snd (new_preview1 Os cwd (h0, n0, (h1, n1), (h2, n2)) args dirs envs w)) h) = (Ok tt, w') ->
  forall d, live init (w_log w') d -> In d init.
Proof.
  intros SN I0 I1 I2 N1 N2 N3 L PF NS C. set (w1 := snd (new_preview1 _ _ _ _ _ _ w)) in *.
  destruct (new_ok init Os cwd h0 n0 h1 n1 h2 n2 args dirs envs w SN I0 I1 I2 N1 N2 N3 L) as (T & O). fold w1 in T, O.
  destruct (new_tracks init Os cwd h0 n0 h1 n1 h2 n2 args dirs envs w L) as (L3 & TR). fold w1 in L3, TR.
  eapply finally_tracks; [|now apply (history_tracks init Os h SN PF w1)|exact C]. pose proof (length_history Os h w1). lia.
Qed.
Lemma live_at init l1 c r l2 : only_live init (l1 ++ (c, r) :: l2) -> Forall (live init l2) (uses c).
Proof. induction l1 as [|(c', r') l1 IH]; cbn [app only_live]; intros [H K]; [exact H|now apply IH]. Qed.
