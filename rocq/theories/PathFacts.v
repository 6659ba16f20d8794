(* What help_escp decides. *)
From Coq Require Import ZArith List Bool Lia ZifyBool ZifyNat.
From Verif Require Import Py Syntax Store Machine Os Wasi SpecPath PyFacts.
Import ListNotations.
Open Scope Z_scope.

Lemma name_eqb_eq a : forall b, name_eqb a b = true <-> a = b.
Proof.
  induction a as [|x a IH]; intros [|y b]; cbn; split; intros H; try easy.
  - apply andb_prop in H. destruct H as (H1 & H2). apply IH in H2. f_equal; [lia|exact H2].
  - injection H as -> ->. rewrite Z.eqb_refl. cbn. now apply IH.
Qed.
Lemma name_eqb_neq a b : a <> b -> name_eqb a b = false.
Proof. intros H. destruct (name_eqb a b) eqn:E; [|reflexivity]. now apply name_eqb_eq in E. Qed.
Lemma starts_iff p : forall s, starts_with s p = true <-> exists t, s = p ++ t.
Proof.
  induction p as [|y p IH]; intros s; [split; [intros _; now exists s|intros _; now destruct s]|].
  destruct s as [|x s]; [split; [discriminate|intros (t & H); discriminate]|]. cbn [starts_with app]. rewrite andb_true_iff, IH. split.
  - intros (H & t & ->). exists t. f_equal. lia.
  - intros (t & H). injection H as -> ->. split; [lia|now exists t].
Qed.

(* ---- splitting ---- *)
Lemma split_free c : slash_free c -> split_slash c = [c].
Proof.
  induction 1 as [|x c H _ IH]; [reflexivity|]. cbn [split_slash]. replace (x =? c_slash) with false by (unfold c_slash, slash in *; lia). now rewrite IH.
Qed.
Lemma split_app c s : slash_free c -> split_slash (c ++ slash :: s) = c :: split_slash s.
Proof.
  induction 1 as [|x c H _ IH]; cbn [app split_slash]; [reflexivity|]. replace (x =? c_slash) with false by (unfold c_slash, slash in *; lia). now rewrite IH.
Qed.
Lemma split_joined l : forall c, Forall slash_free (c :: l) -> split_slash (c ++ slashed l) = c :: l.
Proof.
  induction l as [|c1 l IH]; intros c H; inversion H as [|? ? H1 H2]; subst; unfold slashed; cbn [map concat].
  - rewrite app_nil_r. now apply split_free.
  - cbn [app]. rewrite split_app by exact H1. f_equal. fold (slashed l). now apply IH.
Qed.
Lemma split_ok s : exists c l, split_slash s = c :: l /\ s = c ++ slashed l /\ Forall slash_free (c :: l).
Proof.
  induction s as [|x s (c & l & E1 & E2 & E3)]; [exists [], []; repeat constructor|]. cbn [split_slash].
  destruct (Z.eqb_spec x c_slash) as [->|N].
  - exists [], (c :: l). rewrite E1. split; [reflexivity|]. split; [unfold slashed; cbn [map concat app]; now rewrite E2|]. now constructor; [constructor|].
  - rewrite E1. exists (x :: c), l. inversion E3; subst. repeat split; try reflexivity. constructor; [|assumption]. constructor; [exact N|assumption].
Qed.
Lemma every_string s : exists l, l <> [] /\ s = joined l /\ Forall slash_free l.
Proof. destruct (split_ok s) as (c & l & _ & E & F). exists (c :: l). now repeat split. Qed.

(* ---- normpath ---- *)
Definition walk1 (d : list name) (c : name) : list name :=
  if name_eqb c [] || name_eqb c dot then d else if name_eqb c dotdot then removelast d else d ++ [c].
Definition walk (d l : list name) : list name := fold_left walk1 l d.
Lemma removelast_rev {A} (l : list A) x : removelast (l ++ [x]) = l.
Proof. apply removelast_last. Qed.
Lemma norm_walk1 acc c : Forall proper acc -> slash_free c ->
  norm_comp true acc c = rev (walk1 (rev acc) c) /\ Forall proper (norm_comp true acc c).
Proof.
  intros P S. unfold norm_comp, walk1. change [c_dot; c_dot] with dotdot. change [c_dot] with dot.
  destruct (name_eqb c [] || name_eqb c dot) eqn:E0; [now rewrite rev_involutive|]. apply orb_false_iff in E0. destruct E0 as (E1 & E2).
  destruct (name_eqb c dotdot) eqn:E3; cbn [negb orb andb].
  - destruct acc as [|w acc]; [now split; constructor|]. inversion P as [|? ? (_ & _ & _ & P1) P2]; subst. rewrite (name_eqb_neq w dotdot P1).
    cbn [rev]. rewrite removelast_rev, rev_involutive. now split.
  - rewrite rev_app_distr, rev_involutive. split; [reflexivity|]. constructor; [|exact P]. split; [exact S|].
    repeat split; intros ->; discriminate.
Qed.
Lemma norm_walk l : forall acc, Forall proper acc -> Forall slash_free l ->
  rev (fold_left (norm_comp true) l acc) = walk (rev acc) l /\ Forall proper (fold_left (norm_comp true) l acc).
Proof.
  induction l as [|c l IH]; intros acc P S; cbn [fold_left]; [easy|]. inversion S as [|? ? S1 S2]; subst.
  destruct (norm_walk1 acc c P S1) as (E & P'). destruct (IH _ P' S2) as (E1 & E2). split; [|exact E2].
  rewrite E1. unfold walk. cbn [fold_left]. f_equal. rewrite E. apply rev_involutive.
Qed.
Lemma walk_proper l : forall d, Forall proper l -> walk d l = d ++ l.
Proof.
  induction l as [|c l IH]; intros d P; [now rewrite app_nil_r|]. inversion P as [|? ? (_ & N1 & N2 & N3) P2]; subst.
  unfold walk in *. cbn [fold_left]. rewrite IH by exact P2. unfold walk1. rewrite (name_eqb_neq c [] N1), (name_eqb_neq c dot N2), (name_eqb_neq c dotdot N3).
  cbn. now rewrite <- app_assoc.
Qed.
Lemma join_slashed l : c_slash :: join_slash l = rooted l.
Proof.
  destruct l as [|c l]; [reflexivity|]. unfold rooted. revert c. induction l as [|c1 l IH]; intros c.
  - unfold slashed. cbn. now rewrite app_nil_r.
  - change (join_slash (c :: c1 :: l)) with (c ++ c_slash :: join_slash (c1 :: l)). rewrite IH. unfold slashed. now cbn.
Qed.
(* normpath of an absolute path, unless it has exactly two leading slashes *)
Lemma norm_abs p : starts_with p [c_slash] = true -> starts_with p [c_slash; c_slash] && negb (starts_with p [c_slash; c_slash; c_slash]) = false ->
  normpath p = rooted (walk [] (split_slash p)).
Proof.
  intros H K. unfold normpath. rewrite H, K. destruct (split_ok p) as (c & l & E & _ & F). rewrite E. cbn [name_eqb negb].
  destruct (norm_walk (c :: l) [] ltac:(constructor) F) as (E' & _). rewrite E'. cbn [app rev]. rewrite join_slashed.
  now destruct (rooted _) eqn:R; [destruct (walk [] (c :: l))|].
Qed.
Lemma norm_rooted c l : Forall slash_free (c :: l) -> (c = [] -> l = []) ->
  normpath (slash :: c ++ slashed l) = rooted (walk [] (c :: l)).
Proof.
  intros F N. set (p := slash :: c ++ slashed l). rewrite norm_abs.
  - unfold p. cbn [split_slash]. change (slash =? c_slash) with true. cbn iota. now rewrite (split_joined l c F).
  - apply starts_iff. now exists (c ++ slashed l).
  - destruct c as [|x c].
    + unfold p. rewrite (N eq_refl). reflexivity.
    + unfold p. cbn [app starts_with]. inversion F as [|? ? F1 _]; subst. inversion F1; subst.
      replace (x =? c_slash) with false by (unfold c_slash, slash in *; lia). now destruct (slash =? c_slash).
Qed.

(* ---- a path string that starts with another ---- *)
Lemma slashed_head l : slashed l = [] \/ exists t, slashed l = slash :: t.
Proof. destruct l as [|c l]; [now left|right]. unfold slashed. cbn. eauto. Qed.
Lemma head_longer r : forall c s t, slash_free r -> (s = [] \/ exists u, s = slash :: u) -> c ++ s = r ++ t -> exists x, c = r ++ x.
Proof.
  induction r as [|y r IH]; intros c s t F S E; [now exists c|]. inversion F as [|? ? F1 F2]; subst. destruct c as [|z c].
  - destruct S as [->|(u & ->)]; [discriminate|]. cbn in E. injection E as E1 E2. congruence.
  - injection E as -> E. destruct (IH c s t F2 S E) as (x & ->). now exists x.
Qed.
Lemma head_same r : forall c s t, slash_free r -> slash_free c -> (s = [] \/ exists u, s = slash :: u) -> c ++ s = r ++ slash :: t ->
  c = r /\ s = slash :: t.
Proof.
  induction r as [|y r IH]; intros c s t F C S E.
  - destruct c as [|z c]; [now split|]. injection E as -> E. inversion C; subst. congruence.
  - inversion F as [|? ? F1 F2]; subst. destruct c as [|z c].
    + destruct S as [->|(u & ->)]; [discriminate|]. cbn in E. injection E as E1 E2. congruence.
    + inversion C as [|? ? C1 C2]; subst. injection E as -> E. destruct (IH c s t F2 C2 S E) as (-> & ->). now split.
Qed.
Lemma prefix_comps rs : forall cs, rs <> [] -> Forall slash_free rs -> Forall slash_free cs ->
  (exists t, slashed cs = slashed rs ++ t) <-> exists up c x l, rs = up ++ [c] /\ cs = up ++ (c ++ x) :: l.
Proof.
  induction rs as [|r rs IH]; intros cs N F C; [easy|]. inversion F as [|? ? F1 F2]; subst. clear N. split.
  - intros (t & E). destruct cs as [|c cs]; [discriminate|]. inversion C as [|? ? C1 C2]; subst. unfold slashed in E. cbn [map concat app] in E.
    injection E as E. fold (slashed cs) (slashed rs) in E. destruct rs as [|r2 rs].
    + unfold slashed at 2 in E. cbn in E. rewrite <- app_assoc in E. cbn in E. destruct (head_longer r c (slashed cs) t F1 (slashed_head cs) E) as (x & ->).
      now exists [], r, x, cs.
    + rewrite <- app_assoc in E. assert (slashed (r2 :: rs) ++ t = slash :: (r2 ++ slashed rs) ++ t) as E2 by reflexivity. rewrite E2 in E.
      destruct (head_same r c (slashed cs) _ F1 C1 (slashed_head cs) E) as (-> & E3).
      destruct (proj1 (IH cs ltac:(discriminate) F2 C2)) as (up & c' & x & l & -> & ->); [exists t; now rewrite E2, E3|].
      now exists (r :: up), c', x, l.
  - intros (up & c & x & l & E1 & ->). rewrite E1. exists (x ++ slashed l). unfold slashed. rewrite !map_app, !concat_app. cbn. now rewrite !app_nil_r, <- !app_assoc.
Qed.
Lemma prefix_rooted rs cs : Forall proper rs -> Forall slash_free cs ->
  starts_with (rooted cs) (rooted rs) = true <-> below_or_longer rs cs.
Proof.
  intros P C. rewrite starts_iff. unfold below_or_longer. destruct rs as [|r rs].
  - split; [now left|]. intros _. destruct cs as [|c cs]; [now exists []|]. unfold slashed. cbn. eauto.
  - assert (Forall slash_free (r :: rs)) as F by (eapply Forall_impl; [|exact P]; now intros c (H & _)).
    destruct cs as [|c cs].
    + split.
      * intros (t & E). unfold rooted, slashed in E. cbn in E. injection E as E. inversion P as [|? ? (_ & N & _) _]; subst. now destruct r.
      * intros [H|(up & c & x & l & _ & H)]; [discriminate|now destruct up].
    + change (rooted (c :: cs)) with (slashed (c :: cs)). change (rooted (r :: rs)) with (slashed (r :: rs)).
      rewrite (prefix_comps (r :: rs) (c :: cs)) by (try discriminate; assumption). split; [now right|]. intros [H|H]; [discriminate|exact H].
Qed.

(* ---- walking ---- *)
Lemma walk1_free d c : Forall slash_free d -> slash_free c -> Forall slash_free (walk1 d c).
Proof.
  intros D C. unfold walk1. destruct (_ || _); [exact D|]. destruct (name_eqb c dotdot).
  - destruct d as [|x d] using rev_ind; [exact D|]. rewrite removelast_rev. now apply Forall_app in D.
  - apply Forall_app. split; [exact D|]. now repeat constructor.
Qed.
Lemma walk_free l : forall d, Forall slash_free d -> Forall slash_free l -> Forall slash_free (walk d l).
Proof.
  induction l as [|c l IH]; intros d D L; [exact D|]. inversion L; subst. unfold walk in *. cbn [fold_left]. apply IH; [|assumption]. now apply walk1_free.
Qed.
Lemma walks_walk d l e : walks d l e -> e = walk d l.
Proof.
  induction 1 as [d|d l e _ IH|d l e _ IH|d c l e _ IH|l e _ IH|d c l e P _ IH]; unfold walk in *; cbn [fold_left]; try exact IH; [reflexivity| | ].
  - rewrite IH. f_equal. unfold walk1. cbn. now rewrite removelast_rev.
  - rewrite IH. f_equal. unfold walk1. destruct P as (_ & N1 & N2 & N3). now rewrite (name_eqb_neq c [] N1), (name_eqb_neq c dot N2), (name_eqb_neq c dotdot N3).
Qed.
Lemma walk_walks l : forall d, Forall slash_free l -> walks d l (walk d l).
Proof.
  induction l as [|c l IH]; intros d L; [constructor|]. inversion L as [|? ? L1 L2]; subst. unfold walk in *. cbn [fold_left]. unfold walk1 at 2.
  destruct (name_eqb c []) eqn:E1; [apply name_eqb_eq in E1; subst c; constructor; now apply IH|].
  destruct (name_eqb c dot) eqn:E2; [apply name_eqb_eq in E2; subst c; cbn [orb]; apply walks_dot; now apply IH|].
  cbn [orb]. destruct (name_eqb c dotdot) eqn:E3.
  - apply name_eqb_eq in E3. subst c. destruct d as [|x d] using rev_ind; [apply walks_top; now apply IH|]. rewrite removelast_rev. apply walks_up. now apply IH.
  - apply walks_down; [|now apply IH]. split; [exact L1|]. repeat split; intros ->; discriminate.
Qed.

Lemma ends_slashed l : Forall slash_free l -> l <> [] -> (forall c, In c l -> c <> []) -> ends_slash (slashed l) = false.
Proof.
  intros F N A. destruct l as [|c l] using rev_ind; [easy|]. clear IHl N. apply Forall_app in F. destruct F as (_ & F). inversion F as [|? ? F1 _]; subst.
  assert (c <> []) as N by (apply A, in_or_app; right; now left). unfold slashed. rewrite map_app, concat_app. cbn. rewrite app_nil_r.
  destruct c as [|x c] using rev_ind; [easy|]. clear IHc. unfold ends_slash. rewrite rev_app_distr. cbn [rev]. rewrite rev_app_distr. cbn.
  apply Forall_app in F1. destruct F1 as (_ & F1). inversion F1; subst. unfold c_slash, slash in *. lia.
Qed.
(* joining a relative path to a directory and normalising *)
Lemma norm_join rs c l : Forall proper rs -> Forall slash_free (c :: l) -> (c = [] -> l = []) ->
  normpath (path_join (rooted rs) (joined (c :: l))) = rooted (walk rs (c :: l)).
Proof.
  intros P F N. assert (starts_with (joined (c :: l)) [c_slash] = false) as S.
  { destruct (starts_with (joined (c :: l)) [c_slash]) eqn:E; [|reflexivity]. apply starts_iff in E. destruct E as (t & E). exfalso. cbn in E.
    destruct c as [|x c]; [rewrite N in E by reflexivity; discriminate|]. injection E as -> _. inversion F as [|? ? F1 _]; subst. inversion F1; subst. now apply H1. }
  unfold path_join. rewrite S. destruct rs as [|r rs].
  - change (rooted []) with [slash]. change (ends_slash [slash]) with true. cbn iota. cbn [app joined]. now rewrite norm_rooted.
  - assert (Forall slash_free (r :: rs)) as FR by (eapply Forall_impl; [|exact P]; now intros x (H & _)).
    change (rooted (r :: rs)) with (slashed (r :: rs)).
    assert (ends_slash (slashed (r :: rs)) = false) as ES.
    { apply ends_slashed; [exact FR|discriminate|]. intros x Hx. rewrite Forall_forall in P. now destruct (P x Hx) as (_ & H & _). }
    unfold slashed at 1. cbn [map concat app]. rewrite ES.
    assert (slashed (r :: rs) ++ c_slash :: joined (c :: l) = slash :: r ++ slashed (rs ++ c :: l)) as ->.
    { unfold slashed, joined. rewrite map_app, concat_app. cbn. now rewrite <- !app_assoc. }
    rewrite norm_rooted.
    + assert (walk [] (r :: rs ++ c :: l) = walk (r :: rs) (c :: l)) as ->; [|reflexivity].
      change (r :: rs ++ c :: l) with ((r :: rs) ++ c :: l). unfold walk. rewrite fold_left_app. f_equal. change (fold_left walk1 (r :: rs) []) with (walk [] (r :: rs)). now rewrite walk_proper.
    + change (r :: rs ++ c :: l) with ((r :: rs) ++ c :: l). now apply Forall_app.
    + intros ->. inversion P as [|? ? (_ & H & _) _]. congruence.
Qed.
Lemma relative_cases c l : Forall slash_free (c :: l) -> ~ absolute (joined (c :: l)) -> c = [] -> l = [].
Proof.
  intros F A ->. destruct l as [|c1 l]; [reflexivity|]. exfalso. apply A. unfold absolute, joined, slashed. cbn. eauto.
Qed.
(* relative paths: accepted exactly if below or longer *)
Lemma escp_relative rs l e : Forall proper rs -> Forall slash_free l -> l <> [] -> ~ absolute (joined l) -> walks rs l e ->
  help_escp (rooted rs) (joined l) = false <-> below_or_longer rs e.
Proof.
  intros P F N A W. apply walks_walk in W. subst e. destruct l as [|c l]; [easy|]. unfold help_escp. rewrite (norm_join rs c l P F (relative_cases c l F A)).
  rewrite negb_false_iff. apply prefix_rooted; [exact P|]. apply walk_free; [|exact F]. eapply Forall_impl; [|exact P]. now intros x (H & _).
Qed.
(* absolute paths *)
Lemma norm_double p : starts_with p [c_slash; c_slash] = true -> starts_with p [c_slash; c_slash; c_slash] = false ->
  exists q, normpath p = c_slash :: c_slash :: q.
Proof.
  intros H K. unfold normpath. rewrite H, K. assert (starts_with p [c_slash] = true) as ->.
  { apply starts_iff. apply starts_iff in H. destruct H as (t & ->). now exists (c_slash :: t). }
  cbn [andb negb app]. eauto.
Qed.
Lemma escp_absolute rs l e : Forall proper rs -> Forall slash_free l -> absolute (joined l) -> walks [] l e ->
  help_escp (rooted rs) (joined l) = false -> below_or_longer rs e.
Proof.
  intros P F A W H. apply walks_walk in W. subst e. destruct rs as [|r rs]; [now left|]. unfold help_escp in H. apply negb_false_iff in H.
  unfold path_join in H. assert (starts_with (joined l) [c_slash] = true) as S.
  { destruct A as (t & A). apply starts_iff. now exists t. }
  rewrite S in H. destruct (starts_with (joined l) [c_slash; c_slash] && negb (starts_with (joined l) [c_slash; c_slash; c_slash])) eqn:D.
  - apply andb_prop in D. destruct D as (D1 & D2). apply negb_true_iff in D2. destruct (norm_double _ D1 D2) as (q & E). rewrite E in H.
    inversion P as [|? ? (PS & PN & _) _]; subst. destruct r as [|x r]; [easy|]. inversion PS; subst. unfold rooted, slashed in H. cbn [map concat app starts_with] in H.
    exfalso. apply andb_prop in H. destruct H as (_ & H). apply andb_prop in H. destruct H as (H & _). unfold c_slash, slash in *. lia.
  - rewrite (norm_abs _ S D) in H. destruct l as [|c l]; [destruct A as (t & A); discriminate|]. cbn [joined] in H. rewrite (split_joined l c F) in H.
    apply prefix_rooted in H; [exact H|exact P|]. apply walk_free; [constructor|exact F].
Qed.
