(* The options of the command line. *)
From Coq Require Import ZArith List Bool Lia ZifyBool ZifyNat Permutation.
From Verif Require Import Py Floatops Val Opcode Numeric Syntax Store Basic Machine Decode Utf8 Os Wasi WasiRun CommandLine
  SpecMachine SpecControl SpecType SpecValid SpecWasi SpecWasiRun SpecCommand PyFacts ValFacts ArithFacts NoExitFacts WasiOutcomeFacts PathFacts WasiFacts WasiTableFacts WasiRunFacts.
Import ListNotations.
Open Scope Z_scope.

(* ---- settings ---- *)
Lemma split1_in c s : In c s -> exists k v, s = setting c k v /\ ~ In c k /\ split1 c s = [k; v].
Proof.
  induction s as [|x s IH]; intros H; [contradiction|]. cbn [split1]. destruct (x =? c) eqn:E.
  - apply Z.eqb_eq in E. subst x. now exists [], s.
  - destruct H as [->|H]; [rewrite Z.eqb_refl in E; discriminate|]. destruct (IH H) as (k & v & -> & N & ->). exists (x :: k), v.
    split; [reflexivity|]. split; [|reflexivity]. intros [->|K]; [rewrite Z.eqb_refl in E; discriminate|contradiction].
Qed.
Lemma split1_out c s : ~ In c s -> split1 c s = [s].
Proof.
  induction s as [|x s IH]; intros H; [reflexivity|]. cbn [split1]. destruct (x =? c) eqn:E; [apply Z.eqb_eq in E; subst; exfalso; apply H; now left|].
  rewrite IH; [reflexivity|]. intros K. apply H. now right.
Qed.
Lemma setting_inj c k v k' v' : ~ In c k -> ~ In c k' -> setting c k v = setting c k' v' -> k = k' /\ v = v'.
Proof.
  unfold setting. revert k'. induction k as [|x k IH]; intros [|y k'] N N' E; cbn [app] in E.
  - now injection E.
  - injection E as <- _. exfalso. apply N'. now left.
  - injection E as -> _. exfalso. apply N. now left.
  - injection E as -> E. destruct (IH k') as [-> ->]; [intros K; apply N; now right|intros K; apply N'; now right|exact E|]. easy.
Qed.
Lemma setting_has c k v : In c (setting c k v).
Proof. unfold setting. apply in_or_app. right. now left. Qed.
Lemma pair_of_setting c k v : ~ In c k -> pair_of c (setting c k v) = Ok (k, v).
Proof.
  intros N. destruct (split1_in c (setting c k v) (setting_has c k v)) as (k' & v' & E & N' & S). unfold pair_of. rewrite S.
  destruct (setting_inj _ _ _ _ _ N N' E) as [<- <-]. reflexivity.
Qed.
Lemma pair_of_bad c s : ~ In c s -> pair_of c s = Err EIndex.
Proof. intros N. unfold pair_of. rewrite split1_out by exact N. reflexivity. Qed.
Lemma pairs_ok c l : all_settings c l -> exists ps, rmapl (pair_of c) l = Ok ps /\ Forall (fun p => ~ In c (fst p)) ps /\ l = map (fun p => setting c (fst p) (snd p)) ps.
Proof.
  induction 1 as [|s l H _ IH]; [now exists []|]. destruct IH as (ps & E & F & ->). destruct (split1_in c s H) as (k & v & -> & N & _). exists ((k, v) :: ps).
  cbn [rmapl]. rewrite pair_of_setting by exact N. cbn [rbind]. rewrite E. split; [reflexivity|]. split; [now constructor|reflexivity].
Qed.
Lemma pairs_bad c l : ~ all_settings c l -> pairs_of c l = Err EIndex.
Proof.
  intros H. unfold pairs_of. assert (rmapl (pair_of c) l = Err EIndex) as ->; [|reflexivity].
  induction l as [|s l IH]; [exfalso; apply H; constructor|]. cbn [rmapl]. destruct (in_dec Z.eq_dec c s) as [I|I]; [|now rewrite pair_of_bad].
  destruct (split1_in c s I) as (k & v & -> & N & _). rewrite pair_of_setting by exact N. cbn [rbind]. rewrite IH; [reflexivity|]. intros K. apply H. now constructor.
Qed.

(* ---- dicts ---- *)
Lemma put_keys d k v x : In x (map fst (dict_put d k v)) <-> x = k \/ In x (map fst d).
Proof.
  induction d as [|[k' v'] d IH]; cbn [dict_put map In fst]; [intuition congruence|]. destruct (name_eqb k k') eqn:E.
  - apply name_eqb_eq in E. subst k'. cbn [map In fst]. intuition congruence.
  - cbn [map In fst]. rewrite IH. tauto.
Qed.
Lemma put_nodup d k v : NoDup (map fst d) -> NoDup (map fst (dict_put d k v)).
Proof.
  induction d as [|[k' v'] d IH]; intros H; cbn [dict_put map fst]; [repeat constructor; easy|]. cbn [map fst] in H. inversion H as [|? ? H1 H2]; subst.
  destruct (name_eqb k k') eqn:E; cbn [map fst]; [now constructor|]. constructor; [|now apply IH]. rewrite put_keys. intros [->|K]; [|contradiction].
  assert (name_eqb k k = true) as R by now apply name_eqb_eq. congruence.
Qed.
Lemma put_in d k v x y : NoDup (map fst d) -> In (x, y) (dict_put d k v) <-> (x = k /\ y = v) \/ (x <> k /\ In (x, y) d).
Proof.
  induction d as [|[k' v'] d IH]; intros H; cbn [dict_put In]; [intuition congruence|]. cbn [map fst] in H. inversion H as [|? ? H1 H2]; subst.
  destruct (name_eqb k k') eqn:E.
  - apply name_eqb_eq in E. subst k'. cbn [In]. split.
    + intros [K|K]; [injection K as <- <-; now left|]. right. split; [|now right]. intros ->. apply H1. now apply (in_map fst) in K.
    + intros [[-> ->]|[N [K|K]]]; [now left|injection K as <- _; contradiction|now right].
  - cbn [In]. rewrite IH by exact H2. split.
    + intros [K|[K|[N K]]]; [|now left|right; split; [exact N|now right]]. injection K as <- <-. right. split; [|now left]. intros ->.
      assert (name_eqb k k = true) as R by now apply name_eqb_eq. congruence.
    + intros [K|[N [K|K]]]; [right; now left|now left|]. right. right. now split.
Qed.
Lemma dict_of_snoc l k v : dict_of (l ++ [(k, v)]) = dict_put (dict_of l) k v.
Proof. unfold dict_of. now rewrite fold_left_app. Qed.
Lemma dict_of_nodup l : NoDup (map fst (dict_of l)).
Proof. induction l as [|[k v] l IH] using rev_ind; [constructor|]. rewrite dict_of_snoc. now apply put_nodup. Qed.
Lemma dict_of_in l k v : In (k, v) (dict_of l) <-> exists l1 l2, l = l1 ++ (k, v) :: l2 /\ ~ In k (map fst l2).
Proof.
  induction l as [|[a b] l IH] using rev_ind; [split; [contradiction|intros ([|? ?] & l2 & E & _); discriminate E]|].
  rewrite dict_of_snoc, put_in by apply dict_of_nodup. split.
  - intros [[-> ->]|[N K]]; [exists l, []; easy|]. apply IH in K. destruct K as (l1 & l2 & -> & K). exists l1, (l2 ++ [(a, b)]).
    split; [now rewrite <- app_assoc|]. rewrite map_app, in_app_iff. cbn. intuition congruence.
  - intros (l1 & l2 & E & K). destruct l2 as [|[x y] l2 _] using rev_ind.
    + apply app_inj_tail in E. destruct E as [_ E]. injection E as -> ->. now left.
    + rewrite app_comm_cons, app_assoc in E. apply app_inj_tail in E. destruct E as [-> E]. injection E as -> ->.
      rewrite map_app, in_app_iff in K. cbn in K. right. split; [intuition congruence|]. apply IH. exists l1, l2. split; [reflexivity|]. intuition.
Qed.
Lemma pairs_of_in c l ps : pairs_of c l = Ok ps -> NoDup (map fst ps) /\ forall k v, In (k, v) ps <-> last_setting c l k v.
Proof.
  intros E. assert (all_settings c l) as A.
  { destruct (Forall_dec (In c) (in_dec Z.eq_dec c) l) as [A|A]; [exact A|]. rewrite pairs_bad in E by exact A. discriminate. }
  unfold pairs_of in E. destruct (pairs_ok c l A) as (qs & EQ & N & ->). rewrite EQ in E. cbn [rbind] in E. injection E as <-. split; [apply dict_of_nodup|].
  intros k v. rewrite dict_of_in. unfold last_setting. split.
  - intros (l1 & l2 & -> & K). apply Forall_app in N. destruct N as [_ N]. inversion N as [|? ? N1 N2]; subst. split; [exact N1|].
    exists (map (fun p => setting c (fst p) (snd p)) l1), (map (fun p => setting c (fst p) (snd p)) l2). split; [now rewrite map_app|].
    intros v' I. apply in_map_iff in I. destruct I as ([a b] & I1 & I2). rewrite Forall_forall in N2. specialize (N2 _ I2). cbn [fst snd] in *.
    destruct (setting_inj _ _ _ _ _ N2 N1 I1) as [-> _]. apply K. now apply (in_map fst) in I2.
  - intros (NK & l1 & l2 & EL & K). apply map_eq_app in EL. destruct EL as (q1 & q2 & -> & <- & EL). destruct q2 as [|[a b] q2]; [discriminate EL|].
    cbn [map fst snd] in EL. injection EL as E1 <-. apply Forall_app in N. destruct N as [_ N]. inversion N as [|? ? N1 N2]; subst. cbn [fst] in N1.
    destruct (setting_inj _ _ _ _ _ N1 NK E1) as [-> ->]. exists q1, q2. split; [reflexivity|]. intros I. apply in_map_iff in I. destruct I as ([a b] & I1 & I2). cbn [fst] in I1. subst a.
    apply (K b). apply in_map_iff. now exists (k, b).
Qed.
Lemma insert_perm x l : Permutation (insert_pair x l) (x :: l).
Proof. induction l as [|y l IH]; [apply Permutation_refl|]. cbn [insert_pair]. destruct (str_ltb _ _); [|apply Permutation_refl]. rewrite IH. apply perm_swap. Qed.
Lemma sort_perm l : Permutation (sort_pairs l) l.
Proof. induction l as [|x l IH]; [constructor|]. cbn [sort_pairs fold_right]. rewrite insert_perm. now constructor. Qed.
Lemma dict_of_id l : NoDup (map fst l) -> dict_of l = l.
Proof.
  induction l as [|[k v] l IH] using rev_ind; intros N; [reflexivity|]. rewrite map_app in N. cbn [map fst] in N.
  assert (forall d, ~ In k (map fst d) -> dict_put d k v = d ++ [(k, v)]) as P.
  { induction d as [|[a b] d ID]; intros H; [reflexivity|]. cbn [dict_put]. cbn [map In fst] in H. rewrite (name_eqb_neq k a) by intuition congruence. cbn. rewrite ID; [reflexivity|tauto]. }
  apply NoDup_remove in N. rewrite app_nil_r in N. rewrite dict_of_snoc, IH by apply N. apply P, N.
Qed.

(* ---- what no call changes of a Preview1 object ---- *)
Definition given (p : preview1) : list name * Z * list name * bool := (p_args p, p_dirs p, p_envs p, p_return_on_exit p).
Definition kp {A} (e : W A) : Prop := forall w, given (w_self (snd (e w))) = given (w_self w).
Lemma kp_bind {A B} (e : W A) (f : A -> W B) : kp e -> (forall a, kp (f a)) -> kp (bind e f).
Proof. intros E K w. unfold bind. specialize (E w). destruct (e w) as [[a|x] w1]; cbn [snd] in *; [|exact E]. now rewrite K. Qed.
Lemma kp_still {A} (e : W A) : still e -> kp e.
Proof. intros S w. now rewrite (proj1 (S w)). Qed.
Lemma kp_set_fd l : kp (set_fd l).
Proof. now intros w. Qed.
Lemma kp_put_file i f : kp (put_file i f).
Proof. unfold put_file. apply kp_bind; [now intros w|intros p]. apply kp_bind; [now intros w|intros l]. apply kp_set_fd. Qed.
Lemma kp_ask Os c : kp (ask Os c).
Proof. now intros w. Qed.
Lemma kp_ret {A} (a : A) : kp (ret a). Proof. now intros w. Qed.
Lemma kp_fail {A} x : kp (fail x : W A). Proof. now intros w. Qed.
Lemma kp_call Os f args : kp (wasi_call Os f args).
Proof.
  destruct (changes_table f) eqn:T.
  2:{ intros w. destruct (quiet_call Os (w_self w) w f args T eq_refl) as [E _]. now rewrite E. }
  destruct f; try discriminate T; clear T; (do 10 (try (destruct args as [|? args]; try apply kp_fail))); cbn [wasi_call].
  all: unfold fd_close, fd_fdstat_set_flags, fd_fdstat_set_rights, fd_renumber, path_open, unless_badf, need, unless_escp, the_file, ask_unit, ask_bool, ask_int, ask_stat, ask_try, help_perm, the_mem, put_u32, get_str.
  all: repeat (cbn beta zeta; match goal with
    | |- kp (bind _ _) => apply kp_bind; [|intros ?]
    | |- kp (ret _) => apply kp_ret
    | |- kp (fail _) => apply kp_fail
    | |- kp (put_file _ _) => apply kp_put_file
    | |- kp (set_fd _) => apply kp_set_fd
    | |- kp (ask _ _) => apply kp_ask
    | |- kp (if ?b then _ else _) => destruct b
    | |- kp (let '(_, _) := ?b in _) => destruct b
    | |- kp (match ?b with _ => _ end) => destruct b
    end).
  all: try (now intros w).
  all: apply kp_still; first [apply still_raise | apply still_mem | apply still_write].
Qed.
Lemma kp_history Os w h : given (w_self (history Os w h)) = given (w_self w).
Proof.
  revert w. induction h as [|x h IH]; intros w; [reflexivity|]. change (history Os w (x :: h)) with (history Os (act Os w x) h). rewrite IH.
  destruct x as [f args|m p]; [apply kp_call|reflexivity].
Qed.
Lemma kp_close Os l : forall i, kp (close_from Os i l).
Proof.
  induction l as [|f l IH]; intros i; cbn [close_from]; [apply kp_ret|]. apply kp_bind; [|intros _; apply IH]. destruct (_ =? _); [apply kp_ret|].
  destruct (host_open f); [|apply kp_ret]. apply kp_bind; [|intros _; apply kp_put_file]. unfold ask_unit. apply kp_bind; [apply kp_ask|intros r].
  destruct r; try apply kp_ret; try apply kp_fail; now apply kp_still, still_raise.
Qed.
Lemma kp_forl {A} (f : A -> W unit) l : (forall x, kp (f x)) -> kp (forl f l).
Proof. intros K. induction l as [|x l IH]; cbn [forl]; [apply kp_ret|]. apply kp_bind; [apply K|intros _; exact IH]. Qed.
Lemma kp_finally Os : kp (main_finally Os).
Proof.
  unfold main_finally. apply kp_bind; [now intros w|intros p]. apply kp_bind; [|intros _; apply kp_close]. apply kp_forl. intros f.
  destruct (pipe f) as [i|]; [|apply kp_ret]. intros w. unfold rewind. now destruct (nth_error (w_pipes w) i).
Qed.
Lemma kp_preopen Os cwd l : kp (preopen Os cwd l).
Proof.
  induction l as [|[k v] l IH]; cbn [preopen]; [apply kp_ret|]. cbn zeta. apply kp_bind; [|intros h].
  - unfold ask_int. apply kp_bind; [apply kp_ask|intros r]. destruct r; try apply kp_ret; try apply kp_fail; now apply kp_still, still_raise.
  - apply kp_bind; [now intros w|intros p]. apply kp_bind; [apply kp_set_fd|intros _; exact IH].
Qed.
Lemma new_given Os cwd std args dirs envs w : 
  let p := w_self (snd (new_preview1 Os cwd std args dirs envs w)) in
  p_args p = args /\ p_envs p = map (fun '(k, v) => setting 61 k v) (sort_pairs (dict_of envs)) /\ p_return_on_exit p = true.
Proof.
  destruct std as [[[h0 n0] [h1 n1]] [h2 n2]]. cbv zeta. unfold new_preview1. cbn zeta. unfold bind at 1, set_self at 1.
  match goal with |- context [preopen Os cwd ?l ?w1] => pose proof (kp_preopen Os cwd l w1) as E end. unfold given in E at 2. cbn [w_self p_args p_envs p_return_on_exit p_dirs] in E.
  unfold given in E. injection E as E1 _ E3 E4. split; [exact E1|]. split; [exact E3|exact E4].
Qed.
Lemma lift_ok {A B} (a : A) (f : A -> W B) w : bind (lift (Ok a)) f w = f a w.
Proof. reflexivity. Qed.
(* main_wasi, after the options have been read *)
Lemma main_wasi_ends F Os cwd std n o file ds es w : pairs_of 58 (o_dirs o) = Ok ds -> pairs_of 61 (o_envs o) = Ok es ->
  let w1 := snd (new_preview1 Os cwd std (o_file o :: o_args o) ds es w) in
  let w' := snd (main_wasi F Os cwd std n o file w) in
  exists h, w' = history Os w1 h \/ w' = snd (main_finally Os (history Os w1 h)).
Proof.
  intros ED EE. cbv zeta. unfold main_wasi. rewrite ED, EE, !(lift_ok ds), !(lift_ok es).
  match goal with |- context [bind (new_preview1 _ _ _ _ _ _) ?f] => assert (forall a, ends Os (f a)) as K end.
  { intros _. apply ends_bind; [apply hist_mach|]. intros imps. apply ends_bind; [apply hist_lift|]. intros b. apply ends_bind; [apply hist_lift|]. intros md.
    apply ends_bind; [apply hist_mach|]. intros L. apply ends_bind; [apply hist_rt_instance|]. intros h w2.
    destruct (main_end F Os n h w2) as (l & _ & E). exists l. now right. }
  match goal with |- context [bind _ ?f] => set (g := f) in * end. unfold bind.
  destruct (new_preview1 Os cwd std (o_file o :: o_args o) ds es w) as [[u|e] w1]; cbn [snd]; [apply (K u w1)|exists []; now left].
Qed.
Lemma in_envs es s : NoDup (map fst es) -> In s (map (fun '(k, v) => setting 61 k v) (sort_pairs (dict_of es))) <-> exists k v, s = setting 61 k v /\ In (k, v) es.
Proof.
  intros N. rewrite (dict_of_id es N), in_map_iff. split.
  - intros ([k v] & <- & I). exists k, v. split; [reflexivity|]. now rewrite (sort_perm es) in I.
  - intros (k & v & -> & I). exists (k, v). split; [reflexivity|]. now rewrite (sort_perm es).
Qed.
Lemma envs_nodup es : NoDup (map fst es) -> (forall k v, In (k, v) es -> ~ In 61 k) -> NoDup (map (fun '(k, v) => setting 61 k v) (sort_pairs (dict_of es))).
Proof.
  intros N K. rewrite (dict_of_id es N). assert (NoDup (map fst (sort_pairs es))) as N' by now rewrite (Permutation_map fst (sort_perm es)).
  assert (forall k v, In (k, v) (sort_pairs es) -> ~ In 61 k) as K' by (intros k v I; rewrite (sort_perm es) in I; exact (K k v I)).
  revert N' K'. generalize (sort_pairs es). intros l. induction l as [|[k v] l IH]; intros N' K'; [constructor|]. cbn [map fst] in *. inversion N' as [|? ? N1 N2]; subst. constructor.
  - intros I. apply in_map_iff in I. destruct I as ([a b] & E & I). apply N1.
    destruct (setting_inj _ _ _ _ _ (K' a b (or_intror I)) (K' k v (or_introl eq_refl)) E) as [-> _]. now apply (in_map fst) in I.
  - apply IH; [exact N2|]. intros a b I. apply (K' a b). now right.
Qed.
Theorem environment F Os cwd std n o file w : all_settings 58 (o_dirs o) -> all_settings 61 (o_envs o) ->
  let p := w_self (snd (main_wasi F Os cwd std n o file w)) in
  p_args p = o_file o :: o_args o /\ NoDup (p_envs p) /\
  (forall s, In s (p_envs p) <-> exists k v, s = setting 61 k v /\ last_setting 61 (o_envs o) k v).
Proof.
  intros AD AE. cbv zeta. destruct (pairs_ok _ _ AD) as (pd & ED & _). destruct (pairs_ok _ _ AE) as (pe & EE & _).
  assert (pairs_of 58 (o_dirs o) = Ok (dict_of pd)) as ED' by (unfold pairs_of; now rewrite ED). assert (pairs_of 61 (o_envs o) = Ok (dict_of pe)) as EE' by (unfold pairs_of; now rewrite EE).
  destruct (main_wasi_ends F Os cwd std n o file _ _ w ED' EE') as (h & H). destruct (pairs_of_in _ _ _ EE') as [NE IE].
  set (w1 := snd (new_preview1 Os cwd std (o_file o :: o_args o) (dict_of pd) (dict_of pe) w)) in *.
  assert (given (w_self (snd (main_wasi F Os cwd std n o file w))) = given (w_self w1)) as G by (destruct H as [-> | ->]; [|rewrite kp_finally]; apply kp_history).
  injection G as G1 _ G3 _. rewrite G1, G3. destruct (new_given Os cwd std (o_file o :: o_args o) (dict_of pd) (dict_of pe) w) as (A & B & _). fold w1 in A, B. rewrite A, B.
  split; [reflexivity|]. split; [apply envs_nodup; [exact NE|]; intros k v I; apply IE in I; apply I|]. intros s. rewrite in_envs by exact NE.
  split; intros (k & v & -> & I); exists k, v; (split; [reflexivity|now apply IE]).
Qed.
Theorem malformed F Os cwd std n o file w : ~ (all_settings 58 (o_dirs o) /\ all_settings 61 (o_envs o)) ->
  main_wasi F Os cwd std n o file w = (Err EIndex, w).
Proof.
  intros H. unfold main_wasi. destruct (Forall_dec (In 58) (in_dec Z.eq_dec 58) (o_dirs o)) as [A|A].
  - destruct (pairs_ok _ _ A) as (pd & ED & _). assert (pairs_of 58 (o_dirs o) = Ok (dict_of pd)) as -> by (unfold pairs_of; now rewrite ED).
    unfold bind at 1, lift at 1. rewrite pairs_bad; [reflexivity|]. intros K. now apply H.
  - now rewrite pairs_bad.
Qed.
Lemma bind_eq {A B} (e : W A) (f g : A -> W B) : (forall a w, f a w = g a w) -> forall w, bind e f w = bind e g w.
Proof. intros H w. unfold bind. destruct (e w) as [[a|x] w1]; [apply H|reflexivity]. Qed.
(* the program that is run *)
Lemma main_wasi_program F Os cwd std n o b md ds es w : pairs_of 58 (o_dirs o) = Ok ds -> pairs_of 61 (o_envs o) = Ok es -> module_from_reader b = Ok md ->
  main_wasi F Os cwd std n o (Ok b) w = wasi_program F Os cwd std (o_file o :: o_args o) ds es n md w.
Proof.
  intros ED EE EM. unfold main_wasi, wasi_program. rewrite ED, EE. rewrite (lift_ok ds), (lift_ok es).
  apply bind_eq. intros _ w1. apply bind_eq. intros imps w2. rewrite (lift_ok b), EM, (lift_ok md). reflexivity.
Qed.

(* ---- directories ---- *)
Definition dir_of (cwd : name) (p : name * name) (e : file) : Prop :=
  wasm_open e = true /\ wasm_name e = normpath (fst p) /\ host_name e = abspath cwd (normpath (snd p)).
Lemma preopen_dirs Os cwd l : forall w w', preopen Os cwd l w = (Ok tt, w') ->
  exists fs, p_fd (w_self w') = p_fd (w_self w) ++ fs /\ Forall2 (dir_of cwd) l fs.
Proof.
  induction l as [|[k v] l IH]; intros w w' E; cbn [preopen] in E; [injection E as <-; exists []; split; [now rewrite app_nil_r|constructor]|].
  unfold bind at 1 in E. destruct (ask_int Os _ w) as [[h|x] w1] eqn:EA; [|discriminate].
  assert (w_self w1 = w_self w) as ES.
  { unfold ask_int, ask, bind in EA. destruct (Os _ _); try discriminate EA; injection EA as _ <-; reflexivity. }
  unfold bind at 1, self at 1 in E. unfold bind at 1 in E. unfold set_fd at 1, bind at 1, self at 1, set_self at 1 in E.
  match type of E with preopen _ _ _ ?x = _ => destruct (IH x w' E) as (fs & E1 & E2) end. cbn [w_self p_fd] in E1. rewrite ES in E1. rewrite <- app_assoc in E1.
  eexists. split; [exact E1|]. constructor; [|exact E2]. now repeat split.
Qed.
Lemma new_dirs Os cwd std args dirs envs w w' : new_preview1 Os cwd std args dirs envs w = (Ok tt, w') ->
  exists f0 f1 f2 fs, p_fd (w_self w') = f0 :: f1 :: f2 :: fs /\ Forall2 (dir_of cwd) (sort_pairs (dict_of (map (fun '(k, v) => (normpath k, normpath v)) dirs))) fs.
Proof.
  destruct std as [[[h0 n0] [h1 n1]] [h2 n2]]. unfold new_preview1. cbn zeta. unfold bind at 1, set_self at 1. intros E.
  destruct (preopen_dirs _ _ _ _ _ E) as (fs & E1 & E2). cbn [w_self p_fd app] in E1. now exists (std_file h0 n0 0 R_FD_READ), (std_file h1 n1 1 R_FD_WRITE), (std_file h2 n2 2 R_FD_WRITE), fs.
Qed.
Lemma forall2_in_r {A B} (R : A -> B -> Prop) l l' b : Forall2 R l l' -> In b l' -> exists a, In a l /\ R a b.
Proof. induction 1 as [|x y l l' H _ IH]; intros I; [contradiction|]. destruct I as [<-|I]; [exists x; split; [now left|exact H]|]. destruct (IH I) as (a & I1 & I2). exists a. split; [now right|exact I2]. Qed.
Lemma forall2_in_l {A B} (R : A -> B -> Prop) l l' a : Forall2 R l l' -> In a l -> exists b, In b l' /\ R a b.
Proof. induction 1 as [|x y l l' H _ IH]; intros I; [contradiction|]. destruct I as [<-|I]; [exists y; split; [now left|exact H]|]. destruct (IH I) as (b & I1 & I2). exists b. split; [now right|exact I2]. Qed.
Theorem directories Os cwd std args l ds envs w w' : pairs_of 58 l = Ok ds ->
  (forall k v, last_setting 58 l k v -> normpath k = k /\ normpath v = v /\ starts_with v [c_slash] = true) ->
  new_preview1 Os cwd std args ds envs w = (Ok tt, w') ->
  (forall k v, last_setting 58 l k v <-> exists fd e, 3 <= fd /\ is_open w' fd e /\ wasm_name e = k /\ host_name e = v) /\
  (forall fd fd' e e', 3 <= fd -> 3 <= fd' -> is_open w' fd e -> is_open w' fd' e' -> wasm_name e = wasm_name e' -> fd = fd').
Proof.
  intros ED C E. destruct (pairs_of_in _ _ _ ED) as [ND ID]. destruct (new_dirs _ _ _ _ _ _ _ _ E) as (f0 & f1 & f2 & fs & EF & D).
  assert (map (fun '(k, v) => (normpath k, normpath v)) ds = ds) as EN.
  { transitivity (map (fun x => x) ds); [|apply map_id]. apply map_ext_in. intros [k v] I. apply ID in I. destruct (C k v I) as (A & B & _). now rewrite A, B. }
  rewrite EN, (dict_of_id ds ND) in D.
  assert (forall k v e, In (k, v) (sort_pairs ds) -> dir_of cwd (k, v) e -> wasm_open e = true /\ wasm_name e = k /\ host_name e = v) as DE.
  { intros k v e I (D1 & D2 & D3). rewrite (sort_perm ds) in I. apply ID in I. destruct (C k v I) as (A & B & S). cbn [fst snd] in *. rewrite A in D2. rewrite B in D3.
    unfold abspath in D3. rewrite S, B in D3. now repeat split. }
  assert (forall fd e, 3 <= fd -> is_open w' fd e <-> nth_error fs (Z.to_nat (fd - 3)) = Some e /\ wasm_open e = true) as IO.
  { intros fd e H. unfold is_open, entry. rewrite EF. replace (Z.to_nat fd) with (S (S (S (Z.to_nat (fd - 3))))) by lia. cbn [nth_error]. intuition lia. }
  assert (map wasm_name fs = map fst (sort_pairs ds)) as EM.
  { revert DE D. generalize (sort_pairs ds). intros q DE D. induction D as [|[k v] e q fs' D1 D2 IH] in DE |- *; [reflexivity|]. cbn [map fst]. f_equal.
    - now destruct (DE k v e (or_introl eq_refl) D1) as (_ & -> & _).
    - apply IH. intros a b x I. apply DE. now right. }
  assert (NoDup (map wasm_name fs)) as NF by (rewrite EM; now rewrite (Permutation_map fst (sort_perm ds))).
  split.
  - intros k v. rewrite <- ID, <- (sort_perm ds). split.
    + intros I. destruct (forall2_in_l _ _ _ _ D I) as (e & I1 & I2). destruct (DE k v e I I2) as (A1 & A2 & A3). apply In_nth_error in I1. destruct I1 as (i & I1).
      exists (3 + Z.of_nat i), e. split; [lia|]. split; [|now split]. apply IO; [lia|]. split; [|exact A1]. now replace (Z.to_nat (3 + Z.of_nat i - 3)) with i by lia.
    + intros (fd & e & H & O & <- & <-). apply IO in O; [|exact H]. destruct O as [O _]. apply nth_error_In in O. destruct (forall2_in_r _ _ _ _ D O) as ([k v] & I1 & I2).
      destruct (DE k v e I1 I2) as (_ & -> & ->). exact I1.
  - intros fd fd' e e' H H' O O' EW. apply IO in O; [|exact H]. apply IO in O'; [|exact H']. destruct O as [O _]. destruct O' as [O' _].
    assert (Z.to_nat (fd - 3) = Z.to_nat (fd' - 3)) as EI; [|lia]. rewrite NoDup_nth_error in NF. apply NF.
    + apply nth_error_Some. rewrite nth_error_map, O. discriminate.
    + rewrite !nth_error_map, O, O'. cbn. congruence.
Qed.

(* ---- numbers ---- *)
Lemma len_cons {A} (x : A) l : len (x :: l) = 1 + len l.
Proof. unfold len. cbn [length]. lia. Qed.
Lemma digit_of d : 0 <= d <= 9 -> digit (48 + d) = Some d.
Proof. intros H. unfold digit. replace ((48 <=? 48 + d) && (48 + d <=? 57)) with true by (symmetry; apply andb_true_intro; split; apply Z.leb_le; lia). f_equal. lia. Qed.
Lemma digit_is c d : digit c = Some d -> c = 48 + d /\ 0 <= d <= 9.
Proof. unfold digit. destruct ((48 <=? c) && (c <=? 57)) eqn:E; [|discriminate]. intros [= <-]. lia. Qed.
Lemma digits_read ds : forall now n z, Forall (fun d => 0 <= d <= 9) ds -> (now = true -> ds <> []) ->
  digits_from now n z (map (fun d => 48 + d) ds) = Ok (n + len ds, z * 10 ^ len ds + place_value ds).
Proof.
  induction ds as [|d ds IH]; intros now n z H K; cbn [map digits_from].
  - destruct now; [now destruct (K eq_refl)|]. unfold len. cbn. f_equal. f_equal; lia.
  - inversion H as [|? ? H1 H2]; subst. rewrite (digit_of d H1), IH; [|exact H2|discriminate]. rewrite len_cons. cbn [place_value]. f_equal. f_equal; [lia|].
    rewrite Z.pow_add_r by (unfold len; lia). change (10 ^ 1) with 10. lia.
Qed.
Lemma digits_found s : forall now n z n' z', digits_from now n z s = Ok (n', z') ->
  exists ds, without_underscores s = map (fun d => 48 + d) ds /\ Forall (fun d => 0 <= d <= 9) ds /\ n' = n + len ds /\ z' = z * 10 ^ len ds + place_value ds /\ (now = true -> ds <> []).
Proof.
  induction s as [|c s IH]; intros now n z n' z' E; cbn [digits_from] in E.
  - destruct now; [discriminate|]. injection E as <- <-. exists []. unfold len. cbn. repeat split; try easy; try lia.
  - destruct (digit c) as [d|] eqn:D.
    + apply digit_is in D. destruct D as [-> D]. destruct (IH _ _ _ _ _ E) as (ds & E1 & E2 & -> & -> & _). exists (d :: ds). unfold without_underscores in *. cbn [filter].
      replace (48 + d =? 95) with false by (symmetry; apply Z.eqb_neq; lia). cbn [negb map]. rewrite E1. rewrite len_cons. cbn [place_value]. split; [reflexivity|]. split; [now constructor|].
      split; [lia|]. split; [|discriminate]. rewrite Z.pow_add_r by (unfold len; lia). change (10 ^ 1) with 10. lia.
    + destruct ((c =? 95) && negb now) eqn:U; [|discriminate]. apply andb_prop in U. destruct U as [U1 U2]. destruct (IH _ _ _ _ _ E) as (ds & E1 & E2 & -> & -> & E5). exists ds.
      unfold without_underscores in *. cbn [filter]. rewrite U1. cbn [negb]. split; [exact E1|]. split; [exact E2|]. split; [reflexivity|]. split; [reflexivity|]. intros _. now apply E5.
Qed.
Lemma is_space_iff c : is_space c = true <-> space c.
Proof. unfold is_space, space. rewrite orb_true_iff, andb_true_iff, Z.eqb_eq, !Z.leb_le. reflexivity. Qed.
Lemma lstrip_cut s : exists pre, s = pre ++ lstrip s /\ Forall space pre.
Proof.
  induction s as [|c s IH]; [now exists []|]. cbn [lstrip]. destruct (is_space c) eqn:E; [|now exists []]. destruct IH as (pre & E1 & E2). exists (c :: pre). cbn [app]. rewrite <- E1.
  split; [reflexivity|]. constructor; [now apply is_space_iff|exact E2].
Qed.
Lemma strip_cut s : exists pre suf, s = pre ++ strip s ++ suf /\ Forall space pre /\ Forall space suf.
Proof.
  unfold strip. destruct (lstrip_cut s) as (pre & E1 & P1). destruct (lstrip_cut (rev (lstrip s))) as (suf & E2 & P2). exists pre, (rev suf). split; [|split; [exact P1|now apply Forall_rev]].
  rewrite <- rev_app_distr, <- E2, rev_involutive. exact E1.
Qed.
Lemma lstrip_none s : (forall c s', s = c :: s' -> ~ space c) -> lstrip s = s.
Proof. destruct s as [|c s]; intros H; [reflexivity|]. cbn [lstrip]. destruct (is_space c) eqn:E; [|reflexivity]. apply is_space_iff in E. now destruct (H c s eq_refl). Qed.
Lemma strip_none s : Forall (fun c => ~ space c) s -> strip s = s.
Proof.
  intros H. unfold strip. rewrite (lstrip_none s), (lstrip_none (rev s)), rev_involutive; [reflexivity| |].
  - intros c s' E. apply Forall_rev in H. rewrite E in H. now inversion H.
  - intros c s' ->. now inversion H.
Qed.
Definition read_digits (s : name) : res Z := let? nz := digits_from true 0 0 s in if fst nz <=? 4300 then Ok (snd nz) else Err EValue.
Lemma py_int_cases s : py_int s =
  match strip s with
  | c :: s' => if c =? 45 then let? z := read_digits s' in Ok (- z) else if c =? 43 then read_digits s' else read_digits (c :: s')
  | [] => read_digits []
  end.
Proof.
  unfold py_int, read_digits. destruct (strip s) as [|c s']; [reflexivity|].
  destruct (c =? 45) eqn:E1; [apply Z.eqb_eq in E1; now subst|]. destruct (c =? 43) eqn:E2; [apply Z.eqb_eq in E2; now subst|].
  apply Z.eqb_neq in E1, E2. destruct c as [|p|p]; try reflexivity. do 7 (destruct p as [p|p|]; try reflexivity; try congruence).
Qed.
Theorem numeral_read s z : numeral s z -> py_int s = Ok z.
Proof.
  intros (sign & ds & -> & H & L & S). 
  assert (Forall (fun c => ~ space c) (map (fun d => 48 + d) ds)) as NS.
  { apply Forall_map. eapply Forall_impl; [|exact H]. cbn beta. unfold space. intros a A. lia. }
  assert (read_digits (map (fun d => 48 + d) ds) = Ok (place_value ds)) as RD.
  { unfold read_digits. rewrite digits_read; [|exact H|]. 2:{ intros _ ->. unfold len in L. cbn in L. lia. }
    cbn [rbind fst snd]. replace (0 + len ds <=? 4300) with true by (symmetry; apply Z.leb_le; lia). f_equal. }
  destruct ds as [|d ds]; [unfold len in L; cbn in L; lia|]. rewrite py_int_cases, strip_none.
  2:{ apply Forall_app. split; [|exact NS]. destruct S as [[-> _]|[[-> _]|[-> _]]]; repeat constructor; unfold space; lia. }
  inversion H as [|? ? H1 H2]; subst. destruct S as [[-> ->]|[[-> ->]|[-> ->]]]; cbn [app] in *.
  - cbn [map] in *. replace (48 + d =? 45) with false by (symmetry; apply Z.eqb_neq; lia). replace (48 + d =? 43) with false by (symmetry; apply Z.eqb_neq; lia). exact RD.
  - exact RD.
  - change (45 =? 45) with true. cbn iota. now rewrite RD.
Qed.
Theorem numeral_only s z : py_int s = Ok z -> exists pre mid suf, s = pre ++ mid ++ suf /\ Forall space pre /\ Forall space suf /\ numeral (without_underscores mid) z.
Proof.
  intros E. destruct (strip_cut s) as (pre & suf & ES & P1 & P2). exists pre, (strip s), suf. split; [exact ES|]. split; [exact P1|]. split; [exact P2|]. rewrite py_int_cases in E.
  assert (forall q y, read_digits q = Ok y -> exists ds, without_underscores q = map (fun d => 48 + d) ds /\ Forall (fun d => 0 <= d <= 9) ds /\ 1 <= len ds <= 4300 /\ y = place_value ds) as RD.
  { intros q y R. unfold read_digits in R. destruct (digits_from true 0 0 q) as [[n' z']|] eqn:D; [|discriminate]. cbn [rbind fst snd] in R. destruct (n' <=? 4300) eqn:L; [|discriminate]. injection R as <-.
    destruct (digits_found _ _ _ _ _ _ D) as (ds & E1 & E2 & -> & -> & E5). exists ds. split; [exact E1|]. split; [exact E2|]. split; [|reflexivity]. specialize (E5 eq_refl).
    apply Z.leb_le in L. destruct ds; [easy|]. rewrite len_cons in *. unfold len in *. lia. }
  destruct (strip s) as [|c s']; [discriminate E|]. destruct (c =? 45) eqn:E1; [|destruct (c =? 43) eqn:E2].
  - apply Z.eqb_eq in E1. subst c. destruct (read_digits s') as [y|] eqn:R; [|discriminate]. cbn [rbind] in E. injection E as <-. destruct (RD _ _ R) as (ds & D1 & D2 & D3 & ->).
    exists [45], ds. split; [change (without_underscores (45 :: s')) with (45 :: without_underscores s'); now rewrite D1|]. split; [exact D2|]. split; [exact D3|]. right. right. easy.
  - apply Z.eqb_eq in E2. subst c. destruct (RD _ _ E) as (ds & D1 & D2 & D3 & ->). exists [43], ds. split; [change (without_underscores (43 :: s')) with (43 :: without_underscores s'); now rewrite D1|]. split; [exact D2|]. split; [exact D3|]. right. left. easy.
  - destruct (RD _ _ E) as (ds & D1 & D2 & D3 & ->). exists [], ds. split; [exact D1|]. split; [exact D2|]. split; [exact D3|]. now left.
Qed.

(* ---- vectors ---- *)
Lemma hexdigit_char d : 0 <= d < 16 -> hexdigit (hex_char d) = Some d /\ is_space (hex_char d) = false.
Proof.
  intros H. unfold hex_char, hexdigit, is_space. destruct (d <? 10) eqn:E.
  - replace ((48 <=? 48 + d) && (48 + d <=? 57)) with true by (symmetry; apply andb_true_intro; split; apply Z.leb_le; lia). split; [f_equal; lia|]. apply orb_false_intro; [apply Z.eqb_neq; lia|apply andb_false_intro2, Z.leb_gt; lia].
  - replace ((48 <=? 87 + d) && (87 + d <=? 57)) with false by (symmetry; apply andb_false_intro2, Z.leb_gt; lia).
    replace ((65 <=? 87 + d) && (87 + d <=? 70)) with false by (symmetry; apply andb_false_intro2, Z.leb_gt; lia).
    replace ((97 <=? 87 + d) && (87 + d <=? 102)) with true by (symmetry; apply andb_true_intro; split; apply Z.leb_le; lia). split; [f_equal; lia|]. apply orb_false_intro; [apply Z.eqb_neq; lia|apply andb_false_intro2, Z.leb_gt; lia].
Qed.
Lemma fromhex_hex b : Forall (fun x => 0 <= x < 256) b -> fromhex (hex b) = Ok b.
Proof.
  induction 1 as [|x b H _ IH]; [reflexivity|]. unfold hex. cbn [flat_map app]. fold (hex b). cbn [fromhex].
  destruct (hexdigit_char (x / 16)) as [A1 A2]; [split; [apply Z.div_pos; lia|apply Z.div_lt_upper_bound; lia]|]. destruct (hexdigit_char (x mod 16)) as [B1 _]; [apply Z.mod_pos_bound; lia|].
  rewrite A2, A1, B1, IH. cbn [rbind]. do 2 f_equal. rewrite <- Z.div_mod; lia.
Qed.

(* ---- the call ---- *)
Lemma argument_written fl t s p : written fl t s p -> argument fl t s = Ok p.
Proof.
  intros H. destruct H as [s z H|s z H|s x H|s x H|b H]; cbn [argument].
  - now rewrite (numeral_read s z H).
  - now rewrite (numeral_read s z H).
  - now rewrite H.
  - now rewrite H.
  - cbn [skipn]. now rewrite fromhex_hex.
Qed.
Lemma arguments_written fl ts ss ps : all_written fl ts ss ps -> rmapl (fun '(t, s) => argument fl t s) (combine ts ss) = Ok ps /\ length ts = length ss.
Proof.
  induction 1 as [|t ts s ss p ps H _ [IH1 IH2]]; [easy|]. cbn [combine rmapl length]. rewrite (argument_written _ _ _ _ H). cbn [rbind]. rewrite IH1. split; [reflexivity|now rewrite IH2].
Qed.
Lemma wbind {S A B} (e : ST S A) (f : A -> ST S B) s a s1 : e s = (Ok a, s1) -> bind e f s = f a s1.
Proof. intros E. unfold bind. now rewrite E. Qed.
Lemma fbind {S A B} (e : ST S A) (f : A -> ST S B) s x s1 : e s = (Err x, s1) -> bind e f s = (Err x, s1).
Proof. intros E. unfold bind. now rewrite E. Qed.
Lemma main_wasm_found F fl n o b m h f m' : found F n o b m h f m' ->
  main_wasm F fl n o (Ok b) m =
    (assert (len (ft_args (fi_type f)) =? len (o_func_args o)) ;;
     let! args := lift (rmapl (fun '(t, s) => argument fl t s) (combine (ft_args (fi_type f)) (o_func_args o))) in
     rt_invocate F no_host n h (o_func o) args) m'.
Proof.
  intros (md & L & m1 & e & E1 & E2 & E3 & E4 & E5). unfold main_wasm. rewrite (wbind (lift (Ok b)) _ m b m eq_refl).
  assert (lift (module_from_reader b) m = (Ok md, m)) as X by (unfold lift; now rewrite E1). rewrite (wbind _ _ _ _ _ X). clear X.
  rewrite (wbind _ _ _ _ _ E2), (wbind _ _ _ _ _ E3), (wbind mget _ m' m' m' eq_refl).
  assert (lift (find_export (mod_of (k_store m') (MRef h)) (o_func o)) m' = (Ok e, m')) as X by (unfold lift; now rewrite E4). rewrite (wbind _ _ _ _ _ X). clear X.
  assert (lift (py_index (s_func (k_store m')) (Store.e_data e)) m' = (Ok f, m')) as X by (unfold lift; now rewrite E5). now rewrite (wbind _ _ _ _ _ X).
Qed.
Theorem call_made F fl n o b m h f m' ps : found F n o b m h f m' -> all_written fl (ft_args (fi_type f)) (o_func_args o) ps ->
  main_wasm F fl n o (Ok b) m = rt_invocate F no_host n h (o_func o) ps m'.
Proof.
  intros H W. destruct (arguments_written _ _ _ _ W) as [A1 A2]. rewrite (main_wasm_found _ _ _ _ _ _ _ _ _ H).
  replace (len (ft_args (fi_type f)) =? len (o_func_args o)) with true by (symmetry; apply Z.eqb_eq; unfold len; now rewrite A2).
  rewrite (wbind _ _ m' tt m' eq_refl). rewrite A1. reflexivity.
Qed.

(* ---- refusals ---- *)
Lemma hexdigit_is c d : hexdigit c = Some d -> lower c = hex_char d /\ 0 <= d < 16 /\ is_space c = false.
Proof.
  unfold hexdigit, lower, hex_char, is_space. destruct ((48 <=? c) && (c <=? 57)) eqn:E1; [intros [= <-]|destruct ((65 <=? c) && (c <=? 70)) eqn:E2; [intros [= <-]|destruct ((97 <=? c) && (c <=? 102)) eqn:E3; [intros [= <-]|discriminate]]].
  - replace ((65 <=? c) && (c <=? 70)) with false by lia. replace (c - 48 <? 10) with true by lia. lia.
  - replace (c - 55 <? 10) with false by lia. lia.
  - replace ((65 <=? c) && (c <=? 70)) with false by lia. replace (c - 87 <? 10) with false by lia. lia.
Qed.
Lemma fromhex_reads k : forall s b, (length s <= k)%nat -> fromhex s = Ok b -> map lower (without_spaces s) = hex b.
Proof.
  induction k as [|k IH]; intros s b L E; (destruct s as [|c s]; [cbn in E; injection E as <-; reflexivity|cbn [length] in L]); [lia|].
  cbn [fromhex] in E. unfold without_spaces. cbn [filter]. fold (without_spaces s). change ((c =? 32) || ((9 <=? c) && (c <=? 13))) with (is_space c).
  destruct (is_space c) eqn:S; cbn [negb].
  - apply IH; [lia|exact E].
  - destruct (hexdigit c) as [x|] eqn:H1; [|discriminate]. destruct s as [|c' s]; [discriminate|]. destruct (hexdigit c') as [y|] eqn:H2; [|discriminate].
    destruct (fromhex s) as [l|] eqn:E1; [|discriminate]. cbn [rbind] in E. apply Ok_inj in E. subst b. cbn [length] in L.
    apply hexdigit_is in H1, H2. destruct H1 as (H1 & R1 & _). destruct H2 as (H2 & R2 & S2). unfold without_spaces. cbn [filter].
    fold (without_spaces s). change ((c' =? 32) || ((9 <=? c') && (c' <=? 13))) with (is_space c'). rewrite S2. cbn [negb map]. rewrite H1, H2, (IH s l) by (lia || assumption).
    unfold hex. cbn [flat_map app]. fold (hex l).
    replace ((16 * x + y) / 16) with x by (apply (Z.div_unique _ _ _ y); lia).
    now replace ((16 * x + y) mod 16) with y by (apply (Z.mod_unique _ _ x); lia).
Qed.
Lemma fromhex_bytes k : forall s b, (length s <= k)%nat -> fromhex s = Ok b -> Forall (fun x => 0 <= x < 256) b.
Proof.
  induction k as [|k IH]; intros s b L E; (destruct s as [|c s]; [cbn in E; injection E as <-; constructor|cbn [length] in L]); [lia|].
  cbn [fromhex] in E. destruct (is_space c); [apply (IH s); [lia|exact E]|].
  destruct (hexdigit c) as [x|] eqn:H1; [|discriminate]. destruct s as [|c' s]; [discriminate|]. destruct (hexdigit c') as [y|] eqn:H2; [|discriminate].
  destruct (fromhex s) as [l|] eqn:E1; [|discriminate]. cbn [rbind] in E. apply Ok_inj in E. subst b. cbn [length] in L. apply hexdigit_is in H1, H2.
  constructor; [lia|apply (IH s); [lia|exact E1]].
Qed.
Lemma argument_reads F fl t s p v : argument fl t s = Ok p -> from_all F t p = Ok v -> reads fl t s p /\ of_kind t p.
Proof.
  intros E V. destruct t; cbn [argument] in E; try discriminate.
  - destruct (py_int s) as [z|] eqn:P; [|discriminate]. injection E as <-. apply numeral_only in P. destruct P as (pre & mid & suf & -> & P1 & P2 & P3).
    split; [now constructor|]. cbn [from_all] in V. now apply from_i32_inv in V.
  - destruct (py_int s) as [z|] eqn:P; [|discriminate]. injection E as <-. apply numeral_only in P. destruct P as (pre & mid & suf & -> & P1 & P2 & P3).
    split; [now constructor|]. cbn [from_all] in V. now apply from_i64_inv in V.
  - destruct (fl s) as [x|] eqn:P; [|discriminate]. injection E as <-. split; [now constructor|exact I].
  - destruct (fl s) as [x|] eqn:P; [|discriminate]. injection E as <-. split; [now constructor|exact I].
  - destruct (fromhex (skipn 2 s)) as [b|] eqn:P; [|discriminate]. injection E as <-. cbn [from_all] in V. unfold from_v128 in V. destruct (len b =? 16) eqn:LB; [|discriminate]. apply Z.eqb_eq in LB.
    split; [|split; [exact LB|exact (fromhex_bytes _ _ _ (le_n _) P)]].
    destruct s as [|c [|d s]]; cbn [skipn] in P; try (cbn in P; injection P as <-; discriminate LB). constructor. exact (fromhex_reads _ _ _ (le_n _) P).
Qed.
Lemma from_alls_nth F ts ps vs : from_alls F ts ps = Ok vs -> forall i t p, nth_error ts i = Some t -> nth_error ps i = Some p -> exists v, from_all F t p = Ok v.
Proof.
  unfold from_alls. revert ps vs. induction ts as [|t ts IH]; intros [|p ps] vs E [|i] t' p' H1 H2; try discriminate; cbn [combine rmapl nth_error] in *.
  - injection H1 as ->. injection H2 as ->. destruct (from_all F t' p') as [v|]; [now exists v|discriminate].
  - destruct (from_all F t p) as [v|]; [|discriminate]. cbn [rbind] in E. destruct (rmapl _ (combine ts ps)) as [vs'|] eqn:E'; [|discriminate]. exact (IH _ _ E' i _ _ H1 H2).
Qed.
Lemma arguments_nth fl ts : forall ss ps, rmapl (fun '(t, s) => argument fl t s) (combine ts ss) = Ok ps ->
  forall i t s, nth_error ts i = Some t -> nth_error ss i = Some s -> exists p, nth_error ps i = Some p /\ argument fl t s = Ok p.
Proof.
  induction ts as [|t ts IH]; intros [|s ss] ps E [|i] t' s' H1 H2; try discriminate; cbn [combine rmapl nth_error] in *.
  - injection H1 as ->. injection H2 as ->. destruct (argument fl t' s') as [p|] eqn:A; [|discriminate]. cbn [rbind] in E. destruct (rmapl _ _) as [q|]; [|discriminate]. injection E as <-. now exists p.
  - destruct (argument fl t s) as [p|] eqn:A; [|discriminate]. cbn [rbind] in E. destruct (rmapl _ _) as [q|] eqn:Q; [|discriminate]. injection E as <-. exact (IH _ _ Q i _ _ H1 H2).
Qed.
Theorem refused F fl n o b m h f m' : found F n o b m h f m' -> unsuitable fl (ft_args (fi_type f)) (o_func_args o) ->
  exists e, main_wasm F fl n o (Ok b) m = (Err e, m').
Proof.
  intros H U. rewrite (main_wasm_found _ _ _ _ _ _ _ _ _ H).
  destruct (len (ft_args (fi_type f)) =? len (o_func_args o)) eqn:EL; [|exists EAssert; reflexivity]. rewrite (wbind _ _ m' tt m' eq_refl).
  destruct U as [U|(i & t & s & U1 & U2 & U3)]; [exfalso; apply Z.eqb_eq in EL; unfold len in EL; lia|].
  destruct (rmapl (fun '(t, s) => argument fl t s) (combine (ft_args (fi_type f)) (o_func_args o))) as [ps|e] eqn:EA; [|exists e; reflexivity]. rewrite (wbind _ _ m' ps m' eq_refl).
  destruct H as (md & L & m1 & e & _ & _ & _ & E4 & E5). unfold rt_invocate. rewrite (wbind mget _ m' m' m' eq_refl).
  assert (lift (find_export (mod_of (k_store m') (MRef h)) (o_func o)) m' = (Ok e, m')) as X by (unfold lift; now rewrite E4). rewrite (wbind _ _ _ _ _ X). clear X.
  assert (lift (py_index (s_func (k_store m')) (Store.e_data e)) m' = (Ok f, m')) as X by (unfold lift; now rewrite E5). rewrite (wbind _ _ _ _ _ X). clear X.
  destruct (len (ft_args (fi_type f)) =? len ps) eqn:EP; [|exists EAssert; reflexivity]. rewrite (wbind _ _ m' tt m' eq_refl).
  destruct (from_alls F (ft_args (fi_type f)) ps) as [vs|x] eqn:EV; [|exists x; reflexivity]. exfalso.
  destruct (arguments_nth _ _ _ _ EA i t s U1 U2) as (p & P1 & P2). destruct (from_alls_nth _ _ _ _ EV i t p U1 P1) as (v & V).
  destruct (argument_reads F fl t s p v P2 V) as [R K]. exact (U3 p R K).
Qed.

(* ---- exit status ---- *)
Lemma set_up_main F Os cwd std n o b w h w' : set_up F Os cwd std n o b w h w' ->
  main_wasi F Os cwd std n o (Ok b) w = run_main F Os n h w'.
Proof.
  intros (ds & es & md & imps & L & w1 & w2 & w3 & E1 & E2 & E3 & E4 & E5 & E6 & E7). unfold main_wasi. rewrite E1, E2, (lift_ok ds), (lift_ok es).
  rewrite (wbind _ _ _ _ _ E3), (wbind _ _ _ _ _ E4), (lift_ok b), E5, (lift_ok md), (wbind _ _ _ _ _ E6), (wbind _ _ _ _ _ E7). reflexivity.
Qed.
Lemma mach_self {A} (e : M A) w r w1 : mach e w = (r, w1) -> w_self w1 = w_self w.
Proof. unfold mach. destruct (e (w_mach w)) as [x m]. now intros [= _ <-]. Qed.
Lemma set_up_roe F Os cwd std n o b w h w' : set_up F Os cwd std n o b w h w' -> p_return_on_exit (w_self w') = true.
Proof.
  intros (ds & es & md & imps & L & w1 & w2 & w3 & E1 & E2 & E3 & E4 & E5 & E6 & E7).
  pose proof (new_given Os cwd std (o_file o :: o_args o) ds es w) as (_ & _ & R). rewrite E3 in R. cbn [snd] in R.
  pose proof (mach_self _ _ _ _ E4) as S2. pose proof (mach_self _ _ _ _ E6) as S3.
  rewrite <- R, <- S2, <- S3. destruct (hist_rt_instance F Os n imps L w3) as [l E]. rewrite E7 in E. cbn [snd] in E. subst w'.
  pose proof (kp_history Os w3 l) as K. unfold given in K. now injection K.
Qed.
Theorem statuses F Os fl cwd std n o b w h w' w'' : never_exits Os -> o_wasi o = true -> set_up F Os cwd std n o b w h w' ->
  main_finally Os (snd (main_try F Os n h w')) = (Ok tt, w'') ->
  let x := fst (command F Os fl cwd std n o (Ok b) w) in
  (forall c, exits F Os n h w' c -> status x = c mod 256) /\
  (forall rs, fst (wrt_invocate F Os n h n_start [] w') = Ok rs -> status x = 0) /\
  (forall e, fst (wrt_invocate F Os n h n_start [] w') = Err e -> (forall c, ~ exits F Os n h w' c) -> status x = 1).
Proof.
  intros NE OW SU EF. pose proof (set_up_roe _ _ _ _ _ _ _ _ _ _ SU) as R. cbv zeta. unfold command. rewrite OW, (set_up_main _ _ _ _ _ _ _ _ _ _ SU).
  pose proof (invocate_out F Os NE n h w' R) as O. destruct (main_cases F Os NE n h w' R) as (A & B & _). unfold run_main. destruct (main_try F Os n h w') as [r w1]. cbn [snd fst] in *. rewrite EF.
  split; [|split].
  - intros c X. assert (r = Ok c) as -> by (apply A; now right). reflexivity.
  - intros rs X. assert (r = Ok 0) as -> by (apply A; left; split; [reflexivity|now exists rs]). reflexivity.
  - intros e X N. assert (r = Err e) as -> by (apply B; now split). cbn [fst status]. destruct (wrt_invocate F Os n h n_start [] w') as [[rs|x] w2]; cbn [fst] in X; [discriminate|]. injection X as ->.
    destruct e; try reflexivity. destruct O as [[] _].
Qed.
