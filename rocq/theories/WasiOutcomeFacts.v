(* What main returns, and the stacks after it. *)
From Coq Require Import ZArith List Bool Lia.
From Verif Require Import Py Arith Floatops Val Opcode Numeric Syntax Store Basic Machine Utf8 Os Wasi WasiRun SpecInt SpecNum SpecMachine SpecControl SpecWasi SpecWasiRun
  PyFacts WasiRunFacts NoExitFacts.
Import ListNotations.
Open Scope Z_scope.

Section main.
Variables (F : fops) (Os : os).
Hypothesis NE : never_exits Os.

Definition exit_turn (w : world) (c : Z) : Prop :=
  exists hid nm t t' m, host_turn F (w_mach w) = Some (hid, [PInt c], t, m) /\ nth_error wasi_methods hid = Some (nm, t', F_proc_exit).
Lemma exit_turn_asks w c : exit_turn w c <-> asks_exit F (w_mach w) c.
Proof.
  pose proof (host_turn_spec F (w_mach w)) as T. split.
  - intros (hid & nm & t & t' & m & H & N). rewrite H in T. exists hid, nm, t', m. split; [exact N|]. intros host e m' E. rewrite T. unfold plug, bind. now rewrite E.
  - intros (hid & nm & t & m0 & N & A). destruct (host_turn F (w_mach w)) as [[[[hid' ps] t'] m2]|] eqn:EH.
    + pose (host := fun (i : nat) (ps : list pyval) (m : machine) => (Err (if (Nat.eqb i hid && match ps with [PInt z] => z =? c | _ => false end)%bool then EHost 1 else EHost 2) : res (list pyval), m)).
      assert (host hid [PInt c] m0 = (Err (EHost 1), m0)) as E by (unfold host; now rewrite Nat.eqb_refl, Z.eqb_refl).
      apply A in E. rewrite T in E. unfold plug, bind, host in E. apply (f_equal fst) in E. cbn [fst] in E.
      destruct (Nat.eqb_spec hid' hid) as [->|]; [|discriminate E]. cbn [andb] in E. destruct ps as [|[z|?|?|] [|? ?]]; try discriminate E.
      destruct (Z.eqb_spec z c) as [->|]; [|discriminate E]. now exists hid, nm, t', t, m2.
    + exfalso. pose proof (A (fun _ _ m => (Err (EHost 1), m)) _ _ eq_refl) as E1. pose proof (A (fun _ _ m => (Err (EHost 2), m)) _ _ eq_refl) as E2.
      rewrite (T _ (fun _ _ m => (Err (EHost 2), m))) in E1. rewrite E1 in E2. discriminate.
Qed.
Lemma wx_mach {A} (e : M A) : nxs e -> wx (mach e).
Proof. intros H w. unfold mach. specialize (H (w_mach w)). destruct (e (w_mach w)) as [r m]. split; [exact H|reflexivity]. Qed.
Lemma as_ints ps zs : rmapl as_int ps = Ok zs -> ps = map PInt zs.
Proof.
  revert zs. induction ps as [|p ps IH]; intros zs H; cbn [rmapl] in H; [apply Ok_inj in H; now subst|].
  destruct p as [z|?|?|]; try discriminate. cbn [as_int rbind] in H. destruct (rmapl as_int ps) as [l|] eqn:E; [|discriminate]. cbn [rbind] in H. apply Ok_inj in H. subst zs.
  cbn [map]. f_equal. now apply IH.
Qed.
Lemma turn_out w : roe (snd (wturn F Os w)) = roe w /\
  match fst (wturn F Os w) with Ok _ => True | Err e => no_exit e \/ exists c, exit_turn w c /\ e = if roe w then ESystemExit c else EExit c end.
Proof.
  assert (G : forall e : W unit, wx e -> forall w0, roe w0 = roe w -> roe (snd (e w0)) = roe w /\
    match fst (e w0) with Ok _ => True | Err x => no_exit x \/ exists c, exit_turn w c /\ x = if roe w then ESystemExit c else EExit c end).
  { intros e H w0 R. destruct (H w0) as [H1 H2]. split; [now rewrite H2|]. destruct (fst (e w0)); [exact I|now left]. }
  unfold wturn. destruct (host_turn F (w_mach w)) as [[[[hid ps] t] m]|] eqn:E.
  2:{ apply G; [|reflexivity]. apply wx_mach, ns_step. intros ? ? ?. exact I. }
  unfold wasi_host. destruct (nth_error wasi_methods hid) as [[[nm t'] f]|] eqn:EN; [|apply G; [apply wx_bind; [now apply wx_fail|]|]; try reflexivity].
  2:{ intros. apply wx_bind; [apply wx_lift, nx_from_alls|]. intros. apply wx_mach. ns. }
  destruct (rmapl as_int ps) as [zs|x] eqn:EP.
  2:{ split; [reflexivity|]. left. assert (nx (rmapl as_int ps)) as K by (apply nx_mapl; intros []; exact I). rewrite EP in K. exact K. }
  assert (f = F_proc_exit \/ f <> F_proc_exit) as [->|NF] by (destruct f; try (right; discriminate); now left).
  - assert (X : forall rs w1, wasi_call Os F_proc_exit zs (with_mach w m) <> (Ok rs, w1)) by (intros; apply exit_never).
    unfold bind. cbn [lift]. destruct zs as [|z [|z' zs]].
    + cbn [wasi_call]. split; [reflexivity|]. left. exact I.
    + rewrite exit_call. cbn [fst snd]. split; [reflexivity|]. right. exists z. split; [|reflexivity]. exists hid, nm, t, t', m. split; [|exact EN]. rewrite E. now rewrite (as_ints _ _ EP).
    + cbn [wasi_call]. split; [reflexivity|]. left. exact I.
  - apply G; [|reflexivity]. apply wx_bind; [|intros; apply wx_bind; [apply wx_lift, nx_from_alls|]; intros; apply wx_mach; ns].
    apply wx_bind; [apply wx_lift; exact I|]. intros l. apply wx_bind; [now apply wx_call|]. intros. apply wx_ret.
Qed.
Lemma evaluate_roe n : forall w, roe (snd (wevaluate F Os n w)) = roe w.
Proof.
  induction n as [|n IH]; intros w; cbn [wevaluate]; [reflexivity|]. destruct (k_label (w_mach w)); [reflexivity|]. unfold bind. destruct (turn_out w) as [R _].
  destruct (wturn F Os w) as [[u|e] w1]; cbn [fst snd] in *; [|exact R]. now rewrite IH.
Qed.
Lemma evaluate_out n : forall w e w', roe w = true -> wevaluate F Os n w = (Err e, w') ->
  no_exit e \/ exists c k w1, e = ESystemExit c /\ (k < n)%nat /\ wevaluate F Os k w = (Ok tt, w1) /\ k_label (w_mach w1) <> [] /\ exit_turn w1 c.
Proof.
  induction n as [|n IH]; intros w e w' R H; cbn [wevaluate] in H; [discriminate|]. destruct (k_label (w_mach w)) as [|lb ls] eqn:EL; [discriminate|].
  destruct (turn_out w) as [R1 T]. unfold bind in H. destruct (wturn F Os w) as [[u|x] w1] eqn:E; cbn [fst snd] in *.
  - rewrite R in R1. destruct (IH w1 e w' R1 H) as [N|(c & k & w2 & -> & K & E2 & L2 & X)]; [now left|]. right. exists c, (S k), w2. split; [reflexivity|]. split; [lia|].
    split; [|now split]. cbn [wevaluate]. rewrite EL. unfold bind. now rewrite E.
  - injection H as <- <-. destruct T as [N|(c & X & EX)]; [now left|]. right. rewrite R in EX. exists c, 0%nat, w. split; [exact EX|]. split; [lia|]. split; [reflexivity|]. split; [congruence|exact X].
Qed.
Lemma exit_turn_out w c : roe w = true -> exit_turn w c -> fst (wturn F Os w) = Err (ESystemExit c).
Proof.
  intros R (hid & nm & t & t' & m & E & N). unfold wturn, wasi_host, bind. rewrite E, N. cbn [rmapl as_int rbind lift]. rewrite exit_call. unfold roe in *. cbn [with_mach w_self]. now rewrite R.
Qed.
Lemma evaluate_exit k : forall n w w1 c, roe w = true -> (k < n)%nat -> wevaluate F Os k w = (Ok tt, w1) -> k_label (w_mach w1) <> [] -> exit_turn w1 c ->
  fst (wevaluate F Os n w) = Err (ESystemExit c).
Proof.
  induction k as [|k IH]; intros n w w1 c R K H L X; (destruct n as [|n]; [lia|]); cbn [wevaluate].
  - cbn [wevaluate] in H. injection H as <-. destruct (k_label (w_mach w)); [congruence|]. unfold bind. pose proof (exit_turn_out w c R X) as E. destruct (wturn F Os w) as [[u|x] w2]; cbn [fst] in *; [discriminate|exact E].
  - cbn [wevaluate] in H. destruct (k_label (w_mach w)) eqn:EL; [injection H as <-; congruence|]. unfold bind in *. destruct (turn_out w) as [R1 _]. destruct (wturn F Os w) as [[u|x] w2]; cbn [snd] in *; [|discriminate].
    apply (IH n w2 w1 c); try assumption; [congruence|lia].
Qed.

(* the invocation of _start: it fails before the first instruction, or starts *)
Definition finish (t : functype) : M (list val) :=
  let! rets := popn (length (ft_rets t)) in
  assert (types_agree (ft_rets t) rets) ;; pop_frame ;; let! m := mget in
  assert (Nat.eqb (length (k_frame m)) 0) ;; assert (Nat.eqb (length (k_label m)) 0) ;; assert (Nat.eqb (length (k_value m)) 0) ;; ret rets.
Lemma mach_true {B} (k : unit -> W B) w : bind (mach (assert true)) k w = k tt w.
Proof. unfold bind, mach, assert, py_assert, lift. now destruct w. Qed.
Definition first_world (w : world) (t : functype) (g : nat) (code : funcdesc) : world :=
  let n := length (ft_rets t) in
  with_mach w (mkmach (k_store (w_mach w)) (k_value (w_mach w)) (mklabel n 1 0 KFunc (fd_expr code) 0 :: k_label (w_mach w))
      (mkframe (MRef g) (zero_locals (fd_locals code)) n 0 0 :: mkframe (MVal modinst_empty) [] 0 0 0 :: k_frame (w_mach w))).
Lemma winvocate_start n a w t g code : py_index (s_func (k_store (w_mach w))) a = Ok (FWasm t g code) -> ft_args t = [] ->
  winvocate F Os n a [] w = (let! _ := wevaluate F Os n in mach (finish t)) (first_world w t g code).
Proof.
  intros EF EN. unfold winvocate. unfold bind at 1. unfold mach at 1. unfold bind at 1, mget at 1, lift at 1. rewrite EF.
  replace (with_mach w (w_mach w)) with w by now destruct w. rewrite EN. change (types_agree [] []) with true. reflexivity.
Qed.
Lemma invocate_cases n h w :
  (exists e, wrt_invocate F Os n h n_start [] w = (Err e, w) /\ no_exit e /\ forall w0, ~ begins w h w0) \/
  (exists w0 t, begins w h w0 /\ roe w0 = roe w /\ wrt_invocate F Os n h n_start [] w =
     (let! _ := wevaluate F Os n in let! rets := mach (finish t) in lift (rmapl (into_all F) rets)) w0 /\ forall w1, begins w h w1 -> w1 = w0).
Proof.
  unfold wrt_invocate. destruct (find_export (mod_of (k_store (w_mach w)) (MRef h)) n_start) as [e|x] eqn:EE.
  2:{ left. exists x. split; [|split].
      - unfold bind at 1. unfold mach at 1. unfold bind at 1, mget at 1. unfold bind at 1. unfold lift at 1. rewrite EE. now destruct w.
      - assert (nx (find_export (mod_of (k_store (w_mach w)) (MRef h)) n_start)) as K by nx. now rewrite EE in K.
      - intros w0 S. inversion S. congruence. }
  destruct (py_index (s_func (k_store (w_mach w))) (Store.e_data e)) as [f|x] eqn:EF.
  2:{ left. exists x. split; [|split].
      - unfold bind at 1. unfold mach at 1. unfold bind at 1, mget at 1. unfold bind at 1. unfold lift at 1. rewrite EE. unfold bind at 1, lift at 1. rewrite EF. now destruct w.
      - assert (nx (py_index (s_func (k_store (w_mach w))) (Store.e_data e))) as K by apply nx_index. now rewrite EF in K.
      - intros w0 S. inversion S. congruence. }
  assert (forall {B} (k : funcinst * Z -> W B), bind (mach (let! m := mget in
     let! e := lift (find_export (mod_of (k_store m) (MRef h)) n_start) in
     let! func := lift (py_index (s_func (k_store m)) (Store.e_data e)) in ret (func, Store.e_data e))) k w = k (f, Store.e_data e) w) as H1.
  { intros B k. unfold bind at 1. unfold mach at 1. unfold bind at 1, mget at 1. unfold bind at 1. unfold lift at 1. rewrite EE. unfold bind at 1, lift at 1. rewrite EF. now destruct w. }
  rewrite H1. clear H1. cbv beta iota.
  destruct (len (ft_args (fi_type f)) =? len (@nil pyval)) eqn:EA.
  2:{ left. exists EAssert. split; [|split; [exact I|]].
      - unfold bind at 1, mach, assert, py_assert, lift. now destruct w.
      - intros w0 S. inversion S as [e' t g code E1 E2 E3]. rewrite EE in E1. injection E1 as <-. rewrite EF in E2. injection E2 as ->. cbn [fi_type] in EA. rewrite E3 in EA. discriminate. }
  assert (ft_args (fi_type f) = []) as EN by (destruct (ft_args (fi_type f)); [reflexivity|unfold len in EA; cbn [length] in EA; lia]).
  rewrite mach_true. rewrite EN. change (from_alls F [] []) with (Ok (@nil val)).
  destruct f as [t g code|t hid].
  - right. cbn [fi_type] in EN. eexists _, t. split; [exact (begins_at w h e t g code EE EF EN)|]. split; [reflexivity|]. split.
    + match goal with |- ?l = ?r => change ((let! rets := winvocate F Os n (Store.e_data e) [] in lift (rmapl (into_all F) rets)) w = r) end. unfold bind at 1. rewrite (winvocate_start n _ w t g code EF EN). fold (first_world w t g code). unfold bind.
      now destruct (wevaluate F Os n (first_world w t g code)) as [[u|x] w1].
    + intros w1 S. inversion S as [e' t' g' code' E1 E2 E3]. rewrite EE in E1. injection E1 as <-. rewrite EF in E2. now injection E2 as <- <- <-.
  - left. exists EAssert. split; [|split; [exact I|]].
    + match goal with |- ?l = ?r => change ((let! rets := winvocate F Os n (Store.e_data e) [] in lift (rmapl (into_all F) rets)) w = r) end. unfold bind at 1. unfold winvocate. unfold bind at 1. unfold mach at 1. unfold bind at 1, mget at 1, lift at 1. rewrite EF. now destruct w.
    + intros w0 S. inversion S as [e' t' g code E1 E2 E3]. rewrite EE in E1. injection E1 as <-. congruence.
Qed.
Lemma ns_finish t : nxs (finish t).
Proof. unfold finish. ns. Qed.
Lemma finish_empty t m rets m' : finish t m = (Ok rets, m') -> k_value m' = [] /\ k_label m' = [] /\ k_frame m' = [].
Proof.
  unfold finish. unfold bind at 1. destruct (popn _ m) as [[l|x] m1]; [|discriminate]. unfold bind at 1. unfold assert at 1, lift at 1. destruct (py_assert _); [|discriminate].
  unfold bind at 1. destruct (pop_frame m1) as [[u|x] m2]; [|discriminate]. unfold bind at 1, mget. unfold bind, assert, lift, py_assert.
  destruct (Nat.eqb_spec (length (k_frame m2)) 0) as [E1|]; [|discriminate]. destruct (Nat.eqb_spec (length (k_label m2)) 0) as [E2|]; [|discriminate].
  destruct (Nat.eqb_spec (length (k_value m2)) 0) as [E3|]; [|discriminate]. unfold ret. intros H. injection H as <- <-.
  apply length_zero_iff_nil in E1, E2, E3. auto.
Qed.
Lemma invocate_out n h w : roe w = true ->
  match wrt_invocate F Os n h n_start [] w with
  | (Ok _, w1) => no_stacks w1 /\ forall c, ~ exits F Os n h w c
  | (Err (ESystemExit c), _) => forall d, exits F Os n h w d <-> d = c
  | (Err e, _) => no_exit e /\ forall c, ~ exits F Os n h w c
  end.
Proof.
  intros R. destruct (invocate_cases n h w) as [(e & -> & N & X)|(w0 & t & S & R0 & -> & U)].
  - assert (forall c, ~ exits F Os n h w c) by (intros c (w0 & k & w1 & S & _); exact (X _ S)). destruct e; try (now split); try contradiction.
  - rewrite R in R0. assert (EX : forall c, exits F Os n h w c -> fst (wevaluate F Os n w0) = Err (ESystemExit c)).
    { intros c (w0' & k & w1 & S' & K & E & L & A). apply U in S'. subst w0'. apply exit_turn_asks in A. exact (evaluate_exit k n w0 w1 c R0 K E L A). }
    unfold bind at 1. pose proof (evaluate_out n w0) as O. destruct (wevaluate F Os n w0) as [[u|e] w1] eqn:EE; cbn [fst] in EX.
    + assert (forall c, ~ exits F Os n h w c) as NX by (intros c C; discriminate (EX c C)).
      unfold bind. unfold mach. pose proof (ns_finish t (w_mach w1)) as NF. pose proof (finish_empty t (w_mach w1)) as FE. destruct (finish t (w_mach w1)) as [[rets|x] m]; cbn [fst] in NF.
      2:{ destruct x; try (now split); try contradiction. }
      assert (nx (rmapl (into_all F) rets)) as NI by (apply nx_mapl; apply nx_into_all).
      unfold lift. destruct (rmapl (into_all F) rets) as [l|x]; [split; [exact (FE _ _ eq_refl)|exact NX]|]. destruct x; try (now split); try contradiction.
    + destruct (O e w1 R0 eq_refl) as [N|(c & k & w2 & -> & K & E & L & X)].
      * assert (forall c, ~ exits F Os n h w c) as NX. { intros c C. specialize (EX c C). injection EX as ->. contradiction N. } destruct e; try (now split); try contradiction.
      * intros d. split; [intros C; specialize (EX d C); congruence|]. intros ->. exists w0, k, w2. split; [exact S|]. split; [exact K|]. split; [exact E|]. split; [exact L|]. now apply exit_turn_asks.
Qed.
Lemma main_cases n h w : roe w = true ->
  (forall c, fst (main_try F Os n h w) = Ok c <-> (c = 0 /\ exists rs, fst (wrt_invocate F Os n h n_start [] w) = Ok rs) \/ exits F Os n h w c) /\
  (forall e, fst (main_try F Os n h w) = Err e <-> fst (wrt_invocate F Os n h n_start [] w) = Err e /\ forall c, ~ exits F Os n h w c) /\
  no_stacks (snd (main_try F Os n h w)).
Proof.
  intros R. pose proof (invocate_out n h w R) as O. unfold main_try. destruct (wrt_invocate F Os n h n_start [] w) as [[rs|e] w1]; cbn [fst].
  - destruct O as [O NX]. cbn [main_outcome fst snd]. split; [|split].
    + intros c. split; [intros H; apply Ok_inj in H; left; split; [easy|now exists rs]|]. intros [(-> & _)|H]; [reflexivity|]. now apply NX in H.
    + intros e. split; [discriminate|]. intros [H _]. discriminate H.
    + exact O.
  - assert (K : (exists c, e = ESystemExit c) \/ (no_exit e /\ (forall c, ~ exits F Os n h w c) /\ main_outcome (Err e, w_mach w1) = (Err e, mkmach (k_store (w_mach w1)) [] [] []))).
    { destruct e; try (right; split; [exact I|]; split; [apply O|reflexivity]); try (left; eexists; reflexivity). destruct O as [[] _]. }
    destruct K as [(c & ->)|(N & NX & ->)].
    + cbn [main_outcome fst snd]. split; [|split].
      * intros d. rewrite O. split; [intros H; apply Ok_inj in H; now right|]. intros [(_ & rs & H)|H]; [discriminate H|now subst].
      * intros e. split; [discriminate|]. intros [_ H]. exfalso. apply (H c). now apply O.
      * now split.
    + cbn [fst snd]. split; [|split].
      * intros d. split; [discriminate|]. intros [(_ & rs & H)|H]; [discriminate H|]. now apply NX in H.
      * intros e'. split; [intros H; injection H as <-; now split|]. intros [H _]. now injection H as <-.
      * now split.
Qed.
End main.
Lemma rewinds_mach l : forall w, w_mach (snd (forl (fun f => match pipe f with Some i => rewind i | None => ret tt end) l w)) = w_mach w.
Proof.
  induction l as [|x l IH]; intros w; cbn [forl]; [reflexivity|]. unfold bind. destruct (pipe x) as [i|]; [|apply IH].
  unfold rewind. destruct (nth_error (w_pipes w) i); [|reflexivity]. now rewrite IH.
Qed.
Lemma close_mach Os l : forall i w, w_mach (snd (close_from Os i l w)) = w_mach w.
Proof.
  induction l as [|f l IH]; intros i w; cbn [close_from]; [reflexivity|]. unfold bind at 1. destruct (wasm_type f =? T_CHARACTER_DEVICE); [apply IH|].
  destruct (host_open f); [|apply IH]. unfold ask_unit, ask, bind, ret. destruct (Os _ _); try reflexivity.
  unfold put_file, bind, self, lift. cbn [w_self]. destruct (py_setitem _ _ _); [|reflexivity]. unfold set_fd, bind, self, set_self. now rewrite IH.
Qed.
Lemma finally_mach Os w : w_mach (snd (main_finally Os w)) = w_mach w.
Proof.
  unfold main_finally, bind, self. set (l1 := py_slice _ 1 3). pose proof (rewinds_mach l1 w) as E. destruct (forl _ l1 w) as [[u|e] w1]; cbn [snd] in *; [|exact E].
  now rewrite close_mach.
Qed.
