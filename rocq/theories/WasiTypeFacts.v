(* Validated code that calls WASI functions. *)
From Coq Require Import ZArith List Bool Lia.
From Verif Require Import Py Arith Floatops Val Opcode Numeric Syntax Store Basic Machine Utf8 Os Wasi WasiRun SpecInt SpecNum SpecMachine SpecMem
  SpecRun SpecControl SpecType SpecFormat PyFacts MemFacts RunFacts ControlFacts CallFacts TypeBasicFacts TypeFacts.
From Verif Require Import SpecWasi SpecWasiRun WasiGrowFacts WasiKeepFacts WasiRunFacts.
From Verif Require SpecValid HistoryFacts.
Import ListNotations.
Open Scope Z_scope.

Lemma popn_store k : forall m, k_store (snd (popn k m)) = k_store m.
Proof.
  induction k as [|k IH]; intros m; [reflexivity|]. cbn [popn]. unfold bind, popv. destruct (k_value m); [reflexivity|].
  specialize (IH (set_value m l)). destruct (popn k (set_value m l)) as [[x|x] mm]; exact IH.
Qed.
Definition ks {A} (e : M A) : Prop := forall m, k_store (snd (e m)) = k_store m.
Lemma ks_bind {A B} (e : M A) (f : A -> M B) : ks e -> (forall a, ks (f a)) -> ks (bind e f).
Proof. intros E K m. unfold bind. specialize (E m). destruct (e m) as [[a|x] m1]; cbn [snd] in *; [|exact E]. rewrite K. exact E. Qed.
Lemma callee_store fr o args : ks (callee fr o args).
Proof.
  destruct o; try (intros m; reflexivity); cbn [callee]; repeat (apply ks_bind; [|intros ?]); try (intros m; reflexivity);
    intros m; (unfold popv; now destruct (k_value m)) || (unfold assert, lift; now destruct (py_assert _)).
Qed.
Lemma host_turn_store F m hid ps t m2 : host_turn F m = Some (hid, ps, t, m2) -> k_store m2 = k_store m.
Proof.
  unfold host_turn. destruct (k_label m) as [|lb ls]; [discriminate|]. destruct (k_frame m) as [|fr fs]; [discriminate|]. destruct (Nat.eqb _ _); [discriminate|].
  destruct (nth_error _ _) as [[| | |o args]|]; try discriminate. set (m0 := set_label m _).
  pose proof (callee_store fr o args m0) as C. destruct (callee fr o args m0) as [[a|e] m1]; [|discriminate]. cbn [snd] in C.
  destruct (py_index _ a) as [[t' h c|t' hid']|]; try discriminate. pose proof (popn_store (length (ft_args t')) m1) as P.
  destruct (popn _ m1) as [[vs|e] m3]; [|discriminate]. cbn [snd] in P. destruct (rmapl (into_all F) vs); [|discriminate]. intros [= <- <- <- <-]. rewrite P, C. reflexivity.
Qed.

Section tame.
Variables (F : fops) (Os : os).
Notation lens := data_lengths.
Notation sg := wasi_sig.
(* the WASI functions as seen from the world [w]: as they are, unless they make a memory longer *)
Definition tame (w : world) : hostcode := fun hid ps m =>
  let '(r, w') := wasi_host Os hid ps (with_mach w m) in
  if list_eq_dec Z.eq_dec (lens m) (lens (w_mach w')) then (r, w_mach w') else (Err EOS, m).

Lemma host_only hid ps w : only_memories (w_mach w) (w_mach (snd (wasi_host Os hid ps w))).
Proof.
  unfold wasi_host. destruct (nth_error wasi_methods hid) as [[[nm t] f]|]; [|apply only_refl]. unfold bind, lift. destruct (rmapl as_int ps) as [zs|]; [|apply only_refl].
  pose proof (call_grows Os f zs w) as G. now destruct (wasi_call Os f zs w) as [[rs|e] w1].
Qed.
Lemma method_rets hid nm t f : nth_error wasi_methods hid = Some (nm, t, f) -> ft_rets t = [T_i32] \/ f = F_proc_exit.
Proof. intros H. apply nth_error_In in H. cbn [wasi_methods In] in H. repeat destruct H as [H|H]; try contradiction; injection H as <- <- <-; auto. Qed.
Lemma host_result hid ps w l w' : wasi_host Os hid ps w = (Ok l, w') -> length l = length (ft_rets (sg hid)) /\ Forall pyval_ok l.
Proof.
  unfold wasi_host, wasi_sig. destruct (nth_error wasi_methods hid) as [[[nm t] f]|] eqn:E; [|discriminate]. unfold bind, lift. destruct (rmapl as_int ps) as [zs|]; [|discriminate].
  destruct (wasi_call Os f zs w) as [[rs|e] w1] eqn:C; [|discriminate]. unfold ret. intros [= <- <-]. destruct (call_result _ _ _ _ _ _ C) as (e & -> & _).
  destruct (method_rets _ _ _ _ E) as [-> | ->]; [|now destruct (exit_never _ _ _ _ _ C)]. split; [reflexivity|]. repeat constructor.
Qed.
Lemma only_same_types k k' : only_memories k k' -> same_types (k_store k) (k_store k').
Proof.
  intros (_ & _ & _ & S & G). rewrite S. constructor; cbn; try (intros a x H; exists x; repeat split; exact H).
  revert G. generalize (s_mems (k_store k')) (s_mems (k_store k)). intros l' l G. induction G as [|x y l l' _ _ IH]; intros [|a] z H; try discriminate H; [now exists y|exact (IH a z H)].
Qed.
Lemma only_typed k k' s : only_memories k k' -> store_typed s (k_store k) -> store_typed s (k_store k').
Proof.
  intros O T. pose proof (only_same_types _ _ O) as ST. destruct O as (_ & _ & _ & S & _). eapply store_keep; [exact T|exact ST|..]; rewrite S; cbn; [reflexivity|apply T|apply T].
Qed.
Lemma tame_typed w : host_typed sg (tame w).
Proof.
  intros hid ps m r m' T E. unfold tame in E. pose proof (host_only hid ps (with_mach w m)) as O. cbn [with_mach w_mach] in O.
  destruct (wasi_host Os hid ps (with_mach w m)) as [r' w'] eqn:EH. cbn [snd] in O. destruct (list_eq_dec _ _ _); injection E as <- <-.
  - split; [exact (only_typed _ _ _ O T)|]. split; [exact (only_same_types _ _ O)|]. intros l ->. destruct O as (O1 & O2 & O3 & _). repeat (split; [assumption|]).
    exact (proj1 (host_result _ _ _ _ _ EH)).
  - split; [exact T|]. split; [apply same_refl|]. discriminate.
Qed.
Hypothesis HR : replies_bytes Os.
Lemma HOs : forall log c, reply_bytes (Os log c).
Proof. intros log c. destruct (Os log c) eqn:E; try exact I. exact (HR _ _ _ E). Qed.
Lemma host_bytes hid ps w : holds_bytes w -> holds_bytes (snd (wasi_host Os hid ps w)).
Proof.
  intros H. unfold wasi_host. destruct (nth_error wasi_methods hid) as [[[nm t] f]|]; [|exact H]. unfold bind, lift. destruct (rmapl as_int ps) as [zs|]; [|exact H].
  pose proof (call_keeps True Os (fun _ => True) (fun _ => HOs) (fun _ _ => I) f zs (fun _ _ => I) w (fun _ => H)) as (K & _). specialize (K I).
  now destruct (wasi_call Os f zs w) as [[rs|e] w1].
Qed.
Lemma ok_bytes w : pipes_ok w -> machine_ok (w_mach w) -> holds_bytes w.
Proof. intros P O. split; [exact P|]. eapply Forall_impl; [|apply (so_mems _ (mo_store _ O))]. now intros x (_ & _ & _ & B). Qed.
Lemma mems_same l l' : Forall2 grown l l' -> map (fun x => len (mi_data x)) l = map (fun x => len (mi_data x)) l' -> Forall mem_wf l -> Forall (fun x => bytes (mi_data x)) l' ->
  Forall mem_wf l' /\ forall a x, nth_error l a = Some x -> exists y, nth_error l' a = Some y /\ mi_type y = mi_type x /\ mi_size x <= mi_size y /\ len (mi_data x) <= len (mi_data y).
Proof.
  induction 1 as [|x y l l' (G1 & G2 & G3) _ IH]; intros E W B; [split; [constructor|intros [|a] x H; discriminate H]|].
  cbn [map] in E. injection E as E1 E2. inversion W as [|? ? W1 W2]; subst. inversion B as [|? ? B1 B2]; subst. destruct (IH E2 W2 B2) as (I1 & I2). split.
  - constructor; [|exact I1]. destruct W1 as (A1 & A2 & A3 & A4). split; [now rewrite <- E1, G2|]. rewrite G1, G2. now repeat split.
  - intros [|a] z H; [|exact (I2 a z H)]. injection H as <-. exists y. repeat split; [exact G1|lia|exact G3].
Qed.
Lemma only_later k k' : only_memories k k' -> lens k = lens k' -> machine_ok k -> Forall (fun x => bytes (mi_data x)) (s_mems (k_store k')) ->
  machine_ok k' /\ later (k_store k) (k_store k').
Proof.
  intros (O1 & O2 & O3 & S & G) E O B. destruct O as [[A1 A2 A3 A4 A5 A6] A7 A8 A9]. destruct (mems_same _ _ G E A3 B) as (M1 & M2). split.
  - constructor; [|now rewrite O1|now rewrite O3|now rewrite O2]. rewrite S. constructor; cbn; assumption.
  - rewrite S. constructor; cbn; try (intros a x H; exists x; repeat split; try exact H; try lia; auto; fail).
    intros a x H. exact (M2 a x H).
Qed.
Lemma tame_behaved w : pipes_ok w -> well_behaved (tame w).
Proof.
  intros P hid ps m r m' O E. unfold tame in E. pose proof (host_only hid ps (with_mach w m)) as OM. cbn [with_mach w_mach] in OM.
  pose proof (host_bytes hid ps (with_mach w m) (ok_bytes (with_mach w m) P O)) as HB.
  destruct (wasi_host Os hid ps (with_mach w m)) as [r' w'] eqn:EH. cbn [snd] in *. destruct (list_eq_dec _ _ _) as [EQ|NE]; injection E as <- <-.
  - destruct (only_later _ _ OM EQ O (proj2 HB)) as (L1 & L2). split; [exact L1|]. split; [exact L2|]. intros l ->. exact (proj2 (host_result _ _ _ _ _ EH)).
  - split; [exact O|]. split; [apply later_refl|]. discriminate.
Qed.
Notation longer := (lengthens F Os).
Lemma extend_store vs : ks (extend vs).
Proof. intros m. reflexivity. Qed.
Lemma turn_tame w : pipes_ok w -> machine_ok (w_mach w) -> longer w \/
  (fst (wturn F Os w) = fst (step F (tame w) (w_mach w)) /\ w_mach (snd (wturn F Os w)) = snd (step F (tame w) (w_mach w)) /\ pipes_ok (snd (wturn F Os w))).
Proof.
  intros P O. pose proof (host_turn_spec F (w_mach w)) as T. unfold lengthens, wturn. destruct (host_turn F (w_mach w)) as [[[[hid ps] t] m2]|] eqn:EH.
  2:{ right. unfold mach. rewrite (T _ (tame w)). destruct (step F (tame w) (w_mach w)) as [r m]. now repeat split. }
  pose proof (host_turn_store _ _ _ _ _ _ EH) as KS. pose proof (host_turn_at _ _ _ _ _ _ EH) as AT. rewrite T. unfold plug, tame.
  assert (holds_bytes (with_mach w m2)) as HB. { destruct (ok_bytes w P O) as (B1 & B2). split; [exact B1|]. cbn [with_mach w_mach]. now rewrite KS. }
  apply (host_bytes hid ps) in HB. unfold bind. destruct (wasi_host Os hid ps (with_mach w m2)) as [r w1] eqn:EW. cbn [snd] in HB.
  assert (lens m2 = lens (w_mach w)) as LE by (unfold data_lengths; now rewrite KS).
  destruct (list_eq_dec Z.eq_dec (lens m2) (lens (w_mach w1))) as [EQ|NE].
  - right. destruct r as [l|e]; [|destruct HB; now repeat split]. unfold lift, mach. destruct (from_alls F (ft_rets t) l) as [vs|e]; [|destruct HB; now repeat split].
    destruct (extend vs (w_mach w1)) as [r' m']. destruct HB. now repeat split.
  - left. split; [|exact AT]. rewrite <- LE. intros Q. apply NE. rewrite <- Q. destruct r as [l|e]; [|reflexivity]. unfold lift, mach. destruct (from_alls F (ft_rets t) l) as [vs|e]; [|reflexivity].
    pose proof (extend_store vs (w_mach w1)) as X. destruct (extend vs (w_mach w1)) as [r' m']. cbn [snd with_mach w_mach] in *. unfold data_lengths. now rewrite X.
Qed.

Hypothesis CF : converts F.
Lemma weval_typed fin n : forall w, pipes_ok w -> running (sg := sg) fin (w_mach w) ->
  (exists k w1, (k < n)%nat /\ wevaluate F Os k w = (Ok tt, w1) /\ k_label (w_mach w1) <> [] /\ longer w1) \/
  match wevaluate F Os n w with
  | (Ok _, w') => pipes_ok w' /\ running (sg := sg) fin (w_mach w') /\ same_types (k_store (w_mach w)) (k_store (w_mach w'))
  | (Err e, w') => store_typed sg (k_store (w_mach w')) /\ same_types (k_store (w_mach w)) (k_store (w_mach w')) /\
      exists k w1 i fr, wevaluate F Os k w = (Ok tt, w1) /\ about_to_run (w_mach w1) i fr /\ inst_may_trap i = true /\ wturn F Os w1 = (Err e, w')
  end.
Proof.
  induction n as [|n IH]; intros w P R; cbn [wevaluate]; [right; split; [exact P|split; [exact R|apply same_refl]]|].
  destruct (k_label (w_mach w)) as [|lb LS] eqn:EL; [right; split; [exact P|split; [exact R|apply same_refl]]|].
  destruct (turn_tame w P (proj1 R)) as [L|(T1 & T2 & T3)].
  { left. exists O, w. split; [lia|]. split; [reflexivity|]. split; [congruence|exact L]. }
  pose proof (step_typed (sg := sg) F CF (tame w) (tame_behaved w P) (tame_typed w) fin (w_mach w) R ltac:(congruence)) as ST.
  unfold bind. destruct (wturn F Os w) as [[u|e] w1] eqn:EW; cbn [fst snd] in *; destruct (step F (tame w) (w_mach w)) as [r m1]; cbn [fst snd] in *; subst r m1.
  - destruct ST as (R1 & S1). destruct u. destruct (IH w1 T3 R1) as [(k & w2 & K1 & K2 & K3 & K4)|IH'].
    + left. exists (S k), w2. split; [lia|]. split; [|now split]. cbn [wevaluate]. rewrite EL. unfold bind. now rewrite EW.
    + right. destruct (wevaluate F Os n w1) as [[u|e] w2].
      * destruct IH' as (A & B & C). split; [exact A|]. split; [exact B|]. exact (same_trans _ _ _ S1 C).
      * destruct IH' as (A & B & k & w3 & i & fr & K & C). split; [exact A|]. split; [exact (same_trans _ _ _ S1 B)|]. exists (S k), w3, i, fr. split; [|exact C].
        cbn [wevaluate]. rewrite EL. unfold bind. now rewrite EW.
  - right. destruct ST as (A & B & i & fr & AB & TR). split; [exact A|]. split; [exact B|]. exists O, w, i, fr. split; [reflexivity|]. split; [exact AB|]. split; [exact TR|exact EW].
Qed.
Definition rest (t : functype) : M (list val) :=
  let! rets := popn (length (ft_rets t)) in
  assert (types_agree (ft_rets t) rets) ;;
  pop_frame ;;
  let! m := mget in
  assert (Nat.eqb (length (k_frame m)) 0) ;;
  assert (Nat.eqb (length (k_label m)) 0) ;;
  assert (Nat.eqb (length (k_value m)) 0) ;;
  ret rets.
Lemma rest_done fin t m : running (sg := sg) fin m -> k_label m = [] -> en_types fin = rev (ft_rets t) ->
  exists rs, rest t m = (Ok rs, mkmach (k_store m) [] [] []) /\ has_types rs (ft_rets t).
Proof.
  intros (_ & _ & C & K) EL EN. destruct m as [s V LS FS]. cbn [k_store k_value k_label k_frame] in *. subst LS. apply kont_done in K. destruct K as (TV & fr & -> & _).
  rewrite EN in TV. pose proof (types_length _ _ TV) as LV. rewrite rev_length in LV. unfold rest.
  pose proof (popn_run (length (ft_rets t)) V [] s [] [fr] ltac:(lia)) as P. rewrite app_nil_r in P.
  rewrite (mbind_ok _ _ _ _ _ P). rewrite <- LV, firstn_all, skipn_all.
  unfold bind, assert, lift, py_assert. rewrite types_agree_refl by exact (rev_types _ _ TV). cbn.
  exists (rev V). split; [reflexivity|exact (rev_types _ _ TV)].
Qed.
Lemma popn_label k : forall m, k_label (snd (popn k m)) = k_label m.
Proof.
  induction k as [|k IH]; intros m; [reflexivity|]. cbn [popn]. unfold bind, popv. destruct (k_value m); [reflexivity|].
  specialize (IH (set_value m l)). destruct (popn k (set_value m l)) as [[x|x] mm]; exact IH.
Qed.
Lemma rest_fails t m : k_label m <> [] -> exists e m', rest t m = (Err e, m') /\ k_store m' = k_store m.
Proof.
  intros NL. unfold rest, bind. pose proof (popn_store (length (ft_rets t)) m) as PS. pose proof (popn_label (length (ft_rets t)) m) as PL.
  destruct (popn _ m) as [[x|x] mm]; cbn [snd] in *; [|now exists x, mm]. unfold assert, lift, py_assert. destruct (types_agree _ _); [|now exists EAssert, mm].
  unfold pop_frame. destruct (k_frame mm); [now eexists _, mm|]. unfold mget, set_frame. cbn [k_label k_frame k_value]. rewrite PL. destruct (k_label m) as [|lb ls]; [contradiction|].
  destruct (Nat.eqb _ _); cbn; (eexists _, _; split; [reflexivity|exact PS]).
Qed.
Lemma winvocate_starts n a args w t h code : w_mach w = mkmach (k_store (w_mach w)) [] [] [] ->
  nth_error (s_func (k_store (w_mach w))) a = Some (FWasm t h code) -> has_types args (ft_args t) ->
  winvocate F Os n (Z.of_nat a) args w = (wevaluate F Os n ;; mach (rest t)) (with_mach w (SpecType.starts (k_store (w_mach w)) t h code args)).
Proof.
  intros EM N HT. destruct w as [wp wl wpp [s V LS FS]]. cbn [w_mach k_store] in *. injection EM as -> -> ->. unfold winvocate. unfold bind at 1. unfold mach at 1. unfold bind at 1, mget, lift. cbn [w_mach k_store]. rewrite (py_index_nth _ _ _ N).
  unfold bind at 1. unfold mach at 1. unfold bind at 1, assert, lift, py_assert. rewrite types_agree_refl by exact HT.
  unfold bind at 1. unfold push_frame, push_label, bind at 1. unfold mput, mget. rewrite starts_eq. unfold first_frame, first_label, dummy, rest. rewrite <- default_zero.
  cbn [with_mach w_self w_log w_pipes w_mach]. reflexivity.
Qed.
Theorem winvocate_typed n w s a t h code args : pipes_ok w -> w_mach w = mkmach s [] [] [] -> store_ok s -> store_typed sg s ->
  nth_error (s_func s) a = Some (FWasm t h code) -> Forall val_wf args -> has_types args (ft_args t) ->
  let w0 := with_mach w (SpecType.starts s t h code args) in
  (exists k w1, (k < n)%nat /\ wevaluate F Os k w0 = (Ok tt, w1) /\ k_label (w_mach w1) <> [] /\ longer w1) \/
  match winvocate F Os n (Z.of_nat a) args w with
  | (Ok rs, w') => has_types rs (ft_rets t) /\ (exists s', w_mach w' = mkmach s' [] [] []) /\
      store_ok (k_store (w_mach w')) /\ store_typed sg (k_store (w_mach w')) /\ same_types s (k_store (w_mach w')) /\ pipes_ok w'
  | (Err e, w') => store_typed sg (k_store (w_mach w')) /\ same_types s (k_store (w_mach w')) /\
      ((exists k w1 i fr, wevaluate F Os k w0 = (Ok tt, w1) /\ about_to_run (w_mach w1) i fr /\ inst_may_trap i = true /\ wturn F Os w1 = (Err e, w')) \/
       (exists w1, wevaluate F Os n w0 = (Ok tt, w1) /\ k_label (w_mach w1) <> []))
  end.
Proof.
  intros P EM Ok_s Hs N W HT w0. pose proof (starts_running (sg := sg) s t h code args a Ok_s Hs N W HT) as HR0.
  assert (s = k_store (w_mach w)) as ES by now rewrite EM. rewrite (winvocate_starts n a args w t h code); [|now rewrite <- ES|now rewrite <- ES|exact HT].
  rewrite <- ES. fold w0. destruct (weval_typed _ n w0 P HR0) as [L|EV]; [now left|]. right. unfold bind.
  destruct (wevaluate F Os n w0) as [[u|e] w1] eqn:EE.
  2:{ destruct EV as (A & B & C). split; [exact A|]. split; [exact B|]. now left. }
  destruct u. destruct EV as (P1 & R1 & S1). cbn [w0 with_mach w_mach SpecType.starts k_store] in S1. unfold mach.
  destruct (k_label (w_mach w1)) as [|lb LS] eqn:EL.
  - destruct (rest_done _ t _ R1 EL eq_refl) as (rs & -> & TR). cbn [with_mach w_mach k_store]. split; [exact TR|]. split; [now eexists|].
    destruct R1 as (O1 & T1 & _). split; [apply O1|]. split; [exact T1|]. split; [exact S1|exact P1].
  - destruct (rest_fails t (w_mach w1)) as (e & m' & -> & KS); [congruence|]. cbn [with_mach w_mach]. rewrite KS. split; [apply R1|]. split; [exact S1|]. right. exists w1. split; [reflexivity|congruence].
Qed.
End tame.

(* ---- instantiation that calls no host function ---- *)
Lemma none_behaved : well_behaved none_called.
Proof. intros h args m r m' O [= <- <-]. split; [exact O|]. split; [apply later_refl|]. discriminate. Qed.
Lemma none_typed sg : host_typed sg none_called.
Proof. intros h args m r m' O [= <- <-]. split; [exact O|]. split; [apply same_refl|]. discriminate. Qed.
Definition same_ok {A} (e : M A) (f : W A) : Prop := forall w a m', e (w_mach w) = (Ok a, m') -> f w = (Ok a, with_mach w m').
Lemma same_mach {A} (e : M A) : same_ok e (mach e).
Proof. intros w a m' E. unfold mach. now rewrite E. Qed.
Lemma same_ret {A} (a : A) : same_ok (ret a) (ret a).
Proof. intros w b m' [= <- <-]. now destruct w. Qed.
Lemma same_bind {A B} (e : M A) f (e' : A -> M B) f' : same_ok e f -> (forall a, same_ok (e' a) (f' a)) -> same_ok (bind e e') (bind f f').
Proof.
  intros E K w b m' H. unfold bind in *. destruct (e (w_mach w)) as [[a|x] m1] eqn:EE; [|discriminate]. rewrite (E _ _ _ EE).
  exact (K a (with_mach w m1) b m' H).
Qed.
Lemma same_forl {A} (e : A -> M unit) f l : (forall a, same_ok (e a) (f a)) -> same_ok (forl e l) (forl f l).
Proof. intros K. induction l as [|x l IH]; cbn [forl]; [apply same_ret|]. apply same_bind; [apply K|intros ?; exact IH]. Qed.
Lemma same_mapl {A B} (e : A -> M B) f l : (forall a, same_ok (e a) (f a)) -> same_ok (mapl e l) (mapl f l).
Proof.
  intros K. induction l as [|x l IH]; cbn [mapl]; [apply same_ret|]. apply same_bind; [apply K|intros y]. apply same_bind; [exact IH|intros ?; apply same_ret].
Qed.
Section linked.
Variables (F : fops) (Os : os).
Lemma same_turn : same_ok (step F none_called) (wturn F Os).
Proof.
  intros w u m' E. unfold wturn. pose proof (host_turn_spec F (w_mach w)) as S. destruct (host_turn F (w_mach w)) as [[[[hid ps] t] m2]|].
  - rewrite S in E. discriminate E.
  - unfold mach. fold none_called. now rewrite E.
Qed.
Lemma same_eval n : same_ok (evaluate F none_called n) (wevaluate F Os n).
Proof.
  induction n as [|n IH]; [apply same_ret|]. intros w u m' E. cbn [evaluate wevaluate] in *.
  destruct (k_label (w_mach w)) as [|lb ls]; [injection E as <- <-; now destruct w|].
  exact (same_bind _ _ _ _ same_turn (fun _ => IH) w u m' E).
Qed.
Lemma same_expr n e k : same_ok (run_expr F none_called n e k) (wrun_expr F Os n e k).
Proof.
  unfold run_expr, wrun_expr. apply same_bind; [apply same_mach|intros ?]. apply same_bind; [apply same_eval|intros ?]. apply same_mach.
Qed.
Lemma same_const n e : same_ok (const_expr F none_called n e) (wconst_expr F Os n e).
Proof. unfold const_expr, wconst_expr. apply same_bind; [apply same_expr|intros ?]. apply same_mach. Qed.
Lemma same_instance n L ext : same_ok (instance F none_called n L ext) (winstance F Os n L ext).
Proof.
  unfold instance, winstance.
  repeat (apply same_bind; [|intros ?]); try apply same_mach; try apply same_ret.
  - apply same_mapl. intros ?. apply same_const.
  - apply same_mapl. intros ?. apply same_mapl. intros ?. apply same_const.
  - apply same_forl. intros [i e]. destruct (negb _); [apply same_ret|apply same_expr].
  - apply same_forl. intros [i e]. destruct (negb _); [apply same_ret|apply same_expr].
  - apply same_forl. intros [i [e b]]. destruct (negb _); [apply same_ret|]. apply same_bind; [apply same_mach|intros ?; apply same_expr].
  - destruct (_ >=? _); [apply same_expr|apply same_ret].
Qed.
Lemma same_rt_instance n imps L : same_ok (rt_instance F none_called n imps L) (wrt_instance F Os n imps L).
Proof.
  unfold rt_instance, wrt_instance. apply same_bind; [|intros ?; apply same_instance]. intros w a m' E. unfold lift in *. injection E as E <-. rewrite E. now destruct w.
Qed.
End linked.

Lemma alloc_host_len t hid m b m' : rt_allocate_func_host t hid m = (Ok b, m') -> len (s_func (k_store m')) = len (s_func (k_store m)) + 1.
Proof.
  unfold rt_allocate_func_host, bind, on_store, alloc_func_host. intros H. destruct m as [s v l f]. cbn in H. injection H as _ <-. cbn.
  unfold len. rewrite app_length. cbn. lia.
Qed.
Lemma bind_all_history F host m0 : forall l i m es m', (forall k x, nth_error l k = Some x -> nth_error wasi_methods (i + k) = Some x) ->
  SpecValid.history F host wasi_sig m0 m -> len (s_func (k_store m)) + len l < 2 ^ 31 -> bind_all i l m = (Ok es, m') -> SpecValid.history F host wasi_sig m0 m'.
Proof.
  induction l as [|[[nm t] f] l IH]; intros i m es m' N H HL E; cbn [bind_all] in E; [now injection E as _ <-|].
  unfold bind in E. destruct (rt_allocate_func_host t i m) as [[b|x] m1] eqn:A; [|discriminate].
  destruct (bind_all (S i) l m1) as [[es'|x] m2] eqn:B; [|discriminate]. injection E as _ <-.
  assert (wasi_sig i = t) as T by (unfold wasi_sig; specialize (N 0%nat _ eq_refl); rewrite Nat.add_0_r in N; now rewrite N).
  unfold len in HL. cbn [length] in HL.
  apply (IH (S i) m1 es' m2); [| | |exact B].
  - intros k x K. rewrite Nat.add_succ_comm. exact (N (S k) x K).
  - eapply SpecValid.his_host; [exact H| |rewrite T; exact A]. unfold len. lia.
  - rewrite (alloc_host_len _ _ _ _ _ A). unfold len. lia.
Qed.
Lemma bind_any_history F host m0 m l (imps imps' : imports) m' : (forall k x, nth_error l k = Some x -> nth_error wasi_methods k = Some x) ->
  SpecValid.history F host wasi_sig m0 m -> len (s_func (k_store m)) + len l < 2 ^ 31 ->
  (let! es := bind_all 0 l in ret ((n_wasi, es) :: imps)) m = (Ok imps', m') -> SpecValid.history F host wasi_sig m0 m'.
Proof.
  intros N H HL E. unfold bind in E. destruct (bind_all 0 l m) as [[es|x] m1] eqn:B; [|discriminate]. injection E as _ <-.
  eapply bind_all_history; [|exact H|exact HL|exact B]. intros k x K. exact (N k x K).
Qed.
Lemma wasi_bind_eq imps : (let! es := bind_all 0 wasi_methods in ret ((n_wasi, es) :: imps)) = wasi_bind imps.
Proof. unfold wasi_bind. reflexivity. Qed.
Lemma wasi_bind_history F host m0 m imps imps' m' : SpecValid.history F host wasi_sig m0 m -> len (s_func (k_store m)) < 2 ^ 31 - 46 ->
  wasi_bind imps m = (Ok imps', m') -> SpecValid.history F host wasi_sig m0 m'.
Proof.
  intros H HL E. rewrite <- wasi_bind_eq in E. refine (bind_any_history F host m0 m wasi_methods imps imps' m' (fun k x K => K) H _ E).
  change (len wasi_methods) with 46. lia.
Qed.
Lemma history_at_rest F w : converts F -> SpecValid.history F none_called wasi_sig machine_empty (w_mach w) -> pipes_ok w -> at_rest w.
Proof.
  intros CF H P. destruct (HistoryFacts.histories F none_called wasi_sig machine_empty (w_mach w) CF none_behaved (none_typed wasi_sig) (SpecValid.his_nil _ _ _ _) H) as (V & L & R & O & T & _).
  split; [|now split]. exists (k_store (w_mach w)). destruct (w_mach w). cbn in *. now subst.
Qed.
Theorem at_rest_run F Os n w a t h code args : converts F -> replies_bytes Os -> at_rest w -> nth_error (s_func (k_store (w_mach w))) a = Some (FWasm t h code) ->
  Forall val_wf args -> has_types args (ft_args t) ->
  let w0 := with_mach w (SpecType.starts (k_store (w_mach w)) t h code args) in
  (exists k w1, (k < n)%nat /\ wevaluate F Os k w0 = (Ok tt, w1) /\ k_label (w_mach w1) <> [] /\ lengthens F Os w1) \/
  match winvocate F Os n (Z.of_nat a) args w with
  | (Ok rs, w') => has_types rs (ft_rets t) /\ at_rest w' /\ same_types (k_store (w_mach w)) (k_store (w_mach w'))
  | (Err e, w') => store_typed wasi_sig (k_store (w_mach w')) /\ same_types (k_store (w_mach w)) (k_store (w_mach w')) /\
      ((exists k w1 i fr, wevaluate F Os k w0 = (Ok tt, w1) /\ about_to_run (w_mach w1) i fr /\ inst_may_trap i = true /\ wturn F Os w1 = (Err e, w')) \/
       (exists w1, wevaluate F Os n w0 = (Ok tt, w1) /\ k_label (w_mach w1) <> []))
  end.
Proof.
  intros CF HR ((s & E) & O & T & P) N W HT. rewrite E in O, T, N. cbn [k_store] in O, T, N.
  pose proof (winvocate_typed F Os HR CF n w s a t h code args P E O T N W HT) as R. assert (s = k_store (w_mach w)) as ES by now rewrite E. rewrite ES in R. cbn zeta in R |- *.
  destruct R as [R|R]; [now left|right]. destruct (winvocate F Os n (Z.of_nat a) args w) as [[rs|e] w']; [|exact R].
  destruct R as (A & B & C & D & S & G). split; [exact A|]. split; [now split|exact S].
Qed.
