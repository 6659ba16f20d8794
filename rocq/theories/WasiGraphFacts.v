(* Programs make only the requests of the WASI functions in their call graph (C137). *)
From Coq Require Import ZArith List Bool Lia ZifyBool ZifyNat.
From Verif Require Import Py Floatops Val Opcode Numeric Syntax Store Basic Machine Utf8 Os Wasi WasiRun SpecMachine SpecMem SpecControl SpecType SpecCode SpecEnds SpecStacks SpecReach
  PyFacts StepFacts ControlFacts CodeFacts EndsFacts StacksBasicFacts StacksFacts ReachBasicFacts ReachFacts SpecWasi SpecWasiRun WasiGrowFacts WasiRunFacts WasiTypeFacts SpecWasiAsk WasiAskFacts.
Import ListNotations.
Open Scope Z_scope.

Section run.
Context (F : fops) (Os : os) (s : store) (G : funcinst -> Prop) (HG : call_closed s G).
Notation T := (fun _ : store => True).
Notation housed := (housed s G T).
Lemma callee_graph fr o args m t h code a m1 : code_same s m -> G (FWasm t h code) -> fr_module fr = MRef h -> within (IOp o args) (fd_expr code) ->
  callee fr o args m = (Ok a, m1) -> still m m1 /\ forall f, py_index (s_func s) a = Ok f -> G f.
Proof.
  intros HS HF HM W. destruct (HG _ _ _ HF) as (_ & G2 & G3).
  assert (MO : mod_of (k_store m) (fr_module fr) = nth h (s_inst s) modinst_empty) by (rewrite HM; cbn [mod_of]; now rewrite (proj2 HS)).
  destruct (is_call_dec o) as [[-> | ->]|[N1 N2]]; [| |rewrite callee_none by assumption; discriminate]; cbn [callee].
  - unfold bind at 1, lift at 1. destruct (arg_int args 0) as [i|e] eqn:EI; [|discriminate]. unfold bind at 1, mget at 1. rewrite MO. unfold lift. intros [= EA <-].
    split; [apply still_refl|]. intros f Ef. exact (G2 _ _ _ _ W EI EA Ef).
  - unfold bind at 1, mget at 1. rewrite MO. unfold bind at 1, lift at 1. destruct (arg_int args 1) as [j|e]; [|discriminate]. unfold bind at 1, lift at 1. destruct (py_index _ j) as [ta|e]; [|discriminate].
    unfold bind at 1, lift at 1. destruct (py_index _ ta) as [tabl|e]; [|discriminate]. unfold bind at 1, lift at 1. destruct (arg_int args 0) as [i|e] eqn:EI; [|discriminate].
    unfold bind at 1, lift at 1. destruct (py_index _ i) as [ty|e] eqn:ET; [|discriminate]. unfold bind at 1. destruct (popv m) as [[v|e] m2] eqn:EP; [|discriminate].
    pose proof (hush_popv _ _ _ EP) as C1.
    unfold bind at 1, lift at 1. destruct (into_u32 v) as [k|e]; [|discriminate]. unfold bind at 1, lift at 1. destruct (py_index _ k) as [r|e]; [|discriminate].
    unfold bind at 1, lift at 1. destruct (into_ref r) as [a'|e]; [|discriminate]. rewrite (proj1 HS). unfold bind at 1, lift at 1. destruct (py_index (s_func s) a') as [f|e] eqn:EF; [|discriminate].
    unfold bind at 1, assert. destruct (ft_eqb (fi_type f) ty) eqn:EQ; [|discriminate]. intros [= <- <-]. split; [exact C1|].
    intros f' Ef. rewrite EF in Ef. injection Ef as <-. apply (G3 _ _ _ _ W EI ET (index_In _ _ _ EF)). now apply ft_eqb_eq.
Qed.
Lemma turn_graph m hid ps t m2 : housed m -> host_turn F m = Some (hid, ps, t, m2) -> G (FHost t hid) /\ housed m2.
Proof.
  intros (HS & _ & x & HT). unfold host_turn. destruct (k_label m) as [|lb ls] eqn:EL; [discriminate|].
  destruct (lodged_top _ _ HG _ _ _ _ HT) as (t0 & h & code & d & -> & H1 & H2 & H3).
  destruct (lodged_frame _ _ _ _ _ _ _ _ HT eq_refl) as (fr & fs & bs & lb' & ls' & x' & HFR & _ & HM & _ & _ & HGF).
  rewrite HFR. destruct (Nat.eqb _ _); [discriminate|]. destruct (nth_error (lb_instr lb) (lb_index lb)) as [[| | |o args]|] eqn:EI; try discriminate.
  set (m0 := set_label m _). destruct (callee fr o args m0) as [[a|e] m1] eqn:EC; [|discriminate].
  assert (HS0 : code_same s m0) by exact HS.
  destruct (callee_graph _ _ _ _ _ _ _ _ _ HS0 HGF HM (H2 _ (in_here _ _ (nth_error_In _ _ EI))) EC) as [C1 HGa].
  destruct (py_index (s_func (k_store m1)) a) as [[t' h' c'|t' hid']|] eqn:EP; try discriminate.
  destruct (popn (length (ft_args t')) m1) as [[vs|e] m3] eqn:EV; [|discriminate]. destruct (rmapl (into_all F) vs) as [qs|]; [|discriminate]. intros [= <- <- <- <-].
  destruct C1 as (S1 & S2 & S3). split.
  - apply HGa. rewrite <- (proj1 HS), <- EP. now rewrite S3.
  - destruct (hush_popn _ _ _ _ EV) as (S4 & S5 & S6). split; [|split; [exact I|]].
    + unfold code_same in *. now rewrite S6, S3.
    + exists (Some (t0, h, code, d)). rewrite S4, S5, S1, S2. subst m0. cbn [set_label k_frame k_label]. apply H3.
Qed.
Lemma host_asks hid ps w t : G (FHost t hid) -> asked_only (asked_by G) w (snd (wasi_host Os hid ps w)).
Proof.
  intros HF. unfold wasi_host. destruct (nth_error wasi_methods hid) as [[[nm ty] f]|] eqn:EM; [|now apply asked_refl]. unfold bind, lift. destruct (rmapl as_int ps) as [zs|]; [|now apply asked_refl].
  pose proof (call_asks Os f zs w) as A. destruct (wasi_call Os f zs w) as [[rs|e] w1]; cbn [snd ret] in *;
    (eapply asked_mono; [|exact A]; intros c Hc; exists t, hid, nm, ty, f; auto).
Qed.
Lemma only_housed m m' : only_memories m m' -> housed m -> housed m'.
Proof.
  intros (O1 & O2 & O3 & O4 & _) (HS & _ & x & HT). split; [|split; [exact I|]].
  - unfold code_same in *. rewrite O4. exact HS.
  - exists x. now rewrite ?O1, ?O2, ?O3.
Qed.
Lemma quiet_host : minds_its_business (fun _ _ m => (Err (EHost 0), m)).
Proof. intros hid args m r m' E. discriminate E. Qed.
Lemma wturn_graph w : housed (w_mach w) -> k_label (w_mach w) <> [] -> asked_only (asked_by G) w (snd (wturn F Os w)) /\ (fst (wturn F Os w) = Ok tt -> housed (w_mach (snd (wturn F Os w)))).
Proof.
  intros H N. unfold wturn. destruct (host_turn F (w_mach w)) as [[[[hid ps] t] m2]|] eqn:EH.
  - destruct (turn_graph _ _ _ _ _ H EH) as [HF H2]. pose proof (host_asks hid ps (with_mach w m2) t HF) as A. pose proof (host_only Os hid ps (with_mach w m2)) as O.
    unfold bind. destruct (wasi_host Os hid ps (with_mach w m2)) as [[l|e] w1]; cbn [snd fst] in *; [|split; [exact A|discriminate]].
    unfold lift. destruct (from_alls F (ft_rets t) l) as [vs|e]; [|split; [exact A|discriminate]]. unfold mach, extend. split; [exact A|]. intros _.
    refine (housed_still s G T _ _ _ (only_housed _ _ O H2)); repeat split.
  - unfold mach. pose proof (step_fair F _ s G T quiet_host HG (fun _ _ _ _ _ _ _ _ _ _ => I) (fun _ _ _ _ _ _ _ _ _ => I) (w_mach w) H N) as S.
    destruct (step F (fun _ _ m => (Err (EHost 0), m)) (w_mach w)) as [[u|e] m']; cbn [fst snd fair] in *; (split; [now apply asked_refl|]); [intros _; exact S|discriminate].
Qed.
Lemma wevaluate_graph n : forall w, housed (w_mach w) -> asked_only (asked_by G) w (snd (wevaluate F Os n w)).
Proof.
  induction n as [|n IH]; intros w H; cbn [wevaluate]; [now apply asked_refl|]. destruct (k_label (w_mach w)) eqn:EL; [now apply asked_refl|].
  destruct (wturn_graph w H) as [A K]; [congruence|]. unfold bind. destruct (wturn F Os w) as [[[]|e] w1]; cbn [fst snd] in *; [|exact A]. exact (asked_trans _ _ _ _ A (IH _ (K eq_refl))).
Qed.
End run.
Lemma mach_log {A} (e : M A) w : w_log (snd (mach e w)) = w_log w.
Proof. unfold mach. now destruct (e (w_mach w)). Qed.
Lemma winvocate_graph F Os G n a args w : k_label (w_mach w) = [] -> call_closed (k_store (w_mach w)) G -> (forall f, py_index (s_func (k_store (w_mach w))) a = Ok f -> G f) ->
  asked_only (asked_by G) w (snd (winvocate F Os n a args w)).
Proof.
  intros HL HG HF. unfold winvocate. unfold bind at 1, mach at 1, bind at 1, mget at 1, lift at 1. destruct (py_index (s_func (k_store (w_mach w))) a) as [[t h code|t hid]|e]; try now apply asked_refl.
  specialize (HF _ eq_refl). destruct w as [p lg pi [sm vm ls fm]]. cbn [w_mach k_label k_store with_mach] in *. subst ls. unfold bind at 1. unfold mach at 1. unfold bind at 1, assert.
  destruct (types_agree (ft_args t) args); [|now apply asked_refl]. set (w0 := mkworld _ _ _ _).
  match goal with |- asked_only _ w0 (snd (match ?X with _ => _ end)) => destruct X as [[u|e] w1] eqn:EX end.
  - cbn in EX. injection EX as _ E1. assert (EL : w_log w1 = w_log w0) by now rewrite <- E1.
    assert (HH : ReachFacts.housed sm G (fun _ => True) (w_mach w1)).
    { rewrite <- E1. split; [split; reflexivity|]. split; [exact I|]. exists (Some (t, h, code, O)). eapply ld_func with (x := None); try reflexivity; [apply ld_none|exact HF]. }
    pose proof (wevaluate_graph F Os sm G HG n w1 HH) as A. unfold bind at 1.
    assert (A' : asked_only (asked_by G) w0 (snd (wevaluate F Os n w1))) by (destruct A as (evs & E & K); exists evs; split; [now rewrite E, EL|exact K]).
    destruct (wevaluate F Os n w1) as [[u'|e] w2]; cbn [snd] in *; [|exact A'].
    eapply asked_trans; [exact A'|]. apply asked_refl, mach_log.
  - cbn in EX. discriminate EX.
Qed.
Lemma run_graph F Os G n h nm args w : k_label (w_mach w) = [] -> call_closed (k_store (w_mach w)) G ->
  (forall e f, find_export (nth h (s_inst (k_store (w_mach w))) modinst_empty) nm = Ok e -> py_index (s_func (k_store (w_mach w))) (Store.e_data e) = Ok f -> G f) ->
  asked_only (asked_by G) w (snd (wrt_invocate F Os n h nm args w)).
Proof.
  intros HL HG HF. unfold wrt_invocate. unfold bind at 1, mach at 1, bind at 1, mget at 1. unfold bind at 1, lift at 1. cbn [mod_of].
  destruct (find_export _ nm) as [e|x] eqn:EE; [|now apply asked_refl]. specialize (HF e).
  unfold bind at 1, lift at 1. destruct (py_index _ (Store.e_data e)) as [f|x] eqn:EF; [|now apply asked_refl]. cbn [ret].
  assert (EW : with_mach w (w_mach w) = w) by now destruct w. rewrite EW.
  unfold bind at 1. unfold mach at 1. unfold assert. destruct (len (ft_args (fi_type f)) =? len args); [|now apply asked_refl]. unfold lift at 1. cbn [py_assert]. cbv beta iota. rewrite EW.
  unfold bind at 1, lift at 1. destruct (from_alls F (ft_args (fi_type f)) args) as [vs|x]; [|now apply asked_refl].
  unfold bind at 1. assert (A : asked_only (asked_by G) w (snd (winvocate F Os n (Store.e_data e) vs w))).
  { apply winvocate_graph; [exact HL|exact HG|]. intros f' Ef. rewrite EF in Ef. exact (HF f' eq_refl Ef). }
  destruct (winvocate F Os n (Store.e_data e) vs w) as [[rs|x] w2]; exact A.
Qed.
