(* A module without imports does the same whatever other programs do in between. *)
From Coq Require Import ZArith List Bool Lia ZifyBool ZifyNat.
From Verif Require Import Py Arith Floatops Val Opcode Numeric Syntax Store Basic Machine
  SpecInt SpecNum SpecMachine SpecMem SpecRun SpecControl SpecInst SpecType SpecValid SpecRef SpecIsolate SpecAgree
  PyFacts ArithFacts ValFacts StepFacts LaneFacts NumFacts MemFacts BulkFacts WfFacts RunFacts ControlFacts CallFacts InstFacts InitFacts
  TypeOpFacts TypeBasicFacts TypeFacts ValidFacts HistoryFacts IsolateFacts IsolateRunFacts IsolateInitFacts AgreeFacts AgreeRunFacts.
Import ListNotations.
Open Scope Z_scope.

Lemma same_fst {A} sg G s0 s0' Q (p p' : res A * machine) : same_out sg G s0 s0' (is Q) p p' -> fst p' = fst p /\ agrees G (k_store (snd p)) (k_store (snd p')).
Proof.
  destruct p as [[a|e] m], p' as [[a'|e'] m']; cbn [same_out fst snd]; try contradiction.
  - intros [H [-> _]]. split; [reflexivity|apply (bo_store _ _ _ _ _ _ H)].
  - intros [-> H]. split; [reflexivity|exact H].
Qed.
Lemma agrees_trans G a b c : agrees G a b -> agrees G b c -> agrees G a c.
Proof.
  intros [A1 A2 A3 A4 A5 A6 A7 A8] [B1 B2 B3 B4 B5 B6 B7 B8].
  constructor; intros x Hx; [rewrite B1, A1|rewrite B2, A2|rewrite B3, A3|rewrite B4, A4|rewrite B5, A5|rewrite B6, A6|rewrite B7, A7|rewrite B8, A8]; auto.
Qed.
(* calls of exported functions *)
Lemma rt_both F host sg G n h nm args e f m m' : converts F -> well_behaved host -> host_typed sg host -> host_inside sg G host -> host_agrees sg G host ->
  settled sg m -> settled sg m' -> closed sg G (k_store m) -> agrees G (k_store m) (k_store m') -> g_inst G h ->
  find_export (mod_of (k_store m) (MRef h)) nm = Ok e -> among (g_func G) (Store.e_data e) -> nth_error (s_func (k_store m)) (Z.to_nat (Store.e_data e)) = Some f ->
  Forall pyval_ok args -> numbers_in G (ft_args (fi_type f)) args ->
  fst (rt_invocate F host n h nm args m') = fst (rt_invocate F host n h nm args m) /\
  agrees G (k_store (snd (rt_invocate F host n h nm args m))) (k_store (snd (rt_invocate F host n h nm args m'))).
Proof.
  intros CF HB HH HG HE HS HS' HC HA Hh E1 [A0 A] N HP NI.
  assert (E1' : find_export (mod_of (k_store m') (MRef h)) nm = Ok e) by (rewrite (agrees_mod G _ _ _ HA Hh); exact E1).
  assert (N' : nth_error (s_func (k_store m')) (Z.to_nat (Store.e_data e)) = Some f) by (rewrite (ag_func _ _ _ HA) by exact A; exact N).
  assert (ZE : Store.e_data e = Z.of_nat (Z.to_nat (Store.e_data e))) by lia.
  assert (E2 : py_index (s_func (k_store m)) (Store.e_data e) = Ok f) by (rewrite ZE; apply py_index_nth, N).
  assert (E2' : py_index (s_func (k_store m')) (Store.e_data e) = Ok f) by (rewrite ZE; apply py_index_nth, N').
  destruct (Z.eqb_spec (len (ft_args (fi_type f))) (len args)) as [E3|E3].
  2:{ assert (X : forall x, find_export (mod_of (k_store x) (MRef h)) nm = Ok e -> py_index (s_func (k_store x)) (Store.e_data e) = Ok f -> rt_invocate F host n h nm args x = (Err EAssert, x)).
      { intros x X1 X2. unfold rt_invocate. rewrite (bind_do mget _ x x x eq_refl). unfold bind, lift, assert, lift, py_assert. rewrite X1, X2. destruct (Z.eqb_spec (len (ft_args (fi_type f))) (len args)); [contradiction|reflexivity]. }
      rewrite (X m E1 E2), (X m' E1' E2'). split; [reflexivity|exact HA]. }
  destruct f as [t hh code|t hid].
  - cbn [fi_type] in E3, NI. rewrite (rt_call F host sg n h nm args m e _ t hh code HS E1 E2 N E3), (rt_call F host sg n h nm args m' e _ t hh code HS' E1' E2' N' E3).
    destruct (from_alls F (ft_args t) args) as [vs|x] eqn:EF; [|split; [reflexivity|exact HA]].
    pose proof (from_alls_types F _ _ _ EF ltac:(unfold len in E3; lia)) as HT. pose proof (from_alls_gives F _ _ HP _ EF) as HW. pose proof (from_alls_in G F _ _ NI _ EF) as HI.
    pose proof (invocate_both sg G (k_store m) (k_store m') F host HG HE CF HB HH _ t hh code vs n (se_ok _ _ HS) (se_typed _ _ HS) HC HA A N HW HT HI) as IV.
    apply (same_fst sg G (k_store m) (k_store m') any). eapply s_bind; [exact IV|]. intros rets _. apply p_any. reflexivity.
  - assert (X : forall x, find_export (mod_of (k_store x) (MRef h)) nm = Ok e -> py_index (s_func (k_store x)) (Store.e_data e) = Ok (FHost t hid) ->
      rt_invocate F host n h nm args x = (match from_alls F (ft_args t) args with Ok _ => Err EAssert | Err y => Err y end, x)).
    { intros x X1 X2. unfold rt_invocate. rewrite (bind_do mget _ x x x eq_refl). unfold bind at 1, lift at 1. rewrite X1. unfold bind at 1, lift at 1. rewrite X2.
      cbn [fi_type] in *. rewrite E3, Z.eqb_refl. rewrite (bind_do (assert true) _ x tt x eq_refl). unfold bind at 1, lift at 1.
      destruct (from_alls F (ft_args t) args) as [vs|y]; [|reflexivity].
      unfold invocate. unfold bind at 1. rewrite (bind_do mget _ x x x eq_refl). unfold bind, lift. rewrite X2. reflexivity. }
    rewrite (X m E1 E2), (X m' E1' E2'). split; [reflexivity|exact HA].
Qed.

Section own.
Context (F : fops) (CF : converts F) (host : hostcode) (HB : well_behaved host) (sg : nat -> functype) (HH : host_typed sg host)
  (m : machine) (HS : settled sg m) (md : moddesc) (L : loaded) (m1 : machine) (n h : nat) (m2 : machine)
  (DO : desc_ok md) (VM : valid_module md) (NI : md_imps md = []) (MANY : len (s_func (k_store m)) + len (md_func md) < 2 ^ 31)
  (EL : load_module md m = (Ok L, m1)) (Hn : (2 <= n)%nat) (EI : instance F host n L [] m1 = (Ok h, m2)).
Notation s := (k_store m).
Notation s2 := (k_store m2).
Notation G := (only_new s s2).
Notation R := (all_but s s2).
Lemma own_new : g_inst G h.
Proof.
  destruct (load_settled sg md m L m1 HS DO VM EL) as (HS1 & _ & EM & BL & EF). pose proof MANY as MANY'. rewrite <- EF, <- EM in MANY'.
  pose proof VM as VM'. assert (FI : Forall2 (fits (k_store m1) md) (md_imps md) []) by (rewrite NI; constructor). rewrite <- EM in VM', FI.
  destruct (own_instance F CF host HB sg HH m HS md L m1 n h m2 DO VM NI MANY EL Hn EI) as (mi & N & _).
  cbn [only_new g_inst]. unfold between.
  destruct (instance_ok _ _ _ _ _ _ _ _ EI) as (_ & _ & globin & elemin & m3 & m4 & E1 & E2 & _ & _).
  assert (h < length (s_inst s2))%nat by (apply nth_error_Some; congruence). split; [|assumption].
  destruct (head_runs sg F CF host _ (se_typed _ _ HS1) (se_ok _ _ HS1) _ [] VM' FI MANY' n Hn) as (g & e & EH & _).
  rewrite (settled_eq _ _ HS1) in E1. cbn [k_store] in E1. rewrite EH in E1. injection E1 as <- <- <-.
  destruct (allocate_ok _ _ _ _ _ _ _ E2) as (s' & mi' & fs & ts & ms & gs & es & AL & _). destruct AL. cbn [k_store] in al_h. subst h.
  unfold load_module in EL. injection EL as _ <-. cbn [set_store k_store set_s_blob s_inst]. apply le_n.
Qed.
Lemma own_agrees : host_agrees sg G host.
Proof. intros hid args x x' []. Qed.
(* the exported functions are its own *)
Lemma own_export nm e : find_export (mod_of s2 (MRef h)) nm = Ok e -> e_kind e = 0 -> among (g_func G) (Store.e_data e).
Proof.
  intros FE EK. destruct (own_instance F CF host HB sg HH m HS md L m1 n h m2 DO VM NI MANY EL Hn EI) as (mi & N & _ & EX).
  rewrite (mod_of_ref _ _ _ N) in FE. unfold find_export in FE. destruct (filter (fun e0 => name_eqb (ei_name e0) nm) (m_exps mi)) as [|x l] eqn:EF; [discriminate|]. injection FE as <-.
  assert (IN : In x (m_exps mi)) by (apply (filter_In (fun e0 => name_eqb (ei_name e0) nm)); rewrite EF; left; reflexivity).
  rewrite Forall_forall in EX. exact (EX x IN EK).
Qed.
(* any later moment between calls *)
Record moment (x : machine) : Prop := mk_moment {
  mo_settled : settled sg x; mo_closed : closed sg G (k_store x); mo_rest : closed sg R (k_store x);
  mo_longer : longer s2 (k_store x);
  mo_inst : mod_of (k_store x) (MRef h) = mod_of s2 (MRef h);
  mo_func : forall a, g_func G a -> nth_error (s_func (k_store x)) a = nth_error (s_func s2) a
}.
Lemma moment_first : closed sg (all_of s) s -> moment m2.
Proof.
  intros C0. constructor; try reflexivity.
  - exact (own_settled F CF host HB sg HH m HS md L m1 n h m2 DO VM NI MANY EL Hn EI).
  - exact (proj1 (own_closed F CF host HB sg HH m HS md L m1 n h m2 DO VM NI MANY EL Hn EI)).
  - exact (rest_closed F CF host HB sg HH m HS md L m1 n h m2 DO VM NI MANY EL Hn EI C0).
  - constructor; apply le_n.
Qed.
(* others *)
Lemma moment_other x x' : host_inside sg R host -> moment x -> uses_only F host sg R x x' -> moment x' /\ agrees G (k_store x) (k_store x').
Proof.
  intros HI [S1 C1 C2 LG MO MF] HU. destruct (uses_stays F CF host HB sg HH _ HI x x' HU S1) as [LG' X].
  pose proof (proj1 (history_settled F CF host HB sg HH _ _ (uses_history F host sg _ _ _ HU) S1)) as S2.
  destruct (X C2) as [C3 K].
  { pose proof (st_many _ (se_typed _ _ S2)) as M. unfold len in M. destruct LG. constructor; intros a [H1 H2]; cbn [all_but g_func g_tabl g_mems g_glob g_elem g_data g_blob g_inst]; unfold between; lia. }
  assert (KE : forall A (l l' : list A) a, (a < length l)%nat -> (forall b y, nth_error l b = Some y -> nth_error l' b = Some y) -> nth_error l' a = nth_error l a).
  { intros A l l' a Ha Hk. destruct (nth_error l a) as [y|] eqn:E; [exact (Hk _ _ E)|apply nth_error_None in E; lia]. }
  assert (AG : agrees G (k_store x) (k_store x')).
  { constructor; cbn [only_new g_func g_tabl g_mems g_glob g_elem g_data g_blob g_inst]; intros a Ha.
    - apply KE; [destruct LG; unfold between in Ha; lia|apply (ko_func _ _ _ K)].
    - apply KE; [destruct LG; unfold between in Ha; lia|apply (ko_inst _ _ _ K)].
    - apply (ko_tabl _ _ _ K). intros Y; exact (Y Ha).
    - apply (ko_mems _ _ _ K). intros Y; exact (Y Ha).
    - apply (ko_glob _ _ _ K). intros Y; exact (Y Ha).
    - apply (ko_elem _ _ _ K). intros Y; exact (Y Ha).
    - apply KE; [destruct LG; unfold between in Ha; lia|apply (ko_data _ _ _ K)].
    - apply (ko_blob _ _ _ K). intros Y; exact (Y Ha). }
  split; [|exact AG]. constructor; [exact S2|exact (agrees_closed sg G _ _ AG C1)|exact C3|exact (longer_trans _ _ _ LG LG')| |].
  - rewrite (agrees_mod G _ _ _ AG own_new). exact MO.
  - intros a Ha. rewrite (ag_func _ _ _ AG) by exact Ha. apply MF, Ha.
Qed.
(* its own calls *)
Lemma moment_callable x nm args : moment x -> callable G s2 h nm args -> exists e f, find_export (mod_of (k_store x) (MRef h)) nm = Ok e /\
  among (g_func G) (Store.e_data e) /\ nth_error (s_func (k_store x)) (Z.to_nat (Store.e_data e)) = Some f /\ Forall pyval_ok args /\ numbers_in G (ft_args (fi_type f)) args.
Proof.
  intros [S1 C1 C2 LG MO MF] (e & f & E1 & E2 & [E3 E4] & E5 & E6). exists e, f. pose proof (own_export nm e E1 E2) as A. rewrite MO. split; [exact E1|]. split; [exact A|].
  split; [rewrite MF by apply A; exact E4|]. split; assumption.
Qed.
Lemma moment_call x k nm args rs x' : moment x -> callable G s2 h nm args -> rt_invocate F host k h nm args x = (Ok rs, x') -> moment x'.
Proof.
  intros MX CA E. destruct (moment_callable x nm args MX CA) as (e & f & E1 & A & N & HP & NU). destruct MX as [S1 C1 C2 LG MO MF].
  assert (CO : forall e f, find_export (mod_of (k_store x) (MRef h)) nm = Ok e -> py_index (s_func (k_store x)) (Store.e_data e) = Ok f -> among (g_func G) (Store.e_data e) /\ numbers_in G (ft_args (fi_type f)) args).
  { intros e' f' E1' E2'. rewrite E1 in E1'. injection E1' as <-. split; [exact A|]. apply index_at in E2'; [|apply A]. rewrite N in E2'. injection E2' as <-. exact NU. }
  pose proof (rt_call_any F host sg G k h nm args (Ok rs) x x' CF HB HH (no_hosts host sg m m2) S1 HP CO C1 E) as [C1' SO].
  assert (UO : uses_only F host sg G x x') by exact (uo_call F host sg G x x k h nm args rs x' (uo_nil _ _ _ _ _) HP CO E).
  pose proof (proj1 (uses_stays F CF host HB sg HH _ (no_hosts host sg m m2) x x' UO S1)) as LG'.
  pose proof (proj1 (history_settled F CF host HB sg HH _ _ (uses_history F host sg _ _ _ UO) S1)) as S2.
  constructor; [exact S2|exact C1'| |exact (longer_trans _ _ _ LG LG')| |].
  - destruct SO as [O1 O2 O3 O4 O5 O6 O7 O8]. destruct C2 as [D1 D2 D3 D4 D5 D6 D7].
    constructor; [exact D1| | | | | |]; intros a y Ha Ny.
    + rewrite O1 in Ny. exact (D2 a y Ha Ny).
    + rewrite O2 in Ny. exact (D3 a y Ha Ny).
    + rewrite O4 in Ny by exact Ha. exact (D4 a y Ha Ny).
    + rewrite O6 in Ny by exact Ha. exact (D5 a y Ha Ny).
    + rewrite O7 in Ny by exact Ha. exact (D6 a y Ha Ny).
    + rewrite O3 in Ny. exact (D7 a y Ha Ny).
  - rewrite (mod_same G _ _ _ SO). exact MO.
  - intros a Ha. rewrite (so_funcs _ _ _ SO). apply MF, Ha.
Qed.
Lemma moment_same x y k nm args : moment x -> moment y -> agrees G (k_store x) (k_store y) -> callable G s2 h nm args ->
  fst (rt_invocate F host k h nm args y) = fst (rt_invocate F host k h nm args x) /\
  agrees G (k_store (snd (rt_invocate F host k h nm args x))) (k_store (snd (rt_invocate F host k h nm args y))).
Proof.
  intros MX MY AG CA. destruct (moment_callable x nm args MX CA) as (e & f & E1 & A & N & HP & NU).
  exact (rt_both F host sg G k h nm args e f x y CF HB HH (no_hosts host sg m m2) own_agrees (mo_settled _ MX) (mo_settled _ MY) (mo_closed _ MX) AG own_new E1 A N HP NU).
Qed.
Lemma amid_alone l m3 : closed sg (all_of s) s -> host_inside sg R host -> amid F host sg R h m2 l m3 -> Forall (fun c => callable G s2 h (ca_name c) (ca_args c)) l ->
  exists m4, calls F host h m2 l m4 /\ moment m3 /\ moment m4 /\ agrees G (k_store m4) (k_store m3).
Proof.
  intros C0 HI HA. induction HA as [|l x c x' HA IH E|l x x' HA IH HU]; intros HL.
  - exists m2. pose proof (moment_first C0). split; [constructor|]. split; [assumption|]. split; [assumption|]. apply agrees_refl.
  - apply Forall_app in HL. destruct HL as [HL HC]. apply Forall_cons_iff in HC. destruct HC as [HC _]. destruct (IH HL) as (y & H1 & MX & MY & AG).
    destruct (moment_same y x (ca_turns c) (ca_name c) (ca_args c) MY MX AG HC) as [X1 X2]. rewrite E in X1, X2. cbn [fst snd] in X1, X2.
    destruct (rt_invocate F host (ca_turns c) h (ca_name c) (ca_args c) y) as [r y'] eqn:EY. cbn [fst snd] in X1, X2. subst r.
    exists y'. split; [exact (cs_call F host h m2 l y c y' H1 EY)|]. split; [exact (moment_call _ _ _ _ _ _ MX HC E)|]. split; [exact (moment_call _ _ _ _ _ _ MY HC EY)|exact X2].
  - destruct (IH HL) as (y & H1 & MX & MY & AG). destruct (moment_other x x' HI MX HU) as [MX' AG']. exists y. split; [exact H1|]. split; [exact MX'|]. split; [exact MY|].
    exact (agrees_trans _ _ _ _ AG AG').
Qed.
End own.
