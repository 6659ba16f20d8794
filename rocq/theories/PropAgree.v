(* C132: what a function returns depends only on what it can reach. *)
From Coq Require Import ZArith List Bool Lia.
From Verif Require Import Py Arith Floatops Val Opcode Numeric Syntax Store Basic Machine SpecMachine SpecControl SpecRun SpecInst SpecType.
From Verif Require Import RunFacts Float SpecValid SpecIsolate SpecAgree TypeFacts HistoryFacts IsolateFacts IsolateRunFacts IsolateInitFacts AgreeFacts AgreeRunFacts AgreeOwnFacts
  TypeIeeeFacts PropType PropValid PropIsolate.
Import ListNotations.
Open Scope Z_scope.

(* ---- calls ---- *)
(* A function of a closed part of a typed store is called, and also in another store that agrees on the part and is
   otherwise arbitrary, with the same arguments and the same limit of turns: both calls return the same or raise the
   same, and leave stores that agree on the part. *)
Theorem C132_calls F host sg G s s' a t h code args n : converts F -> well_behaved host -> host_typed sg host -> host_inside sg G host -> host_agrees sg G host ->
  store_ok s -> store_typed sg s -> closed sg G s -> agrees G s s' -> g_func G a -> nth_error (s_func s) a = Some (FWasm t h code) ->
  Forall val_wf args -> has_types args (ft_args t) -> Forall (inside G) args ->
  let p := invocate F host n (Z.of_nat a) args (mkmach s [] [] []) in
  let p' := invocate F host n (Z.of_nat a) args (mkmach s' [] [] []) in
  fst p' = fst p /\ agrees G (k_store (snd p)) (k_store (snd p')).
Proof.
  intros CF HB HH HI HE SO ST HC HA Ha N W T I. cbv zeta. apply (same_fst sg G s s' any).
  exact (invocate_both sg G s s' F host HI HE CF HB HH a t h code args n SO ST HC HA Ha N W T I).
Qed.
Print Assumptions C132_calls.
(* The two runs go side by side: after every number of turns both have stopped with the same exception, or both are at
   the same instruction with the same values, labels and frames. *)
Theorem C132_moments F host sg G s s' a t h code args k : converts F -> well_behaved host -> host_typed sg host -> host_inside sg G host -> host_agrees sg G host ->
  store_ok s -> store_typed sg s -> closed sg G s -> agrees G s s' -> g_func G a -> nth_error (s_func s) a = Some (FWasm t h code) ->
  Forall val_wf args -> has_types args (ft_args t) -> Forall (inside G) args ->
  match evaluate F host k (starts s t h code args), evaluate F host k (starts s' t h code args) with
  | (Ok _, m), (Ok _, m') => k_value m' = k_value m /\ k_label m' = k_label m /\ k_frame m' = k_frame m /\ agrees G (k_store m) (k_store m')
  | (Err e, m), (Err e', m') => e' = e /\ agrees G (k_store m) (k_store m')
  | _, _ => False
  end.
Proof.
  intros CF HB HH HI HE SO ST HC HA Ha N W T I.
  pose proof (evaluate_both sg G s s' F host HI HE CF HB HH _ k _ _ (starts_running s t h code args a SO ST N W T) (starts_both sg G s s' a t h code args HC HA Ha N I)) as X.
  destruct (evaluate F host k (starts s t h code args)) as [[u|e] m], (evaluate F host k (starts s' t h code args)) as [[u'|e'] m']; try contradiction; [|exact X].
  destruct X as [X _]. destruct X. exact (conj bo_value (conj bo_label (conj bo_frame bo_store))).
Qed.
Print Assumptions C132_moments.

(* ---- a module without imports among other programs ---- *)
(* A validated module without imports is instantiated. Its exported functions are called any number of times, and before,
   between and after these calls other programs, which are handed none of its objects, do anything. Then the same calls
   one after the other, without the other programs, return the same results; the module's state is the same in the end;
   and whatever is called next returns or raises the same. *)
Theorem C132_interleaved F host sg n md L m m1 m2 h l m3 : converts F -> well_behaved host -> host_typed sg host ->
  host_inside sg (all_of (k_store m)) host -> uses_only F host sg (all_of (k_store m)) machine_empty m ->
  desc_ok md -> valid_module md -> md_imps md = [] ->
  len (s_func (k_store m)) + len (md_func md) < 2 ^ 31 -> load_module md m = (Ok L, m1) -> (2 <= n)%nat ->
  instance F host n L [] m1 = (Ok h, m2) ->
  let G := only_new (k_store m) (k_store m2) in
  let R := all_but (k_store m) (k_store m2) in
  host_inside sg R host -> amid F host sg R h m2 l m3 -> Forall (fun c => callable G (k_store m2) h (ca_name c) (ca_args c)) l ->
  exists m4, calls F host h m2 l m4 /\ agrees G (k_store m4) (k_store m3) /\
    forall k nm args, callable G (k_store m2) h nm args -> fst (rt_invocate F host k h nm args m3) = fst (rt_invocate F host k h nm args m4).
Proof.
  intros CF HB HH HI HU DO VM NI MANY EL Hn EI G R HI2 HA HL.
  pose proof (proj1 (history_settled F CF host HB sg HH _ _ (uses_history F host sg _ _ _ HU) (empty_settled sg))) as HS.
  assert (C0 : closed sg (all_of (k_store m)) (k_store m)).
  { apply (proj2 (uses_stays F CF host HB sg HH _ HI machine_empty m HU (empty_settled sg))).
    - constructor; cbn [all_of g_func]; [|intros [|a]; discriminate..]. intros a Ha. pose proof (st_many _ (se_typed _ _ HS)) as X. unfold len in X. change (a < length (s_func (k_store m)))%nat in Ha. lia.
    - constructor; intros a [_ Ha]; exact Ha. }
  destruct (amid_alone F CF host HB sg HH m HS md L m1 n h m2 DO VM NI MANY EL Hn EI l m3 C0 HI2 HA HL) as (m4 & H1 & M3 & M4 & AG).
  exists m4. split; [exact H1|]. split; [exact AG|]. intros k nm args CA.
  exact (proj1 (moment_same F CF host HB sg HH m HS md L m1 n h m2 DO VM NI MANY EL Hn EI m4 m3 k nm args M4 M3 AG CA)).
Qed.
Print Assumptions C132_interleaved.

(* ---- the hypotheses are met ---- *)
(* a host function that gives its arguments back *)
Definition ex_echo : hostcode := fun _ args m => (Ok args, m).
Example ex_C132_host G : host_inside (fun _ => ex_ii) G ex_echo /\ host_agrees (fun _ => ex_ii) G ex_echo.
Proof.
  split.
  - intros hid args m r m' _ HC _ E. injection E as <- <-. split; [exact HC|]. split; [apply out_refl|]. intros l _. split; [|repeat split]. intros [|[|i]] z E; discriminate E.
  - intros hid args m m' _ _ _ HA _ _ _ _ _. split; [reflexivity|exact HA].
Qed.
(* The counter of PropIsolate.v: its first instance, before and after a second one is made and called. *)
Notation ex_sg := (fun _ : nat => ex_ii).
Notation ex_G := (only_new (k_store machine_empty) (k_store ex_one)).
Lemma ex_closed_none : closed ex_sg (all_of (k_store machine_empty)) (k_store machine_empty).
Proof. constructor; [intros a Ha; cbn in Ha; lia|intros [|a]; discriminate..]. Qed.
Lemma ex_moment : moment ex_sg machine_empty 0 ex_one ex_one.
Proof.
  exact (moment_first ieee ieee_converts ex_nohost ex_nohost_behaved ex_sg (ex_nohost_typed _) machine_empty (empty_settled _) ex_counter (mkloaded ex_counter []) machine_empty 100 0 ex_one
    ex_counter_ok ex_counter_valid eq_refl ltac:(cbn; lia) ex_load_one ltac:(lia) ex_made_one ex_closed_none).
Qed.
Lemma ex_moment_later : moment ex_sg machine_empty 0 ex_one ex_three /\ agrees ex_G (k_store ex_one) (k_store ex_three).
Proof.
  exact (moment_other ieee ieee_converts ex_nohost ex_nohost_behaved ex_sg (ex_nohost_typed _) machine_empty (empty_settled _) ex_counter (mkloaded ex_counter []) machine_empty 100 0 ex_one
    ex_counter_ok ex_counter_valid eq_refl ltac:(cbn; lia) ex_load_one ltac:(lia) ex_made_one ex_one ex_three (ex_nohost_inside _ _) ex_moment ex_others).
Qed.
Lemma ex_func : nth_error (s_func (k_store ex_one)) 0 = Some (FWasm (mkft [] [T_i32]) 0 (nth 0 (md_func ex_counter) (mkfd 0 [] []))).
Proof. vm_compute. reflexivity. Qed.
Lemma ex_gives : fst (invocate ieee ex_nohost 100 (Z.of_nat 0) [] (mkmach (k_store ex_three) [] [] [])) = Ok [num_val T_i32 1].
Proof. vm_compute. reflexivity. Qed.
Example ex_C132_calls : host_inside ex_sg ex_G ex_nohost /\ host_agrees ex_sg ex_G ex_nohost /\
  store_ok (k_store ex_one) /\ store_typed ex_sg (k_store ex_one) /\ closed ex_sg ex_G (k_store ex_one) /\ agrees ex_G (k_store ex_one) (k_store ex_three) /\ g_func ex_G 0 /\
  length (s_glob (k_store ex_one)) <> length (s_glob (k_store ex_three)) /\
  fst (invocate ieee ex_nohost 100 (Z.of_nat 0) [] (mkmach (k_store ex_one) [] [] [])) = Ok [num_val T_i32 1].
Proof.
  pose proof ex_moment as [S1 C1 _ _ _ _]. destruct ex_moment_later as [_ AG]. pose proof ex_sizes as (Z1 & _ & Z3).
  assert (HE : host_agrees ex_sg ex_G ex_nohost) by (intros hid args m m' []).
  assert (G0 : g_func ex_G 0) by (unfold only_new, g_func, between; rewrite Z1; cbn; lia).
  split; [apply ex_nohost_inside|]. split; [exact HE|]. split; [apply (se_ok _ _ S1)|]. split; [apply (se_typed _ _ S1)|]. split; [exact C1|]. split; [exact AG|]. split; [exact G0|].
  split; [vm_compute; discriminate|].
  destruct (C132_calls ieee ex_nohost ex_sg ex_G (k_store ex_one) (k_store ex_three) 0 _ _ _ [] 100 ieee_converts ex_nohost_behaved (ex_nohost_typed _) (ex_nohost_inside _ _) HE
    (se_ok _ _ S1) (se_typed _ _ S1) C1 AG G0 ex_func (Forall_nil _) eq_refl (Forall_nil _)) as [X _].
  rewrite <- X. exact ex_gives.
Qed.
(* The first instance is called, then the second is made and called, then the first is called again: it counts 1, 2. *)
Definition ex_c1 : machine := snd (rt_invocate ieee ex_nohost 100 0 [116] [] ex_one).
Definition ex_c2 : machine := snd (instance ieee ex_nohost 100 (mkloaded ex_counter []) [] ex_c1).
Definition ex_c3 : machine := snd (rt_invocate ieee ex_nohost 100 1 [116] [] ex_c2).
Definition ex_c4 : machine := snd (rt_invocate ieee ex_nohost 100 0 [116] [] ex_c3).
Lemma ex_c_call1 : rt_invocate ieee ex_nohost 100 0 [116] [] ex_one = (Ok [PInt 1], ex_c1).
Proof. vm_compute. reflexivity. Qed.
Lemma ex_c_load : load_module ex_counter ex_c1 = (Ok (mkloaded ex_counter []), ex_c1).
Proof. vm_compute. reflexivity. Qed.
Lemma ex_c_made : instance ieee ex_nohost 100 (mkloaded ex_counter []) [] ex_c1 = (Ok 1%nat, ex_c2).
Proof. vm_compute. reflexivity. Qed.
Lemma ex_c_call2 : rt_invocate ieee ex_nohost 100 1 [116] [] ex_c2 = (Ok [PInt 1], ex_c3).
Proof. vm_compute. reflexivity. Qed.
Lemma ex_c_call3 : rt_invocate ieee ex_nohost 100 0 [116] [] ex_c3 = (Ok [PInt 2], ex_c4).
Proof. vm_compute. reflexivity. Qed.
Lemma ex_c_room : len (s_func (k_store ex_c1)) + len (md_func ex_counter) < 2 ^ 31.
Proof. vm_compute. reflexivity. Qed.
Lemma ex_c_others : uses_only ieee ex_nohost ex_sg (all_but (k_store machine_empty) (k_store ex_one)) ex_c1 ex_c3.
Proof.
  eapply (uo_call _ _ _ _ _ ex_c2 100 1 [116] [] [PInt 1]).
  - eapply (uo_module _ _ _ _ _ ex_c1 ex_counter (mkloaded ex_counter []) ex_c1 100 [] 1 ex_c2 (uo_nil _ _ _ _ _));
      [exact ex_counter_ok|exact ex_counter_valid|exact ex_c_room|exact ex_c_load|constructor|constructor|lia|exact ex_c_made].
  - constructor.
  - intros e f E1 E2. vm_compute in E1. injection E1 as <-. vm_compute in E2. injection E2 as <-. split; [|intros [|i] z; discriminate].
    split; [cbn; lia|]. pose proof ex_sizes as (S1 & _). unfold all_but, g_func, between. cbn [Store.e_data]. rewrite S1. split; [lia|reflexivity].
  - exact ex_c_call2.
Qed.
Lemma ex_callable : callable ex_G (k_store ex_one) 0 [116] [].
Proof.
  eexists (mkext 0 0), _. split; [vm_compute; reflexivity|]. split; [reflexivity|]. split; [split; [cbn; lia|exact ex_func]|]. split; [constructor|]. intros [|i] z E; discriminate E.
Qed.
Example ex_C132_interleaved : let l := [mkcall 100 [116] [] [PInt 1]; mkcall 100 [116] [] [PInt 2]] in
  amid ieee ex_nohost ex_sg (all_but (k_store machine_empty) (k_store ex_one)) 0 ex_one l ex_c4 /\
  Forall (fun c => callable ex_G (k_store ex_one) 0 (ca_name c) (ca_args c)) l /\
  exists m4, calls ieee ex_nohost 0 ex_one l m4 /\ agrees ex_G (k_store m4) (k_store ex_c4).
Proof.
  cbv zeta.
  assert (A : amid ieee ex_nohost ex_sg (all_but (k_store machine_empty) (k_store ex_one)) 0 ex_one [mkcall 100 [116] [] [PInt 1]; mkcall 100 [116] [] [PInt 2]] ex_c4).
  { apply (am_call _ _ _ _ _ _ [mkcall 100 [116] [] [PInt 1]] ex_c3 (mkcall 100 [116] [] [PInt 2]) ex_c4); [|exact ex_c_call3].
    eapply am_other; [|exact ex_c_others]. apply (am_call _ _ _ _ _ _ [] ex_one (mkcall 100 [116] [] [PInt 1]) ex_c1); [apply am_nil|exact ex_c_call1]. }
  assert (FA : Forall (fun c => callable ex_G (k_store ex_one) 0 (ca_name c) (ca_args c)) [mkcall 100 [116] [] [PInt 1]; mkcall 100 [116] [] [PInt 2]]).
  { constructor; [exact ex_callable|]. constructor; [exact ex_callable|constructor]. }
  split; [exact A|]. split; [exact FA|].
  destruct (C132_interleaved ieee ex_nohost ex_sg 100 ex_counter (mkloaded ex_counter []) machine_empty machine_empty ex_one 0 _ ex_c4
    ieee_converts ex_nohost_behaved (ex_nohost_typed _) (ex_nohost_inside _ _) (uo_nil _ _ _ _ _) ex_counter_ok ex_counter_valid eq_refl ltac:(cbn; lia) ex_load_one ltac:(lia) ex_made_one
    (ex_nohost_inside _ _) A FA) as (m4 & H1 & H2 & _).
  exists m4. split; assumption.
Qed.
