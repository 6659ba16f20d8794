(* C130: a module's private state is out of reach of code that was not given it. *)
From Coq Require Import ZArith List Bool Lia.
From Verif Require Import Py Arith Floatops Val Opcode Numeric Syntax Store Leb128 Utf8 Decode Basic Machine SpecMachine SpecControl SpecRun SpecInst SpecType.
From Verif Require Import RunFacts Float SpecValid SpecIsolate InstFacts TypeBasicFacts HistoryFacts IsolateFacts IsolateRunFacts IsolateInitFacts TypeIeeeFacts ValidFacts PropType PropValid.
Import ListNotations.
Open Scope Z_scope.

(* ---- modules that were only decoded ---- *)
(* a file with the given sections *)
Definition ex_file (all : list (Z * list Z)) : list Z :=
  [0x00; 0x61; 0x73; 0x6d; 0x01; 0x00; 0x00; 0x00] ++ concat (map (fun s => fst s :: len (snd s) :: snd s) all).
(* A module with a private global. Function 0, not exported, sets it to 42; function 1, exported as "g", reads it. *)
Definition ex_keeper : list Z :=
  ex_file [(1, [2; 0x60; 0; 0; 0x60; 0; 1; 0x7f]); (3, [2; 0; 1]); (6, [1; 0x7f; 1; 0x41; 0; 0x0b]); (7, [1; 1; 0x67; 0; 1]);
    (10, [2; 6; 0; 0x41; 42; 0x24; 0; 0x0b; 4; 0; 0x23; 0; 0x0b])].
(* A module without imports: a table of one function reference, which an element segment sets to i64.const 2^32, and a
   function "g" that calls the first entry of the table. *)
Definition ex_forger : list Z :=
  ex_file [(1, [1; 0x60; 0; 0]); (3, [1; 0]); (4, [1; 0x70; 0; 1]); (7, [1; 1; 0x67; 0; 0]);
    (9, [1; 4; 0x41; 0; 0x0b; 1; 0x42; 0x80; 0x80; 0x80; 0x80; 0x10; 0x0b]); (10, [1; 7; 0; 0x41; 0; 0x11; 0; 0; 0x0b])].
Definition ex_nohost : hostcode := fun _ _ => fail EType.
(* Both are read and instantiated, without any imports. The forger's function is called, and the keeper's global, which
   only the keeper's functions should reach, has changed; the keeper reads 0 before and 42 after. *)
Theorem C130_refuted : exists A B LA LB ha hb m1 m2 m3 m4 m5 m6 m7,
  module_from_reader ex_keeper = Ok A /\ module_from_reader ex_forger = Ok B /\ md_imps B = [] /\
  load_module A machine_empty = (Ok LA, m1) /\ instance ieee ex_nohost 100 LA [] m1 = (Ok ha, m2) /\
  rt_invocate ieee ex_nohost 100 ha [0x67] [] m2 = (Ok [PInt 0], m3) /\
  load_module B m3 = (Ok LB, m4) /\ instance ieee ex_nohost 100 LB [] m4 = (Ok hb, m5) /\
  rt_invocate ieee ex_nohost 100 hb [0x67] [] m5 = (Ok [], m6) /\
  rt_invocate ieee ex_nohost 100 ha [0x67] [] m6 = (Ok [PInt 42], m7) /\
  nth_error (s_glob (k_store m5)) 0 <> nth_error (s_glob (k_store m6)) 0.
Proof.
  eexists _, _, _, _, _, _, _, _, _, _, _, _, _.
  split; [vm_compute; reflexivity|]. split; [vm_compute; reflexivity|]. split; [reflexivity|].
  split; [vm_compute; reflexivity|]. split; [vm_compute; reflexivity|]. split; [vm_compute; reflexivity|].
  split; [vm_compute; reflexivity|]. split; [vm_compute; reflexivity|]. split; [vm_compute; reflexivity|].
  split; [vm_compute; reflexivity|]. vm_compute. discriminate.
Qed.
Print Assumptions C130_refuted.

(* ---- calls ---- *)
(* A function of a closed part of a typed store, called with arguments that refer only to that part: whether it returns,
   raises or is cut off after [n] turns, the part is still closed, the rest of the store is as it was, and the results
   refer only to the part. *)
Theorem C130_calls_partial F host sg G s a t h code args n : converts F -> well_behaved host -> host_typed sg host -> host_inside sg G host ->
  store_ok s -> store_typed sg s -> closed sg G s -> g_func G a -> nth_error (s_func s) a = Some (FWasm t h code) ->
  Forall val_wf args -> has_types args (ft_args t) -> Forall (inside G) args ->
  match invocate F host n (Z.of_nat a) args (mkmach s [] [] []) with
  | (Ok rs, m') => closed sg G (k_store m') /\ same_outside G s (k_store m') /\ Forall (inside G) rs
  | (Err _, m') => closed sg G (k_store m') /\ same_outside G s (k_store m')
  end.
Proof.
  intros CF HB HH HI SO ST HC Ha N W T I. pose proof (invocate_in sg G s F host HI CF HB HH a t h code args n SO ST HC Ha N W T I) as X.
  destruct (invocate F host n (Z.of_nat a) args (mkmach s [] [] [])) as [[rs|e] m']; [|exact X]. destruct X as [[X1 X2] X3]. tauto.
Qed.
Print Assumptions C130_calls_partial.
(* And so at every moment while it runs. *)
Theorem C130_moments_partial F host sg G s a t h code args m : converts F -> well_behaved host -> host_typed sg host -> host_inside sg G host ->
  store_ok s -> store_typed sg s -> closed sg G s -> g_func G a -> nth_error (s_func s) a = Some (FWasm t h code) ->
  Forall val_wf args -> has_types args (ft_args t) -> Forall (inside G) args ->
  gets_to F host (starts s t h code args) m -> closed sg G (k_store m) /\ same_outside G s (k_store m).
Proof.
  intros CF HB HH HI SO ST HC Ha N W T I R.
  exact (mi_store _ _ _ _ (reached_in sg G s F host HI CF HB HH a t h code args m SO ST HC Ha N W T I R)).
Qed.
Print Assumptions C130_moments_partial.

(* ---- histories ---- *)
(* After any history, a program that is given only a closed part of the store, and the objects it makes: the part is
   still closed, and the rest of the store is as it was. *)
Theorem C130_histories_partial F host sg G m m' : converts F -> well_behaved host -> host_typed sg host -> host_inside sg G host ->
  history F host sg machine_empty m -> uses_only F host sg G m m' ->
  closed sg G (k_store m) -> holds_made G (k_store m) (k_store m') ->
  closed sg G (k_store m') /\ kept_outside G (k_store m) (k_store m').
Proof.
  intros CF HB HH HI HM HU. exact (proj2 (uses_stays F CF host HB sg HH G HI m m' HU (proj1 (history_settled F CF host HB sg HH _ _ HM (empty_settled sg))))).
Qed.
Print Assumptions C130_histories_partial.

(* ---- a module without imports ---- *)
(* After any history, a validated module without imports is instantiated. Its instance knows only objects that are new,
   these refer only to each other, and what was there before is unchanged. A call of one of its exported functions, with
   arguments that refer only to its functions, changes at most these objects, whether it returns, raises or is cut off. *)
Theorem C130_confined_partial F host sg n md L m m1 m2 h : converts F -> well_behaved host -> host_typed sg host ->
  history F host sg machine_empty m -> desc_ok md -> valid_module md -> md_imps md = [] ->
  len (s_func (k_store m)) + len (md_func md) < 2 ^ 31 -> load_module md m = (Ok L, m1) -> (2 <= n)%nat ->
  instance F host n L [] m1 = (Ok h, m2) ->
  let G := only_new (k_store m) (k_store m2) in
  closed sg G (k_store m2) /\ kept_outside G (k_store m) (k_store m2) /\
  (exists mi, nth_error (s_inst (k_store m2)) h = Some mi /\ knows G mi) /\
  forall n' nm e f args r m3, find_export (mod_of (k_store m2) (MRef h)) nm = Ok e -> e_kind e = 0 -> item (s_func (k_store m2)) (Store.e_data e) f ->
    Forall pyval_ok args -> numbers_in G (ft_args (fi_type f)) args -> rt_invocate F host n' h nm args m2 = (r, m3) ->
    closed sg G (k_store m3) /\ same_outside G (k_store m2) (k_store m3).
Proof.
  intros CF HB HH HM DO VM NI MANY EL Hn EI G. pose proof (proj1 (history_settled F CF host HB sg HH _ _ HM (empty_settled sg))) as HS.
  destruct (own_closed F CF host HB sg HH m HS md L m1 n h m2 DO VM NI MANY EL Hn EI) as [C K].
  destruct (own_instance F CF host HB sg HH m HS md L m1 n h m2 DO VM NI MANY EL Hn EI) as (mi & N & KN & EX).
  split; [exact C|]. split; [exact K|]. split; [exists mi; split; assumption|]. intros n' nm e f args r m3 FE EK FI HP NU E.
  apply (rt_call_any F host sg G n' h nm args r m2 m3 CF HB HH (no_hosts host sg m m2) (own_settled F CF host HB sg HH m HS md L m1 n h m2 DO VM NI MANY EL Hn EI) HP); [|exact C|exact E].
  intros e' f' FE' FI'. rewrite FE in FE'. injection FE' as <-. split.
  - rewrite (mod_of_ref _ _ _ N) in FE. unfold find_export in FE. destruct (filter (fun e0 => name_eqb (ei_name e0) nm) (m_exps mi)) as [|x l] eqn:EF; [discriminate|]. injection FE as <-.
    assert (IN : In x (m_exps mi)) by (apply (filter_In (fun e0 => name_eqb (ei_name e0) nm)); rewrite EF; left; reflexivity).
    rewrite Forall_forall in EX. exact (EX x IN EK).
  - destruct FI as [FI1 FI2]. rewrite (index_at _ _ _ FI1 FI') in FI2. injection FI2 as <-. exact NU.
Qed.
Print Assumptions C130_confined_partial.

(* A program makes any objects, calls any functions and loads any validated modules. Then a validated module without
   imports is instantiated. Whatever is done afterwards by code that is handed none of the new objects leaves the tables,
   memories, globals, segments and data of that module as its instantiation left them. *)
Theorem C130_private_partial F host sg n md L m m1 m2 m3 h : converts F -> well_behaved host -> host_typed sg host ->
  host_inside sg (all_of (k_store m)) host -> uses_only F host sg (all_of (k_store m)) machine_empty m ->
  desc_ok md -> valid_module md -> md_imps md = [] ->
  len (s_func (k_store m)) + len (md_func md) < 2 ^ 31 -> load_module md m = (Ok L, m1) -> (2 <= n)%nat ->
  instance F host n L [] m1 = (Ok h, m2) ->
  let s := k_store m in let s2 := k_store m2 in let s3 := k_store m3 in
  host_inside sg (all_but s s2) host -> uses_only F host sg (all_but s s2) m2 m3 ->
  (forall a, between (s_tabl s) (s_tabl s2) a -> nth_error (s_tabl s3) a = nth_error (s_tabl s2) a) /\
  (forall a, between (s_mems s) (s_mems s2) a -> nth_error (s_mems s3) a = nth_error (s_mems s2) a) /\
  (forall a, between (s_glob s) (s_glob s2) a -> nth_error (s_glob s3) a = nth_error (s_glob s2) a) /\
  (forall a, between (s_elem s) (s_elem s2) a -> nth_error (s_elem s3) a = nth_error (s_elem s2) a) /\
  (forall a, between (s_blob s) (s_blob s2) a -> nth_error (s_blob s3) a = nth_error (s_blob s2) a) /\
  closed sg (all_but s s2) s3.
Proof.
  intros CF HB HH HI HU DO VM NI MANY EL Hn EI s s2 s3 HI2 HU2.
  pose proof (proj1 (history_settled F CF host HB sg HH _ _ (uses_history F host sg _ _ _ HU) (empty_settled sg))) as HS.
  pose proof (own_settled F CF host HB sg HH m HS md L m1 n h m2 DO VM NI MANY EL Hn EI) as HS2.
  pose proof (proj1 (history_settled F CF host HB sg HH _ _ (uses_history F host sg _ _ _ HU2) HS2)) as HS3.
  assert (C0 : closed sg (all_of s) s).
  { apply (proj2 (uses_stays F CF host HB sg HH _ HI machine_empty m HU (empty_settled sg))).
    - constructor; cbn [all_of g_func]; [|intros [|a]; discriminate..]. intros a Ha. pose proof (st_many _ (se_typed _ _ HS)) as X. unfold len in X. change (a < length (s_func (k_store m)))%nat in Ha. lia.
    - constructor; intros a [_ Ha]; exact Ha. }
  pose proof (rest_closed F CF host HB sg HH m HS md L m1 n h m2 DO VM NI MANY EL Hn EI C0) as C2.
  destruct (uses_stays F CF host HB sg HH _ HI2 m2 m3 HU2 HS2) as [LG X]. destruct (X C2) as [C3 K].
  { pose proof (st_many _ (se_typed _ _ HS3)) as M. unfold len in M. subst s s2 s3. constructor; intros a [H1 H2]; cbn [all_but g_func g_tabl g_mems g_glob g_elem g_data g_blob g_inst]; unfold between; lia. }
  split; [intros a Ha; apply (ko_tabl _ _ _ K); intros Y; exact (Y Ha)|]. split; [intros a Ha; apply (ko_mems _ _ _ K); intros Y; exact (Y Ha)|].
  split; [intros a Ha; apply (ko_glob _ _ _ K); intros Y; exact (Y Ha)|]. split; [intros a Ha; apply (ko_elem _ _ _ K); intros Y; exact (Y Ha)|].
  split; [intros a Ha; apply (ko_blob _ _ _ K); intros Y; exact (Y Ha)|exact C3].
Qed.
Print Assumptions C130_private_partial.

(* ---- the hypotheses are met ---- *)
(* A module without imports, with a private global, and a function "t" that adds 1 to it and gives it. *)
Definition ex_counter : moddesc :=
  mkmd [mkft [] [T_i32]] [mkfd 0 [] [IOp O_global_get [imm 0]; IOp O_i32_const [AInt 1]; IOp O_i32_add []; IOp O_global_set [imm 0]; IOp O_global_get [imm 0]]]
    [] [] [mkgd (mkgt T_i32 1) [IOp O_i32_const [AInt 0]]] [] [] (-1) [] [mkexp [116] 0 0].
Lemma ex_counter_ok : desc_ok ex_counter.
Proof.
  split; [|split; [|split; [|split]]]; cbn [ex_counter md_func md_tabl md_glob md_elem md_data]; try constructor.
  - unfold code_ok. cbn [fd_expr]. code_in_order.
  - constructor.
  - repeat constructor; intros; cbn in *; intuition discriminate.
  - constructor.
Qed.
Lemma ex_counter_valid : valid_module ex_counter.
Proof.
  constructor; cbn [ex_counter md_imps md_func md_tabl md_mems md_glob md_elem md_data md_star md_exps md_type]; try apply Forall_nil.
  - constructor; [|constructor]. eexists. split; [split; [cbn; lia|reflexivity]|]. cbn [fd_expr fd_locals].
    on none do (apply (t_global_get _ 0 T_i32 1); reflexivity). on [T_i32] do pure. on none do pure.
    on none do (apply (t_global_set _ 0 T_i32); reflexivity). on none do (apply (t_global_get _ 0 T_i32 1); reflexivity). apply t_nil.
  - constructor; [|constructor]. cbn. split; [right; reflexivity|]. split; [is_constant|]. on none do pure. apply t_nil.
  - left. reflexivity.
  - constructor; [|constructor]. cbn [ex_desc ex_kind]. split; [lia|]. left. split; [reflexivity|]. vm_compute. reflexivity.
  - cbn. repeat constructor; cbn; intuition discriminate.
Qed.
Lemma ex_nohost_behaved : well_behaved ex_nohost.
Proof. intros hid args m r m' MO E. injection E as <- <-. split; [exact MO|]. split; [apply RunFacts.later_refl|discriminate]. Qed.
Lemma ex_nohost_typed sg : host_typed sg ex_nohost.
Proof. intros hid args m r m' ST E. injection E as <- <-. split; [exact ST|]. split; [apply TypeBasicFacts.same_refl|discriminate]. Qed.
Lemma ex_nohost_inside sg G : host_inside sg G ex_nohost.
Proof. intros hid args m r m' _ HC _ E. injection E as <- <-. split; [exact HC|]. split; [apply out_refl|discriminate]. Qed.
(* The counter is instantiated twice, and the second instance is called once. *)
Definition ex_one : machine := snd (instance ieee ex_nohost 100 (mkloaded ex_counter []) [] machine_empty).
Definition ex_two : machine := snd (instance ieee ex_nohost 100 (mkloaded ex_counter []) [] ex_one).
Definition ex_three : machine := snd (rt_invocate ieee ex_nohost 100 1 [116] [] ex_two).
Lemma ex_load_one : load_module ex_counter machine_empty = (Ok (mkloaded ex_counter []), machine_empty).
Proof. vm_compute. reflexivity. Qed.
Lemma ex_load_two : load_module ex_counter ex_one = (Ok (mkloaded ex_counter []), ex_one).
Proof. vm_compute. reflexivity. Qed.
Lemma ex_made_one : instance ieee ex_nohost 100 (mkloaded ex_counter []) [] machine_empty = (Ok 0%nat, ex_one).
Proof. vm_compute. reflexivity. Qed.
Lemma ex_made_two : instance ieee ex_nohost 100 (mkloaded ex_counter []) [] ex_one = (Ok 1%nat, ex_two).
Proof. vm_compute. reflexivity. Qed.
Lemma ex_called : rt_invocate ieee ex_nohost 100 1 [116] [] ex_two = (Ok [PInt 1], ex_three).
Proof. vm_compute. reflexivity. Qed.
Lemma ex_room : len (s_func (k_store ex_one)) + len (md_func ex_counter) < 2 ^ 31.
Proof. vm_compute. reflexivity. Qed.
Lemma ex_sizes : length (s_func (k_store ex_one)) = 1%nat /\ length (s_func (k_store ex_three)) = 2%nat /\ length (s_glob (k_store ex_one)) = 1%nat.
Proof. repeat split; vm_compute; reflexivity. Qed.
Lemma ex_others : uses_only ieee ex_nohost (fun _ => ex_ii) (all_but (k_store machine_empty) (k_store ex_one)) ex_one ex_three.
Proof.
  eapply (uo_call _ _ _ _ _ ex_two 100 1 [116] [] [PInt 1]).
  - eapply (uo_module _ _ _ _ _ ex_one ex_counter (mkloaded ex_counter []) ex_one 100 [] 1 ex_two (uo_nil _ _ _ _ _));
      [exact ex_counter_ok|exact ex_counter_valid|exact ex_room|exact ex_load_two|constructor|constructor|lia|exact ex_made_two].
  - constructor.
  - intros e f E1 E2. vm_compute in E1. injection E1 as <-. vm_compute in E2. injection E2 as <-. split; [|intros [|i] z; discriminate].
    split; [cbn; lia|]. pose proof ex_sizes as (S1 & _). unfold all_but, g_func, between. cbn [Store.e_data]. rewrite S1. split; [lia|reflexivity].
  - exact ex_called.
Qed.
Example ex_C130_private : exists m1 m2 m3 L, load_module ex_counter machine_empty = (Ok L, m1) /\ instance ieee ex_nohost 100 L [] m1 = (Ok 0%nat, m2) /\
  host_inside (fun _ => ex_ii) (all_of (k_store machine_empty)) ex_nohost /\
  uses_only ieee ex_nohost (fun _ => ex_ii) (all_of (k_store machine_empty)) machine_empty machine_empty /\
  host_inside (fun _ => ex_ii) (all_but (k_store machine_empty) (k_store m2)) ex_nohost /\
  uses_only ieee ex_nohost (fun _ => ex_ii) (all_but (k_store machine_empty) (k_store m2)) m2 m3 /\
  map (fun x => into_i32 (gi_data x)) (s_glob (k_store m3)) = [Ok 0; Ok 1] /\
  nth_error (s_glob (k_store m3)) 0 = nth_error (s_glob (k_store m2)) 0.
Proof.
  exists machine_empty, ex_one, ex_three, (mkloaded ex_counter []). split; [exact ex_load_one|]. split; [exact ex_made_one|].
  split; [apply ex_nohost_inside|]. split; [apply uo_nil|]. split; [apply ex_nohost_inside|]. split; [exact ex_others|]. split; [vm_compute; reflexivity|].
  destruct (C130_private_partial ieee ex_nohost (fun _ => ex_ii) 100 ex_counter (mkloaded ex_counter []) machine_empty machine_empty ex_one ex_three 0
    ieee_converts ex_nohost_behaved (ex_nohost_typed _) (ex_nohost_inside _ _) (uo_nil _ _ _ _ _) ex_counter_ok ex_counter_valid eq_refl ltac:(cbn; lia) ex_load_one ltac:(lia) ex_made_one
    (ex_nohost_inside _ _) ex_others) as (_ & _ & X & _).
  apply X. pose proof (proj2 (proj2 ex_sizes)) as Z. unfold between. cbn [machine_empty k_store store_empty s_glob length]. lia.
Qed.
Example ex_C130_histories : let G := all_but (k_store machine_empty) (k_store ex_one) in
  history ieee ex_nohost (fun _ => ex_ii) machine_empty ex_one /\ uses_only ieee ex_nohost (fun _ => ex_ii) G ex_one ex_three /\
  closed (fun _ => ex_ii) G (k_store ex_one) /\ holds_made G (k_store ex_one) (k_store ex_three).
Proof.
  split; [|split; [exact ex_others|split]].
  - eapply (his_module _ _ _ _ machine_empty ex_counter (mkloaded ex_counter []) machine_empty 100 [] 0 ex_one (his_nil _ _ _ _));
      [exact ex_counter_ok|exact ex_counter_valid|cbn; lia|exact ex_load_one|constructor|lia|exact ex_made_one].
  - assert (C0 : closed (fun _ => ex_ii) (all_of (k_store machine_empty)) (k_store machine_empty)) by (constructor; [intros a Ha; cbn in Ha; lia|intros [|a]; discriminate..]).
    exact (rest_closed ieee ieee_converts ex_nohost ex_nohost_behaved (fun _ => ex_ii) (ex_nohost_typed _) machine_empty (empty_settled _) ex_counter (mkloaded ex_counter []) machine_empty 100 0 ex_one
      ex_counter_ok ex_counter_valid eq_refl ltac:(cbn; lia) ex_load_one ltac:(lia) ex_made_one C0).
  - pose proof ex_sizes as (S1 & S2 & _). constructor; intros a [H1 H2]; unfold all_but, g_func, g_tabl, g_mems, g_glob, g_elem, g_data, g_blob, g_inst, between; lia.
Qed.
(* The call of the second instance: what was made last is a closed part. *)
Example ex_C130_confined : let G := only_new (k_store ex_one) (k_store ex_two) in
  history ieee ex_nohost (fun _ => ex_ii) machine_empty ex_one /\ instance ieee ex_nohost 100 (mkloaded ex_counter []) [] ex_one = (Ok 1%nat, ex_two) /\
  rt_invocate ieee ex_nohost 100 1 [116] [] ex_two = (Ok [PInt 1], ex_three) /\
  g_func G 1 /\ closed (fun _ => ex_ii) G (k_store ex_two) /\ closed (fun _ => ex_ii) G (k_store ex_three) /\ same_outside G (k_store ex_two) (k_store ex_three).
Proof.
  split; [exact (proj1 ex_C130_histories)|]. split; [exact ex_made_two|]. split; [exact ex_called|]. split; [split; vm_compute; lia|].
  destruct (C130_confined_partial ieee ex_nohost (fun _ => ex_ii) 100 ex_counter (mkloaded ex_counter []) ex_one ex_one ex_two 1
    ieee_converts ex_nohost_behaved (ex_nohost_typed _) (proj1 ex_C130_histories) ex_counter_ok ex_counter_valid eq_refl ex_room ex_load_two ltac:(lia) ex_made_two) as (C & _ & _ & X).
  split; [exact C|]. eapply (X 100%nat [116] (mkext 0 1) _ [] (Ok [PInt 1]) ex_three); [vm_compute; reflexivity|reflexivity|split; [cbn; lia|vm_compute; reflexivity]|constructor|intros [|i] z; discriminate|exact ex_called].
Qed.
