(* Basic instructions keep types, and only those that may trap raise. *)
From Coq Require Import ZArith List Bool Lia ZifyBool ZifyNat.
From Verif Require Import Py Arith Floatops Val Opcode Numeric Syntax Store Basic Machine
  SpecInt SpecNum SpecMachine SpecMem SpecRun SpecSimd SpecType PyFacts ArithFacts ValFacts LaneFacts NumFacts StepFacts MemFacts WfFacts
  RunFacts TypeOpFacts.
Import ListNotations.
Open Scope Z_scope.

Section sg.
Context {sg : nat -> functype}.

(* ---- types of stores ---- *)
Lemma same_refl s : same_types s s.
Proof. constructor; apply kept_refl; auto. Qed.
Lemma same_trans a b c : same_types a b -> same_types b c -> same_types a c.
Proof.
  intros [] []. constructor; (eapply kept_trans; [|eassumption|eassumption]); cbv beta; try congruence; try tauto.
  intros x y z (? & ?) (? & ?). split; congruence.
Qed.
Lemma instance_later s s' mi C : same_types s s' -> instance_typed s mi C -> instance_typed s' mi C.
Proof.
  intros S []. constructor.
  - assumption.
  - intros i t H. destruct (it_func i t H) as (a & f & H1 & H2 & H3). destruct (sa_func s s' S a f H2) as (f' & H4 & <-). eauto.
  - intros i t H. destruct (it_tabl i t H) as (a & f & H1 & H2 & H3). destruct (sa_tabl s s' S a f H2) as (f' & H4 & E).
    exists a, f'. repeat split; try assumption. congruence.
  - intros i H. destruct (it_mems i H) as (a & f & H1 & H2). destruct (sa_mems s s' S a f H2) as (f' & H4 & E). eauto.
  - intros i t u H. destruct (it_glob i t u H) as (a & f & H1 & H2 & H3 & H5). destruct (sa_glob s s' S a f H2) as (f' & H4 & E & E').
    exists a, f'. repeat split; try assumption; congruence.
  - intros i t H. destruct (it_elem i t H) as (a & f & H1 & H2 & H3). destruct (sa_elem s s' S a f H2) as (f' & H4 & E).
    exists a, f'. repeat split; try assumption. congruence.
  - intros i H. destruct (it_data i H) as (a & f & H1 & H2). destruct (sa_data s s' S a f H2) as (f' & H4 & <-). eauto.
Qed.
Lemma func_later s s' f : same_types s s' -> func_typed sg s f -> func_typed sg s' f.
Proof.
  intros S. destruct f as [t h code|t hid]; [|exact (fun H => H)]. intros (mi & C & H1 & H2 & H3).
  destruct (sa_inst s s' S h mi H1) as (mi' & H4 & <-). exists mi, C. split; [exact H4|]. split; [exact (instance_later s s' mi C S H2)|exact H3].
Qed.
Lemma store_keep s s' : store_typed sg s -> same_types s s' -> s_func s' = s_func s ->
  Forall (fun x => ti_size x < 2 ^ 31 /\ Forall (fun v => v_type v = tt_type (ti_type x)) (ti_elem x)) (s_tabl s') ->
  Forall (fun e => Forall (fun v => v_type v = li_type e) (li_data e)) (s_elem s') -> store_typed sg s'.
Proof.
  intros [H1 H2 _ _] S E H3 H4. constructor; try assumption.
  - rewrite E. eapply Forall_impl; [|exact H1]. intros f. apply func_later, S.
  - rewrite E. exact H2.
Qed.
Lemma nth_Forall {A} (P : A -> Prop) l k x : Forall P l -> nth_error l k = Some x -> P x.
Proof. intros H E. rewrite Forall_forall in H. eapply H, nth_error_In, E. Qed.

(* values by type *)
Lemma types_nil vs : has_types vs [] -> vs = [].
Proof. destruct vs; [reflexivity|discriminate]. Qed.
Lemma types_cons vs t ts : has_types vs (t :: ts) -> exists v vs', vs = v :: vs' /\ v_type v = t /\ has_types vs' ts.
Proof. destruct vs as [|v vs]; [discriminate|]. intros H. injection H as H1 H2. exists v, vs. auto. Qed.
Lemma types_app vs a b : has_types vs (a ++ b) -> exists va vb, vs = va ++ vb /\ has_types va a /\ has_types vb b.
Proof. intros H. apply map_eq_app in H. destruct H as (va & vb & -> & H1 & H2). exists va, vb. auto. Qed.
Lemma types_join va vb a b : has_types va a -> has_types vb b -> has_types (va ++ vb) (a ++ b).
Proof. unfold has_types. intros <- <-. apply map_app. Qed.
Lemma types_length vs ts : has_types vs ts -> length vs = length ts.
Proof. intros <-. symmetry. apply map_length. Qed.
Lemma types_nth vs ts k t : has_types vs ts -> nth_error ts k = Some t -> exists v, nth_error vs k = Some v /\ v_type v = t.
Proof.
  intros <- H. rewrite nth_error_map in H. destruct (nth_error vs k) as [v|]; [|discriminate H]. injection H as <-. eauto.
Qed.
Lemma types_upd vs ts k t v : has_types vs ts -> nth_error ts k = Some t -> v_type v = t -> has_types (upd vs k v) ts.
Proof.
  unfold has_types. intros <-. revert k. induction vs as [|w vs IH]; intros [|k] H E; try discriminate H; cbn [map nth_error upd] in *.
  - congruence.
  - f_equal. apply IH; assumption.
Qed.

(* ---- running a basic computation from a known state ---- *)
Definition ends {A} (c : B A) (b : bstate) (Q : A -> bstate -> Prop) (E : bstate -> Prop) : Prop :=
  match c b with (Ok a, b') => Q a b' | (Err _, b') => E b' end.
Section ends.
Context (E : bstate -> Prop).
Lemma e_bind {A B'} (c : B A) (f : A -> B B') b Q : ends c b (fun a b' => ends (f a) b' Q E) E -> ends (bind c f) b Q E.
Proof. unfold ends, bind. destruct (c b) as [[a|e] b']; exact (fun H => H). Qed.
Lemma e_ok {A} (r : res A) x b (Q : A -> bstate -> Prop) : r = Ok x -> Q x b -> ends (lift r) b Q E.
Proof. intros -> H. exact H. Qed.
Lemma e_try {A} (r : res A) b (Q : A -> bstate -> Prop) : E b -> (forall x, r = Ok x -> Q x b) -> ends (lift r) b Q E.
Proof. intros H1 H2. unfold ends, lift. destruct r as [x|e]; [apply H2; reflexivity|exact H1]. Qed.
Lemma e_assert c b (Q : unit -> bstate -> Prop) : E b -> (c = true -> Q tt b) -> ends (assert c) b Q E.
Proof. intros H1 H2. unfold ends, assert, lift, py_assert. destruct c; [apply H2; reflexivity|exact H1]. Qed.
Lemma e_true c b (Q : unit -> bstate -> Prop) : c = true -> Q tt b -> ends (assert c) b Q E.
Proof. intros -> H. exact H. Qed.
Lemma e_ret {A} (x : A) b (Q : A -> bstate -> Prop) : Q x b -> ends (ret x) b Q E.
Proof. exact (fun H => H). Qed.
Lemma e_pop s L v V (Q : val -> bstate -> Prop) : Q v (mkb s L V) -> ends pop (mkb s L (v :: V)) Q E.
Proof. exact (fun H => H). Qed.
Lemma e_top s L v V (Q : val -> bstate -> Prop) : Q v (mkb s L (v :: V)) -> ends top (mkb s L (v :: V)) Q E.
Proof. exact (fun H => H). Qed.
Lemma e_pop_u32 s L v V (Q : Z -> bstate -> Prop) : val_wf v -> (forall k, 0 <= k < 2 ^ 32 -> Q k (mkb s L V)) -> ends pop_u32 (mkb s L (v :: V)) Q E.
Proof.
  intros W H. unfold ends. rewrite pop_u32_run by exact W. apply H. apply Z.mod_pos_bound. reflexivity.
Qed.
Lemma e_push v s L V (Q : unit -> bstate -> Prop) : Q tt (mkb s L (v :: V)) -> ends (push v) (mkb s L V) Q E.
Proof. exact (fun H => H). Qed.
Lemma e_pushr r v s L V (Q : unit -> bstate -> Prop) : r = Ok v -> Q tt (mkb s L (v :: V)) -> ends (pushr r) (mkb s L V) Q E.
Proof. intros -> H. exact H. Qed.
Lemma e_pushr_try r s L V (Q : unit -> bstate -> Prop) : E (mkb s L V) -> (forall v, r = Ok v -> Q tt (mkb s L (v :: V))) ->
  ends (pushr r) (mkb s L V) Q E.
Proof. intros H1 H2. unfold ends, pushr, bind, lift. destruct r as [v|e]; [apply H2; reflexivity|exact H1]. Qed.
Lemma e_store s L V (Q : store -> bstate -> Prop) : Q s (mkb s L V) -> ends get_store (mkb s L V) Q E.
Proof. exact (fun H => H). Qed.
Lemma e_put_store x s L V (Q : unit -> bstate -> Prop) : Q tt (mkb x L V) -> ends (put_store x) (mkb s L V) Q E.
Proof. exact (fun H => H). Qed.
Lemma e_locals s L V (Q : list val -> bstate -> Prop) : Q L (mkb s L V) -> ends get_locals (mkb s L V) Q E.
Proof. exact (fun H => H). Qed.
Lemma e_put_locals x s L V (Q : unit -> bstate -> Prop) : Q tt (mkb s x V) -> ends (put_locals x) (mkb s L V) Q E.
Proof. exact (fun H => H). Qed.
Lemma e_addr mr field i a s L V (Q : Z -> bstate -> Prop) : nth_error (field (mod_of s mr)) i = Some a -> Q a (mkb s L V) ->
  ends (mod_addr mr field (Z.of_nat i)) (mkb s L V) Q E.
Proof. intros H1 H2. apply e_bind, e_store. apply (e_ok _ a); [apply py_index_nth, H1|exact H2]. Qed.
Lemma e_mem a x s L V (Q : meminst -> bstate -> Prop) : nth_error (s_mems s) a = Some x -> Q x (mkb s L V) ->
  ends (get_mem (Z.of_nat a)) (mkb s L V) Q E.
Proof. intros H1 H2. apply e_bind, e_store. apply (e_ok _ x); [apply py_index_nth, H1|exact H2]. Qed.
Lemma e_tab a x s L V (Q : tableinst -> bstate -> Prop) : nth_error (s_tabl s) a = Some x -> Q x (mkb s L V) ->
  ends (get_tab (Z.of_nat a)) (mkb s L V) Q E.
Proof. intros H1 H2. apply e_bind, e_store. apply (e_ok _ x); [apply py_index_nth, H1|exact H2]. Qed.
Lemma e_glob a x s L V (Q : globalinst -> bstate -> Prop) : nth_error (s_glob s) a = Some x -> Q x (mkb s L V) ->
  ends (get_glob (Z.of_nat a)) (mkb s L V) Q E.
Proof. intros H1 H2. apply e_bind, e_store. apply (e_ok _ x); [apply py_index_nth, H1|exact H2]. Qed.
Lemma e_elem a x s L V (Q : eleminst -> bstate -> Prop) : nth_error (s_elem s) a = Some x -> Q x (mkb s L V) ->
  ends (get_elem (Z.of_nat a)) (mkb s L V) Q E.
Proof. intros H1 H2. apply e_bind, e_store. apply (e_ok _ x); [apply py_index_nth, H1|exact H2]. Qed.
Lemma e_data a x s L V (Q : nat -> bstate -> Prop) : nth_error (s_data s) a = Some x -> Q x (mkb s L V) ->
  ends (get_data (Z.of_nat a)) (mkb s L V) Q E.
Proof. intros H1 H2. apply e_bind, e_store. apply (e_ok _ x); [apply py_index_nth, H1|exact H2]. Qed.
Lemma e_blob b s L V (Q : list Z -> bstate -> Prop) : Q (nth b (s_blob s) []) (mkb s L V) -> ends (get_blob b) (mkb s L V) Q E.
Proof. exact (fun H => H). Qed.
Lemma setitem_nth {A} (l : list A) a x y : nth_error l a = Some x -> py_setitem l (Z.of_nat a) y = Ok (upd l a y).
Proof.
  intros H. assert (a < length l)%nat by (apply nth_error_Some; congruence). rewrite py_setitem_in by (unfold len; lia).
  rewrite Nat2Z.id. reflexivity.
Qed.
(* writes: what the new store looks like *)
Lemma e_put_mem a x y s L V (Q : unit -> bstate -> Prop) : nth_error (s_mems s) a = Some x -> store_typed sg s ->
  (forall s', store_typed sg s' -> same_types s s' -> Q tt (mkb s' L V)) -> ends (put_mem (Z.of_nat a) y) (mkb s L V) Q E.
Proof.
  intros N H K. apply e_bind, e_store, e_bind. eapply e_ok; [apply (setitem_nth _ _ _ _ N)|]. apply e_put_store.
  assert (S : same_types s (set_s_mems s (upd (s_mems s) a y))).
  { constructor; cbn [s_func s_tabl s_mems s_glob s_elem s_data s_inst set_s_mems]; try (apply kept_refl; auto).
    eapply kept_upd; [auto|exact N|exact I]. }
  apply K; [|exact S]. apply (store_keep s _ H S); [reflexivity|apply (st_tabl s H)|apply (st_elem s H)].
Qed.
Lemma e_put_blob b y s L V (Q : unit -> bstate -> Prop) : store_typed sg s ->
  (forall s', store_typed sg s' -> same_types s s' -> Q tt (mkb s' L V)) -> ends (put_blob b y) (mkb s L V) Q E.
Proof.
  intros H K. apply e_bind, e_store. apply e_put_store. assert (S : same_types s (set_s_blob s (upd (s_blob s) b y))).
  { constructor; cbn [s_func s_tabl s_mems s_glob s_elem s_data s_inst set_s_blob]; apply kept_refl; auto. }
  apply K; [|exact S]. apply (store_keep s _ H S); [reflexivity|apply (st_tabl s H)|apply (st_elem s H)].
Qed.
Lemma e_put_tab a x y s L V (Q : unit -> bstate -> Prop) : nth_error (s_tabl s) a = Some x -> store_typed sg s ->
  ti_type y = ti_type x -> ti_size y < 2 ^ 31 -> Forall (fun v => v_type v = tt_type (ti_type x)) (ti_elem y) ->
  (forall s', store_typed sg s' -> same_types s s' -> Q tt (mkb s' L V)) -> ends (put_tab (Z.of_nat a) y) (mkb s L V) Q E.
Proof.
  intros N H T Z F K. apply e_bind, e_store, e_bind. eapply e_ok; [apply (setitem_nth _ _ _ _ N)|]. apply e_put_store.
  assert (S : same_types s (set_s_tabl s (upd (s_tabl s) a y))).
  { constructor; cbn [s_func s_tabl s_mems s_glob s_elem s_data s_inst set_s_tabl]; try (apply kept_refl; auto).
    eapply kept_upd; [auto|exact N|exact T]. }
  apply K; [|exact S]. apply (store_keep s _ H S); [reflexivity| |apply (st_elem s H)].
  cbn [s_tabl set_s_tabl]. apply upd_Forall; [apply (st_tabl s H)|]. rewrite T. split; assumption.
Qed.
Lemma e_put_glob a x y s L V (Q : unit -> bstate -> Prop) : nth_error (s_glob s) a = Some x -> store_typed sg s ->
  v_type (gi_data y) = v_type (gi_data x) -> gi_mut y = gi_mut x ->
  (forall s', store_typed sg s' -> same_types s s' -> Q tt (mkb s' L V)) -> ends (put_glob (Z.of_nat a) y) (mkb s L V) Q E.
Proof.
  intros N H T T' K. apply e_bind, e_store, e_bind. eapply e_ok; [apply (setitem_nth _ _ _ _ N)|]. apply e_put_store.
  assert (S : same_types s (set_s_glob s (upd (s_glob s) a y))).
  { constructor; cbn [s_func s_tabl s_mems s_glob s_elem s_data s_inst set_s_glob]; try (apply kept_refl; auto).
    eapply kept_upd; [auto|exact N|split; assumption]. }
  apply K; [|exact S]. apply (store_keep s _ H S); [reflexivity|apply (st_tabl s H)|apply (st_elem s H)].
Qed.
Lemma e_drop_elem a x s L V (Q : unit -> bstate -> Prop) : nth_error (s_elem s) a = Some x -> store_typed sg s ->
  (forall s', store_typed sg s' -> same_types s s' -> Q tt (mkb s' L V)) ->
  ends (put_elem (Z.of_nat a) (mkelem (li_type x) [])) (mkb s L V) Q E.
Proof.
  intros N H K. apply e_bind, e_store, e_bind. eapply e_ok; [apply (setitem_nth _ _ _ _ N)|]. apply e_put_store.
  assert (S : same_types s (set_s_elem s (upd (s_elem s) a (mkelem (li_type x) [])))).
  { constructor; cbn [s_func s_tabl s_mems s_glob s_elem s_data s_inst set_s_elem]; try (apply kept_refl; auto).
    eapply kept_upd; [auto|exact N|reflexivity]. }
  apply K; [|exact S]. apply (store_keep s _ H S); [reflexivity|apply (st_tabl s H)|].
  cbn [s_elem set_s_elem]. apply upd_Forall; [apply (st_elem s H)|constructor].
Qed.
End ends.

(* ---- the typing of basic instructions ---- *)
Section typed_basic.
Context (F : fops) (CF : converts F) (s : store) (Hs : store_typed sg s) (Ok_s : store_ok s)
  (mr : modref) (C : tctx) (HC : instance_typed s (mod_of s mr) C)
  (L : list val) (HL : has_types L (c_locals C)) (V : list val).

(* what is reached without an exception, and with one *)
Definition reached (ts : list valtype) (b : bstate) : Prop :=
  exists vs, b_value b = vs ++ V /\ has_types vs ts /\ has_types (b_locals b) (c_locals C) /\
    store_typed sg (b_store b) /\ same_types s (b_store b).
Definition raised (o : opc) (b : bstate) : Prop := may_trap o = true /\ b_store b = s.

Lemma reach_same vs ts : has_types vs ts -> reached ts (mkb s L (vs ++ V)).
Proof. intros H. exists vs. exact (conj eq_refl (conj H (conj HL (conj Hs (same_refl s))))). Qed.
Lemma reach_0 : reached [] (mkb s L V).
Proof. apply (reach_same []). reflexivity. Qed.
Lemma reach_1 v t : v_type v = t -> reached [t] (mkb s L (v :: V)).
Proof. intros <-. apply (reach_same [v]). reflexivity. Qed.
Lemma reach_0' s' : store_typed sg s' -> same_types s s' -> reached [] (mkb s' L V).
Proof. intros H1 H2. exists []. split; [reflexivity|]. split; [reflexivity|]. auto. Qed.
Lemma reach_1' s' v t : store_typed sg s' -> same_types s s' -> v_type v = t -> reached [t] (mkb s' L (v :: V)).
Proof. intros H1 H2 <-. exists [v]. split; [reflexivity|]. split; [reflexivity|]. auto. Qed.

Ltac types H := let H' := fresh "HT" in match type of H with
  | has_types ?w [] => apply types_nil in H; subst w
  | has_types _ (_ :: _) => apply types_cons in H; let v := fresh "v" in let w := fresh "w" in destruct H as (v & w & -> & H' & H); types H
  end.
Ltac wfs H := cbn [app] in H; repeat (apply Forall_cons_iff in H; let W := fresh "W" in destruct H as [W H]).

Lemma t_num_basic o args ins out vs : signature o = Some (ins, out) -> imm_ok o args ->
  has_types vs (rev ins) -> Forall val_wf (vs ++ V) ->
  ends (exec_basic F mr o args) (mkb s L (vs ++ V)) (fun _ => reached [out]) (raised o).
Proof.
  intros Hsig Hi HT W. pose proof (pure_type F o) as PT. rewrite Hsig in PT. cbn [sig_of] in PT.
  assert (R : may_trap o = false -> runs args (num_op F o)) by (intros Ht; apply pure_runs; [exact CF|congruence|exact Ht|exact Hi]).
  unfold exec_basic. destruct (num_op F o) as [n|]; [|destruct PT].
  apply types_length in HT. rewrite rev_length in HT. rewrite <- HT in PT.
  destruct n as [f|f|f|f]; destruct vs as [|v1 [|v2 [|v3 [|v4 vs]]]]; cbn [length numop_typed] in PT; try contradiction;
    cbn [app exec_num] in *; wfs W.
  all: repeat (apply e_bind, e_pop).
  all: unfold ends, pushr, bind, lift.
  - specialize (PT args). destruct (f args) as [v|e] eqn:Ef; [apply reach_1, PT, eq_refl|].
    split; [|reflexivity]. destruct (may_trap o); [reflexivity|]. destruct (R eq_refl) as (x & Ex). congruence.
  - specialize (PT args v1). destruct (f args v1) as [v|e] eqn:Ef; [apply reach_1, PT, eq_refl|].
    split; [|reflexivity]. destruct (may_trap o); [reflexivity|]. destruct (R eq_refl v1) as (x & Ex); [assumption|congruence].
  - specialize (PT args v2 v1). destruct (f args v2 v1) as [v|e] eqn:Ef; [apply reach_1, PT, eq_refl|].
    split; [|reflexivity]. destruct (may_trap o); [reflexivity|]. destruct (R eq_refl v2 v1) as (x & Ex); [assumption..|congruence].
  - specialize (PT args v3 v2 v1). destruct (f args v3 v2 v1) as [v|e] eqn:Ef; [apply reach_1, PT, eq_refl|].
    split; [|reflexivity]. destruct (may_trap o); [reflexivity|]. destruct (R eq_refl v3 v2 v1) as (x & Ex); [assumption..|congruence].
Qed.

(* loads and stores *)
Lemma load_widen_type w n g d : gives (of_type T_v128) (load_widen w n g d).
Proof. apply gives_bind_any. intros b. apply from_v128_type. Qed.
Ltac ld := first [apply mk_val_type|apply from_v128_type|apply load_widen_type
  |apply gives_bind_any; intros x; first [apply from_i32_type|apply from_i64_type]].
Lemma memory_kind o ins outs : mem_signature o = Some (ins, outs) ->
  (exists n conv t, num_op F o = None /\ load_op o = Some (n, conv) /\ ins = [T_i32] /\ outs = [t] /\ forall d, gives (of_type t) (conv d)) \/
  (exists n t, num_op F o = None /\ load_op o = None /\ store_op o = Some n /\ ins = [T_i32; t] /\ outs = []) \/
  (exists w, (forall args, exec_basic F mr o args = load_lane mr w args) /\ ins = [T_i32; T_v128] /\ outs = [T_v128]) \/
  (exists w, (forall args, exec_basic F mr o args = store_lane mr w args) /\ ins = [T_i32; T_v128] /\ outs = []).
Proof.
  intros H. destruct o; try discriminate H; cbn [mem_signature] in H; injection H as <- <-.
  all: first
   [ left; eexists _, _, _; split; [reflexivity|]; split; [reflexivity|]; split; [reflexivity|]; split; [reflexivity|]; intros d; ld
   | right; left; eexists _, _; split; [reflexivity|]; split; [reflexivity|]; split; [reflexivity|]; split; reflexivity
   | right; right; left; eexists; split; [intros args; reflexivity|]; split; reflexivity
   | right; right; right; eexists; split; [intros args; reflexivity|]; split; reflexivity ].
Qed.
Lemma memory_trap o p : mem_signature o = Some p -> may_trap o = true.
Proof. destruct o; intros H; try discriminate H; reflexivity. Qed.
Lemma t_memory_basic o args ins outs vs : mem_signature o = Some (ins, outs) -> (0 < c_mems C)%nat ->
  has_types vs (rev ins) -> Forall val_wf (vs ++ V) ->
  ends (exec_basic F mr o args) (mkb s L (vs ++ V)) (fun _ => reached (rev outs)) (raised o).
Proof.
  intros Hsig Hm HT W. destruct (it_mems _ _ _ HC 0%nat Hm) as (a & x & Ha & Hx).
  pose proof (memory_trap o _ Hsig) as Tr.
  assert (ER : forall b, b_store b = s -> raised o b) by (intros b Eb; exact (conj Tr Eb)).
  destruct (memory_kind o ins outs Hsig) as [(n & conv & t & E1 & E2 & -> & -> & Ht)|[(n & t & E1 & E2 & E3 & -> & ->)|[(w & E1 & -> & ->)|(w & E1 & -> & ->)]]];
    cbn [rev app] in HT; types HT; wfs W; cbn [rev app].
  - unfold exec_basic. rewrite E1, E2. apply e_bind, e_try; [apply ER; reflexivity|]. intros off _. apply e_bind. unfold mem_load.
    apply e_bind. apply (e_addr _ _ _ 0 _ _ _ _ _ Ha). apply e_bind, (e_mem _ _ _ _ _ _ _ Hx). apply e_bind, e_pop_u32; [assumption|].
    intros k _. apply e_bind, e_assert; [apply ER; reflexivity|]. intros _. apply e_ret. apply e_pushr_try; [apply ER; reflexivity|].
    intros r Er. apply reach_1, (Ht _ r Er).
  - unfold exec_basic. rewrite E1, E2, E3. apply e_bind, e_try; [apply ER; reflexivity|]. intros off _. unfold mem_save.
    apply e_bind. apply (e_addr _ _ _ 0 _ _ _ _ _ Ha). apply e_bind, (e_mem _ _ _ _ _ _ _ Hx). apply e_bind, e_pop. apply e_bind, e_pop_u32; [assumption|].
    intros k _. apply e_bind, e_assert; [apply ER; reflexivity|]. intros _. eapply e_put_mem; [exact Hx|exact Hs|].
    intros s' Hst Hsa. apply reach_0'; assumption.
  - rewrite E1. unfold load_lane, mem_load. apply e_bind, e_pop. apply e_bind, e_try; [apply ER; reflexivity|]. intros d _.
    apply e_bind, e_try; [apply ER; reflexivity|]. intros off _. apply e_bind.
    apply e_bind. apply (e_addr _ _ _ 0 _ _ _ _ _ Ha). apply e_bind, (e_mem _ _ _ _ _ _ _ Hx). apply e_bind, e_pop_u32; [assumption|].
    intros k _. apply e_bind, e_assert; [apply ER; reflexivity|]. intros _. apply e_ret. apply e_bind, e_try; [apply ER; reflexivity|]. intros c _.
    apply e_pushr_try; [apply ER; reflexivity|]. intros r Er. apply reach_1, (mk_val_type T_v128 _ r Er).
  - rewrite E1. unfold store_lane, mem_save. apply e_bind, e_pop. apply e_bind, e_try; [apply ER; reflexivity|]. intros d _.
    apply e_bind, e_try; [apply ER; reflexivity|]. intros c _. apply e_bind, e_pushr_try; [apply ER; reflexivity|]. intros r Er.
    apply e_bind, e_try; [apply ER; reflexivity|]. intros off _.
    apply e_bind. apply (e_addr _ _ _ 0 _ _ _ _ _ Ha). apply e_bind, (e_mem _ _ _ _ _ _ _ Hx). apply e_bind, e_pop. apply e_bind, e_pop_u32; [assumption|].
    intros k _. apply e_bind, e_assert; [apply ER; reflexivity|]. intros _. eapply e_put_mem; [exact Hx|exact Hs|].
    intros s' Hst Hsa. apply reach_0'; assumption.
Qed.

Lemma misc_basic o args : num_op F o = None -> load_op o = None -> store_op o = None -> exec_basic F mr o args = exec_misc mr o args.
Proof. intros H1 H2 H3. unfold exec_basic. rewrite H1, H2, H3. reflexivity. Qed.
Ltac misc := rewrite misc_basic by reflexivity; cbn [exec_misc].
Ltac argi := apply e_bind; eapply e_ok; [reflexivity|]; cbv beta.
Lemma small_wr n : 0 <= n < 2 ^ 31 -> exists v, from_i32 n = Ok v /\ v_type v = T_i32.
Proof.
  intros H. destruct (wr_i32 n) as (v & E); [unfold srange; change (2 ^ (32 - 1)) with (2 ^ 31); lia|].
  exists v. split; [exact E|exact (from_i32_type n v E)].
Qed.
Lemma minus_wr : exists v, from_i32 (-1) = Ok v /\ v_type v = T_i32.
Proof. eexists. split; reflexivity. Qed.
Lemma tab_here a x : nth_error (s_tabl s) a = Some x ->
  0 <= ti_size x < 2 ^ 31 /\ Forall (fun v => v_type v = tt_type (ti_type x)) (ti_elem x) /\ len (ti_elem x) = ti_size x.
Proof.
  intros H. destruct (nth_Forall _ _ _ _ (st_tabl s Hs) H) as [H1 H2]. destruct (nth_Forall _ _ _ _ (so_tabl s Ok_s) H) as [[H3 _] _].
  pose proof (len_nonneg (ti_elem x)). split; [lia|]. split; assumption.
Qed.
Lemma mem_here a x : nth_error (s_mems s) a = Some x -> 0 <= mi_size x <= 65536.
Proof. intros H. destruct (nth_Forall _ _ _ _ (so_mems s Ok_s) H) as (_ & H3 & _). exact H3. Qed.
Lemma Forall_setitem {A} (P : A -> Prop) l i x l' : Forall P l -> P x -> py_setitem l i x = Ok l' -> Forall P l'.
Proof. intros H1 H2 E. exact (gives_setitem P l i x H1 H2 l' E). Qed.

Lemma t_basic o args A R vs : typed_inst C (IOp o args) A R -> is_control o = false ->
  has_types vs A -> Forall val_wf (vs ++ V) ->
  ends (exec_basic F mr o args) (mkb s L (vs ++ V)) (fun _ => reached R) (raised o).
Proof.
  intros T Hc HT W. inversion T; subst; try discriminate Hc; clear Hc T.
  - (* value instructions *) eapply t_num_basic; eassumption.
  - (* loads and stores *) eapply t_memory_basic; eassumption.
  - (* unreachable *) misc. split; reflexivity.
  - (* nop *) types HT. misc. apply reach_0.
  - (* drop *) types HT. misc. apply e_bind, e_pop. apply reach_0.
  - (* select *) types HT. wfs W. unfold exec_basic. change (num_op F O_select) with (Some (op3 Ok Ok into_i32 (fun _ a b c => Ok (if negb (c =? 0) then a else b)) Ok)).
    cbn [exec_num op3]. do 3 apply e_bind, e_pop. rewrite into_i32_ok by assumption. cbn [rbind]. eapply e_pushr; [reflexivity|].
    apply reach_1. destruct (negb _); congruence.
  - (* select with a type *) types HT. wfs W. unfold exec_basic.
    match goal with |- context[num_op F O_select_type] => let e := eval hnf in (num_op F O_select_type) in change (num_op F O_select_type) with e end.
    cbn [exec_num op3]. do 3 apply e_bind, e_pop. rewrite into_i32_ok by assumption. cbn [rbind].
    change (arg_list [AList [vt_code t]] 0) with (Ok [vt_code t] : res (list Z)). cbn [rbind].
    change (py_index [vt_code t] 0) with (Ok (vt_code t) : res Z). cbn [rbind]. rewrite HT1, HT2, Z.eqb_refl. cbn [py_assert rbind].
    eapply e_pushr; [reflexivity|]. apply reach_1. destruct (negb _); congruence.
  - (* local.get *) types HT. misc. argi. apply e_bind, e_locals.
    match goal with H : nth_error (c_locals C) _ = _ |- _ => destruct (types_nth _ _ _ _ HL H) as (v & Ev & Tv) end.
    eapply e_pushr; [apply py_index_nth, Ev|]. apply reach_1, Tv.
  - (* local.set *) types HT. misc. apply e_bind, e_pop. argi. apply e_bind, e_locals.
    match goal with H : nth_error (c_locals C) _ = _ |- _ => rename H into N end.
    destruct (types_nth _ _ _ _ HL N) as (x & Ex & Tx). apply e_bind. eapply e_ok; [apply (setitem_nth _ _ _ _ Ex)|]. apply e_put_locals.
    exists []. split; [reflexivity|]. split; [reflexivity|]. split; [|exact (conj Hs (same_refl s))].
    eapply types_upd; [exact HL|exact N|assumption].
  - (* local.tee *) types HT. misc. apply e_bind, e_top. argi. apply e_bind, e_locals.
    match goal with H : nth_error (c_locals C) _ = _ |- _ => rename H into N end.
    destruct (types_nth _ _ _ _ HL N) as (x & Ex & Tx). apply e_bind. eapply e_ok; [apply (setitem_nth _ _ _ _ Ex)|]. apply e_put_locals.
    exists [v]. split; [reflexivity|]. split; [unfold has_types; cbn [map]; congruence|]. split; [|exact (conj Hs (same_refl s))].
    eapply types_upd; [exact HL|exact N|assumption].
  - (* global.get *) types HT. misc. argi.
    match goal with H : nth_error (c_globs C) _ = _ |- _ => destruct (it_glob _ _ _ HC _ _ _ H) as (a & g & Ha & Hg & Tg & Mg) end.
    apply e_bind. apply (e_addr _ _ _ _ _ _ _ _ _ Ha). apply e_bind, (e_glob _ _ _ _ _ _ _ Hg). apply e_push, reach_1, Tg.
  - (* global.set *) types HT. misc. argi.
    match goal with H : nth_error (c_globs C) _ = _ |- _ => destruct (it_glob _ _ _ HC _ _ _ H) as (a & g & Ha & Hg & Tg & Mg) end.
    apply e_bind. apply (e_addr _ _ _ _ _ _ _ _ _ Ha). apply e_bind, (e_glob _ _ _ _ _ _ _ Hg).
    apply e_bind, e_true; [apply Z.eqb_eq, Mg|]. apply e_bind, e_pop.
    eapply e_put_glob; [exact Hg|exact Hs|cbn [gi_data]; congruence|reflexivity|]. intros s' Hst Hsa. apply reach_0'; assumption.
  - (* table.get *) types HT. wfs W. misc. argi.
    match goal with H : nth_error (c_tabls C) _ = _ |- _ => destruct (it_tabl _ _ _ HC _ _ H) as (a & x & Ha & Hx & Tx) end.
    apply e_bind. apply (e_addr _ _ _ _ _ _ _ _ _ Ha). apply e_bind, (e_tab _ _ _ _ _ _ _ Hx). apply e_bind, e_pop_u32; [assumption|].
    intros k _. apply e_pushr_try; [split; reflexivity|]. intros r Er. apply reach_1.
    destruct (tab_here _ _ Hx) as (_ & Fx & _). rewrite (gives_index (fun v => v_type v = tt_type (ti_type x)) _ _ Fx _ Er). exact Tx.
  - (* table.set *) types HT. wfs W. misc. argi.
    match goal with H : nth_error (c_tabls C) _ = _ |- _ => destruct (it_tabl _ _ _ HC _ _ H) as (a & x & Ha & Hx & Tx) end.
    apply e_bind. apply (e_addr _ _ _ _ _ _ _ _ _ Ha). apply e_bind, (e_tab _ _ _ _ _ _ _ Hx). apply e_bind, e_pop.
    apply e_bind, e_assert; [split; reflexivity|]. intros _. apply e_bind, e_pop_u32; [assumption|].
    intros k _. apply e_bind, e_try; [split; reflexivity|]. intros l El. destruct (tab_here _ _ Hx) as (Sx & Fx & _).
    eapply e_put_tab; [exact Hx|exact Hs|reflexivity|apply Sx| |intros s' Hst Hsa; apply reach_0'; assumption].
    eapply Forall_setitem; [exact Fx| |exact El]. cbv beta. congruence.
  - (* table.size *) types HT. misc. argi.
    match goal with H : nth_error (c_tabls C) _ = _ |- _ => destruct (it_tabl _ _ _ HC _ _ H) as (a & x & Ha & Hx & Tx) end.
    apply e_bind. apply (e_addr _ _ _ _ _ _ _ _ _ Ha). apply e_bind, (e_tab _ _ _ _ _ _ _ Hx). destruct (tab_here _ _ Hx) as (Sx & _).
    destruct (small_wr _ Sx) as (v & Ev & Tv). eapply e_pushr; [exact Ev|]. apply reach_1, Tv.
  - (* table.grow *) types HT. wfs W. misc. argi.
    match goal with H : nth_error (c_tabls C) _ = _ |- _ => destruct (it_tabl _ _ _ HC _ _ H) as (a & x & Ha & Hx & Tx) end.
    apply e_bind. apply (e_addr _ _ _ _ _ _ _ _ _ Ha). apply e_bind, (e_tab _ _ _ _ _ _ _ Hx). apply e_bind, e_pop_u32; [assumption|].
    intros k Hk. apply e_bind, e_pop. destruct (tab_here _ _ Hx) as (Sx & Fx & _).
    destruct (Z.leb_spec (ti_size x + k) 1024) as [Hle|]; cbn [andb]; [|destruct minus_wr as (r & Er & Tr); eapply e_pushr; [exact Er|]; apply reach_1, Tr].
    destruct (_ || _) eqn:D; [|destruct minus_wr as (r & Er & Tr); eapply e_pushr; [exact Er|]; apply reach_1, Tr].
    apply e_bind. eapply (e_ok _ _ (mktab (ti_type x) (ti_elem x ++ repeat v0 (Z.to_nat k)) (ti_size x + k))).
    { unfold tab_grow. assert (Ev : vt_eqb (v_type v0) (tt_type (ti_type x)) = true) by (unfold vt_eqb; rewrite HT1, Tx; apply Z.eqb_refl).
      rewrite Ev. destruct (l_m _ =? 0); [reflexivity|]. cbn [orb] in D. rewrite D. reflexivity. }
    apply e_bind. eapply e_put_tab; [exact Hx|exact Hs|reflexivity|cbn [ti_size]; lia| |].
    { cbn [ti_elem]. apply Forall_app. split; [exact Fx|]. apply Forall_forall. intros z Hz. apply repeat_spec in Hz. congruence. }
    intros s' Hst Hsa. destruct (small_wr _ Sx) as (r & Er & Tr). eapply e_pushr; [exact Er|]. apply reach_1'; assumption.
  - (* table.fill *) types HT. wfs W. misc. argi.
    match goal with H : nth_error (c_tabls C) _ = _ |- _ => destruct (it_tabl _ _ _ HC _ _ H) as (a & x & Ha & Hx & Tx) end.
    apply e_bind. apply (e_addr _ _ _ _ _ _ _ _ _ Ha). apply e_bind, (e_tab _ _ _ _ _ _ _ Hx). apply e_bind, e_pop_u32; [assumption|].
    intros k Hk. apply e_bind, e_pop. apply e_bind, e_pop_u32; [assumption|]. intros d Hd. apply e_bind, e_assert; [split; reflexivity|]. intros _.
    apply e_bind, e_try; [split; reflexivity|]. intros l El. destruct (tab_here _ _ Hx) as (Sx & Fx & _).
    eapply e_put_tab; [exact Hx|exact Hs|reflexivity|apply Sx| |intros s' Hst Hsa; apply reach_0'; assumption].
    cbn [ti_elem]. eapply (fill_loop_gives (fun v => v_type v = tt_type (ti_type x))); [exact Fx| |exact El]. cbv beta. congruence.
  - (* table.copy *) types HT. wfs W. misc. argi.
    match goal with H : nth_error (c_tabls C) i = _ |- _ => destruct (it_tabl _ _ _ HC _ _ H) as (a & x & Ha & Hx & Tx) end.
    apply e_bind. apply (e_addr _ _ _ _ _ _ _ _ _ Ha). apply e_bind, (e_tab _ _ _ _ _ _ _ Hx). argi.
    match goal with H : nth_error (c_tabls C) j = _ |- _ => destruct (it_tabl _ _ _ HC _ _ H) as (a' & y & Ha' & Hy & Ty) end.
    apply e_bind. apply (e_addr _ _ _ _ _ _ _ _ _ Ha'). apply e_bind, (e_tab _ _ _ _ _ _ _ Hy).
    do 3 (apply e_bind, e_pop_u32; [assumption|]; intros ? ?). do 2 (apply e_bind, e_assert; [split; reflexivity|]; intros _).
    destruct (tab_here _ _ Hx) as (Sx & Fx & _). destruct (tab_here _ _ Hy) as (_ & Fy & _).
    eapply e_put_tab; [exact Hx|exact Hs|reflexivity|apply Sx| |intros s' Hst Hsa; apply reach_0'; assumption].
    cbn [ti_elem]. apply Forall_slice_set; [exact Fx|]. apply Forall_slice. rewrite Tx. rewrite Ty in Fy. exact Fy.
  - (* table.init *) types HT. wfs W. misc. argi.
    match goal with H : nth_error (c_tabls C) j = _ |- _ => destruct (it_tabl _ _ _ HC _ _ H) as (a & x & Ha & Hx & Tx) end.
    apply e_bind. apply (e_addr _ _ _ _ _ _ _ _ _ Ha). apply e_bind, (e_tab _ _ _ _ _ _ _ Hx). argi.
    match goal with H : nth_error (c_elems C) i = _ |- _ => destruct (it_elem _ _ _ HC _ _ H) as (a' & y & Ha' & Hy & Ty) end.
    apply e_bind. apply (e_addr _ _ _ _ _ _ _ _ _ Ha'). apply e_bind, (e_elem _ _ _ _ _ _ _ Hy).
    do 3 (apply e_bind, e_pop_u32; [assumption|]; intros ? ?). do 2 (apply e_bind, e_assert; [split; reflexivity|]; intros _).
    destruct (tab_here _ _ Hx) as (Sx & Fx & _). pose proof (nth_Forall _ _ _ _ (st_elem s Hs) Hy) as Fy. cbv beta in Fy.
    eapply e_put_tab; [exact Hx|exact Hs|reflexivity|apply Sx| |intros s' Hst Hsa; apply reach_0'; assumption].
    cbn [ti_elem]. apply Forall_slice_set; [exact Fx|]. apply Forall_slice. rewrite Tx. rewrite Ty in Fy. exact Fy.
  - (* elem.drop *) types HT. misc. argi.
    match goal with H : nth_error (c_elems C) i = _ |- _ => destruct (it_elem _ _ _ HC _ _ H) as (a & y & Ha & Hy & Ty) end.
    apply e_bind. apply (e_addr _ _ _ _ _ _ _ _ _ Ha). apply e_bind, (e_elem _ _ _ _ _ _ _ Hy).
    apply (e_drop_elem _ _ _ _ _ _ _ Hy Hs). intros s' Hst Hsa. apply reach_0'; assumption.
  - (* memory.size *) types HT. misc.
    match goal with H : (0 < c_mems C)%nat |- _ => destruct (it_mems _ _ _ HC 0%nat H) as (a & x & Ha & Hx) end.
    apply e_bind. apply (e_addr _ _ _ 0 _ _ _ _ _ Ha). apply e_bind, (e_mem _ _ _ _ _ _ _ Hx). pose proof (mem_here _ _ Hx) as Sx.
    destruct (small_wr (mi_size x)) as (v & Ev & Tv); [lia|]. eapply e_pushr; [exact Ev|]. apply reach_1, Tv.
  - (* memory.grow *) types HT. wfs W. misc.
    match goal with H : (0 < c_mems C)%nat |- _ => destruct (it_mems _ _ _ HC 0%nat H) as (a & x & Ha & Hx) end.
    apply e_bind. apply (e_addr _ _ _ 0 _ _ _ _ _ Ha). apply e_bind, (e_mem _ _ _ _ _ _ _ Hx). apply e_bind, e_pop_u32; [assumption|].
    intros k Hk. pose proof (mem_here _ _ Hx) as Sx.
    destruct (Z.leb_spec (mi_size x + k) 1024) as [Hle|]; cbn [andb]; [|destruct minus_wr as (r & Er & Tr); eapply e_pushr; [exact Er|]; apply reach_1, Tr].
    destruct (_ || _) eqn:D; [|destruct minus_wr as (r & Er & Tr); eapply e_pushr; [exact Er|]; apply reach_1, Tr].
    apply e_bind. eapply (e_ok _ _ (mkmem (mi_type x) (mi_data x ++ zeros (k * 64 * 1024)) (mi_size x + k))).
    { unfold mem_grow. replace (mi_size x + k <=? 65536) with true by (symmetry; apply Z.leb_le; lia).
      replace (k <? 0) with false by (symmetry; apply Z.ltb_ge; lia).
      destruct (l_m _ =? 0); [reflexivity|]. cbn [orb] in D. rewrite D. reflexivity. }
    apply e_bind. eapply e_put_mem; [exact Hx|exact Hs|].
    intros s' Hst Hsa. destruct (small_wr (mi_size x)) as (r & Er & Tr); [lia|]. eapply e_pushr; [exact Er|]. apply reach_1'; assumption.
  - (* memory.fill *) types HT. wfs W. misc.
    match goal with H : (0 < c_mems C)%nat |- _ => destruct (it_mems _ _ _ HC 0%nat H) as (a & x & Ha & Hx) end.
    apply e_bind. apply (e_addr _ _ _ 0 _ _ _ _ _ Ha). apply e_bind, (e_mem _ _ _ _ _ _ _ Hx). apply e_bind, e_pop_u32; [assumption|].
    intros k Hk. apply e_bind, e_pop. apply e_bind, e_try; [split; reflexivity|]. intros b _.
    apply e_bind, e_pop_u32; [assumption|]. intros d Hd. apply e_bind, e_assert; [split; reflexivity|]. intros _.
    apply e_bind, e_try; [split; reflexivity|]. intros l El.
    eapply e_put_mem; [exact Hx|exact Hs|]. intros s' Hst Hsa. apply reach_0'; assumption.
  - (* memory.copy *) types HT. wfs W. misc.
    match goal with H : (0 < c_mems C)%nat |- _ => destruct (it_mems _ _ _ HC 0%nat H) as (a & x & Ha & Hx) end.
    apply e_bind. apply (e_addr _ _ _ 0 _ _ _ _ _ Ha). apply e_bind, (e_mem _ _ _ _ _ _ _ Hx).
    do 3 (apply e_bind, e_pop_u32; [assumption|]; intros ? ?). do 2 (apply e_bind, e_assert; [split; reflexivity|]; intros _).
    eapply e_put_mem; [exact Hx|exact Hs|]. intros s' Hst Hsa. apply reach_0'; assumption.
  - (* memory.init *) types HT. wfs W. misc.
    match goal with H : (0 < c_mems C)%nat |- _ => destruct (it_mems _ _ _ HC 0%nat H) as (a & x & Ha & Hx) end.
    apply e_bind. apply (e_addr _ _ _ 0 _ _ _ _ _ Ha). apply e_bind, (e_mem _ _ _ _ _ _ _ Hx). argi.
    match goal with H : (_ < c_datas C)%nat |- _ => destruct (it_data _ _ _ HC _ H) as (a' & y & Ha' & Hy) end.
    apply e_bind. apply (e_addr _ _ _ _ _ _ _ _ _ Ha'). apply e_bind, (e_data _ _ _ _ _ _ _ Hy). apply e_bind, e_blob.
    do 3 (apply e_bind, e_pop_u32; [assumption|]; intros ? ?). do 2 (apply e_bind, e_assert; [split; reflexivity|]; intros _).
    eapply e_put_mem; [exact Hx|exact Hs|]. intros s' Hst Hsa. apply reach_0'; assumption.
  - (* data.drop *) types HT. misc. argi.
    match goal with H : (_ < c_datas C)%nat |- _ => destruct (it_data _ _ _ HC _ H) as (a' & y & Ha' & Hy) end.
    apply e_bind. apply (e_addr _ _ _ _ _ _ _ _ _ Ha'). apply e_bind, (e_data _ _ _ _ _ _ _ Hy).
    eapply e_put_blob; [exact Hs|]. intros s' Hst Hsa. apply reach_0'; assumption.
  - (* ref.null *) types HT. unfold exec_basic.
    match goal with |- context[num_op F O_ref_null] => let e := eval hnf in (num_op F O_ref_null) in change (num_op F O_ref_null) with e end.
    cbn [exec_num]. change (arg_int [AInt (vt_code t)] 0) with (Ok (vt_code t) : res Z). cbn [rbind].
    assert (Et : vt_of_code (vt_code t) = Ok t) by (destruct t; reflexivity). rewrite Et. cbn [rbind].
    eapply e_pushr; [reflexivity|]. apply reach_1. reflexivity.
  - (* ref.is_null *) types HT. wfs W. unfold exec_basic.
    match goal with |- context[num_op F O_ref_is_null] => let e := eval hnf in (num_op F O_ref_is_null) in change (num_op F O_ref_is_null) with e end.
    cbn [exec_num op1]. apply e_bind, e_pop. cbn [rbind].
    match goal with H : is_ref _ = true |- _ => rewrite HT0, H end. cbn [py_assert rbind].
    rewrite (py_index_in (v_data v) 4 0) by (rewrite wf_len by assumption; lia). cbn [rbind].
    destruct (_ =? 0).
    + eapply e_pushr; [reflexivity|]. apply reach_1. reflexivity.
    + eapply e_pushr; [reflexivity|]. apply reach_1. reflexivity.
  - (* ref.func *) types HT. misc. argi.
    match goal with H : nth_error (c_funcs C) _ = _ |- _ => destruct (it_func _ _ _ HC _ _ H) as (a & f & Ha & Hf & Tf) end.
    apply e_bind. apply (e_addr _ _ _ _ _ _ _ _ _ Ha).
    assert (La : (a < length (s_func s))%nat) by (apply nth_error_Some; congruence). pose proof (st_many s Hs) as Lm. unfold len in Lm.
    eapply e_pushr; [apply from_ref_ok; unfold srange; change (2 ^ (32 - 1)) with (2 ^ 31); lia|]. apply reach_1. reflexivity.
Qed.
End typed_basic.
End sg.
