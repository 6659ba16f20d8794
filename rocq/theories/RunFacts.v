(* Machines stay in order, and stores only move on to later stages, whatever is run. *)
From Coq Require Import ZArith List Bool Lia ZifyBool ZifyNat.
From Verif Require Import Py Arith Floatops Val Opcode Numeric Syntax Store Basic Machine
  SpecInt SpecNum SpecMem SpecRun PyFacts ArithFacts ValFacts LaneFacts MemFacts BulkFacts WfFacts.
Import ListNotations.
Open Scope Z_scope.

(* ---- kept and later ---- *)
Lemma kept_refl {A} (R : A -> A -> Prop) l : (forall x, R x x) -> kept R l l.
Proof. intros H a x E. exists x. split; [exact E|apply H]. Qed.
Lemma kept_trans {A} (R : A -> A -> Prop) l m n : (forall x y z, R x y -> R y z -> R x z) ->
  kept R l m -> kept R m n -> kept R l n.
Proof.
  intros H H1 H2 a x E. destruct (H1 a x E) as (y & Ey & Ry). destruct (H2 a y Ey) as (z & Ez & Rz).
  exists z. split; [exact Ez|exact (H _ _ _ Ry Rz)].
Qed.
Lemma kept_app {A} (R : A -> A -> Prop) l m : (forall x, R x x) -> kept R l (l ++ m).
Proof.
  intros H a x E. exists x. split; [|apply H]. rewrite nth_error_app1; [exact E|]. apply nth_error_Some. congruence.
Qed.
Lemma kept_upd {A} (R : A -> A -> Prop) l k x y : (forall z, R z z) -> nth_error l k = Some x -> R x y -> kept R l (upd l k y).
Proof.
  intros H Ek Rxy a z E. rewrite nth_error_upd. destruct (Nat.eqb_spec a k) as [->|].
  - assert (k < length l)%nat by (apply nth_error_Some; congruence). destruct (Nat.ltb_spec k (length l)); [|lia].
    exists y. split; [reflexivity|]. congruence.
  - exists z. split; [exact E|apply H].
Qed.
Lemma kept_len {A} (R : A -> A -> Prop) l m : kept R l m -> (length l <= length m)%nat.
Proof.
  intros H. destruct (Nat.le_gt_cases (length l) (length m)) as [|G]; [assumption|]. exfalso.
  destruct (nth_error l (length m)) as [x|] eqn:E.
  - destruct (H _ _ E) as (y & Ey & _). assert (length m < length m)%nat by (apply nth_error_Some; congruence). lia.
  - apply nth_error_None in E. lia.
Qed.

Lemma later_refl s : later s s.
Proof.
  constructor; apply kept_refl; try reflexivity; intros x; first [left; reflexivity|split; [reflexivity|intros _; reflexivity]|repeat split; lia].
Qed.
Lemma later_trans a b c : later a b -> later b c -> later a c.
Proof.
  intros [] []. constructor; (eapply kept_trans; [|eassumption|eassumption]); cbv beta; try congruence.
  - intros x y z (? & ? & ?) (? & ? & ?). repeat split; [congruence|lia|lia].
  - intros x y z (? & ? & ?) (? & ? & ?). repeat split; [congruence|lia|lia].
  - intros x y z (H1 & H2) (H3 & H4). split; [congruence|]. intros Hm. rewrite <- (H2 Hm). apply H4. congruence.
  - intros x y z [->| ->] [->| ->]; auto.
  - intros x y z [->| ->] [->| ->]; auto.
Qed.
Ltac other_fields := intros; apply kept_refl;
  [ .. ]; try reflexivity; try (intros x; repeat split; lia); try (intros x; left; reflexivity);
  try (intros x; split; [reflexivity|intros _; reflexivity]).
Ltac later_tac H := constructor; cbn [s_func s_tabl s_mems s_glob s_elem s_data s_inst s_blob]; try exact H;
  solve [other_fields].
Lemma later_mems s l : kept (fun x x' => mi_type x' = mi_type x /\ mi_size x <= mi_size x' /\ len (mi_data x) <= len (mi_data x'))
  (s_mems s) l -> later s (set_s_mems s l).
Proof. intros H. later_tac H. Qed.
Lemma later_tabl s l : kept (fun x x' => ti_type x' = ti_type x /\ ti_size x <= ti_size x' /\ len (ti_elem x) <= len (ti_elem x'))
  (s_tabl s) l -> later s (set_s_tabl s l).
Proof. intros H. later_tac H. Qed.
Lemma later_glob s l : kept (fun x x' => gi_mut x' = gi_mut x /\ (gi_mut x <> 1 -> x' = x)) (s_glob s) l -> later s (set_s_glob s l).
Proof. intros H. later_tac H. Qed.
Lemma later_elem s l : kept (fun x x' => x' = x \/ x' = mkelem (li_type x) []) (s_elem s) l -> later s (set_s_elem s l).
Proof. intros H. later_tac H. Qed.
Lemma later_blob s l : kept (fun x x' => x' = x \/ x' = []) (s_blob s) l -> later s (set_s_blob s l).
Proof. intros H. later_tac H. Qed.
Lemma later_func s l : kept eq (s_func s) l -> later s (set_s_func s l).
Proof. intros H. later_tac H. Qed.
Lemma later_data s l : kept eq (s_data s) l -> later s (set_s_data s l).
Proof. intros H. later_tac H. Qed.
Lemma later_inst s l : kept eq (s_inst s) l -> later s (set_s_inst s l).
Proof. intros H. later_tac H. Qed.
Lemma later_data' s s' l : later s s' -> kept eq (s_data s) l -> later s (set_s_data s' l).
Proof. intros [] H. constructor; assumption. Qed.
Lemma later_inst' s s' l : later s s' -> kept eq (s_inst s) l -> later s (set_s_inst s' l).
Proof. intros [] H. constructor; assumption. Qed.

(* ---- Hoare triples for computations with state ---- *)
Definition hoare {S A} (P : S -> Prop) (c : ST S A) (Q : A -> S -> Prop) (E : S -> Prop) : Prop :=
  forall s, P s -> match c s with (Ok a, s') => Q a s' | (Err _, s') => E s' end.
Lemma h_bind {S A B} P (c : ST S A) Q (f : A -> ST S B) R E :
  hoare P c Q E -> (forall a, hoare (Q a) (f a) R E) -> hoare P (bind c f) R E.
Proof.
  intros H1 H2 s Hs. unfold bind. specialize (H1 s Hs). destruct (c s) as [[a|e] s']; [|exact H1].
  exact (H2 a s' H1).
Qed.
Lemma h_ret {S A} (P : S -> Prop) (a : A) (Q : A -> S -> Prop) E : (forall s, P s -> Q a s) -> hoare P (ret a) Q E.
Proof. intros H s Hs. apply H, Hs. Qed.
Lemma h_fail {S A} (P : S -> Prop) e (Q : A -> S -> Prop) (E : S -> Prop) : (forall s, P s -> E s) -> hoare P (fail e) Q E.
Proof. intros H s Hs. apply H, Hs. Qed.
Lemma h_pre {S A} (P P' : S -> Prop) (c : ST S A) Q E : (forall s, P' s -> P s) -> hoare P c Q E -> hoare P' c Q E.
Proof. intros H1 H2 s Hs. apply H2, H1, Hs. Qed.
Lemma h_post {S A} (P : S -> Prop) (c : ST S A) (Q Q' : A -> S -> Prop) (E : S -> Prop) :
  (forall a s, Q a s -> Q' a s) -> hoare P c Q E -> hoare P c Q' E.
Proof. intros H1 H2 s Hs. specialize (H2 s Hs). destruct (c s) as [[a|e] s']; [apply H1|]; assumption. Qed.
Lemma h_err {S A} (P : S -> Prop) (c : ST S A) (Q : A -> S -> Prop) (E E' : S -> Prop) :
  (forall s, E s -> E' s) -> hoare P c Q E -> hoare P c Q E'.
Proof. intros H1 H2 s Hs. specialize (H2 s Hs). destruct (c s) as [[a|e] s']; [|apply H1]; assumption. Qed.

(* ---- basic instructions ---- *)
Definition vals_ok (b : bstate) : Prop := Forall val_wf (b_locals b) /\ Forall val_wf (b_value b).
(* nothing stored yet *)
Definition at_store (s : store) (b : bstate) : Prop := b_store b = s /\ vals_ok b.
(* in order, and later than [s] *)
Definition past (s : store) (b : bstate) : Prop := store_ok (b_store b) /\ later s (b_store b) /\ vals_ok b.

Lemma gives_self {A} (r : res A) : gives (fun x => r = Ok x) r.
Proof. intros x E. exact E. Qed.
Section basic.
Context (s : store) (Hs : store_ok s).

Lemma at_past b : at_store s b -> past s b.
Proof. intros [H1 H]. unfold past. rewrite H1. exact (conj Hs (conj (later_refl s) H)). Qed.

(* a computation that only reads; its result satisfies Q *)
Definition reads {A} (c : B A) (Q : A -> Prop) : Prop := hoare (at_store s) c (fun a b => at_store s b /\ Q a) (past s).
(* a computation that may write *)
Definition writes {A} (c : B A) : Prop := hoare (at_store s) c (fun _ b => past s b) (past s).

Lemma r_bind {A B'} (c : B A) Q (f : A -> B B') R : reads c Q -> (forall a, Q a -> reads (f a) R) -> reads (bind c f) R.
Proof. intros H1 H2. eapply h_bind; [exact H1|]. intros a b [H3 H4]. apply H2; assumption. Qed.
Lemma w_bind {A B'} (c : B A) Q (f : A -> B B') : reads c Q -> (forall a, Q a -> writes (f a)) -> writes (bind c f).
Proof. intros H1 H2. eapply h_bind; [exact H1|]. intros a b [H3 H4]. apply H2; assumption. Qed.
Lemma w_reads {A} (c : B A) Q : reads c Q -> writes c.
Proof. intros H. eapply h_post; [|exact H]. cbv beta. intros a b [H1 _]. apply at_past, H1. Qed.
Lemma r_weaken {A} (c : B A) (Q R : A -> Prop) : (forall a, Q a -> R a) -> reads c Q -> reads c R.
Proof. intros H. apply h_post. intros a b [H1 H2]. split; [exact H1|apply H, H2]. Qed.
Lemma r_lift {A} (r : res A) Q : gives Q r -> reads (lift r) Q.
Proof. intros H b Hb. unfold lift. destruct r as [a|e]; [split; [exact Hb|apply H; reflexivity]|apply at_past, Hb]. Qed.
Lemma r_any {A} (r : res A) : reads (lift r) (fun _ => True).
Proof. apply r_lift, gives_true. Qed.
Lemma r_ret {A} (a : A) (Q : A -> Prop) : Q a -> reads (ret a) Q.
Proof. intros H b Hb. split; assumption. Qed.
Lemma r_assert c : reads (assert c) (fun _ => c = true).
Proof. intros b Hb. unfold assert, lift, py_assert. destruct c; [split; [exact Hb|reflexivity]|apply at_past, Hb]. Qed.
Lemma r_pop : reads pop val_wf.
Proof.
  intros b Hb. unfold pop. destruct (b_value b) as [|v vs] eqn:E; [apply at_past, Hb|].
  destruct Hb as (H1 & H2 & H3). rewrite E in H3. apply Forall_cons_iff in H3. destruct H3 as [H3 H4]. split; [|exact H3]. split; [exact H1|split; assumption].
Qed.
Lemma r_top : reads top val_wf.
Proof.
  intros b Hb. unfold top. destruct (b_value b) as [|v vs] eqn:E; [apply at_past, Hb|].
  split; [exact Hb|]. destruct Hb as (H1 & H2 & H3). rewrite E in H3. apply Forall_cons_iff in H3. apply H3.
Qed.
Lemma r_push v : val_wf v -> reads (push v) (fun _ => True).
Proof. intros H b (H1 & H2 & H3). cbn. repeat split; try assumption. constructor; assumption. Qed.
Lemma r_pushr r : gives val_wf r -> reads (pushr r) (fun _ => True).
Proof. intros H. unfold pushr. eapply r_bind; [apply r_lift, H|]. intros v Hv. apply r_push, Hv. Qed.
Lemma r_pop_u32 : reads pop_u32 (fun z => 0 <= z).
Proof.
  unfold pop_u32. eapply r_bind; [apply r_pop|]. intros v Hv. apply r_lift.
  rewrite into_u32_ok by exact Hv. apply gives_ok. apply Z.mod_pos_bound. reflexivity.
Qed.
Lemma r_store : reads get_store (fun x => x = s).
Proof. intros b Hb. split; [exact Hb|]. apply Hb. Qed.
Lemma r_locals : reads get_locals (Forall val_wf).
Proof. intros b Hb. split; [exact Hb|]. apply Hb. Qed.
Lemma r_put_locals l : Forall val_wf l -> reads (put_locals l) (fun _ => True).
Proof. intros H b (H1 & H2 & H3). cbn. repeat split; assumption. Qed.
Lemma r_mod_addr mr field i : reads (mod_addr mr field i) (fun _ => True).
Proof. unfold mod_addr. eapply r_bind; [apply r_store|]. intros x _. apply r_any. Qed.

(* the object at address a *)
Definition found {A} (l : list A) (a : Z) (x : A) : Prop :=
  exists k, nth_error l k = Some x /\ forall y, py_setitem l a y = Ok (upd l k y).
Lemma index_found {A} (l : list A) a : gives (found l a) (py_index l a).
Proof.
  intros x E. unfold py_index in E. unfold found, py_setitem.
  set (j := if a <? 0 then a + len l else a) in *. destruct (j <? 0) eqn:C; [discriminate E|].
  destruct (nth_error l (Z.to_nat j)) eqn:N; [|discriminate E]. apply Ok_inj in E. subst a0.
  exists (Z.to_nat j). split; [exact N|]. intros y.
  assert (Z.to_nat j < length l)%nat by (apply nth_error_Some; congruence). unfold len.
  destruct (Z.leb_spec (Z.of_nat (length l)) j); [lia|]. reflexivity.
Qed.
Lemma found_in {A} (P : A -> Prop) (l : list A) a x : Forall P l -> found l a x -> P x.
Proof. intros H (k & N & _). rewrite Forall_forall in H. apply H. apply nth_error_In in N. exact N. Qed.
Lemma r_get_mem a : reads (get_mem a) (found (s_mems s) a).
Proof. unfold get_mem. eapply r_bind; [apply r_store|]. intros x ->. apply r_lift, index_found. Qed.
Lemma r_get_tab a : reads (get_tab a) (found (s_tabl s) a).
Proof. unfold get_tab. eapply r_bind; [apply r_store|]. intros x ->. apply r_lift, index_found. Qed.
Lemma r_get_glob a : reads (get_glob a) (found (s_glob s) a).
Proof. unfold get_glob. eapply r_bind; [apply r_store|]. intros x ->. apply r_lift, index_found. Qed.
Lemma r_get_elem a : reads (get_elem a) (found (s_elem s) a).
Proof. unfold get_elem. eapply r_bind; [apply r_store|]. intros x ->. apply r_lift, index_found. Qed.
Lemma r_get_data a : reads (get_data a) (fun _ => True).
Proof. unfold get_data. eapply r_bind; [apply r_store|]. intros x ->. apply r_any. Qed.
Lemma r_get_blob b : reads (get_blob b) bytes.
Proof.
  unfold get_blob. eapply r_bind; [apply r_store|]. intros x ->. apply r_ret.
  destruct (nth_in_or_default b (s_blob s) []) as [H| ->]; [|constructor].
  pose proof (so_blob s Hs) as G. rewrite Forall_forall in G. apply G, H.
Qed.

Lemma w_put_store x : store_ok x -> later s x -> writes (put_store x).
Proof. intros H1 H2 b (H3 & H4 & H5). exact (conj H1 (conj H2 (conj H4 H5))). Qed.
Lemma w_put_mem a x y : found (s_mems s) a x -> mi_type y = mi_type x -> mi_size x <= mi_size y ->
  len (mi_data x) <= len (mi_data y) -> mem_wf y -> writes (put_mem a y).
Proof.
  intros (k & N & E) H1 H2 H3 H4. unfold put_mem. eapply w_bind; [apply r_store|]. intros ? ->. rewrite E.
  eapply w_bind; [apply r_lift, (gives_ok (fun l => l = upd (s_mems s) k y)); reflexivity|]. intros ? ->.
  apply w_put_store.
  - destruct Hs. constructor; try assumption. apply upd_Forall; assumption.
  - apply later_mems. apply (kept_upd _ _ _ x y); [intros z; repeat split; lia|exact N|repeat split; assumption].
Qed.
Lemma w_put_tab a x y : found (s_tabl s) a x -> ti_type y = ti_type x -> ti_size x <= ti_size y ->
  len (ti_elem x) <= len (ti_elem y) -> table_ok y -> writes (put_tab a y).
Proof.
  intros (k & N & E) H1 H2 H3 H4. unfold put_tab. eapply w_bind; [apply r_store|]. intros ? ->. rewrite E.
  eapply w_bind; [apply r_lift, (gives_ok (fun l => l = upd (s_tabl s) k y)); reflexivity|]. intros ? ->.
  apply w_put_store.
  - destruct Hs. constructor; try assumption. apply upd_Forall; assumption.
  - apply later_tabl. apply (kept_upd _ _ _ x y); [intros z; repeat split; lia|exact N|repeat split; assumption].
Qed.
Lemma w_put_glob a x y : found (s_glob s) a x -> gi_mut x = 1 -> gi_mut y = 1 -> val_wf (gi_data y) -> writes (put_glob a y).
Proof.
  intros (k & N & E) H1 H2 H3. unfold put_glob. eapply w_bind; [apply r_store|]. intros ? ->. rewrite E.
  eapply w_bind; [apply r_lift, (gives_ok (fun l => l = upd (s_glob s) k y)); reflexivity|]. intros ? ->.
  apply w_put_store.
  - destruct Hs. constructor; try assumption. apply upd_Forall; assumption.
  - apply later_glob. apply (kept_upd _ _ _ x y); [intros z; split; [reflexivity|intros _; reflexivity]|exact N|].
    split; [congruence|]. intros H. contradiction.
Qed.
Lemma w_drop_elem a x : found (s_elem s) a x -> writes (put_elem a (mkelem (li_type x) [])).
Proof.
  intros (k & N & E). unfold put_elem. eapply w_bind; [apply r_store|]. intros ? ->. rewrite E.
  eapply w_bind; [apply r_lift, (gives_ok (fun l => l = upd (s_elem s) k (mkelem (li_type x) []))); reflexivity|]. intros ? ->.
  apply w_put_store.
  - destruct Hs. constructor; try assumption. apply upd_Forall; [assumption|constructor].
  - apply later_elem. apply (kept_upd _ _ _ x); [intros z; left; reflexivity|exact N|right; reflexivity].
Qed.
Lemma w_drop_blob b : writes (put_blob b []).
Proof.
  unfold put_blob. eapply w_bind; [apply r_store|]. intros ? ->. apply w_put_store.
  - destruct Hs. constructor; try assumption. apply upd_Forall; [assumption|constructor].
  - apply later_blob. destruct (nth_error (s_blob s) b) as [x|] eqn:N.
    + apply (kept_upd _ _ _ x); [intros z; left; reflexivity|exact N|right; reflexivity].
    + intros a x E. rewrite nth_error_upd. destruct (Nat.eqb_spec a b) as [->|]; [congruence|].
      exists x. split; [exact E|left; reflexivity].
Qed.
(* after a write, a push *)
Lemma w_then_push {A} (c : B A) r : writes c -> gives val_wf r -> writes (c ;; pushr r).
Proof.
  intros H Hr. eapply h_bind; [exact H|]. intros _ b (H1 & H2 & H3 & H4). unfold pushr, bind, lift, push.
  destruct r as [v|e]; [|exact (conj H1 (conj H2 (conj H3 H4)))].
  exact (conj H1 (conj H2 (conj H3 (Forall_cons _ (Hr v eq_refl) H4)))).
Qed.

Lemma set_data_wf x d : mem_wf x -> len d = len (mi_data x) -> bytes d -> mem_wf (set_mi_data x d).
Proof. intros (H1 & H2 & H3 & H4) H5 H6. repeat split; cbn [mi_data set_mi_data mi_size mi_type]; try apply H2; try assumption. lia. Qed.
Lemma w_set_data a x d : found (s_mems s) a x -> len d = len (mi_data x) -> bytes d -> writes (put_mem a (set_mi_data x d)).
Proof.
  intros H H1 H2. apply (w_put_mem a x); cbn [mi_data set_mi_data mi_size mi_type]; try assumption; try lia; try reflexivity.
  apply set_data_wf; try assumption. exact (found_in _ _ _ _ (so_mems s Hs) H).
Qed.
Lemma w_set_elems a x l : found (s_tabl s) a x -> len l = len (ti_elem x) -> Forall val_wf l ->
  writes (put_tab a (mktab (ti_type x) l (ti_size x))).
Proof.
  intros H H1 H2. apply (w_put_tab a x); cbn [ti_type ti_size ti_elem]; try assumption; try lia; try reflexivity.
  destruct (found_in _ _ _ _ (so_tabl s Hs) H) as [[H3 H4] H5].
  split; [split; cbn [ti_type ti_size ti_elem]; [lia|exact H4]|exact H2].
Qed.

Lemma w_mem_save mr off n : 0 <= off -> 0 <= n <= 16 -> writes (mem_save mr off n).
Proof.
  intros Ho Hn. unfold mem_save. eapply w_bind; [apply r_mod_addr|]. intros a _.
  eapply w_bind; [apply r_get_mem|]. intros x Hx. eapply w_bind; [apply r_pop|]. intros v Hv.
  eapply w_bind; [apply r_pop_u32|]. intros z Hz. eapply w_bind; [apply r_assert|]. intros u Hb.
  assert (L : len (py_slice (v_data v) 0 n) = n) by (rewrite len_py_slice_in; rewrite ?wf_len by exact Hv; lia).
  apply w_set_data; [exact Hx| |].
  - cbv beta in Hz, Hb. apply len_py_slice_set_in; lia.
  - apply bytes_slice_set; [|apply bytes_slice, Hv]. apply (found_in _ _ _ _ (so_mems s Hs) Hx).
Qed.
Lemma r_mem_load mr off n : reads (mem_load mr off n) bytes.
Proof.
  unfold mem_load. eapply r_bind; [apply r_mod_addr|]. intros a _. eapply r_bind; [apply r_get_mem|]. intros x Hx.
  eapply r_bind; [apply r_pop_u32|]. intros z _. eapply r_bind; [apply r_assert|]. intros u _. apply r_ret, bytes_slice.
  apply (found_in _ _ _ _ (so_mems s Hs) Hx).
Qed.
Lemma w_load_lane mr w args : writes (load_lane mr w args).
Proof.
  apply (w_reads _ (fun _ => True)). unfold load_lane. eapply r_bind; [apply r_pop|]. intros v Hv.
  eapply r_bind; [apply r_lift, into_v128_gives, Hv|]. intros d Hd. eapply r_bind; [apply r_any|]. intros off _.
  eapply r_bind; [apply r_mem_load|]. intros e He. eapply r_bind; [apply r_any|]. intros c _.
  apply r_pushr, mk_val_gives, bytes_app. split; [apply bytes_slice_set; assumption|apply bytes_zeros].
Qed.
Lemma w_store_lane mr w args : 0 <= w <= 16 -> (forall off, nth_error args 1 = Some (AInt off) -> 0 <= off) ->
  writes (store_lane mr w args).
Proof.
  intros Hw Hoff. unfold store_lane. eapply w_bind; [apply r_pop|]. intros v Hv.
  eapply w_bind; [apply r_lift, into_v128_gives, Hv|]. intros d Hd. eapply w_bind; [apply r_any|]. intros c _.
  eapply w_bind; [apply r_pushr, from_v128_gives, bytes_slice_set; [exact Hd|apply bytes_slice, Hd]|]. intros _ _.
  eapply w_bind; [apply r_lift, gives_self|]. intros off E.
  apply w_mem_save; [|exact Hw]. apply Hoff. unfold arg_int, py_index in E. change (1 <? 0) with false in E. cbv iota in E.
  change (Z.to_nat 1) with 1%nat in E. destruct (nth_error args 1) as [[z|?|?]|]; try discriminate E. cbn [rbind] in E.
  apply Ok_inj in E. congruence.
Qed.
Lemma fill_loop_gives {A} (P : A -> Prop) (l : list A) d n x : Forall P l -> P x ->
  gives (fun l' => len l' = len l /\ Forall P l') (fill_loop l d n x).
Proof.
  intros Hl Hx. unfold fill_loop.
  assert (H : forall ks l0, gives (fun l' => len l' = len l /\ Forall P l') l0 ->
     gives (fun l' => len l' = len l /\ Forall P l') (fold_left (fun r i => let? l := r in py_setitem l (d + i) x) ks l0)).
  { induction ks as [|k ks IH]; intros l0 H0; cbn [fold_left]; [exact H0|]. apply IH. eapply gives_bind; [exact H0|].
    intros l1 [H1 H2] l2 E. split; [|exact (gives_setitem P l1 _ x H2 Hx l2 E)].
    unfold py_setitem in E. destruct (_ || _); [discriminate E|]. apply Ok_inj in E. subst l2. rewrite len_upd. exact H1. }
  apply H, gives_ok. split; [reflexivity|exact Hl].
Qed.
Lemma Forall_slice {A} (P : A -> Prop) (l : list A) a b : Forall P l -> Forall P (py_slice l a b).
Proof.
  intros H. unfold py_slice. rewrite Forall_forall in *. intros x Hx. apply H.
  rewrite <- (firstn_skipn (Z.to_nat (py_bound (len l) a)) l). apply in_or_app. right.
  rewrite <- (firstn_skipn (Z.to_nat (py_bound (len l) b - py_bound (len l) a)) (skipn _ l)). apply in_or_app. left. exact Hx.
Qed.

Lemma Forall_slice_set {A} (P : A -> Prop) (l : list A) a b v : Forall P l -> Forall P v -> Forall P (py_slice_set l a b v).
Proof.
  intros H Hv. unfold py_slice_set. apply Forall_app. split; [|apply Forall_app; split; [exact Hv|]].
  - rewrite <- (firstn_skipn (Z.to_nat (py_bound (len l) a)) l) in H. apply Forall_app in H. apply H.
  - rewrite <- (firstn_skipn (Z.to_nat (Z.max (py_bound (len l) a) (py_bound (len l) b))) l) in H. apply Forall_app in H. apply H.
Qed.

Lemma w_num n args : numop_ok n -> (forall b, In (ABytes b) args -> bytes b) -> writes (exec_num n args).
Proof.
  intros Hn Ha. specialize (Hn args Ha). apply (w_reads _ (fun _ => True)). destruct n as [f|f|f|f]; cbn [exec_num].
  - apply r_pushr, Hn.
  - eapply r_bind; [apply r_pop|]. intros a Hv. apply r_pushr, Hn, Hv.
  - eapply r_bind; [apply r_pop|]. intros b Hb. eapply r_bind; [apply r_pop|]. intros a Hv. apply r_pushr, Hn; assumption.
  - eapply r_bind; [apply r_pop|]. intros c Hc. eapply r_bind; [apply r_pop|]. intros b Hb.
    eapply r_bind; [apply r_pop|]. intros a Hv. apply r_pushr, Hn; assumption.
Qed.

Lemma tab_in a x : found (s_tabl s) a x -> table_ok x.
Proof. apply found_in, (so_tabl s Hs). Qed.
Lemma mem_in a x : found (s_mems s) a x -> mem_wf x.
Proof. apply found_in, (so_mems s Hs). Qed.

Ltac rstep := first
  [ apply r_pop | apply r_top | apply r_pop_u32 | apply r_locals | apply r_mod_addr | apply r_get_mem | apply r_get_tab
  | apply r_get_glob | apply r_get_elem | apply r_get_data | apply r_get_blob | apply r_assert ].
Ltac rd := eapply r_bind; [first [rstep|apply r_any]|]; let x := fresh "x" in let H := fresh "H" in intros x H; cbv beta in H.
Ltac wd := eapply w_bind; [first [rstep|apply r_any]|]; let x := fresh "x" in let H := fresh "H" in intros x H; cbv beta in H.

Lemma mem_grow_gives x n : mem_wf x -> 0 <= n ->
  gives (fun y => mi_type y = mi_type x /\ mi_size x <= mi_size y /\ len (mi_data x) <= len (mi_data y) /\ mem_wf y) (mem_grow x n).
Proof.
  intros (H1 & H2 & H3 & H4) Hn y E. unfold mem_grow in E.
  destruct (Z.ltb_spec n 0); [lia|].
  assert (C : (l_m (mi_type x) =? 0) = true \/ (mi_size x + n <=? l_m (mi_type x)) = true).
  { destruct (l_m (mi_type x) =? 0); [left; reflexivity|]. destruct (_ <=? l_m _); [right; reflexivity|discriminate E]. }
  assert (E' : (let? _ := py_assert (mi_size x + n <=? 65536) in
     Ok (mkmem (mi_type x) (mi_data x ++ zeros (n * 64 * 1024)) (mi_size x + n))) = Ok y).
  { destruct (l_m (mi_type x) =? 0); [exact E|]. destruct (_ <=? l_m _); [exact E|discriminate E]. }
  clear E. destruct (Z.leb_spec (mi_size x + n) 65536) as [Hp|]; [|discriminate E']. cbn [py_assert rbind] in E'.
  apply Ok_inj in E'. subst y. cbn [mi_type mi_size mi_data]. unfold mem_wf. cbn [mi_type mi_size mi_data].
  rewrite len_app, len_zeros by lia. repeat split; try lia. apply bytes_app. split; [exact H4|apply bytes_zeros].
Qed.
Lemma tab_grow_gives x n v : table_ok x -> 0 <= n -> val_wf v ->
  gives (fun y => ti_type y = ti_type x /\ ti_size x <= ti_size y /\ len (ti_elem x) <= len (ti_elem y) /\ table_ok y) (tab_grow x n v).
Proof.
  intros [[H1 H2] H3] Hn Hv y E. unfold tab_grow in E.
  assert (C : (l_m (tt_limits (ti_type x)) =? 0) = true \/ (ti_size x + n <=? l_m (tt_limits (ti_type x))) = true).
  { destruct (l_m (tt_limits (ti_type x)) =? 0); [left; reflexivity|]. destruct (_ <=? l_m _); [right; reflexivity|discriminate E]. }
  assert (E' : (let? _ := py_assert (vt_eqb (v_type v) (tt_type (ti_type x))) in
     Ok (mktab (ti_type x) (ti_elem x ++ repeat v (Z.to_nat n)) (ti_size x + n))) = Ok y).
  { destruct (l_m (tt_limits (ti_type x)) =? 0); [exact E|]. destruct (_ <=? l_m _); [exact E|discriminate E]. }
  clear E. destruct (vt_eqb _ _); [|discriminate E']. cbn [py_assert rbind] in E'.
  apply Ok_inj in E'. subst y. unfold table_ok, table_wf. cbn [ti_type ti_size ti_elem].
  rewrite len_app. assert (L : len (repeat v (Z.to_nat n)) = n) by (unfold len; rewrite repeat_length; lia). rewrite L.
  repeat split; try lia. apply Forall_app. split; [exact H3|]. apply Forall_forall. intros z Hz. apply repeat_spec in Hz. subst z. exact Hv.
Qed.

Lemma w_misc mr o args : op_ok o args -> writes (exec_misc mr o args).
Proof.
  intros [Hb Ho]. destruct o; cbn [exec_misc]; try (apply h_fail, at_past).
  all: try (apply w_load_lane).
  all: try (apply w_store_lane; [lia|]; intros off; apply Ho; right; right; right; discriminate).
  - (* nop *) apply (w_reads _ (fun _ => True)), r_ret, I.
  - (* drop *) apply (w_reads _ (fun _ => True)). rd. apply r_ret, I.
  - (* local.get *) apply (w_reads _ (fun _ => True)). rd. rd. apply r_pushr, gives_index, H0.
  - apply (w_reads _ (fun _ => True)). rd. rd. rd. eapply r_bind; [apply r_lift, gives_setitem; eassumption|]. intros l Hl. apply r_put_locals, Hl.
  - apply (w_reads _ (fun _ => True)). rd. rd. rd. eapply r_bind; [apply r_lift, gives_setitem; eassumption|]. intros l Hl. apply r_put_locals, Hl.
  - (* global.get *) apply (w_reads _ (fun _ => True)). rd. rd. rd. apply r_push. exact (found_in _ _ _ _ (so_glob s Hs) H1).
  - (* global.set *) do 5 wd. apply (w_put_glob _ x1); cbn [gi_mut gi_data]; try assumption; lia.
  - (* table.get *) apply (w_reads _ (fun _ => True)). do 4 rd. apply r_pushr, gives_index. apply (tab_in _ _ H1).
  - (* table.set *) do 6 wd. eapply w_bind; [apply r_lift, gives_self|]. intros l El.
    apply (w_set_elems _ x1); [exact H1| |].
    + unfold py_setitem in El. destruct (_ || _); [discriminate El|]. apply Ok_inj in El. subst l. apply len_upd.
    + exact (gives_setitem val_wf _ _ _ (proj2 (tab_in _ _ H1)) H2 _ El).
  - (* memory.size *) apply (w_reads _ (fun _ => True)). rd. rd. apply r_pushr, from_i32_gives.
  - (* memory.grow *) wd. wd. wd. destruct (_ && _).
    + eapply w_bind; [apply r_lift, mem_grow_gives; [apply (mem_in _ _ H0)|exact H1]|]. intros y (E1 & E2 & E3 & E4).
      apply w_then_push; [|apply from_i32_gives]. apply (w_put_mem _ x0); assumption.
    + apply (w_reads _ (fun _ => True)), r_pushr, from_i32_gives.
  - (* ref.func *) apply (w_reads _ (fun _ => True)). rd. rd. apply r_pushr, from_ref_gives.
  - (* memory.init *) do 11 wd. apply w_set_data; [exact H0| |].
    + apply len_py_slice_set_in; [lia..|]. rewrite len_py_slice_in; lia.
    + apply bytes_slice_set; [apply (mem_in _ _ H0)|apply bytes_slice; assumption].
  - (* data.drop *) do 3 wd. apply w_drop_blob.
  - (* memory.copy *) do 7 wd. apply w_set_data; [exact H0| |].
    + apply len_py_slice_set_in; [lia..|]. rewrite len_py_slice_in; lia.
    + apply bytes_slice_set; [|apply bytes_slice]; apply (mem_in _ _ H0).
  - (* memory.fill *) do 4 wd. eapply w_bind; [apply r_lift, (gives_index byte), H2|]. intros e He. wd. wd.
    eapply w_bind; [apply r_lift, (fill_loop_gives byte); [apply (mem_in _ _ H0)|exact He]|]. intros l [L1 L2].
    apply w_set_data; assumption.
  - (* table.init *) do 11 wd. pose proof (tab_in _ _ H1) as [_ T]. apply w_set_elems; [exact H1| |].
    + apply len_py_slice_set_in; [lia..|]. rewrite len_py_slice_in; lia.
    + apply Forall_slice_set; [exact T|]. apply Forall_slice. exact (found_in _ _ _ _ (so_elem s Hs) H4).
  - (* elem.drop *) do 3 wd. apply w_drop_elem. assumption.
  - (* table.copy *) do 11 wd. pose proof (tab_in _ _ H1) as [_ T]. apply w_set_elems; [exact H1| |].
    + apply len_py_slice_set_in; [lia..|]. rewrite len_py_slice_in; lia.
    + apply Forall_slice_set; [exact T|]. apply Forall_slice. apply (tab_in _ _ H4).
  - (* table.grow *) do 5 wd. destruct (_ && _).
    + eapply w_bind; [apply r_lift, tab_grow_gives; [apply (tab_in _ _ H1)|exact H2|exact H3]|]. intros y (E1 & E2 & E3 & E4).
      apply w_then_push; [|apply from_i32_gives]. apply (w_put_tab _ x1); assumption.
    + apply (w_reads _ (fun _ => True)), r_pushr, from_i32_gives.
  - (* table.size *) apply (w_reads _ (fun _ => True)). do 3 rd. apply r_pushr, from_i32_gives.
  - (* table.fill *) do 7 wd. pose proof (tab_in _ _ H1) as [_ T].
    eapply w_bind; [apply r_lift, (fill_loop_gives val_wf); [exact T|exact H3]|]. intros l [L1 L2].
    apply w_set_elems; assumption.
Qed.

Lemma arg_int_1 args off : arg_int args 1 = Ok off -> nth_error args 1 = Some (AInt off).
Proof.
  unfold arg_int, py_index. change (1 <? 0) with false. cbv iota. change (Z.to_nat 1) with 1%nat.
  destruct (nth_error args 1) as [[z|?|?]|]; intros E; try discriminate E. cbn [rbind] in E. apply Ok_inj in E. congruence.
Qed.
Lemma store_op_acc o : match store_op o with Some n => accesses_memory o /\ 0 <= n <= 16 | None => True end.
Proof. destruct o; cbn [store_op]; try exact I; (split; [right; left; discriminate|lia]). Qed.
Lemma w_basic F mr o args : op_ok o args -> writes (exec_basic F mr o args).
Proof.
  intros H. unfold exec_basic. destruct (num_op F o) as [n|] eqn:N; [apply w_num; [exact (num_ok F o n N)|apply H]|].
  pose proof (load_gives o) as HL. destruct (load_op o) as [[n conv]|].
  { apply (w_reads _ (fun _ => True)). rd. eapply r_bind; [apply r_mem_load|]. intros d Hd. apply r_pushr, HL, Hd. }
  pose proof (store_op_acc o) as HS. destruct (store_op o) as [n|]; [|apply w_misc, H].
  eapply w_bind; [apply r_lift, gives_self|]. intros off E. apply w_mem_save; [|apply HS].
  destruct H as [_ H]. apply H; [apply HS|apply arg_int_1, E].
Qed.
End basic.

(* ---- the machine ---- *)
Definition inv (s0 : store) (m : machine) : Prop := machine_ok m /\ later s0 (k_store m).
(* a computation that keeps the machine in order and later than [s0]; its result satisfies Q *)
Definition safe {A} (s0 : store) (c : M A) (Q : A -> Prop) : Prop := hoare (inv s0) c (fun a m => inv s0 m /\ Q a) (inv s0).
Notation any := (fun _ => True).

Section mach.
Context (s0 : store).
Lemma s_bind {A B'} (c : M A) Q (f : A -> M B') R : safe s0 c Q -> (forall a, Q a -> safe s0 (f a) R) -> safe s0 (bind c f) R.
Proof. intros H1 H2. eapply h_bind; [exact H1|]. intros a m [H3 H4]. apply H2; assumption. Qed.
Lemma s_ret {A} (a : A) (Q : A -> Prop) : Q a -> safe s0 (ret a) Q.
Proof. intros H m Hm. split; assumption. Qed.
Lemma s_fail {A} e (Q : A -> Prop) : safe s0 (fail e) Q.
Proof. intros m Hm. exact Hm. Qed.
Lemma s_lift {A} (r : res A) Q : gives Q r -> safe s0 (lift r) Q.
Proof. intros H m Hm. unfold lift. destruct r as [a|e]; [split; [exact Hm|apply H; reflexivity]|exact Hm]. Qed.
Lemma s_any {A} (r : res A) : safe s0 (lift r) any.
Proof. apply s_lift, gives_true. Qed.
Lemma s_assert c : safe s0 (assert c) any.
Proof. apply s_any. Qed.
Lemma s_weaken {A} (c : M A) (Q R : A -> Prop) : (forall a, Q a -> R a) -> safe s0 c Q -> safe s0 c R.
Proof. intros H. apply h_post. intros a m [H1 H2]. split; [exact H1|apply H, H2]. Qed.
Lemma s_mget : safe s0 mget (inv s0).
Proof. intros m Hm. split; exact Hm. Qed.
Lemma s_mput m : inv s0 m -> safe s0 (mput m) any.
Proof. intros H m' _. split; [exact H|exact I]. Qed.
Lemma s_forl {A} (f : A -> M unit) l : (forall x, In x l -> safe s0 (f x) any) -> safe s0 (forl f l) any.
Proof.
  induction l as [|x l IH]; intros H; cbn [forl]; [apply s_ret, I|].
  eapply s_bind; [apply H; left; reflexivity|]. intros _ _. apply IH. intros y Hy. apply H. right. exact Hy.
Qed.
Lemma s_mapl {A B'} (f : A -> M B') l (P : B' -> Prop) : (forall x, In x l -> safe s0 (f x) P) -> safe s0 (mapl f l) (Forall P).
Proof.
  induction l as [|x l IH]; intros H; cbn [mapl]; [apply s_ret; constructor|].
  eapply s_bind; [apply H; left; reflexivity|]. intros y Hy.
  eapply s_bind; [apply IH; intros z Hz; apply H; right; exact Hz|]. intros ys Hys. apply s_ret. constructor; assumption.
Qed.
(* changes of one stack *)
Lemma inv_value m v : inv s0 m -> Forall val_wf v -> inv s0 (set_value m v).
Proof. intros [[] H] Hv. split; [constructor; assumption|exact H]. Qed.
Lemma inv_label m l : inv s0 m -> Forall (fun lb => code_ok (lb_instr lb)) l -> inv s0 (set_label m l).
Proof. intros [[] H] Hv. split; [constructor; assumption|exact H]. Qed.
Lemma inv_frame m l : inv s0 m -> Forall (fun fr => Forall val_wf (fr_locals fr)) l -> inv s0 (set_frame m l).
Proof. intros [[] H] Hv. split; [constructor; assumption|exact H]. Qed.
Lemma inv_store m s : inv s0 m -> store_ok s -> later s0 s -> inv s0 (set_store m s).
Proof. intros [[] H] H1 H2. split; [constructor; assumption|exact H2]. Qed.
Lemma s_popv : safe s0 popv val_wf.
Proof.
  intros m Hm. unfold popv. destruct (k_value m) as [|v vs] eqn:E; [exact Hm|].
  pose proof (mo_value m (proj1 Hm)) as H. rewrite E in H. apply Forall_cons_iff in H. destruct H as [H1 H2].
  split; [apply inv_value; assumption|exact H1].
Qed.
Lemma s_popn n : safe s0 (popn n) (Forall val_wf).
Proof.
  induction n as [|n IH]; cbn [popn]; [apply s_ret; constructor|].
  eapply s_bind; [apply s_popv|]. intros v Hv. eapply s_bind; [exact IH|]. intros vs Hvs.
  apply s_ret, Forall_app. split; [exact Hvs|constructor; [exact Hv|constructor]].
Qed.
Lemma s_extend l : Forall val_wf l -> safe s0 (extend l) any.
Proof.
  intros H m Hm. split; [|exact I]. apply inv_value; [exact Hm|]. apply Forall_app.
  split; [apply Forall_rev, H|apply (mo_value m (proj1 Hm))].
Qed.
Lemma s_push_label l : code_ok (lb_instr l) -> safe s0 (push_label l) any.
Proof. intros H m Hm. split; [|exact I]. apply inv_label; [exact Hm|]. constructor; [exact H|apply (mo_label m (proj1 Hm))]. Qed.
Lemma s_push_frame f : Forall val_wf (fr_locals f) -> safe s0 (push_frame f) any.
Proof. intros H m Hm. split; [|exact I]. apply inv_frame; [exact Hm|]. constructor; [exact H|apply (mo_frame m (proj1 Hm))]. Qed.
Lemma s_pop_frame : safe s0 pop_frame any.
Proof.
  intros m Hm. unfold pop_frame. destruct (k_frame m) as [|f fs] eqn:E; [exact Hm|].
  pose proof (mo_frame m (proj1 Hm)) as H. rewrite E in H. apply Forall_cons_iff in H. destruct H as [H1 H2].
  split; [apply inv_frame; assumption|exact I].
Qed.
Lemma s_top_frame : safe s0 top_frame any.
Proof. intros m Hm. unfold top_frame. destruct (k_frame m); [exact Hm|split; [exact Hm|exact I]]. Qed.
Lemma s_basic {A} (f : modref -> B A) : (forall s mr, store_ok s -> writes s (f mr)) -> safe s0 (on_basic f) any.
Proof.
  intros H m Hm. unfold on_basic. destruct (k_frame m) as [|fr fs] eqn:E; [exact Hm|].
  destruct Hm as [Hm Hl]. pose proof (mo_frame m Hm) as HF. rewrite E in HF. apply Forall_cons_iff in HF. destruct HF as [H1 H2].
  specialize (H (k_store m) (fr_module fr) (mo_store m Hm) (mkb (k_store m) (fr_locals fr) (k_value m))).
  specialize (H (conj eq_refl (conj H1 (mo_value m Hm)))).
  destruct (f (fr_module fr) _) as [[a|e] b]; destruct H as (P1 & P2 & P3 & P4).
  - split; [|exact I]. split; [constructor; try assumption; [constructor; assumption|apply (mo_label m Hm)]|].
    exact (later_trans _ _ _ Hl P2).
  - split; [constructor; try assumption; [constructor; assumption|apply (mo_label m Hm)]|].
    exact (later_trans _ _ _ Hl P2).
Qed.
Lemma Forall_skipn {A} (P : A -> Prop) n l : Forall P l -> Forall P (skipn n l).
Proof. intros H. rewrite <- (firstn_skipn n l) in H. apply Forall_app in H. apply H. Qed.
Lemma Forall_keep {A} (P : A -> Prop) n l : Forall P l -> Forall P (keep n l).
Proof. apply Forall_skipn. Qed.
Lemma s_bype bt : safe s0 (evaluate_bype bt) any.
Proof.
  destruct bt; cbn [evaluate_bype]; try (apply s_ret, I). eapply s_bind; [apply s_top_frame|]. intros f _.
  eapply s_bind; [apply s_mget|]. intros m _. apply s_any.
Qed.
Lemma s_br l : safe s0 (evaluate_br l) any.
Proof.
  unfold evaluate_br. eapply s_bind; [apply s_mget|]. intros m Hm. eapply s_bind; [apply s_assert|]. intros _ _.
  destruct (nth_error (k_label m) (Z.to_nat l)) as [lb|] eqn:N; [|apply s_fail].
  assert (Hlb : code_ok (lb_instr lb)).
  { pose proof (mo_label m (proj1 Hm)) as H. rewrite Forall_forall in H. apply (H lb). apply nth_error_In in N. exact N. }
  eapply s_bind; [apply s_assert|]. intros _ _. eapply s_bind; [apply s_popn|]. intros rets Hr.
  eapply s_bind; [apply s_mget|]. intros m' [[] HL]. apply s_mput. split; [constructor; try assumption|exact HL].
  - cbn [k_value]. apply Forall_app. split; [apply Forall_rev, Hr|apply Forall_keep; assumption].
  - cbn [k_frame]. apply Forall_keep. assumption.
  - cbn [k_label]. destruct (lb_carry lb); try (apply Forall_skipn; assumption).
    constructor; [exact Hlb|apply Forall_skipn; assumption].
Qed.
Lemma zero_locals_wf d : Forall val_wf (zero_locals d).
Proof.
  unfold zero_locals. induction d as [|[n t] d IH]; cbn [map concat]; [constructor|]. apply Forall_app. split; [|exact IH].
  apply Forall_forall. intros v Hv. apply repeat_spec in Hv. subst v. apply val_zero_wf.
Qed.
Lemma from_alls_gives F ts vs : Forall pyval_ok vs -> gives (Forall val_wf) (from_alls F ts vs).
Proof.
  intros H. apply gives_rmapl. intros [t v] Hin. apply from_all_gives. apply in_combine_r in Hin.
  rewrite Forall_forall in H. apply H, Hin.
Qed.
Lemma found_func m a : inv s0 m -> gives func_ok (py_index (s_func (k_store m)) a).
Proof. intros H. apply gives_index, (so_func _ (mo_store m (proj1 H))). Qed.

Context (F : fops) (host : hostcode) (Hh : well_behaved host).
Lemma s_host hid args : safe s0 (fun m => host hid args m) (Forall pyval_ok).
Proof.
  intros m [Hm Hl]. destruct (host hid args m) as [r m'] eqn:E. destruct (Hh _ _ _ _ _ Hm E) as (H1 & H2 & H3).
  assert (I' : inv s0 m') by (split; [exact H1|exact (later_trans _ _ _ Hl H2)]).
  destruct r as [l|e]; [split; [exact I'|apply H3; reflexivity]|exact I'].
Qed.
Lemma s_call addr : safe s0 (evaluate_call F host addr) any.
Proof.
  unfold evaluate_call. eapply s_bind; [apply s_mget|]. intros m Hm. eapply s_bind; [apply s_lift, found_func, Hm|]. intros f Hf.
  eapply s_bind; [apply s_popn|]. intros args Ha. destruct f as [t h code|t hid].
  - eapply s_bind; [apply s_mget|]. intros m1 H1. eapply s_bind; [apply s_assert|]. intros _ _.
    eapply s_bind; [apply s_push_frame; cbn [fr_locals]; apply Forall_app; split; [exact Ha|apply zero_locals_wf]|]. intros _ _.
    eapply s_bind; [apply s_mget|]. intros m2 H2. apply s_push_label. exact Hf.
  - eapply s_bind; [apply s_any|]. intros pargs _. eapply s_bind; [apply s_host|]. intros rets Hr.
    eapply s_bind; [apply s_lift, from_alls_gives, Hr|]. intros vs Hvs. apply s_extend, Hvs.
Qed.
Lemma s_enter lb k bt body : code_ok body -> safe s0 (enter lb k bt body) any.
Proof.
  intros H. unfold enter. eapply s_bind; [apply s_mget|]. intros m Hm. eapply s_bind; [apply s_assert|]. intros _ _.
  apply s_push_label. exact H.
Qed.
Ltac sd := eapply s_bind; [first [apply s_mget|apply s_popv|apply s_assert|apply s_bype|apply s_any|apply s_pop_frame|apply s_popn|apply s_top_frame]|];
  let x := fresh "x" in let H := fresh "H" in intros x H; cbv beta in H.
Lemma s_exec lb fr i : inst_ok i -> safe s0 (exec F host lb fr i) any.
Proof.
  intros H. destruct H as [bt l Hl|bt l Hl|bt l k Hl Hk|o args Ho]; cbn [exec].
  - sd. apply s_enter, Hl.
  - sd. apply s_enter, Hl.
  - sd. sd. sd. apply s_enter. destruct (x1 =? 0); assumption.
  - destruct o; try (apply s_fail); try (apply s_basic; intros s mr Hs; apply w_basic; assumption).
    + sd. apply s_br.
    + sd. sd. destruct (x0 =? 0); [apply s_ret, I|]. sd. apply s_br.
    + sd. sd. sd. sd. eapply s_bind; [|intros l _; apply s_br]. destruct (x0 <? len x2); [apply s_any|apply s_ret, I].
    + sd. sd. sd. sd. eapply s_bind; [apply s_mget|]. intros m' [[] HL]. apply s_mput. split; [constructor; try assumption|exact HL].
      * cbn [k_value]. apply Forall_app. split; [apply Forall_rev; assumption|apply Forall_keep; assumption].
      * cbn [k_label]. apply Forall_keep. assumption.
    + sd. sd. sd. apply s_call.
    + do 12 sd. apply s_call.
Qed.
Lemma s_step : safe s0 (step F host) any.
Proof.
  unfold step. sd. destruct (k_label x) as [|lb ls] eqn:E; [apply s_fail|]. sd.
  pose proof (mo_label x (proj1 H)) as HL. rewrite E in HL. apply Forall_cons_iff in HL. destruct HL as [H1 H2]. cbv beta in H1.
  destruct (Nat.eqb _ _).
  - eapply s_bind; [apply s_mget|]. intros m Hm. eapply s_bind; [apply s_mput, inv_label; assumption|]. intros _ _.
    destruct (lb_carry lb); try (apply s_ret, I). sd. sd. apply s_pop_frame.
  - destruct (nth_error (lb_instr lb) (lb_index lb)) as [i|] eqn:N; [|apply s_fail].
    eapply s_bind; [apply s_mget|]. intros m Hm. eapply s_bind; [apply s_mput, inv_label; [exact Hm|constructor; assumption]|]. intros _ _.
    apply s_exec. unfold code_ok in H1. rewrite Forall_forall in H1. apply H1. apply nth_error_In in N. exact N.
Qed.
Lemma s_evaluate n : safe s0 (evaluate F host n) any.
Proof.
  induction n as [|n IH]; cbn [evaluate]; [apply s_ret, I|]. intros m Hm. destruct (k_label m) eqn:E; [split; [exact Hm|exact I]|].
  revert m Hm E. intros m Hm _. revert m Hm. change (safe s0 (step F host ;; evaluate F host n) any).
  eapply s_bind; [apply s_step|]. intros _ _. exact IH.
Qed.
Lemma s_invocate n addr args : Forall val_wf args -> safe s0 (invocate F host n addr args) (Forall val_wf).
Proof.
  intros Ha. unfold invocate. eapply s_bind; [apply s_mget|]. intros m Hm. eapply s_bind; [apply s_lift, found_func, Hm|]. intros f Hf.
  destruct f as [t h code|]; [|apply s_fail]. sd.
  eapply s_bind; [apply s_push_frame; constructor|]. intros _ _.
  eapply s_bind; [apply s_push_frame; cbn [fr_locals]; apply Forall_app; split; [exact Ha|apply zero_locals_wf]|]. intros _ _.
  eapply s_bind; [apply s_push_label, Hf|]. intros _ _. eapply s_bind; [apply s_evaluate|]. intros _ _.
  eapply s_bind; [apply s_popn|]. intros rets Hr. do 6 sd. apply s_ret, Hr.
Qed.
Lemma s_run_expr n e k : code_ok e -> safe s0 (run_expr F host n e k) any.
Proof.
  intros He. unfold run_expr. eapply s_bind; [apply s_push_label, He|]. intros _ _. eapply s_bind; [apply s_evaluate|]. intros _ _.
  sd. sd. sd. apply s_assert.
Qed.
Lemma s_const_expr n e : code_ok e -> safe s0 (const_expr F host n e) val_wf.
Proof. intros He. unfold const_expr. eapply s_bind; [apply s_run_expr, He|]. intros _ _. apply s_popv. Qed.

(* ---- allocation ---- *)
Lemma s_on_store {A} (f : store -> res A * store) :
  (forall s r s', store_ok s -> f s = (r, s') -> store_ok s' /\ later s s') -> safe s0 (on_store f) any.
Proof.
  intros H m Hm. unfold on_store. destruct (f (k_store m)) as [r s'] eqn:E.
  destruct (H _ _ _ (mo_store m (proj1 Hm)) E) as [H1 H2].
  assert (I' : inv s0 (set_store m s')) by (apply inv_store; [exact Hm|exact H1|exact (later_trans _ _ _ (proj2 Hm) H2)]).
  destruct r; [split; [exact I'|exact I]|exact I'].
Qed.
Lemma Forall_snoc {A} (P : A -> Prop) l x : Forall P l -> P x -> Forall P (l ++ [x]).
Proof. intros H Hx. apply Forall_app. split; [exact H|constructor; [exact Hx|constructor]]. Qed.
Ltac lrefl := let x := fresh in intros x; first [reflexivity|left; reflexivity|split; [reflexivity|intros _; reflexivity]|repeat split; lia].
Lemma a_func_wasm h f s r s' : code_ok (fd_expr f) -> store_ok s -> alloc_func_wasm h f s = (r, s') -> store_ok s' /\ later s s'.
Proof.
  intros Hf Hs E. unfold alloc_func_wasm in E. destruct (py_index _ _); injection E as _ <-; [|split; [exact Hs|apply later_refl]].
  split; [|apply later_func, kept_app; lrefl]. destruct Hs. constructor; try assumption. apply Forall_snoc; assumption.
Qed.
Lemma a_func_host t hid s r s' : store_ok s -> alloc_func_host t hid s = (r, s') -> store_ok s' /\ later s s'.
Proof.
  intros Hs E. injection E as _ <-. split; [|apply later_func, kept_app; lrefl].
  destruct Hs. constructor; try assumption. apply Forall_snoc; [assumption|exact I].
Qed.
Lemma tab_new_ok t : 0 <= l_n (tt_limits t) -> gives table_ok (tab_new t).
Proof.
  intros H y E. pose proof (fun W => tab_grow_gives (mktab t [] 0) (l_n (tt_limits t)) (val_zero (tt_type t)) W H (val_zero_wf _) y E) as G.
  unfold tab_new, tab_grow in E. cbn [ti_type ti_size ti_elem] in *.
  destruct (Z.eqb_spec (l_m (tt_limits t)) 0) as [Hm|Hm].
  - apply G. split; [split; [reflexivity|]|constructor]. cbn [ti_type ti_size]. intros; lia.
  - destruct (Z.leb_spec (0 + l_n (tt_limits t)) (l_m (tt_limits t))); [|discriminate E].
    apply G. split; [split; [reflexivity|]|constructor]. cbn [ti_type ti_size]. intros; lia.
Qed.
Lemma mem_new_ok t : gives mem_wf (mem_new t).
Proof.
  intros y E. unfold mem_new in E. pose proof (fun W N => mem_grow_gives (mkmem t [] 0) (l_n t) W N y E) as G.
  unfold mem_grow in E. cbn [mi_type mi_size mi_data] in *. destruct (Z.ltb_spec (l_n t) 0) as [|Hn].
  { destruct (l_m t =? 0); [|destruct (_ <=? l_m t); [|discriminate E]]; cbn [py_assert rbind] in E; destruct (_ <=? 65536); discriminate E. }
  destruct (Z.eqb_spec (l_m t) 0) as [Hm|Hm].
  - apply G; [|exact Hn]. repeat split; cbn [mi_type mi_size mi_data]; try lia; try constructor. 
  - destruct (Z.leb_spec (0 + l_n t) (l_m t)); [|discriminate E].
    apply G; [|exact Hn]. repeat split; cbn [mi_type mi_size mi_data]; try lia; try constructor.
Qed.
Lemma a_table t s r s' : 0 <= l_n (tt_limits t) -> store_ok s -> alloc_table t s = (r, s') -> store_ok s' /\ later s s'.
Proof.
  intros Ht Hs E. unfold alloc_table in E. destruct (tab_new t) as [i|] eqn:N; injection E as _ <-; [|split; [exact Hs|apply later_refl]].
  split; [|apply later_tabl, kept_app; lrefl]. destruct Hs. constructor; try assumption. apply Forall_snoc; [assumption|].
  exact (tab_new_ok t Ht i N).
Qed.
Lemma a_memory t s r s' : store_ok s -> alloc_memory t s = (r, s') -> store_ok s' /\ later s s'.
Proof.
  intros Hs E. unfold alloc_memory in E. destruct (mem_new t) as [i|] eqn:N; injection E as _ <-; [|split; [exact Hs|apply later_refl]].
  split; [|apply later_mems, kept_app; lrefl]. destruct Hs. constructor; try assumption. apply Forall_snoc; [assumption|].
  exact (mem_new_ok t i N).
Qed.
Lemma a_global t v s r s' : val_wf v -> store_ok s -> alloc_global t v s = (r, s') -> store_ok s' /\ later s s'.
Proof.
  intros Hv Hs E. unfold alloc_global in E. destruct (_ || _); injection E as _ <-; [|split; [exact Hs|apply later_refl]].
  split; [|apply later_glob, kept_app; lrefl]. destruct Hs. constructor; try assumption. apply Forall_snoc; assumption.
Qed.
Lemma a_elem t v s r s' : Forall val_wf v -> store_ok s -> alloc_elem t v s = (r, s') -> store_ok s' /\ later s s'.
Proof.
  intros Hv Hs E. unfold alloc_elem in E. destruct (is_ref t); injection E as _ <-; [|split; [exact Hs|apply later_refl]].
  split; [|apply later_elem, kept_app; lrefl]. destruct Hs. constructor; try assumption. apply Forall_snoc; assumption.
Qed.
Lemma a_data b s r s' : store_ok s -> alloc_data b s = (r, s') -> store_ok s' /\ later s s'.
Proof.
  intros Hs E. injection E as _ <-. split; [|apply later_data, kept_app; lrefl]. destruct Hs. constructor; assumption.
Qed.
Lemma s_upd_inst h f : (length (s_inst s0) <= h)%nat -> safe s0 (upd_inst h f) any.
Proof.
  intros Hh' m Hm. split; [|exact I]. cbn. apply inv_store; [exact Hm| |].
  - destruct Hm as [[[] ] _]. constructor; assumption.
  - apply later_inst'; [apply Hm|]. intros a x E. destruct (lt_inst _ _ (proj2 Hm) a x E) as (y & Ey & <-).
    exists x. split; [|reflexivity]. rewrite nth_error_upd. destruct (Nat.eqb_spec a h) as [->|]; [|exact Ey].
    assert (h < length (s_inst s0))%nat by (apply nth_error_Some; congruence). lia.
Qed.
Lemma s_allocate L ext globin elemin : desc_ok (l_desc L) -> Forall val_wf globin -> Forall (Forall val_wf) elemin ->
  safe s0 (allocate L ext globin elemin) any.
Proof.
  intros (D1 & D2 & D3 & D4 & D5) Hg He. unfold allocate. eapply s_bind; [apply s_mget|]. intros m Hm.
  assert (HI : (length (s_inst s0) <= length (s_inst (k_store m)))%nat) by (eapply kept_len, lt_inst, Hm).
  set (h := length (s_inst (k_store m))) in *. clearbody h.
  eapply s_bind. { apply s_mput, inv_store; [exact Hm| |]. { destruct Hm as [[[] ] _]. constructor; assumption. }
    eapply later_trans; [apply Hm|]. apply later_inst, kept_app. lrefl. } intros _ _.
  eapply s_bind. { apply s_forl. intros e Hin. eapply s_bind; [|intros a _; apply s_upd_inst; assumption].
    apply s_on_store. intros s r s'. apply a_func_wasm. rewrite Forall_forall in D1. apply D1, Hin. } intros _ _.
  eapply s_bind. { apply s_forl. intros e Hin. eapply s_bind; [|intros a _; apply s_upd_inst; assumption].
    apply s_on_store. intros s r s'. apply a_table. rewrite Forall_forall in D2. apply D2, Hin. } intros _ _.
  eapply s_bind. { apply s_forl. intros e Hin. eapply s_bind; [|intros a _; apply s_upd_inst; assumption].
    apply s_on_store. intros s r s'. apply a_memory. } intros _ _.
  eapply s_bind. { apply s_forl. intros [i e] Hin. eapply s_bind; [apply s_lift, gives_index, Hg|]. intros v Hv.
    eapply s_bind; [|intros a _; apply s_upd_inst; assumption]. apply s_on_store. intros s r s'. apply a_global, Hv. } intros _ _.
  eapply s_bind. { apply s_forl. intros [i e] Hin. eapply s_bind; [apply s_lift, gives_index, He|]. intros v Hv.
    eapply s_bind; [|intros a _; apply s_upd_inst; assumption]. apply s_on_store. intros s r s'. apply a_elem, Hv. } intros _ _.
  eapply s_bind. { apply s_forl. intros e Hin. eapply s_bind; [|intros a _; apply s_upd_inst; assumption].
    apply s_on_store. intros s r s'. apply a_data. } intros _ _.
  eapply s_bind. { apply s_forl. intros e Hin. sd. sd. apply s_upd_inst. assumption. } intros _ _.
  apply s_ret, I.
Qed.
Lemma plain_ok o args : (forall b, ~ In (ABytes b) args) -> ~ accesses_memory o -> inst_ok (IOp o args).
Proof. intros H1 H2. constructor. split; [intros b Hb; destruct (H1 b Hb)|intros off H; contradiction]. Qed.
Ltac plain_op := apply plain_ok;
  [let b := fresh in let Hb := fresh in intros b Hb; cbn [In] in Hb; repeat (destruct Hb as [Hb|Hb]; [discriminate Hb|]); exact Hb
  |let Ha := fresh in intros [Ha|[Ha|[Ha|Ha]]]; apply Ha; reflexivity].
Lemma s_instance n L ext : desc_ok (l_desc L) -> safe s0 (instance F host n L ext) any.
Proof.
  intros D. pose proof D as (D1 & D2 & D3 & D4 & D5). unfold instance. sd.
  eapply s_bind. { apply s_forl. intros [a b] _. sd. apply s_any. } intros _ _. sd.
  eapply s_bind; [apply s_push_frame; constructor|]. intros _ _.
  eapply s_bind. { apply s_mapl. intros e Hin. apply s_const_expr. rewrite Forall_forall in D3. apply D3, Hin. } intros globin Hg.
  eapply s_bind. { apply s_mapl. intros e Hin. apply s_mapl. intros f Hf. apply s_const_expr.
    rewrite Forall_forall in D4. destruct (D4 e Hin) as [_ De]. rewrite Forall_forall in De. apply De, Hf. } intros elemin He.
  sd. eapply s_bind; [apply s_allocate; assumption|]. intros h _. sd. sd.
  eapply s_bind; [apply s_push_frame; constructor|]. intros _ _.
  eapply s_bind. { apply s_forl. intros [i e] Hin. destruct (negb _); [apply s_ret, I|]. apply s_run_expr. unfold elem_code.
    apply Forall_app. split; [|repeat (constructor; [plain_op|]); constructor].
    apply in_combine_r in Hin. rewrite Forall_forall in D4. apply (D4 e Hin). } intros _ _.
  eapply s_bind. { apply s_forl. intros [i e] Hin. destruct (negb _); [apply s_ret, I|]. apply s_run_expr.
    repeat (constructor; [plain_op|]). constructor. } intros _ _.
  eapply s_bind. { apply s_forl. intros [i [e b]] Hin. destruct (negb _); [apply s_ret, I|]. sd. apply s_run_expr. unfold data_code.
    apply Forall_app. split; [|repeat (constructor; [plain_op|]); constructor].
    apply in_combine_r, in_combine_l in Hin. rewrite Forall_forall in D5. apply (D5 e Hin). } intros _ _.
  eapply (s_bind _ (fun _ => True)). { destruct (_ >=? 0); [|apply (s_ret tt (fun _ => True)), I]. apply s_run_expr. repeat (constructor; [plain_op|]). constructor. } intros _ _.
  sd. apply s_ret, I.
Qed.
Lemma s_load md : desc_ok md -> safe s0 (load_module md) any.
Proof.
  intros (D1 & D2 & D3 & D4 & D5) m Hm. split; [|exact I]. apply inv_store; [exact Hm| |].
  - destruct Hm as [[[] ] _]. constructor; try assumption. apply Forall_app. split; [assumption|].
    apply Forall_map. eapply Forall_impl; [|exact D5]. intros d H. apply H.
  - eapply later_trans; [apply Hm|]. apply later_blob, kept_app. lrefl.
Qed.
Lemma s_rt_invocate n h nm args : Forall pyval_ok args -> safe s0 (rt_invocate F host n h nm args) any.
Proof.
  intros Ha. unfold rt_invocate. do 4 sd. eapply s_bind; [apply s_lift, from_alls_gives, Ha|]. intros vs Hvs.
  eapply s_bind; [apply s_invocate, Hvs|]. intros rets _. apply s_any.
Qed.
Lemma safe_snd {A} (c : M A) Q m : safe s0 c Q -> inv s0 m -> inv s0 (snd (c m)).
Proof. intros H Hm. specialize (H m Hm). destruct (c m) as [[a|e] m']; [apply H|exact H]. Qed.
Lemma inv_call m m' : call F host m m' -> inv s0 m -> inv s0 m'.
Proof.
  intros C Hm. destruct C; (eapply safe_snd; [|exact Hm]).
  - apply s_load. assumption.
  - apply s_instance. assumption.
  - apply s_invocate. assumption.
  - unfold rt_instance. sd. apply s_instance. assumption.
  - apply s_rt_invocate. assumption.
  - apply s_evaluate.
  - eapply s_bind; [apply s_on_store; intros s r s'; apply a_func_host|]. intros a _. apply (s_ret _ any), I.
  - eapply s_bind; [apply s_on_store; intros s r s'; apply a_table; assumption|]. intros a _. apply (s_ret _ any), I.
  - eapply s_bind; [apply s_on_store; intros s r s'; apply a_memory|]. intros a _. apply (s_ret _ any), I.
  - eapply s_bind; [apply s_on_store; intros s r s'; apply a_global; assumption|]. intros a _. apply (s_ret _ any), I.
  - apply s_host.
Qed.
Lemma inv_session m m' : session F host m m' -> inv s0 m -> inv s0 m'.
Proof. induction 1 as [|m m1 m2 _ IH C]; intros Hm; [exact Hm|]. exact (inv_call _ _ C (IH Hm)). Qed.
End mach.

Lemma empty_ok : machine_ok machine_empty.
Proof. repeat constructor. Qed.
(* the two results *)
Lemma session_ok F host m m' : well_behaved host -> session F host m m' -> machine_ok m -> machine_ok m' /\ later (k_store m) (k_store m').
Proof. intros Hh S Hm. exact (inv_session (k_store m) F host Hh m m' S (conj Hm (later_refl _))). Qed.

Section run.
Context (F : fops) (host : hostcode).
Lemma run_memory m1 m2 a x :
  well_behaved host -> session F host machine_empty m1 -> session F host m1 m2 ->
  nth_error (s_mems (k_store m1)) a = Some x ->
  len (mi_data x) = 65536 * mi_size x /\ mi_size x <= 65536 /\ (l_m (mi_type x) <> 0 -> mi_size x <= l_m (mi_type x)) /\
  exists x', nth_error (s_mems (k_store m2)) a = Some x' /\
    mi_type x' = mi_type x /\ mi_size x <= mi_size x' /\
    (forall i, i < len (mi_data x) -> i < len (mi_data x')).
Proof.
  intros Hh S1 S2 N. destruct (session_ok _ _ _ _ Hh S1 empty_ok) as [O1 _]. destruct (session_ok _ _ _ _ Hh S2 O1) as [O2 L].
  pose proof (so_mems _ (mo_store _ O1)) as W. rewrite Forall_forall in W. destruct (W x (nth_error_In _ _ N)) as (W1 & W2 & W3 & _).
  repeat split; try lia; try assumption. destruct (lt_mems _ _ L a x N) as (x' & N' & E1 & E2 & E3).
  exists x'. repeat split; try assumption. intros; lia.
Qed.
Lemma run_memory_any m1 m2 a x :
  well_behaved host -> machine_ok m1 -> session F host m1 m2 ->
  nth_error (s_mems (k_store m1)) a = Some x ->
  exists x', nth_error (s_mems (k_store m2)) a = Some x' /\
    mi_type x' = mi_type x /\ mi_size x <= mi_size x' /\ len (mi_data x') = 65536 * mi_size x' /\
    (l_m (mi_type x) <> 0 -> mi_size x' <= l_m (mi_type x)).
Proof.
  intros Hh O1 S2 N. destruct (session_ok _ _ _ _ Hh S2 O1) as [O2 L]. destruct (lt_mems _ _ L a x N) as (x' & N' & E1 & E2 & E3).
  pose proof (so_mems _ (mo_store _ O2)) as W. rewrite Forall_forall in W. destruct (W x' (nth_error_In _ _ N')) as (W1 & W2 & W3 & _).
  exists x'. rewrite E1 in W3. repeat split; assumption.
Qed.
Lemma run_global m1 m2 a g :
  well_behaved host -> machine_ok m1 -> session F host m1 m2 ->
  nth_error (s_glob (k_store m1)) a = Some g ->
  exists g', nth_error (s_glob (k_store m2)) a = Some g' /\ gi_mut g' = gi_mut g /\ (gi_mut g <> 1 -> gi_data g' = gi_data g).
Proof.
  intros Hh O1 S2 N. destruct (session_ok _ _ _ _ Hh S2 O1) as [O2 L]. destruct (lt_glob _ _ L a g N) as (x' & N' & E1 & E2).
  exists x'. repeat split; try assumption. intros H. rewrite (E2 H). reflexivity.
Qed.
Lemma run_global_index m1 m2 h mi i a :
  well_behaved host -> machine_ok m1 -> session F host m1 m2 ->
  nth_error (s_inst (k_store m1)) h = Some mi -> nth_error (m_glob mi) i = Some a ->
  exists mi', nth_error (s_inst (k_store m2)) h = Some mi' /\ nth_error (m_glob mi') i = Some a.
Proof.
  intros Hh O1 S2 N E. destruct (session_ok _ _ _ _ Hh S2 O1) as [O2 L]. destruct (lt_inst _ _ L h mi N) as (x' & N' & <-).
  exists mi. split; assumption.
Qed.
Lemma run_stable m1 m2 :
  well_behaved host -> machine_ok m1 -> session F host m1 m2 ->
  let s := k_store m1 in let s' := k_store m2 in
  (forall a x, nth_error (s_func s) a = Some x -> nth_error (s_func s') a = Some x) /\
  (forall a x, nth_error (s_inst s) a = Some x -> nth_error (s_inst s') a = Some x) /\
  (forall a x, nth_error (s_data s) a = Some x -> nth_error (s_data s') a = Some x) /\
  (forall a x, nth_error (s_tabl s) a = Some x -> exists x', nth_error (s_tabl s') a = Some x' /\ ti_type x' = ti_type x) /\
  (forall a x, nth_error (s_mems s) a = Some x -> exists x', nth_error (s_mems s') a = Some x' /\ mi_type x' = mi_type x) /\
  (forall a x, nth_error (s_glob s) a = Some x -> exists x', nth_error (s_glob s') a = Some x' /\ gi_mut x' = gi_mut x) /\
  (forall a x, nth_error (s_elem s) a = Some x -> exists x', nth_error (s_elem s') a = Some x' /\ li_type x' = li_type x).
Proof.
  intros Hh O1 S2 s s'. destruct (session_ok _ _ _ _ Hh S2 O1) as [O2 L]. destruct L. subst s s'. repeat split; intros a x N.
  - destruct (lt_func a x N) as (? & ? & <-). assumption.
  - destruct (lt_inst a x N) as (? & ? & <-). assumption.
  - destruct (lt_data a x N) as (? & ? & <-). assumption.
  - destruct (lt_tabl a x N) as (y & ? & ? & _). exists y. split; assumption.
  - destruct (lt_mems a x N) as (y & ? & ? & _). exists y. split; assumption.
  - destruct (lt_glob a x N) as (y & ? & ? & _). exists y. split; assumption.
  - destruct (lt_elem a x N) as (y & ? & [->| ->]); eexists; (split; [eassumption|reflexivity]).
Qed.
Lemma run_elem m1 m2 a e :
  well_behaved host -> machine_ok m1 -> session F host m1 m2 ->
  nth_error (s_elem (k_store m1)) a = Some e ->
  exists e', nth_error (s_elem (k_store m2)) a = Some e' /\ (li_data e' = li_data e \/ li_data e' = []) /\
    (li_data e = [] -> li_data e' = []).
Proof.
  intros Hh O1 S2 N. destruct (session_ok _ _ _ _ Hh S2 O1) as [O2 L]. destruct (lt_elem _ _ L a e N) as (x' & N' & [->| ->]).
  - exists e. auto.
  - eexists. split; [exact N'|]. cbn. auto.
Qed.
Lemma run_data m1 m2 a b d :
  well_behaved host -> machine_ok m1 -> session F host m1 m2 ->
  nth_error (s_data (k_store m1)) a = Some b -> nth_error (s_blob (k_store m1)) b = Some d ->
  exists d', nth_error (s_data (k_store m2)) a = Some b /\ nth_error (s_blob (k_store m2)) b = Some d' /\
    (d' = d \/ d' = []) /\ (d = [] -> d' = []).
Proof.
  intros Hh O1 S2 N Nb. destruct (session_ok _ _ _ _ Hh S2 O1) as [O2 L].
  destruct (lt_data _ _ L a b N) as (? & N' & <-). destruct (lt_blob _ _ L b d Nb) as (x' & Nb' & [->| ->]); eexists; eauto.
Qed.
Lemma run_values m :
  well_behaved host -> session F host machine_empty m ->
  Forall val_wf (k_value m) /\
  (forall fr, In fr (k_frame m) -> Forall val_wf (fr_locals fr)) /\
  (forall g, In g (s_glob (k_store m)) -> val_wf (gi_data g)) /\
  (forall t, In t (s_tabl (k_store m)) -> Forall val_wf (ti_elem t)) /\
  (forall e, In e (s_elem (k_store m)) -> Forall val_wf (li_data e)).
Proof.
  intros Hh S. destruct (session_ok _ _ _ _ Hh S empty_ok) as [[S1 O2 O3 O4] _]. destruct S1.
  rewrite Forall_forall in O3, so_glob, so_elem. rewrite Forall_forall in so_tabl.
  split; [exact O2|]. split; [exact O3|]. split; [exact so_glob|]. split; [|exact so_elem].
  intros t Ht. apply (so_tabl t Ht).
Qed.
Lemma run_table m1 m2 a x :
  well_behaved host -> session F host machine_empty m1 -> session F host m1 m2 ->
  nth_error (s_tabl (k_store m1)) a = Some x ->
  len (ti_elem x) = ti_size x /\ (l_m (tt_limits (ti_type x)) <> 0 -> ti_size x <= l_m (tt_limits (ti_type x))) /\
  exists x', nth_error (s_tabl (k_store m2)) a = Some x' /\ ti_type x' = ti_type x /\ len (ti_elem x) <= len (ti_elem x').
Proof.
  intros Hh S1 S2 N. destruct (session_ok _ _ _ _ Hh S1 empty_ok) as [O1 _]. destruct (session_ok _ _ _ _ Hh S2 O1) as [O2 L].
  pose proof (so_tabl _ (mo_store _ O1)) as W. rewrite Forall_forall in W. destruct (W x (nth_error_In _ _ N)) as [(W1 & W2) W3].
  split; [exact W1|]. split; [exact W2|]. destruct (lt_tabl _ _ L a x N) as (x' & N' & E1 & E2 & E3).
  exists x'. repeat split; assumption.
Qed.
End run.

(* some well-behaved hosts, for the examples *)
Lemma idle_host l : Forall pyval_ok l -> well_behaved (fun _ _ m => (Ok l, m)).
Proof.
  intros Hl hid args m r m' Hm E. injection E as <- <-. split; [exact Hm|]. split; [apply later_refl|].
  intros l' E. apply Ok_inj in E. subst l'. exact Hl.
Qed.
Lemma writing_host F x inner n : 0 <= x < 256 -> well_behaved inner -> well_behaved (fun hid args m =>
  match mem_put_u8 (nth 0 (s_mems (k_store m)) (mkmem (mklim 0 0) [] 0)) 0 x with
  | Err e => (Err e, m)
  | Ok y => let m := set_store m (set_s_mems (k_store m) (upd (s_mems (k_store m)) 0 y)) in
            let (r, m) := invocate F inner n 0 [] m in (rmap (fun _ => []) r, m)
  end).
Proof.
  intros Hx Hi hid args m r m' Hm E. destruct (mem_put_u8 _ 0 x) as [y|e] eqn:P.
  2:{ injection E as <- <-. split; [exact Hm|]. split; [apply later_refl|discriminate]. }
  unfold mem_put_u8 in P. replace ((0 <=? x) && (x <? 256)) with true in P by lia. cbn [rbind] in P.
  destruct (nth_error (s_mems (k_store m)) 0) as [z|] eqn:N.
  2:{ apply nth_error_None in N. destruct (s_mems (k_store m)); [discriminate P|cbn in N; lia]. }
  rewrite (nth_error_nth _ _ _ N) in P. pose proof (mo_store m Hm) as So. pose proof (so_mems _ So) as W.
  rewrite Forall_forall in W. specialize (W z (nth_error_In _ _ N)).
  assert (Y : mi_type y = mi_type z /\ mi_size y = mi_size z /\ len (mi_data y) = len (mi_data z) /\ mem_wf y).
  { unfold py_setitem in P. destruct (_ || _); [discriminate P|]. cbn [rbind] in P. apply Ok_inj in P. subst y.
    cbn [mi_type mi_size mi_data set_mi_data]. rewrite len_upd. do 3 (split; [reflexivity|]).
    apply set_data_wf; [exact W|apply len_upd|]. apply upd_Forall; [apply W|exact Hx]. }
  set (s1 := set_s_mems (k_store m) (upd (s_mems (k_store m)) 0 y)) in *.
  assert (L1 : later (k_store m) s1).
  { apply later_mems. apply (kept_upd _ _ _ z); [intros w; repeat split; lia|exact N|]. destruct Y as (Y1 & Y2 & Y3 & _).
    repeat split; [exact Y1|lia|lia]. }
  assert (I1 : inv (k_store m) (set_store m s1)).
  { apply inv_store; [split; [exact Hm|apply later_refl]| |exact L1]. destruct So. constructor; try assumption.
    apply upd_Forall; [assumption|apply Y]. }
  pose proof (safe_snd (k_store m) (invocate F inner n 0 []) _ _ (s_invocate (k_store m) F inner Hi n 0 [] (Forall_nil _)) I1) as G.
  cbv zeta in E. destruct (invocate F inner n 0 [] (set_store m s1)) as [r' m'']. injection E as <- <-. destruct G as [G1 G2].
  split; [exact G1|]. split; [exact G2|]. intros l El. destruct r'; [|discriminate El]. apply Ok_inj in El. subst l. constructor.
Qed.
