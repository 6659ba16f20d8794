(* Code of a closed region does the same in stores that agree on the region. *)
From Coq Require Import ZArith List Bool Lia ZifyBool ZifyNat.
From Verif Require Import Py Arith Floatops Val Opcode Numeric Syntax Store Basic Machine
  SpecMachine SpecMem SpecRun SpecInst SpecType SpecValid SpecRef SpecIsolate SpecAgree
  PyFacts ArithFacts ValFacts LaneFacts MemFacts BulkFacts WfFacts RunFacts TypeOpFacts RefFacts IsolateFacts.
Import ListNotations.
Open Scope Z_scope.

Lemma nth_upd_if {A} (l : list A) i j x :
  nth_error (upd l i x) j = if Nat.eqb i j then match nth_error l j with Some _ => Some x | None => None end else nth_error l j.
Proof.
  revert i j. induction l as [|y l IH]; intros [|i] [|j]; cbn; try reflexivity; [destruct (Nat.eqb i j); reflexivity|]. apply IH.
Qed.
Lemma nth_upd_same {A} (l l' : list A) i j x : nth_error l' j = nth_error l j -> nth_error (upd l' i x) j = nth_error (upd l i x) j.
Proof. intros H. rewrite !nth_upd_if, H. reflexivity. Qed.
Lemma index_same {A} (l l' : list A) a : 0 <= a -> nth_error l' (Z.to_nat a) = nth_error l (Z.to_nat a) -> py_index l' a = py_index l a.
Proof. intros H0 H. unfold py_index. destruct (Z.ltb_spec a 0); [lia|]. destruct (Z.ltb_spec a 0); [lia|]. rewrite H. reflexivity. Qed.
Lemma setitem_same {A} (l l' : list A) a x : 0 <= a -> nth_error l' (Z.to_nat a) = nth_error l (Z.to_nat a) ->
  (py_setitem l a x = Ok (upd l (Z.to_nat a) x) /\ py_setitem l' a x = Ok (upd l' (Z.to_nat a) x)) \/
  exists e, py_setitem l a x = Err e /\ py_setitem l' a x = Err e.
Proof.
  intros H0 H. unfold py_setitem. destruct (Z.ltb_spec a 0); [lia|].
  assert (X : (Z.to_nat a < length l)%nat <-> (Z.to_nat a < length l')%nat) by (rewrite <- !nth_error_Some, H; tauto).
  destruct ((a <? 0) || (len l <=? a)) eqn:E1; destruct ((a <? 0) || (len l' <=? a)) eqn:E2; unfold len in *; try (exfalso; lia); [right; eauto|left; split; reflexivity].
Qed.

Section agree.
Context (sg : nat -> functype) (G : region).
Lemma agrees_refl s : agrees G s s.
Proof. constructor; reflexivity. Qed.
Lemma agrees_closed s s' : agrees G s s' -> closed sg G s -> closed sg G s'.
Proof.
  intros [A1 A2 A3 A4 A5 A6 A7 A8] [C1 C2 C3 C4 C5 C6 C7]. constructor; [exact C1| | | | | |]; intros a x Ha N.
  - rewrite A1 in N by exact Ha. exact (C2 a x Ha N).
  - rewrite A2 in N by exact Ha. exact (C3 a x Ha N).
  - rewrite A3 in N by exact Ha. exact (C4 a x Ha N).
  - rewrite A5 in N by exact Ha. exact (C5 a x Ha N).
  - rewrite A6 in N by exact Ha. exact (C6 a x Ha N).
  - rewrite A7 in N by exact Ha. exact (C7 a x Ha N).
Qed.
Lemma agrees_mod s s' h : agrees G s s' -> g_inst G h -> mod_of s' (MRef h) = mod_of s (MRef h).
Proof.
  intros A Hh. cbn [mod_of]. pose proof (ag_inst _ _ _ A _ Hh) as E.
  destruct (nth_error (s_inst s) h) as [x|] eqn:N.
  - rewrite (nth_error_nth _ _ _ N), (nth_error_nth _ _ _ E). reflexivity.
  - rewrite !nth_overflow by (apply nth_error_None; assumption). reflexivity.
Qed.

Section basic.
Context (s s' : store) (Hs : closed sg G s) (HA : agrees G s s') (mr : modref) (Hmr : knows G (mod_of s mr)) (HM : mod_of s' mr = mod_of s mr).
(* the states of the two runs, with equal locals and values *)
Definition alike (b b' : bstate) : Prop := agrees G (b_store b) (b_store b') /\ b_locals b' = b_locals b /\ b_value b' = b_value b.
Definition both_looks {A} (c : B A) (Q : A -> Prop) : Prop := forall L V,
  match c (mkb s L V), c (mkb s' L V) with
  | (Ok a, b), (Ok a', b') => a' = a /\ Q a /\ exists L1 V1, b = mkb s L1 V1 /\ b' = mkb s' L1 V1
  | (Err e, b), (Err e', b') => e' = e /\ alike b b'
  | _, _ => False
  end.
Definition both_sets {A} (c : B A) : Prop := forall L V,
  match c (mkb s L V), c (mkb s' L V) with
  | (Ok a, b), (Ok a', b') => a' = a /\ alike b b'
  | (Err e, b), (Err e', b') => e' = e /\ alike b b'
  | _, _ => False
  end.
Lemma alike_here L V : alike (mkb s L V) (mkb s' L V).
Proof. exact (conj HA (conj eq_refl eq_refl)). Qed.
Lemma l_bind {A B'} (c : B A) Q (f : A -> B B') R : both_looks c Q -> (forall a, Q a -> both_looks (f a) R) -> both_looks (bind c f) R.
Proof.
  intros H1 H2 L V. unfold bind. specialize (H1 L V). destruct (c (mkb s L V)) as [[a|e] b], (c (mkb s' L V)) as [[a'|e'] b']; try contradiction; [|exact H1].
  destruct H1 as (-> & Ha & L1 & V1 & -> & ->). exact (H2 a Ha L1 V1).
Qed.
Lemma x_bind {A B'} (c : B A) Q (f : A -> B B') : both_looks c Q -> (forall a, Q a -> both_sets (f a)) -> both_sets (bind c f).
Proof.
  intros H1 H2 L V. unfold bind. specialize (H1 L V). destruct (c (mkb s L V)) as [[a|e] b], (c (mkb s' L V)) as [[a'|e'] b']; try contradiction; [|exact H1].
  destruct H1 as (-> & Ha & L1 & V1 & -> & ->). exact (H2 a Ha L1 V1).
Qed.
Lemma x_looks {A} (c : B A) Q : both_looks c Q -> both_sets c.
Proof.
  intros H L V. specialize (H L V). destruct (c (mkb s L V)) as [[a|e] b], (c (mkb s' L V)) as [[a'|e'] b']; try contradiction; [|exact H].
  destruct H as (-> & _ & L1 & V1 & -> & ->). split; [reflexivity|apply alike_here].
Qed.
Lemma x_fail {A} e : both_sets (fail e : B A).
Proof. intros L V. split; [reflexivity|apply alike_here]. Qed.
Lemma l_lift {A} (r : res A) Q : gives Q r -> both_looks (lift r) Q.
Proof. intros H L V. unfold lift. destruct r as [a|e]; [split; [reflexivity|split; [apply H; reflexivity|eauto]]|split; [reflexivity|apply alike_here]]. Qed.
Lemma l_any {A} (r : res A) : both_looks (lift r) (fun _ => True).
Proof. apply l_lift, gives_true. Qed.
Lemma l_ret {A} (a : A) (Q : A -> Prop) : Q a -> both_looks (ret a) Q.
Proof. intros H L V. cbn. eauto 6. Qed.
Lemma l_assert c : both_looks (assert c) (fun _ => True).
Proof. apply l_any. Qed.
Lemma l_pop : both_looks pop (fun _ => True).
Proof. intros L V. unfold pop. cbn [b_value b_store b_locals]. destruct V as [|v V]; [split; [reflexivity|apply alike_here]|eauto 6]. Qed.
Lemma l_top : both_looks top (fun _ => True).
Proof. intros L V. unfold top. cbn [b_value b_store b_locals]. destruct V as [|v V]; [split; [reflexivity|apply alike_here]|eauto 6]. Qed.
Lemma l_push v : both_looks (push v) (fun _ => True).
Proof. intros L V. cbn. eauto 6. Qed.
Lemma l_pushr r : both_looks (pushr r) (fun _ => True).
Proof. unfold pushr. eapply l_bind; [apply l_any|]. intros v Hv. apply l_push. Qed.
Lemma l_pop_u32 : both_looks pop_u32 (fun _ => True).
Proof. unfold pop_u32. eapply l_bind; [apply l_pop|]. intros v Hv. apply l_any. Qed.
Lemma l_locals : both_looks get_locals (fun _ => True).
Proof. intros L V. cbn. eauto 6. Qed.
Lemma l_put_locals l : both_looks (put_locals l) (fun _ => True).
Proof. intros L V. cbn. eauto 6. Qed.
(* what is computed from the store *)
Lemma l_from {A} (f : store -> res A) Q : f s' = f s -> gives Q (f s) -> both_looks (let! x := get_store in lift (f x)) Q.
Proof.
  intros E H L V. unfold bind, get_store, lift. cbn [b_store]. rewrite E. destruct (f s) as [a|e]; [split; [reflexivity|split; [apply H; reflexivity|eauto]]|split; [reflexivity|apply alike_here]].
Qed.
Ltac address H := apply (l_from (fun x => py_index (_ (mod_of x mr)) _)); [rewrite HM; reflexivity|apply (gives_index (among _)), H, Hmr].
Lemma l_func i : both_looks (mod_addr mr m_func i) (among (g_func G)).
Proof. address kn_func. Qed.
Lemma l_tabl i : both_looks (mod_addr mr m_tabl i) (among (g_tabl G)).
Proof. address kn_tabl. Qed.
Lemma l_mems i : both_looks (mod_addr mr m_mems i) (among (g_mems G)).
Proof. address kn_mems. Qed.
Lemma l_globs i : both_looks (mod_addr mr m_glob i) (among (g_glob G)).
Proof. address kn_glob. Qed.
Lemma l_elems i : both_looks (mod_addr mr m_elem i) (among (g_elem G)).
Proof. address kn_elem. Qed.
Lemma l_datas i : both_looks (mod_addr mr m_data i) (among (g_data G)).
Proof. address kn_data. Qed.
Lemma l_mem a : among (g_mems G) a -> both_looks (get_mem a) (fun _ => True).
Proof. intros [H0 H]. apply (l_from (fun x => py_index (s_mems x) a)); [apply index_same; [exact H0|apply (ag_mems _ _ _ HA), H]|apply gives_true]. Qed.
Lemma l_tab a : among (g_tabl G) a -> both_looks (get_tab a) (fun _ => True).
Proof. intros [H0 H]. apply (l_from (fun x => py_index (s_tabl x) a)); [apply index_same; [exact H0|apply (ag_tabl _ _ _ HA), H]|apply gives_true]. Qed.
Lemma l_glob a : among (g_glob G) a -> both_looks (get_glob a) (fun _ => True).
Proof. intros [H0 H]. apply (l_from (fun x => py_index (s_glob x) a)); [apply index_same; [exact H0|apply (ag_glob _ _ _ HA), H]|apply gives_true]. Qed.
Lemma l_elem a : among (g_elem G) a -> both_looks (get_elem a) (fun _ => True).
Proof. intros [H0 H]. apply (l_from (fun x => py_index (s_elem x) a)); [apply index_same; [exact H0|apply (ag_elem _ _ _ HA), H]|apply gives_true]. Qed.
Lemma l_data a : among (g_data G) a -> both_looks (get_data a) (g_blob G).
Proof.
  intros [H0 H]. apply (l_from (fun x => py_index (s_data x) a)); [apply index_same; [exact H0|apply (ag_data _ _ _ HA), H]|].
  intros x E. apply index_at in E; [|exact H0]. exact (cl_data _ _ _ Hs _ _ H E).
Qed.
Lemma l_bytes b : g_blob G b -> both_looks (get_blob b) (fun _ => True).
Proof.
  intros H. apply (l_from (fun x => Ok (nth b (s_blob x) []))); [|apply gives_true]. f_equal. pose proof (ag_blob _ _ _ HA _ H) as E.
  destruct (nth_error (s_blob s) b) as [x|] eqn:N.
  - rewrite (nth_error_nth _ _ _ N), (nth_error_nth _ _ _ E). reflexivity.
  - rewrite !nth_overflow by (apply nth_error_None; assumption). reflexivity.
Qed.
Lemma x_put_item {A} (get : store -> list A) (set : store -> list A -> store) a y : 0 <= a ->
  nth_error (get s') (Z.to_nat a) = nth_error (get s) (Z.to_nat a) ->
  agrees G (set s (upd (get s) (Z.to_nat a) y)) (set s' (upd (get s') (Z.to_nat a) y)) ->
  both_sets (let! x := get_store in let! l := lift (py_setitem (get x) a y) in put_store (set x l)).
Proof.
  intros H0 E H L V. unfold bind, get_store, lift, put_store. cbn [b_store b_locals b_value].
  destruct (setitem_same (get s) (get s') a y H0 E) as [[-> ->]|(e & -> & ->)].
  - exact (conj eq_refl (conj H (conj eq_refl eq_refl))).
  - split; [reflexivity|apply alike_here].
Qed.
Ltac put gt st := apply (x_put_item gt st); [assumption|destruct HA; auto|];
  destruct HA; constructor; cbn; try assumption; intros; apply nth_upd_same; auto.
Lemma x_put_mem a y : among (g_mems G) a -> both_sets (put_mem a y).
Proof. intros [H0 H]. put s_mems set_s_mems. Qed.
Lemma x_put_tab a y : among (g_tabl G) a -> both_sets (put_tab a y).
Proof. intros [H0 H]. put s_tabl set_s_tabl. Qed.
Lemma x_put_glob a y : among (g_glob G) a -> both_sets (put_glob a y).
Proof. intros [H0 H]. put s_glob set_s_glob. Qed.
Lemma x_put_elem a y : among (g_elem G) a -> both_sets (put_elem a y).
Proof. intros [H0 H]. put s_elem set_s_elem. Qed.
Lemma x_put_blob b y : both_sets (put_blob b y).
Proof.
  intros L V. split; [reflexivity|]. split; [|split; reflexivity]. cbn [b_store]. destruct HA; constructor; cbn; try assumption. intros; apply nth_upd_same; auto.
Qed.
Lemma x_then_push {A} (c : B A) r : both_sets c -> both_sets (c ;; pushr r).
Proof.
  intros H L V. specialize (H L V). unfold pushr, bind, lift, push. destruct (c (mkb s L V)) as [[a|e] b], (c (mkb s' L V)) as [[a'|e'] b']; try contradiction; [|exact H].
  destruct H as (_ & H1 & H2 & H3). destruct r as [v|e]; (split; [reflexivity|]); unfold alike; cbn [b_store b_locals b_value]; (split; [exact H1|]); split; congruence.
Qed.
Ltac rstep := first
  [ apply l_pop | apply l_top | apply l_pop_u32 | apply l_locals | apply l_func | apply l_tabl | apply l_mems | apply l_globs | apply l_elems | apply l_datas
  | apply l_mem; assumption | apply l_tab; assumption | apply l_glob; assumption | apply l_elem; assumption | apply l_data; assumption | apply l_bytes; assumption | apply l_assert ].
Ltac rd := eapply l_bind; [first [rstep|apply l_any]|]; let x := fresh "x" in let H := fresh "H" in intros x H; cbv beta in H.
Ltac wd := eapply x_bind; [first [rstep|apply l_any]|]; let x := fresh "x" in let H := fresh "H" in intros x H; cbv beta in H.
Ltac looking := apply (x_looks _ (fun _ => True)).
Lemma x_mem_save off n : both_sets (mem_save mr off n).
Proof. unfold mem_save. do 5 wd. apply x_put_mem. assumption. Qed.
Lemma l_mem_load off n : both_looks (mem_load mr off n) (fun _ => True).
Proof. unfold mem_load. do 4 rd. apply l_ret, I. Qed.
Lemma x_load_lane w args : both_sets (load_lane mr w args).
Proof. looking. unfold load_lane. do 3 rd. eapply l_bind; [apply l_mem_load|]. intros e _. rd. apply l_pushr. Qed.
Lemma x_store_lane w args : both_sets (store_lane mr w args).
Proof. unfold store_lane. do 3 wd. eapply x_bind; [apply l_pushr|]. intros _ _. wd. apply x_mem_save. Qed.
Lemma x_num n args : both_sets (exec_num n args).
Proof. looking. destruct n as [f|f|f|f]; cbn [exec_num]; repeat (first [apply l_pushr|rd]). Qed.
Lemma x_misc o args : both_sets (exec_misc mr o args).
Proof.
  destruct o; cbn [exec_misc]; try apply x_fail.
  all: try apply x_load_lane.
  all: try apply x_store_lane.
  - looking. apply l_ret, I.
  - looking. rd. apply l_ret, I.
  - looking. rd. rd. apply l_pushr.
  - looking. rd. rd. rd. rd. apply l_put_locals.
  - looking. rd. rd. rd. rd. apply l_put_locals.
  - looking. rd. rd. rd. apply l_push.
  - do 5 wd. apply x_put_glob; assumption.
  - looking. do 4 rd. apply l_pushr.
  - do 6 wd. wd. apply x_put_tab; assumption.
  - looking. rd. rd. apply l_pushr.
  - wd. wd. wd. destruct (_ && _).
    + wd. apply x_then_push. apply x_put_mem; assumption.
    + looking. apply l_pushr.
  - looking. rd. rd. apply l_pushr.
  - do 11 wd. apply x_put_mem; assumption.
  - do 3 wd. apply x_put_blob; assumption.
  - do 7 wd. apply x_put_mem; assumption.
  - do 8 wd. apply x_put_mem; assumption.
  - do 11 wd. apply x_put_tab; assumption.
  - do 3 wd. apply x_put_elem; assumption.
  - do 11 wd. apply x_put_tab; assumption.
  - do 5 wd. destruct (_ && _).
    + wd. apply x_then_push. apply x_put_tab; assumption.
    + looking. apply l_pushr.
  - looking. do 3 rd. apply l_pushr.
  - do 7 wd. wd. apply x_put_tab; assumption.
Qed.
Lemma x_basic F o args : both_sets (exec_basic F mr o args).
Proof.
  unfold exec_basic. destruct (num_op F o) as [n|] eqn:E; [exact (x_num n args)|].
  destruct (load_op o) as [[size conv]|].
  - looking. rd. eapply l_bind; [apply l_mem_load|]. intros d _. apply l_pushr.
  - destruct (store_op o); [wd; apply x_mem_save|apply x_misc].
Qed.
End basic.
End agree.
