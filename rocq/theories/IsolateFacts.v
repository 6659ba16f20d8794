(* Code of a closed region leaves the rest of the store alone. *)
From Coq Require Import ZArith List Bool Lia ZifyBool ZifyNat.
From Verif Require Import Py Arith Floatops Val Opcode Numeric Syntax Store Basic Machine
  SpecInt SpecNum SpecMachine SpecMem SpecRun SpecControl SpecInst SpecType SpecValid SpecRef SpecIsolate
  PyFacts ArithFacts ValFacts LaneFacts MemFacts BulkFacts WfFacts RunFacts TypeOpFacts RefFacts.
Import ListNotations.
Open Scope Z_scope.

Lemma index_at {A} (l : list A) a x : 0 <= a -> py_index l a = Ok x -> nth_error l (Z.to_nat a) = Some x.
Proof.
  intros H E. unfold py_index in E. destruct (Z.ltb_spec a 0); [lia|]. destruct (Z.ltb_spec a 0); [lia|].
  destruct (nth_error l (Z.to_nat a)); [injection E as <-; reflexivity|discriminate E].
Qed.
Lemma setitem_at {A} (l : list A) a x l' : 0 <= a -> py_setitem l a x = Ok l' -> l' = upd l (Z.to_nat a) x.
Proof.
  intros H E. unfold py_setitem in E. destruct (Z.ltb_spec a 0); [lia|]. destruct (_ || _); [discriminate E|]. injection E as <-. reflexivity.
Qed.
Lemma nth_upd_ne {A} (l : list A) i j x : i <> j -> nth_error (upd l i x) j = nth_error l j.
Proof. revert i j. induction l as [|y l IH]; intros [|i] [|j] H; cbn; try reflexivity; [congruence|]. apply IH. congruence. Qed.
Lemma nth_upd_in {A} (l : list A) i j x y : nth_error (upd l i x) j = Some y -> y = x \/ nth_error l j = Some y.
Proof.
  revert i j. induction l as [|z l IH]; intros [|i] [|j] H; cbn in H |- *; auto.
  - injection H as <-. now left.
  - apply (IH _ _ H).
Qed.

(* ---- the instructions ---- *)
Section region.
Context (sg : nat -> functype) (G : region).
Notation pt := (inside G).
Lemma in_other v : v_type v <> T_func -> pt v.
Proof. intros H E. contradiction. Qed.
Lemma in_zero t : pt (val_zero t).
Proof. intros E. left. destruct t; try discriminate E. reflexivity. Qed.
(* a value refers to nothing if it refers to the first 0 functions *)
Lemma in_none v : refers 0 v -> pt v.
Proof. intros H E. destruct (H E) as [->|(a & Ha & _)]; [now left|lia]. Qed.
Lemma in_gives r : gives (refers 0) r -> gives pt r.
Proof. intros H v E. apply in_none, H, E. Qed.
Lemma in_ref t a : (t = T_func -> among (g_func G) a) -> gives pt (from_ref t a).
Proof.
  intros H v E. apply from_ref_inv in E. destruct E as [[R1 R2] ->]. intros Et. cbn [v_type] in Et. subst t. specialize (H eq_refl). destruct H as [H0 H].
  right. exists (Z.to_nat a). split; [exact H|]. unfold ref_to, num_val. f_equal. f_equal.
  rewrite Z.mod_small; [lia|]. change (2 ^ (32 - 1)) with (2 ^ 31) in R2. change (2 ^ 32) with (2 * 2 ^ 31). lia.
Qed.

(* values that numeric instructions make from values *)
Definition keeping (n : numop) : Prop :=
  forall args,
  match n with
  | N0 f => gives pt (f args)
  | N1 f => forall a, pt a -> gives pt (f args a)
  | N2 f => forall a b, pt a -> pt b -> gives pt (f args a b)
  | N3 f => forall a b c, pt a -> pt b -> pt c -> gives pt (f args a b c)
  end.
Lemma i_op1 {A R} (rd : val -> res A) f (wr : R -> res val) : (forall x, gives pt (wr x)) -> keeping (op1 rd f wr).
Proof. intros H args a _. cbv beta. do 2 (apply gives_bind_any; intros ?). apply H. Qed.
Lemma i_op2 {A B R} (rda : val -> res A) (rdb : val -> res B) f (wr : R -> res val) : (forall x, gives pt (wr x)) -> keeping (op2 rda rdb f wr).
Proof. intros H args a b _ _. cbv beta. do 3 (apply gives_bind_any; intros ?). apply H. Qed.
Lemma i_op3 {A B C R} (rda : val -> res A) (rdb : val -> res B) (rdc : val -> res C) f (wr : R -> res val) :
  (forall x, gives pt (wr x)) -> keeping (op3 rda rdb rdc f wr).
Proof. intros H args a b c _ _ _. cbv beta. do 4 (apply gives_bind_any; intros ?). apply H. Qed.
Ltac writer0 := first
  [ apply g_i32 | apply g_i64 | apply g_u32 | apply g_u64 | apply g_f32 | apply g_f64 | apply g_lanes | apply g_v128
  | apply g_v128_f32 | apply g_v128_f64 | apply g_mk; discriminate | apply g_checked; writer0 ].
Ltac writer := apply in_gives; writer0.
Ltac plain := match goal with
  | |- True => exact I
  | |- keeping (op1 _ _ _) => apply i_op1; intros x; cbv beta; writer
  | |- keeping (op2 _ _ _ _) => apply i_op2; intros x; cbv beta; writer
  | |- keeping (op3 _ _ _ _ _) => apply i_op3; intros x; cbv beta; writer
  | |- keeping (N0 (fun args => wr0 _ _)) => intros args; cbv beta; apply gives_bind_any; intros x; writer
  end.
Lemma i_scalar F o : match num_scalar F o with Some n => keeping n | None => True end.
Proof.
  destruct o; cbn [num_scalar]; try plain.
  1: intros args a b c Ha Hb Hc; apply gives_bind_any; intros x; apply gives_ok; destruct (negb (x =? 0)); assumption.
  1: intros args a b c Ha Hb Hc; apply gives_bind_any; intros x; cbn [rbind]; apply (gives_bind pt);
     [|intros y Hy; apply gives_ok, Hy]; do 4 (apply gives_bind_any; intros ?); apply gives_ok;
     destruct (negb (x =? 0)); assumption.
  1,2: intros args; apply gives_bind_any; intros n; apply gives_bind_any; intros v; apply gives_ok, in_other; discriminate.
  intros args. do 2 (apply gives_bind_any; intros ?). apply gives_ok, in_zero.
Qed.
Lemma i_simd F o : match num_simd F o with Some n => keeping n | None => True end.
Proof. destruct o; cbn [num_simd]; plain. Qed.
Lemma i_num F o n : num_op F o = Some n -> keeping n.
Proof.
  unfold num_op. pose proof (i_scalar F o) as H1. pose proof (i_simd F o) as H2.
  destruct (num_scalar F o); [|destruct (num_simd F o)]; intros E; try discriminate E; injection E as <-; assumption.
Qed.
Lemma i_load o : match load_op o with Some (n, conv) => forall d, gives pt (conv d) | None => True end.
Proof.
  destruct o; cbn [load_op]; try exact I; intros d; cbv beta; try writer; try (apply gives_bind_any; intros x; writer).
Qed.

(* ---- stores ---- *)
Lemma out_refl s : same_outside G s s.
Proof. constructor; reflexivity. Qed.
Lemma out_trans a b c : same_outside G a b -> same_outside G b c -> same_outside G a c.
Proof.
  intros [A1 A2 A3 A4 A5 A6 A7 A8] [B1 B2 B3 B4 B5 B6 B7 B8].
  constructor; try congruence; intros x Hx; [rewrite B4, A4|rewrite B5, A5|rewrite B6, A6|rewrite B7, A7|rewrite B8, A8]; auto.
Qed.
Lemma knows_empty : knows G modinst_empty.
Proof. constructor; constructor. Qed.
Lemma closed_mod s h : closed sg G s -> g_inst G h -> knows G (mod_of s (MRef h)).
Proof.
  intros H Hh. cbn [mod_of]. destruct (nth_error (s_inst s) h) as [mi|] eqn:E.
  - rewrite (nth_error_nth _ _ _ E). exact (cl_inst _ _ _ H _ _ Hh E).
  - rewrite nth_overflow by (apply nth_error_None, E). apply knows_empty.
Qed.
Section basic.
Context (s : store) (Hs : closed sg G s) (mr : modref) (Hmr : knows G (mod_of s mr)).
Definition within (b : bstate) : Prop := Forall pt (b_locals b) /\ Forall pt (b_value b).
Definition here (b : bstate) : Prop := b_store b = s /\ within b.
Definition there (b : bstate) : Prop := closed sg G (b_store b) /\ same_outside G s (b_store b) /\ within b.
Lemma here_there b : here b -> there b.
Proof. intros [H1 H]. unfold there. rewrite H1. split; [exact Hs|]. split; [apply out_refl|exact H]. Qed.
Definition looks {A} (c : B A) (Q : A -> Prop) : Prop := hoare here c (fun a b => here b /\ Q a) there.
Definition sets {A} (c : B A) : Prop := hoare here c (fun _ b => there b) there.
Lemma l_bind {A B'} (c : B A) Q (f : A -> B B') R : looks c Q -> (forall a, Q a -> looks (f a) R) -> looks (bind c f) R.
Proof. intros H1 H2. eapply h_bind; [exact H1|]. intros a b [H3 H4]. apply H2; assumption. Qed.
Lemma x_bind {A B'} (c : B A) Q (f : A -> B B') : looks c Q -> (forall a, Q a -> sets (f a)) -> sets (bind c f).
Proof. intros H1 H2. eapply h_bind; [exact H1|]. intros a b [H3 H4]. apply H2; assumption. Qed.
Lemma x_looks {A} (c : B A) Q : looks c Q -> sets c.
Proof. intros H. eapply h_post; [|exact H]. cbv beta. intros a b [H1 _]. apply here_there, H1. Qed.
Lemma l_lift {A} (r : res A) Q : gives Q r -> looks (lift r) Q.
Proof. intros H b Hb. unfold lift. destruct r as [a|e]; [split; [exact Hb|apply H; reflexivity]|apply here_there, Hb]. Qed.
Lemma l_any {A} (r : res A) : looks (lift r) (fun _ => True).
Proof. apply l_lift, gives_true. Qed.
Lemma l_ret {A} (a : A) (Q : A -> Prop) : Q a -> looks (ret a) Q.
Proof. intros H b Hb. split; assumption. Qed.
Lemma l_assert c : looks (assert c) (fun _ => True).
Proof. apply l_any. Qed.
Lemma l_pop : looks pop pt.
Proof.
  intros b Hb. unfold pop. destruct (b_value b) as [|v vs] eqn:E; [apply here_there, Hb|].
  destruct Hb as (H1 & H2 & H3). rewrite E in H3. apply Forall_cons_iff in H3. destruct H3 as [H3 H4]. split; [|exact H3]. split; [exact H1|split; assumption].
Qed.
Lemma l_top : looks top pt.
Proof.
  intros b Hb. unfold top. destruct (b_value b) as [|v vs] eqn:E; [apply here_there, Hb|].
  split; [exact Hb|]. destruct Hb as (H1 & H2 & H3). rewrite E in H3. apply Forall_cons_iff in H3. apply H3.
Qed.
Lemma l_push v : pt v -> looks (push v) (fun _ => True).
Proof. intros H b (H1 & H2 & H3). cbn. split; [|exact I]. split; [exact H1|]. split; [exact H2|]. cbn. constructor; assumption. Qed.
Lemma l_pushr r : gives pt r -> looks (pushr r) (fun _ => True).
Proof. intros H. unfold pushr. eapply l_bind; [apply l_lift, H|]. intros v Hv. apply l_push, Hv. Qed.
Lemma l_pop_u32 : looks pop_u32 (fun _ => True).
Proof. unfold pop_u32. eapply l_bind; [apply l_pop|]. intros v Hv. apply l_any. Qed.
Lemma l_store : looks get_store (fun x => x = s).
Proof. intros b Hb. split; [exact Hb|]. apply Hb. Qed.
Lemma l_locals : looks get_locals (Forall pt).
Proof. intros b Hb. split; [exact Hb|]. apply Hb. Qed.
Lemma l_put_locals l : Forall pt l -> looks (put_locals l) (fun _ => True).
Proof. intros H b (H1 & H2 & H3). cbn. split; [|exact I]. split; [exact H1|]. split; assumption. Qed.
Ltac address H := unfold mod_addr; eapply l_bind; [apply l_store|]; intros x ->; apply l_lift, (gives_index (among _)), H, Hmr.
Lemma l_func i : looks (mod_addr mr m_func i) (among (g_func G)).
Proof. address kn_func. Qed.
Lemma l_tabl i : looks (mod_addr mr m_tabl i) (among (g_tabl G)).
Proof. address kn_tabl. Qed.
Lemma l_mems i : looks (mod_addr mr m_mems i) (among (g_mems G)).
Proof. address kn_mems. Qed.
Lemma l_globs i : looks (mod_addr mr m_glob i) (among (g_glob G)).
Proof. address kn_glob. Qed.
Lemma l_elems i : looks (mod_addr mr m_elem i) (among (g_elem G)).
Proof. address kn_elem. Qed.
Lemma l_datas i : looks (mod_addr mr m_data i) (among (g_data G)).
Proof. address kn_data. Qed.
Lemma l_mem a : looks (get_mem a) (fun _ => True).
Proof. unfold get_mem. eapply l_bind; [apply l_store|]. intros x ->. apply l_any. Qed.
Lemma l_tab a : among (g_tabl G) a -> looks (get_tab a) (fun x => Forall pt (ti_elem x)).
Proof. intros [H0 H]. unfold get_tab. eapply l_bind; [apply l_store|]. intros x ->. apply l_lift. intros x E. apply index_at in E; [|exact H0]. exact (cl_tabl _ _ _ Hs _ _ H E). Qed.
Lemma l_glob a : among (g_glob G) a -> looks (get_glob a) (fun x => pt (gi_data x)).
Proof. intros [H0 H]. unfold get_glob. eapply l_bind; [apply l_store|]. intros x ->. apply l_lift. intros x E. apply index_at in E; [|exact H0]. exact (cl_glob _ _ _ Hs _ _ H E). Qed.
Lemma l_elem a : among (g_elem G) a -> looks (get_elem a) (fun x => Forall pt (li_data x)).
Proof. intros [H0 H]. unfold get_elem. eapply l_bind; [apply l_store|]. intros x ->. apply l_lift. intros x E. apply index_at in E; [|exact H0]. exact (cl_elem _ _ _ Hs _ _ H E). Qed.
Lemma l_data a : among (g_data G) a -> looks (get_data a) (g_blob G).
Proof. intros [H0 H]. unfold get_data. eapply l_bind; [apply l_store|]. intros x ->. apply l_lift. intros x E. apply index_at in E; [|exact H0]. exact (cl_data _ _ _ Hs _ _ H E). Qed.
Lemma l_bytes b : looks (get_blob b) (fun _ => True).
Proof. unfold get_blob. eapply l_bind; [apply l_store|]. intros x ->. apply l_ret, I. Qed.
Lemma x_put_store x : closed sg G x -> same_outside G s x -> sets (put_store x).
Proof. intros H1 H2 b (H4 & H5). exact (conj H1 (conj H2 H5)). Qed.
Ltac put := eapply x_bind; [apply l_store|]; intros ? ->;
  eapply x_bind; [apply l_lift; let l := fresh in let E := fresh in intros l E; exact (setitem_at _ _ _ _ ltac:(eassumption) E)|];
  let l := fresh in intros l ->; apply x_put_store; destruct Hs; constructor; cbn; try assumption; try reflexivity.
Ltac other H := let a := fresh in let Ha := fresh in intros a Ha; apply nth_upd_ne; intros <-; exact (Ha H).
Lemma x_put_mem a y : among (g_mems G) a -> sets (put_mem a y).
Proof. intros [H0 H]. unfold put_mem. put. other H. Qed.
Lemma x_put_tab a y : among (g_tabl G) a -> Forall pt (ti_elem y) -> sets (put_tab a y).
Proof. intros [H0 H] Hy. unfold put_tab. put; [|other H]. intros b x Hb E. apply nth_upd_in in E. destruct E as [->|E]; [exact Hy|eauto]. Qed.
Lemma x_put_glob a y : among (g_glob G) a -> pt (gi_data y) -> sets (put_glob a y).
Proof. intros [H0 H] Hy. unfold put_glob. put; [|other H]. intros b x Hb E. apply nth_upd_in in E. destruct E as [->|E]; [exact Hy|eauto]. Qed.
Lemma x_put_elem a y : among (g_elem G) a -> Forall pt (li_data y) -> sets (put_elem a y).
Proof. intros [H0 H] Hy. unfold put_elem. put; [|other H]. intros b x Hb E. apply nth_upd_in in E. destruct E as [->|E]; [exact Hy|eauto]. Qed.
Lemma x_put_blob b y : g_blob G b -> sets (put_blob b y).
Proof. intros H. unfold put_blob. eapply x_bind; [apply l_store|]. intros ? ->. apply x_put_store; destruct Hs; constructor; cbn; try assumption; try reflexivity. other H. Qed.
Lemma x_then_push {A} (c : B A) r : sets c -> gives pt r -> sets (c ;; pushr r).
Proof.
  intros H Hr. eapply h_bind; [exact H|]. intros _ b (H1 & H2 & H3 & H4). unfold pushr, bind, lift, push.
  destruct r as [v|e]; [|exact (conj H1 (conj H2 (conj H3 H4)))].
  exact (conj H1 (conj H2 (conj H3 (Forall_cons _ (Hr v eq_refl) H4)))).
Qed.
Ltac rstep := first
  [ apply l_pop | apply l_top | apply l_pop_u32 | apply l_locals | apply l_func | apply l_tabl | apply l_mems | apply l_globs | apply l_elems | apply l_datas
  | apply l_mem | apply l_tab; assumption | apply l_glob; assumption | apply l_elem; assumption | apply l_data; assumption | apply l_bytes | apply l_assert ].
Ltac rd := eapply l_bind; [first [rstep|apply l_any]|]; let x := fresh "x" in let H := fresh "H" in intros x H; cbv beta in H.
Ltac wd := eapply x_bind; [first [rstep|apply l_any]|]; let x := fresh "x" in let H := fresh "H" in intros x H; cbv beta in H.
Ltac looking := apply (x_looks _ (fun _ => True)).
Lemma x_mem_save off n : sets (mem_save mr off n).
Proof. unfold mem_save. do 5 wd. apply x_put_mem. assumption. Qed.
Lemma l_mem_load off n : looks (mem_load mr off n) (fun _ => True).
Proof. unfold mem_load. do 4 rd. apply l_ret, I. Qed.
Lemma x_load_lane w args : sets (load_lane mr w args).
Proof.
  looking. unfold load_lane. do 3 rd. eapply l_bind; [apply l_mem_load|]. intros e _. rd. apply l_pushr, in_gives, g_mk. discriminate.
Qed.
Lemma x_store_lane w args : sets (store_lane mr w args).
Proof.
  unfold store_lane. do 3 wd. eapply x_bind; [apply l_pushr, in_gives, g_v128|]. intros _ _. wd. apply x_mem_save.
Qed.
Lemma x_num n args : keeping n -> sets (exec_num n args).
Proof.
  intros Hn. specialize (Hn args). looking. destruct n as [f|f|f|f]; cbn [exec_num].
  - apply l_pushr, Hn.
  - rd. apply l_pushr, Hn, H.
  - rd. rd. apply l_pushr, Hn; assumption.
  - rd. rd. rd. apply l_pushr, Hn; assumption.
Qed.
Lemma tab_grow_in x n v : Forall pt (ti_elem x) -> pt v -> gives (fun y => Forall pt (ti_elem y)) (tab_grow x n v).
Proof.
  intros H Hv y E. unfold tab_grow in E.
  assert (E' : (let? _ := py_assert (vt_eqb (v_type v) (tt_type (ti_type x))) in
     Ok (mktab (ti_type x) (ti_elem x ++ repeat v (Z.to_nat n)) (ti_size x + n))) = Ok y).
  { destruct (l_m (tt_limits (ti_type x)) =? 0); [exact E|]. destruct (_ <=? l_m _); [exact E|discriminate E]. }
  clear E. destruct (vt_eqb _ _); [|discriminate E']. cbn [py_assert rbind] in E'. apply Ok_inj in E'. subst y. cbn [ti_elem].
  apply Forall_app. split; [exact H|]. apply Forall_forall. intros z Hz. apply repeat_spec in Hz. subst z. exact Hv.
Qed.
Ltac i32 := apply in_gives, g_i32.
Lemma x_misc o args : sets (exec_misc mr o args).
Proof.
  destruct o; cbn [exec_misc]; try (apply h_fail, here_there).
  all: try apply x_load_lane.
  all: try apply x_store_lane.
  - looking. apply l_ret, I.
  - looking. rd. apply l_ret, I.
  - looking. rd. rd. apply l_pushr, gives_index, H0.
  - looking. rd. rd. rd. eapply l_bind; [apply l_lift, gives_setitem; eassumption|]. intros l Hl. apply l_put_locals, Hl.
  - looking. rd. rd. rd. eapply l_bind; [apply l_lift, gives_setitem; eassumption|]. intros l Hl. apply l_put_locals, Hl.
  - looking. rd. rd. rd. apply l_push. assumption.
  - do 5 wd. apply x_put_glob; assumption.
  - looking. do 4 rd. apply l_pushr, gives_index. assumption.
  - do 6 wd. eapply x_bind; [apply l_lift, gives_setitem; eassumption|]. intros l Hl. apply x_put_tab; [assumption|exact Hl].
  - looking. rd. rd. apply l_pushr; i32.
  - wd. wd. wd. destruct (_ && _).
    + wd. apply x_then_push; [|i32]. apply x_put_mem; assumption.
    + looking. apply l_pushr; i32.
  - looking. rd. rd. apply l_pushr, in_ref. intros _. assumption.
  - do 11 wd. apply x_put_mem; assumption.
  - do 3 wd. apply x_put_blob; assumption.
  - do 7 wd. apply x_put_mem; assumption.
  - do 8 wd. apply x_put_mem; assumption.
  - do 11 wd. apply x_put_tab; [assumption|]. apply Forall_slice_set; [assumption|apply Forall_slice; assumption].
  - do 3 wd. apply x_put_elem; [assumption|constructor].
  - do 11 wd. apply x_put_tab; [assumption|]. apply Forall_slice_set; [assumption|apply Forall_slice; assumption].
  - do 5 wd. destruct (_ && _).
    + eapply x_bind; [apply l_lift, tab_grow_in; eassumption|]. intros y Hy. apply x_then_push; [|i32]. apply x_put_tab; assumption.
    + looking. apply l_pushr; i32.
  - looking. do 3 rd. apply l_pushr; i32.
  - do 7 wd. eapply x_bind; [apply l_lift, (fill_loop_gives pt); eassumption|]. intros l [_ Hl]. apply x_put_tab; [assumption|exact Hl].
Qed.
Lemma x_basic F o args : sets (exec_basic F mr o args).
Proof.
  unfold exec_basic. destruct (num_op F o) as [n|] eqn:E; [exact (x_num n args (i_num F o n E))|].
  pose proof (i_load o) as L. destruct (load_op o) as [[size conv]|].
  - looking. rd. eapply l_bind; [apply l_mem_load|]. intros d _. apply l_pushr, L.
  - destruct (store_op o); [wd; apply x_mem_save|apply x_misc].
Qed.
End basic.
End region.
