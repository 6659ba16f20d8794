(* References refer to functions that exist. *)
From Coq Require Import ZArith List Bool Lia ZifyBool ZifyNat.
From Verif Require Import Py Arith Floatops Val Opcode Numeric Syntax Store Basic Machine
  SpecInt SpecNum SpecMachine SpecMem SpecRun SpecControl SpecInst SpecType SpecValid SpecRef
  PyFacts ArithFacts ValFacts LaneFacts MemFacts BulkFacts WfFacts RunFacts TypeOpFacts.
Import ListNotations.
Open Scope Z_scope.

(* ---- the instructions ---- *)
Section bound.
Context (k : nat).
Notation pt := (refers k).
Lemma pt_other v : v_type v <> T_func -> pt v.
Proof. intros H E. contradiction. Qed.
Lemma pt_zero t : pt (val_zero t).
Proof. intros E. left. destruct t; try discriminate E. reflexivity. Qed.
Lemma g_mk t d : t <> T_func -> gives pt (mk_val t d).
Proof. intros H v E. apply mk_val_inv in E. destruct E as [-> _]. apply pt_other, H. Qed.
Lemma g_i32 n : gives pt (from_i32 n).
Proof. intros v E. apply from_i32_inv in E. destruct E as [_ ->]. apply pt_other. discriminate. Qed.
Lemma g_i64 n : gives pt (from_i64 n).
Proof. intros v E. apply from_i64_inv in E. destruct E as [_ ->]. apply pt_other. discriminate. Qed.
Lemma g_u32 n : gives pt (from_u32 n).
Proof. intros v E. apply from_u32_inv in E. destruct E as [_ ->]. apply pt_other. discriminate. Qed.
Lemma g_u64 n : gives pt (from_u64 n).
Proof. intros v E. apply from_u64_inv in E. destruct E as [_ ->]. apply pt_other. discriminate. Qed.
Lemma g_f32 F n : gives pt (from_f32 F n).
Proof. rewrite from_f32_ok. apply gives_ok, pt_other. discriminate. Qed.
Lemma g_f64 n : gives pt (from_f64 n).
Proof. rewrite from_f64_ok. apply gives_ok, pt_other. discriminate. Qed.
Lemma g_v128 d : gives pt (from_v128 d).
Proof. intros v E. apply from_v128_inv in E. destruct E as [_ ->]. apply pt_other. discriminate. Qed.
Lemma g_lanes into w n : gives pt (from_lanes into w n).
Proof. unfold from_lanes. do 2 (apply gives_bind_any; intros ?). apply g_mk. discriminate. Qed.
Lemma g_v128_f32 F n : gives pt (from_v128_f32 F n).
Proof. unfold from_v128_f32. apply gives_bind_any. intros _. apply g_mk. discriminate. Qed.
Lemma g_v128_f64 n : gives pt (from_v128_f64 n).
Proof. unfold from_v128_f64. apply gives_bind_any. intros _. apply g_mk. discriminate. Qed.
Lemma g_checked wr rd b : gives pt (wr b) -> gives pt (checked wr rd b).
Proof.
  intros H. unfold checked. apply (gives_bind pt _ _ _ H). intros c Hc. do 2 (apply gives_bind_any; intros ?). apply gives_ok, Hc.
Qed.
Lemma g_ref t a : (t = T_func -> 0 <= a < Z.of_nat k) -> gives pt (from_ref t a).
Proof.
  intros H v E. apply from_ref_inv in E. destruct E as [[R1 R2] ->]. intros Et. cbn [v_type] in Et. subst t. specialize (H eq_refl).
  right. exists (Z.to_nat a). split; [lia|]. unfold ref_to, num_val. f_equal. f_equal.
  rewrite Z.mod_small; [lia|]. change (2 ^ (32 - 1)) with (2 ^ 31) in R2. change (2 ^ 32) with (2 * 2 ^ 31). lia.
Qed.
Definition pointing (n : numop) : Prop :=
  forall args,
  match n with
  | N0 f => gives pt (f args)
  | N1 f => forall a, pt a -> gives pt (f args a)
  | N2 f => forall a b, pt a -> pt b -> gives pt (f args a b)
  | N3 f => forall a b c, pt a -> pt b -> pt c -> gives pt (f args a b c)
  end.
Lemma p_op1 {A R} (rd : val -> res A) f (wr : R -> res val) : (forall x, gives pt (wr x)) -> pointing (op1 rd f wr).
Proof. intros H args a _. cbv beta. do 2 (apply gives_bind_any; intros ?). apply H. Qed.
Lemma p_op2 {A B R} (rda : val -> res A) (rdb : val -> res B) f (wr : R -> res val) : (forall x, gives pt (wr x)) -> pointing (op2 rda rdb f wr).
Proof. intros H args a b _ _. cbv beta. do 3 (apply gives_bind_any; intros ?). apply H. Qed.
Lemma p_op3 {A B C R} (rda : val -> res A) (rdb : val -> res B) (rdc : val -> res C) f (wr : R -> res val) :
  (forall x, gives pt (wr x)) -> pointing (op3 rda rdb rdc f wr).
Proof. intros H args a b c _ _ _. cbv beta. do 4 (apply gives_bind_any; intros ?). apply H. Qed.
Ltac writer := first
  [ apply g_i32 | apply g_i64 | apply g_u32 | apply g_u64 | apply g_f32 | apply g_f64 | apply g_lanes | apply g_v128
  | apply g_v128_f32 | apply g_v128_f64 | apply g_mk; discriminate | apply g_checked; writer ].
Ltac plain := match goal with
  | |- True => exact I
  | |- pointing (op1 _ _ _) => apply p_op1; intros x; cbv beta; writer
  | |- pointing (op2 _ _ _ _) => apply p_op2; intros x; cbv beta; writer
  | |- pointing (op3 _ _ _ _ _) => apply p_op3; intros x; cbv beta; writer
  | |- pointing (N0 (fun args => wr0 _ _)) => intros args; cbv beta; apply gives_bind_any; intros x; writer
  end.
Lemma p_scalar F o : match num_scalar F o with Some n => pointing n | None => True end.
Proof.
  destruct o; cbn [num_scalar]; try plain.
  1: intros args a b c Ha Hb Hc; apply gives_bind_any; intros x; apply gives_ok; destruct (negb (x =? 0)); assumption.
  1: intros args a b c Ha Hb Hc; apply gives_bind_any; intros x; cbn [rbind]; apply (gives_bind pt);
     [|intros y Hy; apply gives_ok, Hy]; do 4 (apply gives_bind_any; intros ?); apply gives_ok;
     destruct (negb (x =? 0)); assumption.
  1,2: intros args; apply gives_bind_any; intros n; apply gives_bind_any; intros v; apply gives_ok, pt_other; discriminate.
  intros args. do 2 (apply gives_bind_any; intros ?). apply gives_ok, pt_zero.
Qed.
Lemma p_simd F o : match num_simd F o with Some n => pointing n | None => True end.
Proof. destruct o; cbn [num_simd]; plain. Qed.
Lemma p_num F o n : num_op F o = Some n -> pointing n.
Proof.
  unfold num_op. pose proof (p_scalar F o) as H1. pose proof (p_simd F o) as H2.
  destruct (num_scalar F o); [|destruct (num_simd F o)]; intros E; try discriminate E; injection E as <-; assumption.
Qed.
Lemma p_load o : match load_op o with Some (n, conv) => forall d, gives pt (conv d) | None => True end.
Proof.
  destruct o; cbn [load_op]; try exact I; intros d; cbv beta; try writer; try (apply gives_bind_any; intros x; writer).
Qed.

(* ---- stores ---- *)
Record srefs (s : store) : Prop := mk_srefs {
  r_tabl : Forall (fun x => Forall pt (ti_elem x)) (s_tabl s);
  r_glob : Forall (fun g => pt (gi_data g)) (s_glob s);
  r_elem : Forall (fun e => Forall pt (li_data e)) (s_elem s);
  r_inst : Forall (names k) (s_inst s)
}.
Definition vrefs (b : bstate) : Prop := Forall pt (b_locals b) /\ Forall pt (b_value b).
Section basic.
Context (s : store) (Hs : srefs s) (mr : modref) (Hmr : names k (mod_of s mr)).
Definition here (b : bstate) : Prop := b_store b = s /\ vrefs b.
Definition there (b : bstate) : Prop := srefs (b_store b) /\ s_func (b_store b) = s_func s /\ s_inst (b_store b) = s_inst s /\ vrefs b.
Lemma here_there b : here b -> there b.
Proof. intros [H1 H]. unfold there. rewrite H1. auto. Qed.
Definition looks {A} (c : B A) (Q : A -> Prop) : Prop := hoare here c (fun a b => here b /\ Q a) there.
Definition sets {A} (c : B A) : Prop := hoare here c (fun _ b => there b) there.
Lemma l_bind {A B'} (c : B A) Q (f : A -> B B') R : looks c Q -> (forall a, Q a -> looks (f a) R) -> looks (bind c f) R.
Proof. intros H1 H2. eapply h_bind; [exact H1|]. intros a b [H3 H4]. apply H2; assumption. Qed.
Lemma x_bind {A B'} (c : B A) Q (f : A -> B B') : looks c Q -> (forall a, Q a -> sets (f a)) -> sets (bind c f).
Proof. intros H1 H2. eapply h_bind; [exact H1|]. intros a b [H3 H4]. apply H2; assumption. Qed.
Lemma x_looks {A} (c : B A) Q : looks c Q -> sets c.
Proof. intros H. eapply h_post; [|exact H]. cbv beta. intros a b [H1 _]. apply here_there, H1. Qed.
Lemma l_lift {A} (r : res A) Q : gives Q r -> looks (lift r) Q.
Proof. intros H b Hb. unfold lift. destruct r as [a|e]; [split; [exact Hb|apply H; reflexivity]|apply here_there, Hb]. Qed.
Lemma l_any {A} (r : res A) : looks (lift r) (fun _ => True).
Proof. apply l_lift, gives_true. Qed.
Lemma l_ret {A} (a : A) (Q : A -> Prop) : Q a -> looks (ret a) Q.
Proof. intros H b Hb. split; assumption. Qed.
Lemma l_assert c : looks (assert c) (fun _ => True).
Proof. apply l_any. Qed.
Lemma l_pop : looks pop pt.
Proof.
  intros b Hb. unfold pop. destruct (b_value b) as [|v vs] eqn:E; [apply here_there, Hb|].
  destruct Hb as (H1 & H2 & H3). rewrite E in H3. apply Forall_cons_iff in H3. destruct H3 as [H3 H4]. split; [|exact H3]. split; [exact H1|split; assumption].
Qed.
Lemma l_top : looks top pt.
Proof.
  intros b Hb. unfold top. destruct (b_value b) as [|v vs] eqn:E; [apply here_there, Hb|].
  split; [exact Hb|]. destruct Hb as (H1 & H2 & H3). rewrite E in H3. apply Forall_cons_iff in H3. apply H3.
Qed.
Lemma l_push v : pt v -> looks (push v) (fun _ => True).
Proof. intros H b (H1 & H2 & H3). cbn. repeat split; try assumption. constructor; assumption. Qed.
Lemma l_pushr r : gives pt r -> looks (pushr r) (fun _ => True).
Proof. intros H. unfold pushr. eapply l_bind; [apply l_lift, H|]. intros v Hv. apply l_push, Hv. Qed.
Lemma l_pop_u32 : looks pop_u32 (fun _ => True).
Proof. unfold pop_u32. eapply l_bind; [apply l_pop|]. intros v Hv. apply l_any. Qed.
Lemma l_store : looks get_store (fun x => x = s).
Proof. intros b Hb. split; [exact Hb|]. apply Hb. Qed.
Lemma l_locals : looks get_locals (Forall pt).
Proof. intros b Hb. split; [exact Hb|]. apply Hb. Qed.
Lemma l_put_locals l : Forall pt l -> looks (put_locals l) (fun _ => True).
Proof. intros H b (H1 & H2 & H3). cbn. repeat split; assumption. Qed.
Lemma l_addr field i : looks (mod_addr mr field i) (fun _ => True).
Proof. unfold mod_addr. eapply l_bind; [apply l_store|]. intros x _. apply l_any. Qed.
Lemma l_func i : looks (mod_addr mr m_func i) (fun a => 0 <= a < Z.of_nat k).
Proof. unfold mod_addr. eapply l_bind; [apply l_store|]. intros x ->. apply l_lift, (gives_index (fun a => 0 <= a < Z.of_nat k)), Hmr. Qed.
Lemma l_mem a : looks (get_mem a) (fun _ => True).
Proof. unfold get_mem. eapply l_bind; [apply l_store|]. intros x ->. apply l_any. Qed.
Lemma l_tab a : looks (get_tab a) (fun x => Forall pt (ti_elem x)).
Proof. unfold get_tab. eapply l_bind; [apply l_store|]. intros x ->. apply l_lift, gives_index, (r_tabl s Hs). Qed.
Lemma l_glob a : looks (get_glob a) (fun x => pt (gi_data x)).
Proof. unfold get_glob. eapply l_bind; [apply l_store|]. intros x ->. apply l_lift, (gives_index (fun x => pt (gi_data x))), (r_glob s Hs). Qed.
Lemma l_elem a : looks (get_elem a) (fun x => Forall pt (li_data x)).
Proof. unfold get_elem. eapply l_bind; [apply l_store|]. intros x ->. apply l_lift, (gives_index (fun x => Forall pt (li_data x))), (r_elem s Hs). Qed.
Lemma l_data a : looks (get_data a) (fun _ => True).
Proof. unfold get_data. eapply l_bind; [apply l_store|]. intros x ->. apply l_any. Qed.
Lemma l_blob b : looks (get_blob b) (fun _ => True).
Proof. unfold get_blob. eapply l_bind; [apply l_store|]. intros x ->. apply l_ret, I. Qed.
Lemma x_put_store x : srefs x -> s_func x = s_func s -> s_inst x = s_inst s -> sets (put_store x).
Proof. intros H1 H2 H3 b (H4 & H5 & H6). exact (conj H1 (conj H2 (conj H3 (conj H5 H6)))). Qed.
Ltac put H := destruct Hs; eapply x_bind; [apply l_store|]; intros ? ->; eapply x_bind; [apply l_lift, H; eassumption|];
  let l := fresh in let Hl := fresh in intros l Hl; apply x_put_store; [constructor; assumption|reflexivity|reflexivity].
Lemma x_put_mem a y : sets (put_mem a y).
Proof. unfold put_mem. put (@gives_true (list meminst)). Qed.
Lemma x_put_tab a y : Forall pt (ti_elem y) -> sets (put_tab a y).
Proof. intros H. unfold put_tab. put (gives_setitem (fun x => Forall pt (ti_elem x))). Qed.
Lemma x_put_glob a y : pt (gi_data y) -> sets (put_glob a y).
Proof. intros H. unfold put_glob. put (gives_setitem (fun x => pt (gi_data x))). Qed.
Lemma x_put_elem a y : Forall pt (li_data y) -> sets (put_elem a y).
Proof. intros H. unfold put_elem. put (gives_setitem (fun x => Forall pt (li_data x))). Qed.
Lemma x_put_blob b y : sets (put_blob b y).
Proof. unfold put_blob. eapply x_bind; [apply l_store|]. intros ? ->. apply x_put_store; [destruct Hs; constructor; assumption|reflexivity|reflexivity]. Qed.
Lemma x_then_push {A} (c : B A) r : sets c -> gives pt r -> sets (c ;; pushr r).
Proof.
  intros H Hr. eapply h_bind; [exact H|]. intros _ b (H1 & H2 & H3 & H4 & H5). unfold pushr, bind, lift, push.
  destruct r as [v|e]; [|exact (conj H1 (conj H2 (conj H3 (conj H4 H5))))].
  exact (conj H1 (conj H2 (conj H3 (conj H4 (Forall_cons _ (Hr v eq_refl) H5))))).
Qed.
Ltac rstep := first
  [ apply l_pop | apply l_top | apply l_pop_u32 | apply l_locals | apply l_func | apply l_addr | apply l_mem | apply l_tab
  | apply l_glob | apply l_elem | apply l_data | apply l_blob | apply l_assert ].
Ltac rd := eapply l_bind; [first [rstep|apply l_any]|]; let x := fresh "x" in let H := fresh "H" in intros x H; cbv beta in H.
Ltac wd := eapply x_bind; [first [rstep|apply l_any]|]; let x := fresh "x" in let H := fresh "H" in intros x H; cbv beta in H.
Ltac looking := apply (x_looks _ (fun _ => True)).
Lemma x_mem_save off n : sets (mem_save mr off n).
Proof. unfold mem_save. do 5 wd. apply x_put_mem. Qed.
Lemma l_mem_load off n : looks (mem_load mr off n) (fun _ => True).
Proof. unfold mem_load. do 4 rd. apply l_ret, I. Qed.
Lemma x_load_lane w args : sets (load_lane mr w args).
Proof.
  looking. unfold load_lane. do 3 rd. eapply l_bind; [apply l_mem_load|]. intros e _. rd. apply l_pushr, g_mk. discriminate.
Qed.
Lemma x_store_lane w args : sets (store_lane mr w args).
Proof.
  unfold store_lane. do 3 wd. eapply x_bind; [apply l_pushr, g_v128|]. intros _ _. wd. apply x_mem_save.
Qed.
Lemma x_num n args : pointing n -> sets (exec_num n args).
Proof.
  intros Hn. specialize (Hn args). looking. destruct n as [f|f|f|f]; cbn [exec_num].
  - apply l_pushr, Hn.
  - rd. apply l_pushr, Hn, H.
  - rd. rd. apply l_pushr, Hn; assumption.
  - rd. rd. rd. apply l_pushr, Hn; assumption.
Qed.
Lemma tab_grow_refs x n v : Forall pt (ti_elem x) -> pt v -> gives (fun y => Forall pt (ti_elem y)) (tab_grow x n v).
Proof.
  intros H Hv y E. unfold tab_grow in E.
  assert (E' : (let? _ := py_assert (vt_eqb (v_type v) (tt_type (ti_type x))) in
     Ok (mktab (ti_type x) (ti_elem x ++ repeat v (Z.to_nat n)) (ti_size x + n))) = Ok y).
  { destruct (l_m (tt_limits (ti_type x)) =? 0); [exact E|]. destruct (_ <=? l_m _); [exact E|discriminate E]. }
  clear E. destruct (vt_eqb _ _); [|discriminate E']. cbn [py_assert rbind] in E'. apply Ok_inj in E'. subst y. cbn [ti_elem].
  apply Forall_app. split; [exact H|]. apply Forall_forall. intros z Hz. apply repeat_spec in Hz. subst z. exact Hv.
Qed.
Lemma x_misc o args : sets (exec_misc mr o args).
Proof.
  destruct o; cbn [exec_misc]; try (apply h_fail, here_there).
  all: try apply x_load_lane.
  all: try apply x_store_lane.
  - looking. apply l_ret, I.
  - looking. rd. apply l_ret, I.
  - looking. rd. rd. apply l_pushr, gives_index, H0.
  - looking. rd. rd. rd. eapply l_bind; [apply l_lift, gives_setitem; eassumption|]. intros l Hl. apply l_put_locals, Hl.
  - looking. rd. rd. rd. eapply l_bind; [apply l_lift, gives_setitem; eassumption|]. intros l Hl. apply l_put_locals, Hl.
  - looking. rd. rd. rd. apply l_push. assumption.
  - do 5 wd. apply x_put_glob. assumption.
  - looking. do 4 rd. apply l_pushr, gives_index. assumption.
  - do 6 wd. eapply x_bind; [apply l_lift, gives_setitem; eassumption|]. intros l Hl. apply x_put_tab. exact Hl.
  - looking. rd. rd. apply l_pushr, g_i32.
  - wd. wd. wd. destruct (_ && _).
    + wd. apply x_then_push; [|apply g_i32]. apply x_put_mem.
    + looking. apply l_pushr, g_i32.
  - looking. rd. rd. apply l_pushr, g_ref. intros _. assumption.
  - do 11 wd. apply x_put_mem.
  - do 3 wd. apply x_put_blob.
  - do 7 wd. apply x_put_mem.
  - do 8 wd. apply x_put_mem.
  - do 11 wd. apply x_put_tab. apply Forall_slice_set; [assumption|apply Forall_slice; assumption].
  - do 3 wd. apply x_put_elem. constructor.
  - do 11 wd. apply x_put_tab. apply Forall_slice_set; [assumption|apply Forall_slice; assumption].
  - do 5 wd. destruct (_ && _).
    + eapply x_bind; [apply l_lift, tab_grow_refs; eassumption|]. intros y Hy. apply x_then_push; [|apply g_i32]. apply x_put_tab, Hy.
    + looking. apply l_pushr, g_i32.
  - looking. do 3 rd. apply l_pushr, g_i32.
  - do 7 wd. eapply x_bind; [apply l_lift, (fill_loop_gives pt); eassumption|]. intros l [_ Hl]. apply x_put_tab. exact Hl.
Qed.
Lemma x_basic F o args : sets (exec_basic F mr o args).
Proof.
  unfold exec_basic. destruct (num_op F o) as [n|] eqn:E; [exact (x_num n args (p_num F o n E))|].
  pose proof (p_load o) as L. destruct (load_op o) as [[size conv]|].
  - looking. rd. eapply l_bind; [apply l_mem_load|]. intros d _. apply l_pushr, L.
  - destruct (store_op o); [wd; apply x_mem_save|apply x_misc].
Qed.
End basic.
End bound.

Lemma refers_more n n' v : (n <= n')%nat -> refers n v -> refers n' v.
Proof. intros L H E. destruct (H E) as [->|(a & Ha & ->)]; [left; reflexivity|]. right. exists a. split; [lia|reflexivity]. Qed.
Lemma names_more n n' mi : (n <= n')%nat -> names n mi -> names n' mi.
Proof. intros L H. eapply Forall_impl; [|exact H]. cbv beta. intros a Ha. lia. Qed.
Lemma names_of s mr n : Forall (names n) (s_inst s) -> (forall mi, mr = MVal mi -> names n mi) -> names n (mod_of s mr).
Proof.
  intros H1 H2. destruct mr as [mi|h]; cbn [mod_of]; [apply H2; reflexivity|].
  destruct (nth_in_or_default h (s_inst s) modinst_empty) as [H| ->]; [|constructor]. rewrite Forall_forall in H1. apply H1, H.
Qed.

(* ---- the machine ---- *)
Notation any := (fun _ => True).
Section mach.
Context (sg : nat -> functype).
Notation many m := (length (s_func (k_store m))).
Lemma store_srefs s : store_refs sg s -> srefs (length (s_func s)) s.
Proof. intros []. constructor; assumption. Qed.
Lemma srefs_store s s' : store_refs sg s -> srefs (length (s_func s)) s' -> s_func s' = s_func s -> store_refs sg s'.
Proof. intros [] [] E. constructor; rewrite E; assumption. Qed.
Definition at_n (n : nat) (m : machine) : Prop := machine_refs sg m /\ many m = n.
(* a computation that makes no functions: all values it handles refer to the first [n] *)
Definition calm {A} (n : nat) (c : M A) (Q : A -> Prop) : Prop := hoare (at_n n) c (fun a m => at_n n m /\ Q a) (machine_refs sg).
Definition fine {A} (c : M A) : Prop := hoare (machine_refs sg) c (fun _ m => machine_refs sg m) (machine_refs sg).
Lemma fine_calm {A} (c : M A) : (forall n, calm n c any) -> fine c.
Proof. intros H m Hm. specialize (H (many m) m (conj Hm eq_refl)). destruct (c m) as [[a|e] m']; [apply H|exact H]. Qed.
Lemma f_bind {A B'} (c : M A) (f : A -> M B') : fine c -> (forall a, fine (f a)) -> fine (bind c f).
Proof. intros H1 H2. eapply h_bind; [exact H1|exact H2]. Qed.
(* calm until the last *)
Definition tame {A} (n : nat) (c : M A) : Prop := hoare (at_n n) c (fun _ m => machine_refs sg m) (machine_refs sg).
Lemma calm_tame {A} n (c : M A) Q : calm n c Q -> tame n c.
Proof. apply h_post. intros a m [[H _] _]. exact H. Qed.
Lemma fine_tame {A} n (c : M A) : fine c -> tame n c.
Proof. apply h_pre. intros m [H _]. exact H. Qed.
Lemma tame_fine {A} (c : M A) : (forall n, tame n c) -> fine c.
Proof. intros H m Hm. exact (H (many m) m (conj Hm eq_refl)). Qed.
Definition frame_refs (n : nat) (s : store) (fr : frame) : Prop := Forall (refers n) (fr_locals fr) /\ names n (mod_of s (fr_module fr)).
Section n.
Context (n : nat).
Lemma c_bind {A B'} (c : M A) Q (f : A -> M B') R : calm n c Q -> (forall a, Q a -> calm n (f a) R) -> calm n (bind c f) R.
Proof. intros H1 H2. eapply h_bind; [exact H1|]. intros a m [H3 H4]. apply H2; assumption. Qed.
Lemma t_bind {A B'} (c : M A) Q (f : A -> M B') : calm n c Q -> (forall a, Q a -> tame n (f a)) -> tame n (bind c f).
Proof. intros H1 H2. eapply h_bind; [exact H1|]. intros a m [H3 H4]. apply H2; assumption. Qed.
Lemma c_ret {A} (a : A) (Q : A -> Prop) : Q a -> calm n (ret a) Q.
Proof. intros H m Hm. split; assumption. Qed.
Lemma c_fail {A} e (Q : A -> Prop) : calm n (fail e) Q.
Proof. intros m Hm. apply Hm. Qed.
Lemma t_fail {A} e : tame n (@fail machine A e).
Proof. intros m Hm. apply Hm. Qed.
Lemma c_lift {A} (r : res A) Q : gives Q r -> calm n (lift r) Q.
Proof. intros H m Hm. unfold lift. destruct r as [a|e]; [split; [exact Hm|apply H; reflexivity]|apply Hm]. Qed.
Lemma c_any {A} (r : res A) : calm n (lift r) any.
Proof. apply c_lift, gives_true. Qed.
Lemma c_assert c : calm n (assert c) any.
Proof. apply c_any. Qed.
Lemma c_mget : calm n mget (at_n n).
Proof. intros m Hm. split; exact Hm. Qed.
Lemma c_mput m : at_n n m -> calm n (mput m) any.
Proof. intros H m' _. split; [exact H|exact I]. Qed.
Lemma at_value m v : at_n n m -> Forall (refers n) v -> at_n n (set_value m v).
Proof. intros [[] H] Hv. split; [constructor; cbn [k_store k_value k_frame set_value]; rewrite ?H in *; assumption|exact H]. Qed.
Lemma at_label m l : at_n n m -> at_n n (set_label m l).
Proof. intros [[] H]. split; [constructor; assumption|exact H]. Qed.
Lemma at_frame m l : at_n n m -> Forall (frame_refs n (k_store m)) l -> at_n n (set_frame m l).
Proof. intros [[] H] Hv. unfold frame_refs in Hv. split; [constructor; cbn [k_store k_value k_frame set_frame]; rewrite ?H in *; assumption|exact H]. Qed.
Lemma at_values m : at_n n m -> Forall (refers n) (k_value m).
Proof. intros [[] <-]. assumption. Qed.
Lemma at_frames m : at_n n m -> Forall (frame_refs n (k_store m)) (k_frame m).
Proof. unfold frame_refs. intros [[] <-]. assumption. Qed.
Lemma at_store m : at_n n m -> srefs n (k_store m).
Proof. intros [[] <-]. apply store_srefs. assumption. Qed.
Lemma c_popv : calm n popv (refers n).
Proof.
  intros m Hm. unfold popv. destruct (k_value m) as [|v vs] eqn:E; [apply Hm|].
  pose proof (at_values m Hm) as H. rewrite E in H. apply Forall_cons_iff in H. destruct H as [H1 H2].
  split; [apply at_value; assumption|exact H1].
Qed.
Lemma c_popn j : calm n (popn j) (Forall (refers n)).
Proof.
  induction j as [|j IH]; cbn [popn]; [apply c_ret; constructor|].
  eapply c_bind; [apply c_popv|]. intros v Hv. eapply c_bind; [exact IH|]. intros vs Hvs.
  apply c_ret, Forall_app. split; [exact Hvs|constructor; [exact Hv|constructor]].
Qed.
Lemma c_extend l : Forall (refers n) l -> calm n (extend l) any.
Proof.
  intros H m Hm. split; [|exact I]. apply at_value; [exact Hm|]. apply Forall_app.
  split; [apply Forall_rev, H|apply at_values, Hm].
Qed.
Lemma c_push_label l : calm n (push_label l) any.
Proof. intros m Hm. split; [|exact I]. apply at_label, Hm. Qed.
Lemma c_push_frame f : Forall (refers n) (fr_locals f) -> (forall mi, fr_module f = MVal mi -> names n mi) -> calm n (push_frame f) any.
Proof.
  intros H1 H2 m Hm. split; [|exact I]. apply at_frame; [exact Hm|]. constructor; [|apply at_frames, Hm].
  split; [exact H1|]. apply names_of; [apply (r_inst n), at_store, Hm|exact H2].
Qed.
Lemma c_pop_frame : calm n pop_frame any.
Proof.
  intros m Hm. unfold pop_frame. destruct (k_frame m) as [|f fs] eqn:E; [apply Hm|].
  pose proof (at_frames m Hm) as H. rewrite E in H. apply Forall_cons_iff in H. destruct H as [H1 H2].
  split; [apply at_frame; assumption|exact I].
Qed.
Lemma c_top_frame : calm n top_frame any.
Proof. intros m Hm. unfold top_frame. destruct (k_frame m); [apply Hm|split; [exact Hm|exact I]]. Qed.
Lemma c_basic F o args : calm n (on_basic (fun mr => exec_basic F mr o args)) any.
Proof.
  intros m Hm. unfold on_basic. destruct (k_frame m) as [|fr fs] eqn:E; [apply Hm|].
  pose proof (at_frames m Hm) as HF. rewrite E in HF. apply Forall_cons_iff in HF. destruct HF as [[H1 H2] H3].
  pose proof (x_basic n (k_store m) (at_store m Hm) (fr_module fr) H2 F o args
    (mkb (k_store m) (fr_locals fr) (k_value m)) (conj eq_refl (conj H1 (at_values m Hm)))) as X.
  assert (G : forall b, there n (k_store m) b -> at_n n (mkmach (b_store b) (b_value b) (k_label m)
     (mkframe (fr_module fr) (b_locals b) (fr_arity fr) (fr_label fr) (fr_value fr) :: fs))).
  { intros b (X1 & X2 & X3 & X4 & X5). destruct Hm as [[Hst _ _] Hn]. subst n.
    assert (EM : forall mr, mod_of (b_store b) mr = mod_of (k_store m) mr) by (intros [?|?]; cbn [mod_of]; rewrite ?X3; reflexivity).
    split; [|cbn; rewrite X2; reflexivity]. constructor; cbn [k_store k_value k_frame]; rewrite ?X2.
    - exact (srefs_store _ _ Hst X1 X2).
    - exact X5.
    - constructor; cbn [fr_locals fr_module]; rewrite ?EM; [split; assumption|]. eapply Forall_impl; [|exact H3].
      cbv beta. intros f [F1 F2]. rewrite EM. split; assumption. }
  destruct (exec_basic F (fr_module fr) o args _) as [[a|e] b]; [split; [exact (G b X)|exact I]|exact (proj1 (G b X))].
Qed.
Lemma c_bype bt : calm n (evaluate_bype bt) any.
Proof.
  destruct bt; cbn [evaluate_bype]; try (apply c_ret, I). eapply c_bind; [apply c_top_frame|]. intros f _.
  eapply c_bind; [apply c_mget|]. intros m _. apply c_any.
Qed.
Lemma at_make m V LS FS : at_n n m -> Forall (refers n) V -> Forall (frame_refs n (k_store m)) FS -> at_n n (mkmach (k_store m) V LS FS).
Proof. intros [[] H] HV HF. unfold frame_refs in HF. split; [constructor; cbn [k_store k_value k_frame]; rewrite ?H in *; assumption|exact H]. Qed.
Lemma c_br l : calm n (evaluate_br l) any.
Proof.
  unfold evaluate_br. eapply c_bind; [apply c_mget|]. intros m Hm. eapply c_bind; [apply c_assert|]. intros _ _.
  destruct (nth_error (k_label m) (Z.to_nat l)) as [lb|] eqn:N; [|apply c_fail].
  eapply c_bind; [apply c_assert|]. intros _ _. eapply c_bind; [apply c_popn|]. intros rets Hr.
  eapply c_bind; [apply c_mget|]. intros m' Hm'. apply c_mput, at_make; [exact Hm'| |].
  - apply Forall_app. split; [apply Forall_rev, Hr|apply Forall_keep, at_values, Hm'].
  - apply Forall_keep, at_frames, Hm'.
Qed.
Lemma zero_locals_refs d : Forall (refers n) (zero_locals d).
Proof.
  unfold zero_locals. induction d as [|[i t] d IH]; cbn [map concat]; [constructor|]. apply Forall_app. split; [|exact IH].
  apply Forall_forall. intros v Hv. apply repeat_spec in Hv. subst v. apply pt_zero.
Qed.
Lemma c_enter lb c bt body : calm n (enter lb c bt body) any.
Proof.
  unfold enter. eapply c_bind; [apply c_mget|]. intros m Hm. eapply c_bind; [apply c_assert|]. intros _ _. apply c_push_label.
Qed.
End n.
Lemma from_alls_refs F s ts ps : numbers_ok s ts ps -> gives (Forall (refers (length (s_func s)))) (from_alls F ts ps).
Proof.
  intros H. apply gives_rmapl. intros [t p] Hin. apply In_nth_error in Hin. destruct Hin as (i & Hi).
  assert (N1 : nth_error ts i = Some t /\ nth_error ps i = Some p).
  { clear H. revert ps i Hi. induction ts as [|x ts IH]; intros [|y ps] [|i] Hi; try discriminate Hi.
    - injection Hi as -> ->. split; reflexivity.
    - exact (IH ps i Hi). }
  destruct N1 as [N1 N2]. intros v E Et. pose proof (from_all_type F t p v E) as T. unfold of_type in T.
  assert (HT : t = T_func) by congruence. rewrite HT in E, N1. destruct p as [z|?|?|]; cbn [from_all] in E; try discriminate E.
  exact (g_ref _ T_func z (fun _ => H i z N1 N2) v E Et).
Qed.

Context (F : fops) (host : hostcode) (Hh : host_refs sg host).
Lemma f_host hid args : hoare (machine_refs sg) (fun m => host hid args m)
  (fun l m => machine_refs sg m /\ numbers_ok (k_store m) (ft_rets (sg hid)) l) (machine_refs sg).
Proof.
  intros m Hm. destruct (host hid args m) as [r m'] eqn:E. destruct (Hh _ _ _ _ _ Hm E) as [H1 H2].
  destruct r as [l|e]; [split; [exact H1|apply H2; reflexivity]|exact H1].
Qed.
Lemma f_call addr : fine (evaluate_call F host addr).
Proof.
  apply tame_fine. intros n. unfold evaluate_call. eapply t_bind; [apply c_mget|]. intros m Hm.
  eapply t_bind; [apply c_lift, (gives_index (fun f => match f with FHost t hid => t = sg hid | FWasm _ _ _ => True end)), (sr_host sg _ (mr_store sg m (proj1 Hm)))|].
  intros f Hf. eapply t_bind; [apply c_popn|]. intros args Ha. destruct f as [t h code|t hid].
  - eapply calm_tame. eapply c_bind; [apply c_mget|]. intros m1 H1. eapply c_bind; [apply c_assert|]. intros _ _.
    eapply c_bind; [apply c_push_frame; [cbn [fr_locals]; apply Forall_app; split; [exact Ha|apply zero_locals_refs]|discriminate]|]. intros _ _.
    eapply c_bind; [apply c_mget|]. intros m2 H2. apply c_push_label.
  - eapply t_bind; [apply c_any|]. intros pargs _. eapply h_bind; [eapply h_pre; [|apply f_host]; intros m' H'; apply H'|].
    intros rets m' [H1 H2]. subst t. 
    pose proof (c_bind (many m') (lift (from_alls F (ft_rets (sg hid)) rets)) _ extend any (c_lift _ _ _ (from_alls_refs F _ _ _ H2))
      (fun vs Hvs => c_extend _ vs Hvs) m' (conj H1 eq_refl)) as G.
    destruct (bind _ extend m') as [[a|e] m'']; [apply G|exact G].
Qed.
Ltac sd := eapply t_bind; [first [apply c_mget|apply c_popv|apply c_assert|apply c_bype|apply c_any|apply c_pop_frame|apply c_popn|apply c_top_frame]|];
  let x := fresh "x" in let H := fresh "H" in intros x H; cbv beta in H.
Lemma f_exec lb fr i : fine (exec F host lb fr i).
Proof.
  apply tame_fine. intros n. destruct i as [bt l|bt l|bt l el|o args]; cbn [exec].
  - sd. eapply calm_tame, c_enter.
  - sd. eapply calm_tame, c_enter.
  - sd. sd. sd. eapply calm_tame, c_enter.
  - destruct o; try (apply t_fail); try (eapply calm_tame, c_basic).
    + sd. eapply calm_tame, c_br.
    + sd. sd. destruct (x0 =? 0); [eapply calm_tame, (c_ret _ tt any), I|]. sd. eapply calm_tame, c_br.
    + sd. sd. sd. sd. eapply (t_bind _ _ any); [|intros l _; eapply calm_tame, c_br]. destruct (x0 <? len x2); [apply c_any|apply c_ret, I].
    + sd. sd. sd. sd. eapply t_bind; [apply c_mget|]. intros m' Hm'. eapply calm_tame, c_mput, at_make; [exact Hm'| |].
      * apply Forall_app. split; [apply Forall_rev; assumption|apply Forall_keep, at_values, Hm'].
      * apply at_frames, Hm'.
    + sd. sd. sd. apply fine_tame, f_call.
    + do 12 sd. apply fine_tame, f_call.
Qed.
Lemma f_step : fine (step F host).
Proof.
  apply tame_fine. intros n. unfold step. sd. destruct (k_label x) as [|lb ls] eqn:E; [apply t_fail|]. sd.
  destruct (Nat.eqb _ _).
  - eapply t_bind; [apply c_mget|]. intros m Hm. eapply t_bind; [apply c_mput, at_label, Hm|]. intros _ _.
    destruct (lb_carry lb); try (eapply calm_tame, (c_ret _ tt any), I). sd. sd. eapply calm_tame, c_pop_frame.
  - destruct (nth_error (lb_instr lb) (lb_index lb)) as [i|] eqn:N; [|apply t_fail].
    eapply t_bind; [apply c_mget|]. intros m Hm. eapply t_bind; [apply c_mput, at_label, Hm|]. intros _ _.
    apply fine_tame, f_exec.
Qed.
Lemma f_evaluate n : fine (evaluate F host n).
Proof.
  induction n as [|n IH]; cbn [evaluate]; [apply fine_calm; intros n; apply c_ret, I|]. intros m Hm. destruct (k_label m) eqn:E; [exact Hm|].
  revert m Hm E. intros m Hm _. revert m Hm. change (fine (step F host ;; evaluate F host n)).
  apply f_bind; [apply f_step|]. intros _. exact IH.
Qed.
Lemma f_invocate n addr args m : machine_refs sg m -> Forall (refers (many m)) args ->
  match invocate F host n addr args m with
  | (Ok rs, m') => machine_refs sg m' /\ Forall (refers (many m')) rs
  | (Err _, m') => machine_refs sg m'
  end.
Proof.
  intros Hm Ha.
  assert (G : hoare (at_n (many m)) (invocate F host n addr args) (fun rs m' => machine_refs sg m' /\ Forall (refers (many m')) rs) (machine_refs sg)).
  { unfold invocate. eapply h_bind; [apply c_mget|]. intros m0. apply (h_pre (at_n (many m))); [intros m1 [H _]; exact H|].
    eapply h_bind; [apply c_any|]. intros f. apply (h_pre (at_n (many m))); [intros m1 [H _]; exact H|].
    destruct f as [t h code|]; [|apply h_fail; intros m1 H; apply H].
    eapply h_bind; [apply c_assert|]. intros ?. apply (h_pre (at_n (many m))); [intros m1 [H _]; exact H|].
    eapply h_bind; [apply c_push_frame; [constructor|intros mi E; injection E as <-; constructor]|]. intros ?. apply (h_pre (at_n (many m))); [intros m1 [H _]; exact H|].
    eapply h_bind; [apply c_push_frame; [cbn [fr_locals]; apply Forall_app; split; [exact Ha|apply zero_locals_refs]|discriminate]|]. intros ?.
    apply (h_pre (at_n (many m))); [intros m1 [H _]; exact H|].
    eapply h_bind; [apply c_push_label|]. intros ?. apply (h_pre (machine_refs sg)); [intros m1 [H _]; apply H|].
    eapply h_bind; [apply f_evaluate|]. intros ? m1 Hm1.
    assert (C : calm (many m1) (let! rets := popn (length (ft_rets t)) in
       assert (types_agree (ft_rets t) rets) ;; pop_frame ;;
       let! m := mget in
       assert (Nat.eqb (length (k_frame m)) 0) ;; assert (Nat.eqb (length (k_label m)) 0) ;; assert (Nat.eqb (length (k_value m)) 0) ;;
       ret rets) (Forall (refers (many m1)))).
    { eapply c_bind; [apply c_popn|]. intros rets Hr.
      do 6 (eapply c_bind; [first [apply c_mget|apply c_assert|apply c_pop_frame]|]; intros ? _). apply c_ret, Hr. }
    specialize (C m1 (conj Hm1 eq_refl)).
    match goal with |- match ?x with _ => _ end => match type of C with match ?y with _ => _ end => change y with x in C; destruct x as [[rs|e] m2] end end; [|exact C].
    destruct C as [[C1 C2] C3]. split; [exact C1|]. rewrite C2. exact C3. }
  exact (G m (conj Hm eq_refl)).
Qed.
End mach.
