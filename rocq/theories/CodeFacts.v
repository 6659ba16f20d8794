(* Every instruction that is run is one of a function of the store (C126). *)
From Coq Require Import ZArith List Bool Lia.
From Verif Require Import Py Floatops Val Opcode Numeric Syntax Store Basic Machine SpecMachine SpecType SpecIeee SpecVecFloat SpecStandard SpecCode PyFacts.
Import ListNotations.
Open Scope Z_scope.

(* ---- instructions without control transfer ---- *)
Definition kf {A} (c : B A) : Prop := forall b, s_func (b_store (snd (c b))) = s_func (b_store b).
Lemma kf_bind {A B'} (c : B A) (f : A -> B B') : kf c -> (forall a, kf (f a)) -> kf (bind c f).
Proof. intros H K b. unfold bind. specialize (H b). destruct (c b) as [[a|x] b1]; cbn [snd] in *; [|exact H]. now rewrite K. Qed.
Lemma kf_ret {A} (a : A) : kf (ret a). Proof. now intros b. Qed.
Lemma kf_fail {A} x : kf (fail x : B A). Proof. now intros b. Qed.
Lemma kf_lift {A} (r : res A) : kf (lift r). Proof. now intros b. Qed.
Lemma kf_assert c : kf (assert c). Proof. now intros b. Qed.
Lemma kf_pop : kf pop. Proof. intros b. unfold pop. now destruct (b_value b). Qed.
Lemma kf_top : kf top. Proof. intros b. unfold top. now destruct (b_value b). Qed.
Lemma kf_push v : kf (push v). Proof. now intros b. Qed.
Lemma kf_store : kf get_store. Proof. now intros b. Qed.
Lemma kf_locals : kf get_locals. Proof. now intros b. Qed.
Lemma kf_put_locals l : kf (put_locals l). Proof. now intros b. Qed.
Lemma kf_put_mem a x : kf (put_mem a x). Proof. intros b. unfold put_mem, bind, get_store, lift, put_store. now destruct (py_setitem _ _ _). Qed.
Lemma kf_put_tab a x : kf (put_tab a x). Proof. intros b. unfold put_tab, bind, get_store, lift, put_store. now destruct (py_setitem _ _ _). Qed.
Lemma kf_put_glob a x : kf (put_glob a x). Proof. intros b. unfold put_glob, bind, get_store, lift, put_store. now destruct (py_setitem _ _ _). Qed.
Lemma kf_put_elem a x : kf (put_elem a x). Proof. intros b. unfold put_elem, bind, get_store, lift, put_store. now destruct (py_setitem _ _ _). Qed.
Lemma kf_put_blob a x : kf (put_blob a x). Proof. now intros b. Qed.
Ltac kfs := repeat (cbn beta zeta; match goal with
  | |- kf (bind _ _) => apply kf_bind; [|intros ?]
  | |- kf (ret _) => apply kf_ret
  | |- kf (fail _) => apply kf_fail
  | |- kf (lift _) => apply kf_lift
  | |- kf (assert _) => apply kf_assert
  | |- kf pop => apply kf_pop
  | |- kf top => apply kf_top
  | |- kf (push _) => apply kf_push
  | |- kf get_store => apply kf_store
  | |- kf get_locals => apply kf_locals
  | |- kf (put_locals _) => apply kf_put_locals
  | |- kf (put_mem _ _) => apply kf_put_mem
  | |- kf (put_tab _ _) => apply kf_put_tab
  | |- kf (put_glob _ _) => apply kf_put_glob
  | |- kf (put_elem _ _) => apply kf_put_elem
  | |- kf (put_blob _ _) => apply kf_put_blob
  | |- kf (if ?b then _ else _) => destruct b
  | |- kf (pushr _) => unfold pushr
  | |- kf pop_u32 => unfold pop_u32
  | |- kf (mod_addr _ _ _) => unfold mod_addr
  | |- kf (get_mem _) => unfold get_mem
  | |- kf (get_tab _) => unfold get_tab
  | |- kf (get_glob _) => unfold get_glob
  | |- kf (get_elem _) => unfold get_elem
  | |- kf (get_data _) => unfold get_data
  | |- kf (get_blob _) => unfold get_blob
  | |- kf (mem_load _ _ _) => unfold mem_load
  | |- kf (mem_save _ _ _) => unfold mem_save
  | |- kf (load_lane _ _ _) => unfold load_lane
  | |- kf (store_lane _ _ _) => unfold store_lane
  end).
Lemma kf_basic F mr o args : kf (exec_basic F mr o args).
Proof.
  unfold exec_basic. destruct (num_op F o) as [[f|f|f|f]|]; cbn [exec_num]; kfs. destruct (load_op o) as [[size conv]|]; kfs. destruct (store_op o); kfs.
  destruct o; cbn [exec_misc]; kfs.
Qed.

(* ---- the labels ---- *)
Lemma Forall_skip {A} (P : A -> Prop) n l : Forall P l -> Forall P (skipn n l).
Proof. intros H. revert n. induction H as [|x l H1 H2 IH]; intros [|n]; cbn [skipn]; auto. Qed.
Lemma index_In {A} (l : list A) z x : py_index l z = Ok x -> In x l.
Proof.
  unfold py_index. intros E. repeat match type of E with context [if ?b then _ else _] => destruct b; try discriminate E end;
    destruct (nth_error l _) eqn:N in E; try discriminate E; injection E as <-; now apply nth_error_In in N.
Qed.
Definition sub_body (body : list inst) (i : inst) : Prop := exists bt, i = IBlock bt body \/ i = ILoop bt body \/ exists x, i = IIf bt body x \/ i = IIf bt x body.
Section host.
(* [P]: what holds of the code under the labels; [R]: how stores change *)
Context (F : fops) (host : hostcode) (R : store -> store -> Prop) (P : store -> list inst -> Prop).
Context (Rrefl : forall s, R s s) (Rtrans : forall a b c, R a b -> R b c -> R a c) (Req : forall a b, s_func b = s_func a -> R a b).
Context (Pmono : forall a b c, R a b -> P a c -> P b c) (Pfunc : forall s t h code, In (FWasm t h code) (s_func s) -> P s (fd_expr code)).
Context (Psub : forall s c i body, P s c -> In i c -> sub_body body i -> P s body).
Context (Hhost : forall hid args m r m', host hid args m = (r, m') -> k_label m' = k_label m /\ R (k_store m) (k_store m')).
Definition good (m : machine) : Prop := Forall (fun lb => P (k_store m) (lb_instr lb)) (k_label m).
Definition gk {A} (c : M A) : Prop := forall m r m', good m -> c m = (r, m') -> good m' /\ R (k_store m) (k_store m').
Definition gs {A} (c : M A) : Prop := forall m r m', c m = (r, m') -> k_label m' = k_label m /\ k_store m' = k_store m.
Lemma good_later m m' : k_label m' = k_label m -> R (k_store m) (k_store m') -> good m -> good m'.
Proof. intros E H G. unfold good. rewrite E. eapply Forall_impl; [|exact G]. intros lb. apply Pmono, H. Qed.
Lemma gs_gk {A} (c : M A) : gs c -> gk c.
Proof. intros H m r m' G E. destruct (H _ _ _ E) as [E1 E2]. unfold good. rewrite E1, E2. split; [exact G|apply Rrefl]. Qed.
Lemma gk_bind {A B'} (c : M A) (f : A -> M B') : gk c -> (forall a, gk (f a)) -> gk (bind c f).
Proof.
  intros H K m r m' G E. unfold bind in E. destruct (c m) as [[a|x] m1] eqn:E1; destruct (H _ _ _ G E1) as [G1 R1]. 2: { injection E as _ <-. now split. }
  destruct (K a _ _ _ G1 E) as [G2 R2]. split; [exact G2|eauto].
Qed.
Lemma gs_bind {A B'} (c : M A) (f : A -> M B') : gs c -> (forall a, gs (f a)) -> gs (bind c f).
Proof.
  intros H K m r m' E. unfold bind in E. destruct (c m) as [[a|x] m1] eqn:E1; destruct (H _ _ _ E1) as [G1 R1]. 2: { injection E as _ <-. now split. }
  destruct (K a _ _ _ E) as [G2 R2]. now rewrite G2, R2.
Qed.
Ltac same := intros m r m' E; injection E as _ <-; now split.
Lemma gs_lift {A} (r0 : res A) : gs (lift r0). Proof. same. Qed.
Lemma gs_ret {A} (x : A) : gs (ret x). Proof. same. Qed.
Lemma gs_fail {A} x : gs (fail x : M A). Proof. same. Qed.
Lemma gs_assert c : gs (assert c). Proof. same. Qed.
Lemma gs_get : gs mget. Proof. same. Qed.
Lemma gs_popv : gs popv. Proof. intros m r m' E. unfold popv in E. destruct (k_value m); injection E as _ <-; now split. Qed.
Lemma gs_popn n : gs (popn n).
Proof. induction n as [|n IH]; cbn [popn]; [apply gs_ret|]. apply gs_bind; [apply gs_popv|intros v]. apply gs_bind; [exact IH|intros vs; apply gs_ret]. Qed.
Lemma gs_extend l : gs (extend l). Proof. same. Qed.
Lemma gs_push_frame f : gs (push_frame f). Proof. same. Qed.
Lemma gs_pop_frame : gs pop_frame. Proof. intros m r m' E. unfold pop_frame in E. destruct (k_frame m); injection E as _ <-; now split. Qed.
Lemma gs_top_frame : gs top_frame. Proof. intros m r m' E. unfold top_frame in E. destruct (k_frame m); injection E as _ <-; now split. Qed.
Lemma gs_bype bt : gs (evaluate_bype bt).
Proof. destruct bt; cbn [evaluate_bype]; try apply gs_ret. apply gs_bind; [apply gs_top_frame|intros f]. apply gs_bind; [apply gs_get|intros m]. apply gs_lift. Qed.
Lemma gs_step {A} (c : M A) m a m1 : gs c -> c m = (a, m1) -> good m -> good m1 /\ k_store m1 = k_store m.
Proof. intros H E G. destruct (H _ _ _ E) as [E1 E2]. split; [|exact E2]. unfold good. now rewrite E1, E2. Qed.
Ltac stay E := injection E as _ <-; split; [assumption|apply Rrefl].
Lemma gk_basic o args : gk (on_basic (fun mr => exec_basic F mr o args)).
Proof.
  intros m r m' G E. unfold on_basic in E. destruct (k_frame m) as [|fr fs]; [stay E|].
  pose proof (kf_basic F (fr_module fr) o args (mkb (k_store m) (fr_locals fr) (k_value m))) as K. destruct (exec_basic F (fr_module fr) o args _) as [r1 b]. injection E as _ <-. cbn [snd b_store k_store] in *.
  assert (H := Req _ _ K). split; [|exact H]. now apply (good_later m).
Qed.
Lemma gk_br l : gk (evaluate_br l).
Proof.
  unfold evaluate_br. intros m r m' G E. unfold bind at 1, mget at 1 in E. unfold assert, lift in E. unfold bind at 1 in E.
  destruct (py_assert (len (k_label m) >=? l + 1)) as [[]|x]; [|stay E]. destruct (nth_error (k_label m) (Z.to_nat l)) as [lb|] eqn:NL; [|stay E].
  unfold bind at 1 in E. destruct (py_assert _) as [[]|x] in E; [|stay E]. unfold bind at 1 in E. destruct (popn (lb_arity lb) m) as [r1 m1] eqn:EP.
  destruct (gs_popn _ _ _ _ EP) as [E1 E2]. destruct r1 as [rets|x].
  2: { injection E as _ <-. unfold good. rewrite E1, E2. split; [exact G|apply Rrefl]. }
  unfold bind, mget, mput in E. injection E as _ <-. unfold good. cbn [k_store k_label]. rewrite E1, E2. split; [|apply Rrefl].
  pose proof (Forall_skip _ (S (Z.to_nat l)) _ G) as K. destruct (lb_carry lb); try exact K. constructor; [|exact K]. cbn [lb_instr].
  apply nth_error_In in NL. unfold good in G. rewrite Forall_forall in G. exact (G lb NL).
Qed.
Lemma gk_push_label k m r m' : P (k_store m) (lb_instr k) -> good m -> push_label k m = (r, m') -> good m' /\ R (k_store m) (k_store m').
Proof. intros H G E. injection E as _ <-. unfold good. cbn [k_store k_label set_label]. split; [now constructor|apply Rrefl]. Qed.
Lemma gk_call addr : gk (evaluate_call F host addr).
Proof.
  unfold evaluate_call. intros m r m' G E. unfold bind at 1, mget at 1 in E. unfold bind at 1, lift at 1 in E.
  destruct (py_index (s_func (k_store m)) addr) as [func|] eqn:EF; [|stay E]. apply index_In in EF. unfold bind at 1 in E.
  destruct (popn _ m) as [r1 m1] eqn:EP in E. destruct (gs_step _ _ _ _ (gs_popn _) EP G) as [G1 E2]. rewrite <- E2 in EF |- *. clear G EP E2 m. destruct r1 as [args|x]; [|stay E].
  destruct func as [t h code|t hid].
  - unfold bind at 1, mget at 1 in E. unfold bind at 1, assert, lift in E. destruct (py_assert _) as [[]|x] in E; [|stay E].
    unfold bind, push_frame, mget in E. apply gk_push_label in E; [exact E| |exact G1]. cbn [lb_instr]. exact (Pfunc _ _ _ _ EF).
  - revert G1 E. clear EF. revert m1 r m'. match goal with |- forall m1 r m', _ -> ?f m1 = _ -> _ => change (gk f) end. cbn beta zeta. apply gk_bind; [apply gs_gk, gs_lift|intros pargs].
    apply gk_bind; [|intros rets; apply gk_bind; [apply gs_gk, gs_lift|intros vs; apply gs_gk, gs_extend]].
    intros m2 r m3 G2 E. destruct (Hhost hid pargs m2 r m3 E) as [H1 H2]. split; [|exact H2]. now apply (good_later m2).
Qed.
Lemma gk_enter lb k bt body m r m' : good m -> P (k_store m) body -> enter lb k bt body m = (r, m') -> good m' /\ R (k_store m) (k_store m').
Proof.
  intros G S E. unfold enter, bind, mget, assert, lift in E. destruct (py_assert _) as [[]|x] in E; [|stay E]. now apply gk_push_label in E.
Qed.
Lemma gk_leave (f : machine -> machine) : (forall m, k_store (f m) = k_store m /\ exists n, k_label (f m) = skipn n (k_label m)) -> gk (let! m := mget in mput (f m)).
Proof. intros H m r m' G E. injection E as _ <-. destruct (H m) as (E1 & n & E2). unfold good. rewrite E1, E2. split; [now apply Forall_skip|apply Rrefl]. Qed.
Ltac gks := repeat match goal with
      | |- gk (bind mget (fun m => mput _)) => apply gk_leave; intros ?; split; [reflexivity|eexists; reflexivity]
      | |- gk (bind (if ?b then _ else _) _) => destruct b
      | |- gk (bind _ _) => apply gk_bind; [apply gs_gk; first [apply gs_popv|apply gs_lift|apply gs_get|apply gs_assert|apply gs_popn|apply gs_pop_frame|apply gs_ret|apply gs_top_frame]|intros ?]
      | |- gk (evaluate_br _) => apply gk_br
      | |- gk (evaluate_call _ _ _) => apply gk_call
      | |- gk (ret _) => apply gs_gk, gs_ret
      | |- gk (fail _) => apply gs_gk, gs_fail
      | |- gk (if ?b then _ else _) => destruct b
      | |- gk (lift _) => apply gs_gk, gs_lift
      | |- gk pop_frame => apply gs_gk, gs_pop_frame
      end.
Lemma gk_exec lb fr i m r m' : good m -> (forall body, sub_body body i -> P (k_store m) body) -> exec F host lb fr i m = (r, m') -> good m' /\ R (k_store m) (k_store m').
Proof.
  intros G S E. destruct i as [bt body|bt body|bt th el|o args]; cbn [exec] in E.
  1-2: unfold bind at 1 in E; destruct (evaluate_bype bt m) as [r1 m1] eqn:EB; destruct (gs_step _ _ _ _ (gs_bype bt) EB G) as [G1 E2]; rewrite <- E2; destruct r1 as [t|x]; [|stay E];
    apply gk_enter in E; [exact E|exact G1|rewrite E2; apply S; exists bt; auto].
  - unfold bind at 1 in E. destruct (evaluate_bype bt m) as [r1 m1] eqn:EB. destruct (gs_step _ _ _ _ (gs_bype bt) EB G) as [G1 E2]. rewrite <- E2 in S |- *. destruct r1 as [t|x]; [|stay E].
    unfold bind at 1 in E. destruct (popv m1) as [r2 m2] eqn:EP. destruct (gs_step _ _ _ _ gs_popv EP G1) as [G2 E4]. rewrite <- E4 in S |- *. destruct r2 as [v|x]; [|stay E].
    unfold bind, lift in E. destruct (into_i32 v) as [c|]; [|stay E].
    apply gk_enter in E; [exact E|exact G2|]. apply S. exists bt. right. right. destruct (c =? 0); eauto.
  - revert G E. clear S. revert m r m'. match goal with |- forall m r m', _ -> ?f m = _ -> _ => change (gk f) end. destruct o; try apply gk_basic; gks.
Qed.
Lemma gk_turn : gk (step F host).
Proof.
  unfold step. intros m r m' G E. unfold bind at 1, mget at 1 in E. destruct (k_label m) as [|lb ls] eqn:EL; [stay E|].
  assert (GL := G). unfold good in GL. rewrite EL in GL. apply Forall_cons_iff in GL. destruct GL as [GL1 GL2].
  unfold bind at 1 in E. destruct (top_frame m) as [r1 m1] eqn:ET. assert (m1 = m) as -> by (unfold top_frame in ET; destruct (k_frame m); now injection ET). destruct r1 as [fr|x]; [|stay E].
  destruct (Nat.eqb _ _) in E.
  - unfold bind at 1, mget at 1 in E. unfold bind at 1, mput at 1 in E. assert (GM : good (set_label m ls)) by exact GL2. change (k_store m) with (k_store (set_label m ls)).
    revert GM E. generalize (set_label m ls). clear - Rrefl Rtrans. intros m. revert m r m'. match goal with |- forall m2 r m', _ -> ?f m2 = _ -> _ => change (gk f) end. destruct (lb_carry lb); gks.
  - destruct (nth_error (lb_instr lb) (lb_index lb)) as [i|] eqn:EN in E; [|stay E]. unfold bind, mget, mput in E.
    apply gk_exec in E; [exact E|now constructor|]. intros body SB. exact (Psub _ _ _ _ GL1 (nth_error_In _ _ EN) SB).
Qed.
Lemma gk_evaluate n : gk (evaluate F host n).
Proof.
  induction n as [|n IH]; cbn [evaluate]; [apply gs_gk, gs_ret|]. intros m r m' G E. destruct (k_label m); [stay E|]. revert m r m' G E. apply (gk_bind (step F host) (fun _ => evaluate F host n)); [apply gk_turn|intros _; exact IH].
Qed.
End host.

(* ---- the code that runs ---- *)
Definition sourced (s : store) (c : list inst) : Prop := exists t h code, In (FWasm t h code) (s_func s) /\ forall i, within i c -> within i (fd_expr code).
Lemma sourced_sub s c i body : sourced s c -> In i c -> sub_body body i -> sourced s body.
Proof.
  intros (t & h & code & H1 & H2) H (bt & SB). exists t, h, code. split; [exact H1|]. intros j Hj. apply H2. destruct SB as [->|[->|(x & [->| ->])]].
  - exact (in_block j bt body c H Hj).
  - exact (in_loop j bt body c H Hj).
  - exact (in_then j bt body x c H Hj).
  - exact (in_else j bt x body c H Hj).
Qed.
Lemma provenance F host s t h code args m i fr : leaves_code host -> In (FWasm t h code) (s_func s) -> gets_to F host (starts s t h code args) m -> about_to_run m i fr -> in_function (k_store m) i.
Proof.
  intros HH HI (k & HK) ((lb & ls & EL & EN) & _).
  destruct (gk_evaluate F host (fun a b => incl (s_func a) (s_func b)) sourced) with (n := k) (m := starts s t h code args) (r := Ok tt) (m' := m) as [G _]; try assumption.
  - intros a. apply incl_refl.
  - intros a b c. apply incl_tran.
  - intros a b ->. apply incl_refl.
  - intros a b c I (t1 & h1 & c1 & H1 & H2). exists t1, h1, c1. split; [now apply I|exact H2].
  - intros a t1 h1 c1 H1. now exists t1, h1, c1.
  - exact sourced_sub.
  - constructor; [|constructor]. cbn [lb_instr k_store starts]. now exists t, h, code.
  - unfold good in G. rewrite EL in G. apply Forall_inv in G. destruct G as (t1 & h1 & c1 & H1 & H2). exists t1, h1, c1. split; [exact H1|]. apply H2, in_here. exact (nth_error_In _ _ EN).
Qed.
Lemma kept_code F host m m' : adds_no_code host -> gets_to F host m m' -> s_func (k_store m') = s_func (k_store m).
Proof.
  intros HH (k & HK). refine (proj2 (gk_evaluate F host (fun a b => s_func b = s_func a) (fun _ _ => True) _ _ _ _ _ _ HH k m (Ok tt) m' _ HK)); try easy.
  - congruence.
  - unfold good. apply Forall_forall. easy.
Qed.
Lemma clean_run F host s t h code args : adds_no_code host -> clean_store s -> In (FWasm t h code) (s_func s) -> ~ meets_deviation F host (starts s t h code args).
Proof.
  intros HH HC HI (m & G & o & oargs & fr & A & X). assert (HL : leaves_code host) by (intros hid a0 m0 r m1 E; destruct (HH _ _ _ _ _ E) as [E1 ->]; split; [exact E1|apply incl_refl]).
  destruct (provenance _ _ _ _ _ _ _ _ _ _ HL HI G A) as (t1 & h1 & c1 & H1 & H2). rewrite (kept_code _ _ _ _ HH G) in H1. cbn [starts k_store] in H1. specialize (HC _ _ _ H1 _ _ H2).
  destruct X as [?|o ? ? ? ? Y _|o ? ? ? ? ? ? Y _|o ? ? ? ? ? ? ? Y _|o ? ? ? ? ? Y _|o ? ? ? ? ? ? Y _|?|o ? ? ? ? ? ? Y _|o ? ? ? ? ? Y _|?]; try discriminate HC; destruct o; try discriminate HC; discriminate Y.
Qed.

(* ---- where the functions come from ---- *)
Section origin.
Context (F : fops) (host : hostcode) (D : moddesc -> Prop) (HH : adds_no_code host).
Definition came (s s' : store) : Prop := forall t h code, In (FWasm t h code) (s_func s') -> In (FWasm t h code) (s_func s) \/ exists md, D md /\ In code (md_func md).
(* a computation that adds no other functions *)
Definition ad {A} (c : M A) : Prop := forall m r m', c m = (r, m') -> came (k_store m) (k_store m').
Lemma came_refl s : came s s. Proof. intros t h code H. now left. Qed.
Lemma came_trans a b c : came a b -> came b c -> came a c.
Proof. intros H K t h code I. destruct (K _ _ _ I) as [J|J]; [exact (H _ _ _ J)|now right]. Qed.
Lemma came_eq a b : s_func b = s_func a -> came a b.
Proof. intros E t h code H. left. now rewrite <- E. Qed.
Lemma ad_evaluate n : ad (evaluate F host n).
Proof.
  intros m r m' E. refine (proj2 (gk_evaluate F host came (fun _ _ => True) came_refl came_trans came_eq _ _ _ _ n m r m' _ E)); try easy.
  - intros hid args m1 r1 m2 E1. destruct (HH _ _ _ _ _ E1) as [E2 E3]. split; [exact E2|now apply came_eq].
  - unfold good. apply Forall_forall. easy.
Qed.
Lemma ad_bind {A B'} (c : M A) (f : A -> M B') : ad c -> (forall a, ad (f a)) -> ad (bind c f).
Proof.
  intros H K m r m' E. unfold bind in E. destruct (c m) as [[a|x] m1] eqn:E1; [|injection E as _ <-; now apply (H _ _ _ E1)]. exact (came_trans _ _ _ (H _ _ _ E1) (K a _ _ _ E)).
Qed.
Lemma ad_gs {A} (c : M A) : gs c -> ad c.
Proof. intros H m r m' E. destruct (H _ _ _ E) as [_ ->]. apply came_refl. Qed.
Lemma ad_push_label l : ad (push_label l).
Proof. intros m r m' E. injection E as _ <-. apply came_refl. Qed.
Lemma ad_store {A} (f : store -> res A * store) : (forall s r s', f s = (r, s') -> came s s') -> ad (on_store f).
Proof. intros H m r m' E. unfold on_store in E. destruct (f (k_store m)) as [r1 s1] eqn:E1. injection E as _ <-. exact (H _ _ _ E1). Qed.
Lemma ad_upd h f : ad (upd_inst h f).
Proof. intros m r m' E. injection E as _ <-. now apply came_eq. Qed.
Lemma ad_forl {A} (f : A -> M unit) l : (forall a, In a l -> ad (f a)) -> ad (forl f l).
Proof.
  induction l as [|a l IH]; intros H; cbn [forl]; [apply ad_gs, gs_ret|]. apply ad_bind; [apply H; now left|intros _; apply IH; intros b Hb; apply H; now right].
Qed.
Lemma ad_mapl {A B'} (f : A -> M B') l : (forall a, ad (f a)) -> ad (mapl f l).
Proof.
  intros H. induction l as [|a l IH]; cbn [mapl]; [apply ad_gs, gs_ret|]. apply ad_bind; [apply H|intros b]. apply ad_bind; [exact IH|intros bs; apply ad_gs, gs_ret].
Qed.
Lemma ad_alloc_table t : ad (on_store (alloc_table t)).
Proof. apply ad_store. intros s r s' E. unfold alloc_table in E. destruct (tab_new t); injection E as _ <-; now apply came_eq. Qed.
Lemma ad_alloc_memory t : ad (on_store (alloc_memory t)).
Proof. apply ad_store. intros s r s' E. unfold alloc_memory in E. destruct (mem_new t); injection E as _ <-; now apply came_eq. Qed.
Lemma ad_alloc_global t v : ad (on_store (alloc_global t v)).
Proof. apply ad_store. intros s r s' E. unfold alloc_global in E. destruct (_ || _); injection E as _ <-; now apply came_eq. Qed.
Lemma ad_alloc_elem t v : ad (on_store (alloc_elem t v)).
Proof. apply ad_store. intros s r s' E. unfold alloc_elem in E. destruct (is_ref t); injection E as _ <-; now apply came_eq. Qed.
Lemma ad_alloc_data b : ad (on_store (alloc_data b)).
Proof. apply ad_store. intros s r s' E. injection E as _ <-; now apply came_eq. Qed.
Lemma ad_alloc_host t hid : ad (on_store (alloc_func_host t hid)).
Proof.
  apply ad_store. intros s r s' E. injection E as _ <-. intros t1 h1 c1 H. cbn [s_func set_s_func] in H. apply in_app_or in H. destruct H as [H|[H|[]]]; [now left|discriminate H].
Qed.
Lemma ad_alloc_wasm md h e : D md -> In e (md_func md) -> ad (on_store (alloc_func_wasm h e)).
Proof.
  intros HD He. apply ad_store. intros s r s' E. unfold alloc_func_wasm in E. destruct (py_index _ _); injection E as _ <-; [|apply came_refl].
  intros t1 h1 c1 H. cbn [s_func set_s_func] in H. apply in_app_or in H. destruct H as [H|[H|[]]]; [now left|]. injection H as _ _ <-. right. now exists md.
Qed.
Ltac ads := repeat (cbn beta zeta; match goal with
  | |- ad (bind _ _) => apply ad_bind; [|intros ?]
  | |- ad (evaluate _ _ _) => apply ad_evaluate
  | |- ad (push_label _) => apply ad_push_label
  | |- ad (upd_inst _ _) => apply ad_upd
  | |- ad (mapl _ _) => apply ad_mapl; intros ?
  | |- ad (on_store (alloc_table _)) => apply ad_alloc_table
  | |- ad (on_store (alloc_memory _)) => apply ad_alloc_memory
  | |- ad (on_store (alloc_global _ _)) => apply ad_alloc_global
  | |- ad (on_store (alloc_elem _ _)) => apply ad_alloc_elem
  | |- ad (on_store (alloc_data _)) => apply ad_alloc_data
  | |- ad (on_store (alloc_func_host _ _)) => apply ad_alloc_host
  | |- ad (if ?b then _ else _) => destruct b
  | |- ad (match ?p with (_, _) => _ end) => destruct p
  | |- ad _ => apply ad_gs; first [apply gs_popv|apply gs_lift|apply gs_get|apply gs_assert|apply gs_popn|apply gs_pop_frame|apply gs_push_frame|apply gs_ret|apply gs_fail|apply gs_top_frame]
  end).
Lemma ad_run_expr n e k : ad (run_expr F host n e k). Proof. unfold run_expr. ads. Qed.
Lemma ad_const n e : ad (const_expr F host n e). Proof. unfold const_expr. apply ad_bind; [apply ad_run_expr|intros _; ads]. Qed.
Lemma ad_get_put {A} f (c : machine -> M A) : (forall m, s_func (k_store (f m)) = s_func (k_store m)) -> (forall m, ad (c m)) -> ad (let! m := mget in mput (f m) ;; c m).
Proof. intros H K m r m' E. unfold bind, mget, mput in E. exact (came_trans _ _ _ (came_eq _ _ (H m)) (K m _ _ _ E)). Qed.
Lemma ad_allocate L ext gl el : D (l_desc L) -> ad (allocate L ext gl el).
Proof.
  intros HD. unfold allocate. cbn zeta. apply ad_get_put; [reflexivity|intros m0]. apply ad_bind; [|intros _].
  - apply ad_forl. intros e He. apply ad_bind; [now apply (ad_alloc_wasm (l_desc L))|intros a; apply ad_upd].
  - repeat (apply ad_bind; [apply ad_forl; intros ? _; ads|intros _]). ads.
Qed.
Lemma ad_instance n L ext : D (l_desc L) -> ad (instance F host n L ext).
Proof.
  intros HD. unfold instance. cbn zeta. apply ad_bind; [ads|intros _]. apply ad_bind; [apply ad_forl; intros [a b] _; ads|intros _]. apply ad_bind; [ads|intros m0]. apply ad_bind; [ads|intros _].
  apply ad_bind; [apply ad_mapl; intros ?; apply ad_const|intros globin]. apply ad_bind; [apply ad_mapl; intros ?; apply ad_mapl; intros ?; apply ad_const|intros elemin].
  apply ad_bind; [ads|intros _]. apply ad_bind; [now apply ad_allocate|intros h]. apply ad_bind; [ads|intros m1]. apply ad_bind; [ads|intros _]. apply ad_bind; [ads|intros _].
  apply ad_bind; [apply ad_forl; intros [i e] _; destruct (negb _); [ads|apply ad_run_expr]|intros _].
  apply ad_bind; [apply ad_forl; intros [i e] _; destruct (negb _); [ads|apply ad_run_expr]|intros _].
  apply ad_bind; [apply ad_forl; intros [i [e b]] _; destruct (negb _); [ads|]; apply ad_bind; [ads|intros m2; apply ad_run_expr]|intros _].
  apply ad_bind; [destruct (_ >=? _); [apply ad_run_expr|ads]|intros _]. ads.
Qed.
Lemma ad_rt_invocate n h nm args : ad (rt_invocate F host n h nm args).
Proof.
  unfold rt_invocate, invocate. apply ad_bind; [ads|intros m0]. apply ad_bind; [ads|intros e]. apply ad_bind; [ads|intros func]. apply ad_bind; [ads|intros _]. apply ad_bind; [ads|intros vs].
  apply ad_bind; [|intros rets; ads]. apply ad_bind; [ads|intros m1]. apply ad_bind; [ads|intros [t g code|t hid]]; ads.
Qed.
Lemma origin m t h code : made_from F host D m -> In (FWasm t h code) (s_func (k_store m)) -> exists md, D md /\ In code (md_func md).
Proof.
  intros H. revert t h code. induction H; intros t0 h0 code0 HI; [destruct HI|..].
  all: match goal with E : _ = (_, _) |- _ => revert E end; intros E; edestruct (fun (X : ad _) => X _ _ _ E _ _ _ HI) as [J|J]; [| | exact J]; [|now apply (IHmade_from _ _ _ J)].
  - apply ad_bind; [apply ad_alloc_host|intros ?; ads].
  - unfold rt_allocate_table. ads.
  - unfold rt_allocate_memory. ads.
  - unfold rt_allocate_global. ads.
  - intros m1 r1 m2 E1. injection E1 as _ <-. now apply came_eq.
  - now apply ad_instance.
  - apply ad_rt_invocate.
Qed.
End origin.
Lemma clean_made F host m : adds_no_code host -> made_from F host clean_module m -> clean_store (k_store m).
Proof. intros HH HM t h code HI. destruct (origin F host clean_module HH m t h code HM HI) as (md & C & H). unfold clean_module in C. rewrite Forall_forall in C. exact (C _ H). Qed.
