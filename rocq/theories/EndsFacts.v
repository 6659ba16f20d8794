(* Code without a way back ends (C134). *)
From Coq Require Import ZArith List Bool Lia ZifyBool ZifyNat.
From Verif Require Import Py Floatops Val Opcode Numeric Syntax Store Basic Machine SpecControl SpecEnds PyFacts StepFacts ControlFacts CodeFacts.
Import ListNotations.
Open Scope Z_scope.

(* ---- instructions without control transfer keep the instances ---- *)
Definition ki {A} (c : B A) : Prop := forall b, s_inst (b_store (snd (c b))) = s_inst (b_store b).
Lemma ki_bind {A B'} (c : B A) (f : A -> B B') : ki c -> (forall a, ki (f a)) -> ki (bind c f).
Proof. intros H K b. unfold bind. specialize (H b). destruct (c b) as [[a|x] b1]; cbn [snd] in *; [|exact H]. now rewrite K. Qed.
Lemma ki_ret {A} (a : A) : ki (ret a). Proof. now intros b. Qed.
Lemma ki_fail {A} x : ki (fail x : B A). Proof. now intros b. Qed.
Lemma ki_lift {A} (r : res A) : ki (lift r). Proof. now intros b. Qed.
Lemma ki_assert c : ki (assert c). Proof. now intros b. Qed.
Lemma ki_pop : ki pop. Proof. intros b. unfold pop. now destruct (b_value b). Qed.
Lemma ki_top : ki top. Proof. intros b. unfold top. now destruct (b_value b). Qed.
Lemma ki_push v : ki (push v). Proof. now intros b. Qed.
Lemma ki_store : ki get_store. Proof. now intros b. Qed.
Lemma ki_locals : ki get_locals. Proof. now intros b. Qed.
Lemma ki_put_locals l : ki (put_locals l). Proof. now intros b. Qed.
Lemma ki_put_mem a x : ki (put_mem a x). Proof. intros b. unfold put_mem, bind, get_store, lift, put_store. now destruct (py_setitem _ _ _). Qed.
Lemma ki_put_tab a x : ki (put_tab a x). Proof. intros b. unfold put_tab, bind, get_store, lift, put_store. now destruct (py_setitem _ _ _). Qed.
Lemma ki_put_glob a x : ki (put_glob a x). Proof. intros b. unfold put_glob, bind, get_store, lift, put_store. now destruct (py_setitem _ _ _). Qed.
Lemma ki_put_elem a x : ki (put_elem a x). Proof. intros b. unfold put_elem, bind, get_store, lift, put_store. now destruct (py_setitem _ _ _). Qed.
Lemma ki_put_blob a x : ki (put_blob a x). Proof. now intros b. Qed.
Ltac kis := repeat (cbn beta zeta; match goal with
  | |- ki (bind _ _) => apply ki_bind; [|intros ?]
  | |- ki (ret _) => apply ki_ret
  | |- ki (fail _) => apply ki_fail
  | |- ki (lift _) => apply ki_lift
  | |- ki (assert _) => apply ki_assert
  | |- ki pop => apply ki_pop
  | |- ki top => apply ki_top
  | |- ki (push _) => apply ki_push
  | |- ki get_store => apply ki_store
  | |- ki get_locals => apply ki_locals
  | |- ki (put_locals _) => apply ki_put_locals
  | |- ki (put_mem _ _) => apply ki_put_mem
  | |- ki (put_tab _ _) => apply ki_put_tab
  | |- ki (put_glob _ _) => apply ki_put_glob
  | |- ki (put_elem _ _) => apply ki_put_elem
  | |- ki (put_blob _ _) => apply ki_put_blob
  | |- ki (if ?b then _ else _) => destruct b
  | |- ki (pushr _) => unfold pushr
  | |- ki pop_u32 => unfold pop_u32
  | |- ki (mod_addr _ _ _) => unfold mod_addr
  | |- ki (get_mem _) => unfold get_mem
  | |- ki (get_tab _) => unfold get_tab
  | |- ki (get_glob _) => unfold get_glob
  | |- ki (get_elem _) => unfold get_elem
  | |- ki (get_data _) => unfold get_data
  | |- ki (get_blob _) => unfold get_blob
  | |- ki (mem_load _ _ _) => unfold mem_load
  | |- ki (mem_save _ _ _) => unfold mem_save
  | |- ki (load_lane _ _ _) => unfold load_lane
  | |- ki (store_lane _ _ _) => unfold store_lane
  end).
Lemma ki_basic F mr o args : ki (exec_basic F mr o args).
Proof.
  unfold exec_basic. destruct (num_op F o) as [[f|f|f|f]|]; cbn [exec_num]; kis. destruct (load_op o) as [[size conv]|]; kis. destruct (store_op o); kis.
  destruct o; cbn [exec_misc]; kis.
Qed.


(* ---- runs of parts of a turn ---- *)
Definition fine {A} (P : machine -> Prop) (r : res A * machine) : Prop := match r with (Ok _, m) => P m | (Err _, _) => True end.
Definition still (m m' : machine) : Prop := k_label m' = k_label m /\ k_frame m' = k_frame m /\ k_store m' = k_store m.
Definition quiet {A} (c : M A) : Prop := forall m a m', c m = (Ok a, m') -> still m m'.
Lemma still_refl m : still m m. Proof. repeat split. Qed.
Lemma fine_bind {A B'} (c : M A) (f : A -> M B') P m : quiet c -> (forall a m', still m m' -> fine P (f a m')) -> fine P (bind c f m).
Proof. intros Q H. unfold bind. destruct (c m) as [[a|x] m'] eqn:E; [apply H, (Q _ _ _ E)|exact I]. Qed.
Lemma quiet_bind {A B'} (c : M A) (f : A -> M B') : quiet c -> (forall a, quiet (f a)) -> quiet (bind c f).
Proof.
  intros Q H m b m'. unfold bind. destruct (c m) as [[a|x] m1] eqn:E; [|discriminate]. intros E2.
  destruct (Q _ _ _ E) as (E3 & E4 & E5), (H a _ _ _ E2) as (E6 & E7 & E8). unfold still. rewrite E6, E7, E8. auto.
Qed.
Lemma quiet_ret {A} (a : A) : quiet (ret a). Proof. intros m b m' E. injection E as _ <-. apply still_refl. Qed.
Lemma quiet_lift {A} (r : res A) : quiet (lift r). Proof. intros m b m' E. unfold lift in E. injection E as _ <-. apply still_refl. Qed.
Lemma quiet_assert c : quiet (assert c). Proof. intros m b m' E. unfold assert, ret, fail in E. destruct c; [injection E as _ <-; apply still_refl|discriminate E]. Qed.
Lemma quiet_mget : quiet mget. Proof. intros m b m' E. injection E as _ <-. apply still_refl. Qed.
Lemma quiet_popv : quiet popv. Proof. intros m b m' E. unfold popv in E. destruct (k_value m); [discriminate E|]. injection E as _ <-. repeat split. Qed.
Lemma quiet_popn n : quiet (popn n).
Proof. induction n as [|n IH]; [apply quiet_ret|]. apply quiet_bind; [apply quiet_popv|]. intros v. apply quiet_bind; [exact IH|]. intros vs. apply quiet_ret. Qed.
Lemma quiet_top : quiet top_frame. Proof. intros m b m' E. unfold top_frame in E. destruct (k_frame m); [discriminate E|]. injection E as _ <-. apply still_refl. Qed.
Lemma quiet_extend l : quiet (extend l). Proof. intros m b m' E. injection E as _ <-. repeat split. Qed.
Lemma quiet_bype bt : quiet (evaluate_bype bt).
Proof. destruct bt; cbn [evaluate_bype]; [apply quiet_ret|apply quiet_ret|]. apply quiet_bind; [apply quiet_top|]. intros f. apply quiet_bind; [apply quiet_mget|]. intros m. apply quiet_lift. Qed.
Ltac qs := first [apply quiet_ret|apply quiet_lift|apply quiet_assert|apply quiet_mget|apply quiet_popv|apply quiet_popn|apply quiet_top|apply quiet_extend|apply quiet_bype].

Lemma ends_more s d h C is n n' : ends_within s d h C is n -> (n <= n')%nat -> ends_within s d h C is n'.
Proof.
  intros H. revert n'. induction H as [|d h C o args is n X H IH|d h C bt body is a n H1 IH1 H2 IH2|d h C bt body is a n H1 IH1 H2 IH2|d h C bt th el is a b n H1 IH1 H2 IH2 H3 IH3
    |d h C o args is n X1 X2 H IH|d h C args is n X1 X2 H IH|d h C args is a n X1 X2 H IH|d h C args is a n X1 X2 H IH]; intros n' L.
  - constructor.
  - destruct n' as [|n']; [lia|]. apply ew_plain; [exact X|]. apply IH. lia.
  - replace n' with (2 + a + (n' - 2 - a))%nat by lia. apply ew_block; [exact H1|]. apply IH2. lia.
  - replace n' with (2 + a + (n' - 2 - a))%nat by lia. apply ew_loop; [exact H1|]. apply IH2. lia.
  - replace n' with (2 + Nat.max a b + (n' - 2 - Nat.max a b))%nat by lia. apply ew_if; [exact H1|exact H2|]. apply IH3. lia.
  - destruct n' as [|n']; [lia|]. apply ew_br; [exact X1|exact X2|]. apply IH. lia.
  - destruct n' as [|n']; [lia|]. apply ew_br_table; [exact X1|exact X2|]. apply IH. lia.
  - replace n' with (2 + a + (n' - 2 - a))%nat by lia. apply ew_call; [exact X1|]. apply IH. lia.
  - replace n' with (2 + a + (n' - 2 - a))%nat by lia. apply ew_call_indirect; [exact X1|]. apply IH. lia.
Qed.

Lemma ends_less s d d' h C is n : ends_within s d h C is n -> (d' <= d)%nat -> ends_within s d' h C is n.
Proof.
  intros H. revert d'. induction H as [|d h C o args is n X H IH|d h C bt body is a n H1 IH1 H2 IH2|d h C bt body is a n H1 IH1 H2 IH2|d h C bt th el is a b n H1 IH1 H2 IH2 H3 IH3
    |d h C o args is n X1 X2 H IH|d h C args is n X1 X2 H IH|d h C args is a n X1 X2 H IH|d h C args is a n X1 X2 H IH]; intros d' L.
  - constructor.
  - apply ew_plain; auto.
  - apply ew_block; auto.
  - apply ew_loop; auto.
  - apply ew_if; auto.
  - apply ew_br; auto.
  - apply ew_br_table; auto.
  - apply ew_call; [|auto]. intros d2 i addr t h' code -> E1 E2 E3. destruct d as [|d]; [lia|]. apply (X2 d i addr t h' code eq_refl E1 E2 E3). lia.
  - apply ew_call_indirect; [|auto]. intros d2 i t t' h' code -> E1 E2 E3 E4. destruct d as [|d]; [lia|]. apply (X2 d i t t' h' code eq_refl E1 E2 E3 E4). lia.
Qed.

(* ---- the stacks ---- *)
Section run.
Context (F : fops) (host : hostcode) (s : store) (Hh : minds_its_business host).
Definition rest (lb : label) : list inst := skipn (lb_index lb) (lb_instr lb).
(* how many calls may still nest (core.py 1754) *)
Definition room (fs : list frame) : nat := 1024 - length fs.
Definition kind (b : bool) : carry := if b then KBlock else KLoop.
(* frames and labels of nested calls; [n] is the number of turns left *)
Inductive stack : option (nat * list bool) -> list frame -> list label -> nat -> Prop :=
| st_none fs : stack None fs [] 0
| st_func x fr fs lb ls h n k : stack x fs ls n -> fr_module fr = MRef h -> fr_label fr = length ls -> lb_carry lb = KFunc ->
    ends_within s (room (fr :: fs)) h [] (rest lb) k -> stack (Some (h, [])) (fr :: fs) (lb :: ls) (1 + k + n)
| st_block h C b fs lb ls n k : stack (Some (h, C)) fs ls n -> lb_carry lb = kind b -> lb_frame lb = length fs ->
    ends_within s (room fs) h (b :: C) (rest lb) k -> stack (Some (h, b :: C)) fs (lb :: ls) (1 + k + n).
Definition code_same (m : machine) : Prop := s_func (k_store m) = s_func s /\ s_inst (k_store m) = s_inst s.
Definition goes (n : nat) (m : machine) : Prop := code_same m /\ exists x n', (n' < n)%nat /\ stack x (k_frame m) (k_label m) n'.

Lemma stack_frame x fs ls n h C : stack x fs ls n -> x = Some (h, C) ->
  exists fr fs' bs lb ls' x' n', fs = fr :: fs' /\ ls = bs ++ lb :: ls' /\ fr_module fr = MRef h /\ fr_label fr = length ls' /\ (n' < n)%nat /\ stack x' fs' ls' n'.
Proof.
  intros H. revert h C. induction H as [|x fr fs lb ls h n k H IH E1 E2 E3 E4|h0 C0 b fs lb ls n k H IH E1 E2 E3]; intros h1 C1 E; [discriminate E| |].
  - injection E as <- <-. exists fr, fs, [], lb, ls, x, n. repeat split; auto. lia.
  - injection E as <- <-. destruct (IH _ _ eq_refl) as (fr & fs' & bs & lb' & ls' & x' & n' & -> & -> & K1 & K2 & K3 & K4).
    exists fr, fs', (lb :: bs), lb', ls', x', n'. repeat split; auto. lia.
Qed.
Lemma stack_label x fs ls n h C k : stack x fs ls n -> x = Some (h, C) -> nth_error C k = Some true ->
  exists lb x' n', nth_error ls k = Some lb /\ lb_carry lb = KBlock /\ lb_frame lb = length fs /\ (n' < n)%nat /\ stack x' fs (skipn (S k) ls) n'.
Proof.
  intros H. revert h C k. induction H as [|x fr fs lb ls h n k0 H IH E1 E2 E3 E4|h0 C0 b fs lb ls n k0 H IH E1 E2 E3]; intros h1 C1 k E N; [discriminate E| |].
  - injection E as <- <-. destruct k; discriminate N.
  - injection E as <- <-. destruct k as [|k]; cbn [nth_error skipn] in *.
    + injection N as ->. exists lb, (Some (h0, C0)), n. repeat split; auto. lia.
    + destruct (IH _ _ _ eq_refl N) as (lb' & x' & n' & K1 & K2 & K3 & K4 & K5). exists lb', x', n'. repeat split; auto. lia.
Qed.
(* the top label, with what is left of its code *)
Lemma stack_top x fs lb ls n : stack x fs (lb :: ls) n ->
  exists h C k n0, x = Some (h, C) /\ n = (1 + k + n0)%nat /\ ends_within s (room fs) h C (rest lb) k /\
    forall lb' k', lb_carry lb' = lb_carry lb -> lb_frame lb' = lb_frame lb -> ends_within s (room fs) h C (rest lb') k' -> stack x fs (lb' :: ls) (1 + k' + n0).
Proof.
  intros H. inversion H as [|x' fr fs' lb' ls' h n' k H1 E1 E2 E3 E4|h C b fs' lb' ls' n' k H1 E1 E2 E3]; subst.
  - exists h, [], k, n'. repeat split; auto. intros lb' k' X1 X2 X3. apply st_func with (x := x'); congruence.
  - exists h, (b :: C), k, n'. repeat split; auto. intros lb' k' X1 X2 X3. apply st_block; congruence.
Qed.
Lemma stack_locals x fr fs ls n L : stack x (fr :: fs) ls n -> stack x (mkframe (fr_module fr) L (fr_arity fr) (fr_label fr) (fr_value fr) :: fs) ls n.
Proof.
  intros H. remember (fr :: fs) as FS eqn:E. induction H as [|x fr' fs' lb ls h n k H IH E1 E2 E3 E4|h0 C0 b fs' lb ls n k H IH E1 E2 E3].
  - constructor.
  - injection E as -> ->. apply st_func with (x := x); auto.
  - subst fs'. apply st_block; auto.
Qed.

Lemma goes_still n m m' : still m m' -> goes n m -> goes n m'.
Proof. intros (E1 & E2 & E3). unfold goes, code_same. rewrite E1, E2, E3. auto. Qed.
Ltac fb := apply fine_bind; [qs|intros ? ? ?].

Lemma br_goes m n h C l : code_same m -> stack (Some (h, C)) (k_frame m) (k_label m) n -> forward C l -> fine (goes n) (evaluate_br l m).
Proof.
  intros HS H [Hl N]. unfold evaluate_br, bind at 1, mget at 1. destruct (stack_label _ _ _ _ _ _ _ H eq_refl N) as (lb & x' & n' & K1 & K2 & K3 & K4 & K5).
  apply fine_bind; [qs|]. intros u m1 (S1 & S2 & S3). rewrite K1. apply fine_bind; [qs|]. intros u2 m2 (T1 & T2 & T3). apply fine_bind; [qs|]. intros rets m3 (U1 & U2 & U3).
  unfold bind, mget, mput. rewrite K2. cbn [fine]. split.
  - unfold code_same in *. cbn [k_store]. now rewrite U3, T3, S3.
  - exists x', n'. split; [exact K4|]. cbn [k_frame k_label]. rewrite U1, U2, T1, T2, S1, S2, K3, keep_all by reflexivity. exact K5.
Qed.
Lemma call_goes m n x a addr : code_same m -> stack x (k_frame m) (k_label m) n ->
  (forall d t h' code, room (k_frame m) = S d -> py_index (s_func s) addr = Ok (FWasm t h' code) -> ends_within s d h' [] (fd_expr code) a) ->
  fine (goes (2 + a + n)) (evaluate_call F host addr m).
Proof.
  intros HS H HC. unfold evaluate_call, bind at 1, mget at 1. destruct HS as [HF HI]. rewrite HF.
  unfold bind at 1, lift at 1. destruct (py_index (s_func s) addr) as [f|e] eqn:EF; [|exact I].
  apply fine_bind; [qs|]. intros args m1 (S1 & S2 & S3). destruct f as [t h' code|t hid]; cbn [fi_type].
  - unfold bind at 1, mget at 1. unfold bind at 1. destruct (Nat.ltb (length (k_frame m1)) 1024) eqn:EL; [|exact I]. apply PeanoNat.Nat.ltb_lt in EL. cbn [assert ret].
    set (m3 := m1). assert (U : still m1 m3) by apply still_refl. destruct U as (U1 & U2 & U3).
    unfold bind, push_frame, mget, push_label, set_frame, set_label. cbn [fine k_store k_value k_label k_frame]. split.
    + unfold code_same. cbn [k_store]. now rewrite U3, S3.
    + exists (Some (h', [])), (1 + a + n)%nat. split; [lia|]. cbn [k_frame k_label]. apply st_func with (x := x).
      * now rewrite U1, U2, S1, S2.
      * reflexivity.
      * cbn [fr_label]. now rewrite U1.
      * reflexivity.
      * apply (HC _ t h' code); [|reflexivity]. rewrite U2. unfold room. cbn [length]. rewrite <- S2. lia.
  - apply fine_bind; [qs|]. intros pargs m2 (T1 & T2 & T3). unfold bind at 1. destruct (host hid pargs m2) as [[rets|e] m3] eqn:EH; [|exact I].
    destruct (Hh _ _ _ _ _ EH) as (K1 & K2 & K3 & K4). apply fine_bind; [qs|]. intros rets' m4 (U1 & U2 & U3).
    destruct (extend rets' m4) as [[u|e] m5] eqn:EX; [|exact I]. apply quiet_extend in EX. destruct EX as (V1 & V2 & V3). cbn [fine]. split.
    + unfold code_same. now rewrite V3, U3, K3, K4, T3, S3.
    + exists x, n. split; [lia|]. now rewrite V1, V2, U1, U2, K1, K2, T1, T2, S1, S2.
Qed.
Lemma enter_goes m n h C b lb t body a : code_same m -> stack (Some (h, C)) (k_frame m) (k_label m) n -> ends_within s (room (k_frame m)) h (b :: C) body a ->
  fine (goes (2 + a + n)) (enter lb (kind b) t body m).
Proof.
  intros HS H HB. unfold enter, bind at 1, mget at 1. apply fine_bind; [qs|]. intros u m1 (S1 & S2 & S3). cbn [push_label fine]. split.
  - unfold code_same in *. cbn [set_label k_store]. now rewrite S3.
  - exists (Some (h, b :: C)), (1 + a + n)%nat. split; [lia|]. cbn [set_label k_frame k_label]. apply st_block.
    + now rewrite S1, S2.
    + reflexivity.
    + cbn [lb_frame]. now rewrite S2.
    + rewrite S2. exact HB.
Qed.
Lemma mod_same m : code_same m -> forall h, mod_of (k_store m) (MRef h) = mod_of s (MRef h).
Proof. intros [_ E] h. cbn [mod_of]. now rewrite E. Qed.

Lemma exec_goes m h C lb fr i is k n : code_same m -> ends_within s (room (k_frame m)) h C (i :: is) k -> fr_module fr = MRef h ->
  (forall k', ends_within s (room (k_frame m)) h C is k' -> stack (Some (h, C)) (k_frame m) (k_label m) (1 + k' + n)) -> (exists fs, k_frame m = fr :: fs) ->
  fine (goes (1 + k + n)) (exec F host lb fr i m).
Proof.
  intros HS H Hm HK [fs HFR]. pose proof (mod_same m HS) as HM.
  inversion H as [|d0 h' C' o args is' n' X H1|d0 h' C' bt body is' a n' H1 H2|d0 h' C' bt body is' a n' H1 H2|d0 h' C' bt th el is' a b n' H1 H2 H3
    |d0 h' C' o args is' n' X1 X2 H1|d0 h' C' args is' n' X1 X2 H1|d0 h' C' args is' a n' X1 H1|d0 h' C' args is' a n' X1 H1]; subst.
  - specialize (HK _ H1). destruct (is_control o) eqn:EC.
    + destruct o; try discriminate EC; try discriminate X; try exact I. cbn [exec].
      unfold bind at 1, mget at 1. apply fine_bind; [qs|]. intros u m1 (S1 & S2 & S3). apply fine_bind; [qs|]. intros rets m2 (T1 & T2 & T3).
      destruct (stack_frame _ _ _ _ _ _ HK eq_refl) as (fr' & fs' & bs & lb' & ls' & x' & n1 & K1 & K2 & K3 & K4 & K5 & K6).
      rewrite HFR in K1. injection K1 as <- <-.
      unfold bind at 1, pop_frame. rewrite T2, S2, HFR. unfold bind, mget, mput, set_frame. cbn [fine k_store k_label k_frame]. split.
      * unfold code_same in *. cbn [k_store]. now rewrite T3, S3.
      * exists x', n1. split; [lia|]. cbn [k_frame k_label]. rewrite T1, S1, K2, K4. change (bs ++ lb' :: ls') with (bs ++ [lb'] ++ ls').
        rewrite app_assoc, keep_app, keep_all by lia. exact K6.
    + rewrite exec_op_basic by exact EC. unfold on_basic. rewrite HFR.
      pose proof (kf_basic F (fr_module fr) o args (mkb (k_store m) (fr_locals fr) (k_value m))) as KF.
      pose proof (ki_basic F (fr_module fr) o args (mkb (k_store m) (fr_locals fr) (k_value m))) as KI.
      destruct (exec_basic F (fr_module fr) o args (mkb (k_store m) (fr_locals fr) (k_value m))) as [[u|e] b]; [|exact I]. cbn [snd b_store fine] in *. split.
      * unfold code_same in *. cbn [k_store]. now rewrite KF, KI.
      * exists (Some (h, C)), (1 + n' + n)%nat. split; [lia|]. cbn [k_frame k_label]. apply stack_locals. rewrite <- HFR. exact HK.
  - specialize (HK _ H2). cbn [exec]. apply fine_bind; [qs|]. intros t m1 (S1 & S2 & S3). replace (1 + (2 + a + n') + n)%nat with (2 + a + (1 + n' + n))%nat by lia.
    apply (enter_goes m1 _ h C true); [unfold code_same in *; now rewrite S3|now rewrite S1, S2|now rewrite S2].
  - specialize (HK _ H2). cbn [exec]. apply fine_bind; [qs|]. intros t m1 (S1 & S2 & S3). replace (1 + (2 + a + n') + n)%nat with (2 + a + (1 + n' + n))%nat by lia.
    apply (enter_goes m1 _ h C false); [unfold code_same in *; now rewrite S3|now rewrite S1, S2|now rewrite S2].
  - specialize (HK _ H3). cbn [exec]. apply fine_bind; [qs|]. intros t m1 (S1 & S2 & S3). apply fine_bind; [qs|]. intros v m2 (T1 & T2 & T3). apply fine_bind; [qs|]. intros c m3 (U1 & U2 & U3).
    replace (1 + (2 + Nat.max a b + n') + n)%nat with (2 + Nat.max a b + (1 + n' + n))%nat by lia.
    apply (enter_goes m3 _ h C true); [unfold code_same in *; now rewrite U3, T3, S3|now rewrite U1, U2, T1, T2, S1, S2|]. rewrite U2, T2, S2.
    destruct (c =? 0); [apply ends_more with b|apply ends_more with a]; try assumption; lia.
  - specialize (HK _ H1). assert (G : forall m1, still m m1 -> fine (goes (1 + S n' + n)) ((let! l := lift (arg_int args 0) in evaluate_br l) m1)).
    { intros m1 (S1 & S2 & S3). unfold bind, lift. destruct (arg_int args 0) as [l|e] eqn:EA; [|exact I].
      assert (B : fine (goes (1 + n' + n)) (evaluate_br l m1)) by (apply (br_goes m1 _ h C); [unfold code_same in *; now rewrite S3|now rewrite S1, S2|exact (X2 _ eq_refl)]).
      destruct (evaluate_br l m1) as [[u|e] m2]; [|exact I]. destruct B as (B1 & x & n1 & B2 & B3). split; [exact B1|]. exists x, n1. split; [lia|exact B3]. }
    destruct X1 as [<-|[<-|[]]]; cbn [exec]; [apply G, still_refl|].
    apply fine_bind; [qs|]. intros v m1 (S1 & S2 & S3). apply fine_bind; [qs|]. intros c m2 (T1 & T2 & T3). assert (ST : still m m2) by (unfold still; now rewrite T1, T2, T3).
    destruct (c =? 0); [|exact (G m2 ST)]. cbn [ret fine]. apply (goes_still _ m); [exact ST|]. split; [exact HS|]. exists (Some (h, C)), (1 + n' + n)%nat. split; [lia|exact HK].
  - specialize (HK _ H1). cbn [exec]. apply fine_bind; [qs|]. intros v m1 (S1 & S2 & S3). apply fine_bind; [qs|]. intros a m2 (T1 & T2 & T3).
    unfold bind at 1, lift at 1. destruct (arg_int args 1) as [b|e] eqn:EB; [|exact I]. unfold bind at 1, lift at 1. destruct (arg_list args 0) as [ls|e] eqn:EL; [|exact I].
    assert (G : forall l, forward C l -> fine (goes (1 + S n' + n)) (evaluate_br l m2)).
    { intros l HL. assert (B : fine (goes (1 + n' + n)) (evaluate_br l m2)) by (apply (br_goes m2 _ h C); [unfold code_same in *; now rewrite T3, S3|now rewrite T1, T2, S1, S2|exact HL]).
      destruct (evaluate_br l m2) as [[u|e] m3]; [|exact I]. destruct B as (B1 & x & n1 & B2 & B3). split; [exact B1|]. exists x, n1. split; [lia|exact B3]. }
    unfold bind at 1. destruct (a <? len ls).
    + unfold lift. destruct (py_index ls a) as [l|e] eqn:EI; [|exact I]. apply G. specialize (X2 _ eq_refl). rewrite Forall_forall in X2. apply X2. exact (index_In _ _ _ EI).
    + cbn [ret]. apply G. exact (X1 _ eq_refl).
  - specialize (HK _ H1). cbn [exec]. unfold bind at 1, lift at 1. destruct (arg_int args 0) as [i|e] eqn:EA; [|exact I]. unfold bind at 1, mget at 1.
    unfold bind at 1, lift at 1. rewrite Hm, HM. destruct (py_index (m_func (mod_of s (MRef h))) i) as [addr|e] eqn:EI; [|exact I].
    replace (1 + (2 + a + n') + n)%nat with (2 + a + (1 + n' + n))%nat by lia. apply call_goes with (x := Some (h, C)); [exact HS|exact HK|].
    intros d t h' code ED EF. exact (X1 _ _ _ _ _ _ ED eq_refl EI EF).
  - specialize (HK _ H1). cbn [exec]. unfold bind at 1, mget at 1. apply fine_bind; [qs|]. intros j m1 (S1 & S2 & S3). apply fine_bind; [qs|]. intros ta m2 (T1 & T2 & T3).
    apply fine_bind; [qs|]. intros tabl m3 (U1 & U2 & U3). unfold bind at 1, lift at 1. destruct (arg_int args 0) as [i|e] eqn:EA; [|exact I].
    unfold bind at 1, lift at 1. rewrite Hm, HM. destruct (py_index (m_type (mod_of s (MRef h))) i) as [t|e] eqn:ET; [|exact I].
    apply fine_bind; [qs|]. intros v m4 (V1 & V2 & V3). apply fine_bind; [qs|]. intros k m5 (W1 & W2 & W3). apply fine_bind; [qs|]. intros r m6 (Y1 & Y2 & Y3).
    apply fine_bind; [qs|]. intros addr m7 (Z1 & Z2 & Z3). unfold bind at 1, lift at 1. pose proof HS as [HF _]. rewrite HF. destruct (py_index (s_func s) addr) as [f|e] eqn:EF; [|exact I].
    unfold bind at 1. destruct (ft_eqb (fi_type f) t) eqn:EQ; [|exact I]. cbn [assert ret].
    replace (1 + (2 + a + n') + n)%nat with (2 + a + (1 + n' + n))%nat by lia. apply call_goes with (x := Some (h, C)).
    + unfold code_same in *. now rewrite Z3, Y3, W3, V3, U3, T3, S3.
    + now rewrite Z1, Z2, Y1, Y2, W1, W2, V1, V2, U1, U2, T1, T2, S1, S2.
    + intros d t' h' code ED E. rewrite EF in E. injection E as ->. rewrite Z2, Y2, W2, V2, U2, T2, S2 in ED. exact (X1 _ _ _ _ _ _ ED eq_refl ET (index_In _ _ _ EF) EQ).
Qed.

Lemma rest_at lb i is : rest lb = i :: is -> nth_error (lb_instr lb) (lb_index lb) = Some i /\ skipn (S (lb_index lb)) (lb_instr lb) = is.
Proof.
  unfold rest. generalize (lb_instr lb). induction (lb_index lb) as [|j IH]; intros l E.
  - cbn in E. subst l. split; reflexivity.
  - destruct l as [|y l]; [discriminate E|]. cbn in E |- *. exact (IH _ E).
Qed.
Lemma rest_past lb i : nth_error (lb_instr lb) (lb_index lb) = Some i -> rest lb = i :: skipn (S (lb_index lb)) (lb_instr lb).
Proof.
  unfold rest. generalize (lb_instr lb). induction (lb_index lb) as [|j IH]; intros [|y l] E; try discriminate E.
  - cbn in E |- *. injection E as ->. reflexivity.
  - cbn in E |- *. exact (IH _ E).
Qed.
Lemma step_goes m x n : code_same m -> stack x (k_frame m) (k_label m) n -> k_label m <> [] -> fine (goes n) (step F host m).
Proof.
  intros HS H HL. destruct (k_label m) as [|lb ls] eqn:EL; [congruence|]. destruct (stack_top _ _ _ _ _ H) as (h & C & k & n0 & -> & -> & HE & HT).
  destruct (stack_frame _ _ _ _ _ _ H eq_refl) as (fr & fs & _ & _ & _ & _ & _ & HFR & _ & HMR & _).
  unfold step, bind at 1, mget at 1. rewrite EL. unfold bind at 1, top_frame. rewrite HFR. destruct (Nat.eqb (lb_index lb) (length (lb_instr lb))) eqn:EN.
  - unfold bind, mget, mput, set_label. cbn [k_store k_value k_frame k_label].
    inversion H as [|x' fr' fs' lb' ls' h' n' k' H1 E1 E2 E3 E4|h' C' b fs' lb' ls' n' k' H1 E1 E2 E3]; subst.
    + rewrite E3. match goal with |- context [assert ?b _] => destruct b; [|exact I] end. unfold assert, ret, pop_frame. cbn [k_frame fine set_frame]. split.
      * exact HS.
      * exists x', n'. split; [lia|exact H1].
    + rewrite E1. assert (fine (goes (1 + k + n0)) (ret tt (mkmach (k_store m) (k_value m) ls (k_frame m)))).
      { cbn [ret fine]. split; [exact HS|]. exists (Some (h, C')), n'. split; [lia|]. cbn [k_frame k_label]. exact H1. }
      destruct b; exact H0.
  - destruct (nth_error (lb_instr lb) (lb_index lb)) as [i|] eqn:EI; [|exact I]. pose proof (rest_past _ _ EI) as ER. rewrite ER in HE.
    unfold bind at 1, mget at 1. unfold bind at 1, mput, set_label. cbn [k_store k_value k_frame].
    apply exec_goes with (h := h) (C := C) (is := skipn (S (lb_index lb)) (lb_instr lb)); [exact HS|exact HE|exact HMR| |exists fs; exact HFR].
    intros k' HK. cbn [k_frame k_label]. apply HT; [reflexivity|reflexivity|exact HK].
Qed.
Lemma label_cost x fs ls n : stack x fs ls n -> ls <> [] -> (0 < n)%nat.
Proof. intros H HL. destruct ls as [|lb ls]; [congruence|]. destruct (stack_top _ _ _ _ _ H) as (h & C & k & n0 & _ & -> & _). lia. Qed.
Lemma evaluate_goes n : forall m x, code_same m -> stack x (k_frame m) (k_label m) n ->
  (forall j, (n <= j)%nat -> evaluate F host j m = evaluate F host n m) /\ (forall u m', evaluate F host n m = (Ok u, m') -> k_label m' = []).
Proof.
  induction n as [n IH] using lt_wf_ind. intros m x HS H. destruct (k_label m) as [|lb ls] eqn:EL.
  - assert (E : forall j, evaluate F host j m = (Ok tt, m)) by (intros [|j]; cbn [evaluate]; [reflexivity|now rewrite EL]). split; [intros j _; now rewrite !E|]. intros u m'. rewrite E. intros X. injection X as _ <-. exact EL.
  - rewrite <- EL in H. assert (HL : k_label m <> []) by (rewrite EL; discriminate). pose proof (label_cost _ _ _ _ H HL). destruct n as [|n]; [lia|].
    pose proof (step_goes _ _ _ HS H HL) as SG.
    assert (E : forall j, evaluate F host (S j) m = (step F host ;; evaluate F host j) m) by (intros j; cbn [evaluate]; now rewrite EL). 
    unfold bind in E. destruct (step F host m) as [[u|e] m1] eqn:ES.
    + destruct SG as (G1 & x1 & n1 & G2 & G3). destruct (IH n1 G2 m1 x1 G1 G3) as [I1 I2]. split.
      * intros [|j] Hj; [lia|]. rewrite !E. rewrite (I1 j), (I1 n) by lia. reflexivity.
      * intros u' m'. rewrite E, (I1 n) by lia. apply I2.
    + split; [intros [|j] Hj; [lia|]; now rewrite !E|]. intros u m'. rewrite E. discriminate.
Qed.
End run.
