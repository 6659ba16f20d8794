(* The stacks stay bounded (C135). *)
From Coq Require Import ZArith List Bool Lia ZifyBool ZifyNat.
From Verif Require Import Py Floatops Val Opcode Numeric Syntax Store Basic Machine SpecControl SpecType SpecStacks PyFacts StepFacts ControlFacts CodeFacts EndsFacts StacksBasicFacts.
Import ListNotations.
Open Scope Z_scope.

(* ---- parts of a turn that push nothing ---- *)
Definition calm (m m' : machine) : Prop := still m m' /\ (length (k_value m') <= length (k_value m))%nat.
Definition mild {A} (c : M A) : Prop := forall m a m', c m = (Ok a, m') -> calm m m'.
Lemma calm_refl m : calm m m. Proof. split; [apply still_refl|lia]. Qed.
Lemma calm_trans a b c : calm a b -> calm b c -> calm a c.
Proof. intros [(E1 & E2 & E3) L1] [(E4 & E5 & E6) L2]. split; [|lia]. unfold still. now rewrite E4, E5, E6. Qed.
Lemma mild_bind {A B'} (c : M A) (f : A -> M B') P m : mild c -> (forall a m', calm m m' -> fine P (f a m')) -> fine P (bind c f m).
Proof. intros Q H. unfold bind. destruct (c m) as [[a|x] m'] eqn:E; [apply H, (Q _ _ _ E)|exact I]. Qed.
Lemma mild_lift {A} (r : res A) : mild (lift r). Proof. intros m b m' E. unfold lift in E. injection E as _ <-. apply calm_refl. Qed.
Lemma mild_ret {A} (a : A) : mild (ret a). Proof. intros m b m' E. injection E as _ <-. apply calm_refl. Qed.
Lemma mild_popv : mild popv.
Proof. intros m b m' E. unfold popv in E. destruct (k_value m) eqn:EV; [discriminate E|]. injection E as _ <-. split; [repeat split|]. cbn [set_value k_value]. rewrite EV. cbn [length]. lia. Qed.
Lemma mild_top : mild top_frame. Proof. intros m b m' E. unfold top_frame in E. destruct (k_frame m); [discriminate E|]. injection E as _ <-. apply calm_refl. Qed.
Lemma popn_len n : forall m l m', popn n m = (Ok l, m') -> length l = n /\ calm m m'.
Proof.
  induction n as [|n IH]; intros m l m' E; cbn [popn] in E.
  - injection E as <- <-. split; [reflexivity|apply calm_refl].
  - unfold bind in E. destruct (popv m) as [[v|x] m1] eqn:E1; [|discriminate E]. destruct (popn n m1) as [[vs|x] m2] eqn:E2; [|discriminate E]. injection E as <- <-.
    destruct (IH _ _ _ E2) as [L C]. split; [rewrite app_length; cbn [length]; lia|]. exact (calm_trans _ _ _ (mild_popv _ _ _ E1) C).
Qed.
Lemma keep_len {A} n (l : list A) : (length (keep n l) <= n)%nat.
Proof. unfold keep. rewrite skipn_length. lia. Qed.
Lemma rmapl_len {A B'} (f : A -> res B') l l' : rmapl f l = Ok l' -> length l' = length l.
Proof.
  revert l'. induction l as [|x l IH]; intros l' E; cbn [rmapl] in E; [injection E as <-; reflexivity|].
  unfold rbind in E. destruct (f x); [|discriminate E]. destruct (rmapl f l) eqn:E2; [|discriminate E]. injection E as <-. cbn [length]. now rewrite (IH _ eq_refl).
Qed.

(* ---- what code can push, and how deep it nests ---- *)
Section grow.
Context (R : nat).
Fixpoint grow (i : inst) : nat :=
  match i with
  | IBlock _ b | ILoop _ b => R + list_sum (map grow b)
  | IIf _ a b => R + (list_sum (map grow a) + list_sum (map grow b))
  | IOp _ _ => 1 + R
  end.
Definition total (is : list inst) : nat := list_sum (map grow is).
Lemma total_app a b : total (a ++ b) = (total a + total b)%nat.
Proof. unfold total. now rewrite map_app, list_sum_app. Qed.
Lemma total_first n is : (total (firstn n is) <= total is)%nat.
Proof. rewrite <- (firstn_skipn n is) at 2. rewrite total_app. lia. Qed.
Lemma total_next n is i : nth_error is n = Some i -> total (firstn (S n) is) = (total (firstn n is) + grow i)%nat.
Proof.
  revert n. induction is as [|x is IH]; intros [|n] E; try discriminate E.
  - injection E as ->. cbn. lia.
  - cbn [nth_error] in E. change (firstn (S (S n)) (x :: is)) with ([x] ++ firstn (S n) is). change (firstn (S n) (x :: is)) with ([x] ++ firstn n is). rewrite !total_app, (IH _ E). lia.
Qed.
End grow.
Fixpoint deep (i : inst) : nat :=
  match i with
  | IBlock _ b | ILoop _ b => S (list_max (map deep b))
  | IIf _ a b => S (Nat.max (list_max (map deep a)) (list_max (map deep b)))
  | IOp _ _ => 0
  end.
Definition deeps (is : list inst) : nat := list_max (map deep is).
Lemma deeps_in i is : In i is -> (deep i <= deeps is)%nat.
Proof. unfold deeps. induction is as [|x is IH]; [intros []|]. cbn [map list_max fold_right]. intros [->|H]; [lia|]. specialize (IH H). unfold list_max in *. lia. Qed.
Lemma inside_one d is i : stays_inside d is -> In i is -> stays_inside d [i].
Proof.
  intros H. induction H as [|d o args is X H IH|d bt body is H1 IH1 H2 IH2|d bt body is H1 IH1 H2 IH2|d bt th el is H1 IH1 H2 IH2 H3 IH3|d o args is X1 X2 H IH|d args is X1 X2 H IH]; intros HI;
    [destruct HI|destruct HI as [<-|HI]; [|auto]..].
  - apply si_plain; [exact X|constructor].
  - apply si_block; [exact H1|constructor].
  - apply si_loop; [exact H1|constructor].
  - apply si_if; [exact H1|exact H2|constructor].
  - apply si_br; [exact X1|exact X2|constructor].
  - apply si_br_table; [exact X1|exact X2|constructor].
Qed.

(* ---- the stacks ---- *)
Section run.
Context (F : fops) (host : hostcode) (s : store) (Hh : leaves_stacks host) (R T D base : nat) (HR : (1 <= R)%nat).
Definition small_type (t : functype) : Prop := (length (ft_args t) <= R /\ length (ft_rets t) <= R)%nat.
Definition small_code (is : list inst) : Prop := stays_inside 0 is /\ (total R is <= T)%nat /\ (deeps is <= D)%nat.
Context (HF : Forall (fun f => small_type (fi_type f) /\ forall t h code, f = FWasm t h code -> small_code (fd_expr code)) (s_func s)).
Context (HI : Forall (fun mi => Forall small_type (m_type mi)) (s_inst s)).

Definition allow (lb : label) : nat := lb_value lb + R + total R (firstn (lb_index lb) (lb_instr lb)).
(* frames and labels of nested calls; the last number is how many operands there may be *)
Inductive tower : option (nat * nat) -> list frame -> list label -> nat -> Prop :=
| tw_none fs : tower None fs [] base
| tw_func x fr fs lb ls h c : tower x fs ls c -> fr_module fr = MRef h -> fr_label fr = length ls -> lb_carry lb = KFunc ->
    small_code (lb_instr lb) -> fr_value fr = lb_value lb -> (fr_value fr + fr_arity fr <= c)%nat -> tower (Some (h, O)) (fr :: fs) (lb :: ls) (allow lb)
| tw_block h d fs lb ls c : tower (Some (h, d)) fs ls c -> lb_carry lb <> KFunc -> lb_frame lb = length fs ->
    stays_inside (S d) (lb_instr lb) -> (S d + deeps (lb_instr lb) <= D)%nat -> (lb_arity lb <= R)%nat -> (lb_value lb + R + total R (lb_instr lb) <= c)%nat ->
    tower (Some (h, S d)) fs (lb :: ls) (allow lb).
Definition ok (m : machine) : Prop := code_same s m /\ (length (k_frame m) <= 1024)%nat /\ exists x c, tower x (k_frame m) (k_label m) c /\ (length (k_value m) <= c)%nat.

Lemma tower_frame x fs ls c h d : tower x fs ls c -> x = Some (h, d) ->
  exists fr fs' bs lb ls' x' c', fs = fr :: fs' /\ ls = bs ++ lb :: ls' /\ fr_module fr = MRef h /\ fr_label fr = length ls' /\ tower x' fs' ls' c' /\ (fr_value fr + fr_arity fr <= c')%nat.
Proof.
  intros H. revert h d. induction H as [|x fr fs lb ls h c H IH E1 E2 E3 E4 E5 E6|h0 d0 fs lb ls c H IH E1 E2 E3 E4 E5 E6]; intros h1 d1 E; [discriminate E| |].
  - injection E as <- <-. exists fr, fs, [], lb, ls, x, c. repeat split; auto.
  - injection E as <- <-. destruct (IH _ _ eq_refl) as (fr & fs' & bs & lb' & ls' & x' & c' & -> & -> & K1 & K2 & K3 & K4).
    exists fr, fs', (lb :: bs), lb', ls', x', c'. repeat split; auto.
Qed.
Lemma tower_label x fs ls c h d k : tower x fs ls c -> x = Some (h, d) -> (k < d)%nat ->
  exists lb d' c', nth_error ls k = Some lb /\ lb_carry lb <> KFunc /\ lb_frame lb = length fs /\ stays_inside (S d') (lb_instr lb) /\ (S d' + deeps (lb_instr lb) <= D)%nat /\
    (lb_arity lb <= R)%nat /\ (lb_value lb + R + total R (lb_instr lb) <= c')%nat /\ tower (Some (h, d')) fs (skipn (S k) ls) c'.
Proof.
  intros H. revert h d k. induction H as [|x fr fs lb ls h c H IH E1 E2 E3 E4 E5 E6|h0 d0 fs lb ls c H IH E1 E2 E3 E4 E5 E6]; intros h1 d1 k E L; [discriminate E| |].
  - injection E as <- <-. lia.
  - injection E as <- <-. destruct k as [|k]; cbn [nth_error skipn].
    + exists lb, d0, c. auto 10.
    + apply (IH _ _ k eq_refl). lia.
Qed.
(* the top label may go on with the next instruction *)
Lemma tower_top x fs lb ls c : tower x fs (lb :: ls) c ->
  exists h d, x = Some (h, d) /\ c = allow lb /\ stays_inside d (lb_instr lb) /\ (d + deeps (lb_instr lb) <= D)%nat /\
    forall j, let lb' := mklabel (lb_arity lb) (lb_frame lb) (lb_value lb) (lb_carry lb) (lb_instr lb) j in tower x fs (lb' :: ls) (allow lb').
Proof.
  intros H. inversion H as [|x' fr fs' lb' ls' h c' H1 E1 E2 E3 E4 E5 E6|h d fs' lb' ls' c' H1 E1 E2 E3 E4 E5 E6]; subst.
  - exists h, O. destruct E4 as (S1 & S2 & S3). split; [reflexivity|]. split; [reflexivity|]. split; [exact S1|]. split; [exact S3|]. intros j lb'. apply tw_func with x' c'; auto. split; auto.
  - exists h, (S d). split; [reflexivity|]. split; [reflexivity|]. split; [exact E3|]. split; [exact E4|]. intros j lb'. apply tw_block with c'; auto.
Qed.
Lemma tower_locals x fr fs ls c L : tower x (fr :: fs) ls c -> tower x (mkframe (fr_module fr) L (fr_arity fr) (fr_label fr) (fr_value fr) :: fs) ls c.
Proof.
  intros H. remember (fr :: fs) as FS eqn:E. induction H as [|x fr' fs' lb ls h c H IH E1 E2 E3 E4 E5 E6|h0 d0 fs' lb ls c H IH E1 E2 E3 E4 E5 E6].
  - constructor.
  - injection E as -> ->. apply tw_func with x c; auto.
  - subst fs'. apply tw_block with c; auto.
Qed.
(* what the numbers are good for *)
Lemma tower_bounds x fs ls c : tower x fs ls c ->
  (c <= base + length fs * (R + T))%nat /\
  match x with None => ls = [] | Some (_, d) => (d <= D /\ length ls + D <= length fs * (1 + D) + d)%nat end.
Proof.
  intros H. induction H as [fs|x fr fs lb ls h c H [I1 I2] E1 E2 E3 E4 E5 E6|h0 d0 fs lb ls c H [I1 I2] E1 E2 E3 E4 E5 E6].
  - split; [lia|reflexivity].
  - destruct E4 as (_ & S2 & _). split.
    + unfold allow. pose proof (total_first R (lb_index lb) (lb_instr lb)). cbn [length]. rewrite PeanoNat.Nat.mul_succ_l. set (p := (length fs * (R + T))%nat) in *. clearbody p. lia.
    + split; [lia|]. cbn [length]. rewrite PeanoNat.Nat.mul_succ_l. set (p := (length fs * (1 + D))%nat) in *. clearbody p. destruct x as [[h' d']|]; [lia|subst ls; cbn [length]; lia].
  - split.
    + unfold allow. pose proof (total_first R (lb_index lb) (lb_instr lb)). lia.
    + cbn [length]. lia.
Qed.
Lemma ok_calm m m' : calm m m' -> ok m -> ok m'.
Proof. intros [(E1 & E2 & E3) L] (H1 & H2 & x & c & H3 & H4). unfold ok, code_same in *. rewrite E1, E2, E3. split; [exact H1|]. split; [exact H2|]. exists x, c. split; [exact H3|lia]. Qed.
Ltac ms := first [apply mild_lift|apply mild_ret|apply mild_popv|apply mild_top].
Lemma bype_small bt m : code_same s m -> (forall fr fs, k_frame m = fr :: fs -> exists h, fr_module fr = MRef h) ->
  forall t m', evaluate_bype bt m = (Ok t, m') -> m' = m /\ small_type t.
Proof.
  intros [_ HS] HM t m'. destruct bt; cbn [evaluate_bype].
  - intros E. injection E as <- <-. split; [reflexivity|]. unfold small_type. cbn. lia.
  - intros E. injection E as <- <-. split; [reflexivity|]. unfold small_type. cbn. lia.
  - unfold bind, top_frame, mget, lift. destruct (k_frame m) as [|fr fs]; [discriminate|]. destruct (HM _ _ eq_refl) as [h ->]. cbn [mod_of]. rewrite HS.
    destruct (py_index (m_type (nth h (s_inst s) modinst_empty)) i) as [t'|] eqn:E; [|discriminate]. intros X. injection X as <- <-. apply index_In in E.
    assert (small_type t').
    { destruct (nth_in_or_default h (s_inst s) modinst_empty) as [N|N]; [|rewrite N in E; destruct E]. rewrite Forall_forall in HI. specialize (HI _ N). rewrite Forall_forall in HI. exact (HI _ E). }
    split; [reflexivity|exact H].
Qed.

Lemma br_ok m x h d l c : code_same s m -> (length (k_frame m) <= 1024)%nat -> x = Some (h, d) -> tower x (k_frame m) (k_label m) c -> inward d l -> fine ok (evaluate_br l m).
Proof.
  intros HS HL -> H [Hl Hd]. unfold evaluate_br, bind at 1, mget at 1.
  destruct (tower_label _ _ _ _ _ _ (Z.to_nat l) H eq_refl ltac:(lia)) as (lb & d' & c' & K1 & K2 & K3 & K4 & K5 & K6 & K7 & K8).
  unfold bind at 1. destruct (assert _ m) as [[u|e] m1] eqn:EA; [|exact I]. assert (m1 = m) as ->.
  { unfold assert in EA. destruct (_ >=? _); [injection EA as _ <-; reflexivity|discriminate EA]. }
  clear EA. rewrite K1. unfold bind at 1. destruct (assert _ m) as [[u2|e] m1] eqn:EA; [|exact I]. assert (m1 = m) as ->.
  { unfold assert in EA. destruct (Nat.leb _ _); [injection EA as _ <-; reflexivity|discriminate EA]. }
  unfold bind at 1. destruct (popn (lb_arity lb) m) as [[rets|e] m2] eqn:EP; [|exact I]. destruct (popn_len _ _ _ _ EP) as [L1 [(S1 & S2 & S3) L2]].
  unfold bind, mget, mput. cbn [fine]. unfold ok, code_same in *. cbn [k_store k_frame k_label k_value]. rewrite S1, S2, S3, K3. rewrite (keep_all (length (k_frame m))) by reflexivity.
  split; [exact HS|]. split; [exact HL|].
  assert (LV : (length (rev rets ++ keep (lb_value lb) (k_value m2)) <= lb_value lb + R)%nat) by (rewrite app_length, rev_length; pose proof (keep_len (lb_value lb) (k_value m2)); lia).
  destruct (lb_carry lb) eqn:EC; [|exists (Some (h, d')), c'; split; [exact K8|lia]|congruence].
  eexists (Some (h, S d')), _. split; [apply tw_block with c'; cbn [lb_carry lb_frame lb_instr lb_arity lb_value]; auto; discriminate|]. unfold allow. cbn [lb_value lb_index lb_instr firstn]. cbn. lia.
Qed.
Lemma enter_ok m h d lb k t body c : code_same s m -> (length (k_frame m) <= 1024)%nat -> tower (Some (h, d)) (k_frame m) (k_label m) c -> k <> KFunc -> small_type t ->
  stays_inside (S d) body -> (S d + deeps body <= D)%nat -> (length (k_value m) + R + total R body <= c)%nat -> fine ok (enter lb k t body m).
Proof.
  intros HS HL H HK [HA HB] H1 H2 H3. unfold enter, bind at 1, mget at 1. unfold bind at 1. destruct (Nat.leb _ _) eqn:EL; [|exact I]. apply PeanoNat.Nat.leb_le in EL.
  cbn [assert ret push_label fine]. unfold ok. cbn [set_label k_store k_frame k_label k_value]. split; [exact HS|]. split; [exact HL|].
  eexists (Some (h, S d)), _. split.
  - apply tw_block with c; cbn [lb_carry lb_frame lb_instr lb_arity lb_value]; auto; [destruct k; lia|]. lia.
  - unfold allow. cbn [lb_value lb_index lb_instr firstn]. cbn. lia.
Qed.
Lemma call_ok m x addr c : code_same s m -> (length (k_frame m) <= 1024)%nat -> tower x (k_frame m) (k_label m) c -> (length (k_value m) + R <= c)%nat ->
  fine ok (evaluate_call F host addr m).
Proof.
  intros [HS1 HS2] HL H HV. unfold evaluate_call, bind at 1, mget at 1. rewrite HS1. unfold bind at 1, lift at 1. destruct (py_index (s_func s) addr) as [f|e] eqn:EF; [|exact I].
  apply index_In in EF. rewrite Forall_forall in HF. destruct (HF _ EF) as [[HA HB] HC]. unfold bind at 1. destruct (popn (length (ft_args (fi_type f))) m) as [[args|e] m1] eqn:EP; [|exact I].
  destruct (popn_len _ _ _ _ EP) as [_ [(S1 & S2 & S3) L2]]. destruct f as [t h' code|t hid]; cbn [fi_type] in *.
  - unfold bind at 1, mget at 1. unfold bind at 1. destruct (Nat.ltb (length (k_frame m1)) 1024) eqn:EL; [|exact I]. apply PeanoNat.Nat.ltb_lt in EL. cbn [assert ret].
    unfold bind, push_frame, mget, push_label, set_frame, set_label. cbn [fine k_store k_value k_label k_frame]. unfold ok, code_same. cbn [k_store k_value k_label k_frame].
    split; [rewrite S3; now split|]. split; [cbn [k_frame length]; lia|]. eexists _, _. cbn [k_frame k_label k_value]. split.
    + apply tw_func with x c; cbn [fr_module fr_label fr_value fr_arity lb_carry lb_instr lb_value]; try reflexivity; [now rewrite S1, S2|exact (HC _ _ _ eq_refl)|lia].
    + unfold allow. cbn [lb_value lb_index lb_instr firstn]. cbn. lia.
  - unfold bind at 1, lift at 1. destruct (rmapl (into_all F) args) as [pargs|e]; [|exact I]. unfold bind at 1. destruct (host hid pargs m1) as [[rets|e] m3] eqn:EH; [|exact I].
    destruct (Hh _ _ _ _ _ EH) as (K1 & K2 & K3 & K4 & K5). unfold bind, lift. destruct (from_alls F (ft_rets t) rets) as [rs|e] eqn:ER; [|exact I]. unfold from_alls in ER. apply rmapl_len in ER.
    cbn [extend fine]. unfold ok, code_same. cbn [set_value k_store k_value k_label k_frame]. rewrite K1, K2, K3, K4, K5, S1, S2, S3. split; [now split|]. split; [exact HL|].
    exists x, c. split; [exact H|]. rewrite app_length, rev_length, ER, combine_length. lia.
Qed.
Lemma exec_ok m h d lb fr i c : code_same s m -> (length (k_frame m) <= 1024)%nat -> tower (Some (h, d)) (k_frame m) (k_label m) c -> (exists fs, k_frame m = fr :: fs) ->
  (length (k_value m) + grow R i <= c)%nat -> stays_inside d [i] -> (d + deep i <= D)%nat -> fine ok (exec F host lb fr i m).
Proof.
  intros HS HL HT [fs HFR] HV HI1 HD.
  destruct (tower_frame _ _ _ _ _ _ HT eq_refl) as (fr' & fs' & bs & lb' & ls' & x' & c' & K1 & K2 & K3 & K4 & K5 & K6). rewrite HFR in K1. injection K1 as <- <-.
  assert (BT : forall bt (f : functype -> M unit), (forall t, small_type t -> fine ok (f t m)) -> fine ok ((let! t := evaluate_bype bt in f t) m)).
  { intros bt f Hf. unfold bind. destruct (evaluate_bype bt m) as [[t|e] m1] eqn:E; [|exact I]. destruct (bype_small bt m HS) with (2 := E) as [-> X]; [|exact (Hf _ X)].
    intros fr2 fs2 E2. rewrite HFR in E2. injection E2 as <- <-. now exists h. }
  assert (BR : forall l m1, calm m m1 -> inward d l -> fine ok (evaluate_br l m1)).
  { intros l m1 [(S1 & S2 & S3) _] X. apply br_ok with (Some (h, d)) h d c; auto; [unfold code_same in *; now rewrite S3|now rewrite S2|now rewrite S1, S2]. }
  assert (CA : forall a m1, calm m m1 -> grow R i = (1 + R)%nat -> fine ok (evaluate_call F host a m1)).
  { intros a m1 [(S1 & S2 & S3) L] X. apply call_ok with (Some (h, d)) c; [unfold code_same in *; now rewrite S3|now rewrite S2|now rewrite S1, S2|lia]. }
  assert (OK : ok m) by (split; [exact HS|]; split; [exact HL|]; exists (Some (h, d)), c; split; [exact HT|lia]).
  inversion HI1 as [|d0 o args is X H1|d0 bt body is H1 H2|d0 bt body is H1 H2|d0 bt th el is H1 H2 H3|d0 o args is X1 X2 H1|d0 args is X1 X2 H1]; subst.
  - destruct (is_control o) eqn:EC.
    + destruct o; try discriminate EC; try (exfalso; apply X; cbn; tauto); try exact I; cbn [exec].
      * unfold bind at 1, mget at 1. unfold bind at 1. destruct (assert _ m) as [[u|e] m1] eqn:EA; [|exact I]. assert (m1 = m) as ->.
        { unfold assert in EA. destruct (Nat.leb _ _); [injection EA as _ <-; reflexivity|discriminate EA]. }
        unfold bind at 1. destruct (popn (fr_arity fr) m) as [[rets|e] m2] eqn:EP; [|exact I]. destruct (popn_len _ _ _ _ EP) as [L1 [(S1 & S2 & S3) L2]].
        unfold bind at 1, pop_frame. rewrite S2, HFR. unfold bind, mget, mput, set_frame. cbn [fine k_store k_label k_frame k_value]. unfold ok, code_same in *. cbn [k_store k_label k_frame k_value].
        rewrite S1, S3, K2, K4. change (bs ++ lb' :: ls') with (bs ++ [lb'] ++ ls'). rewrite app_assoc, keep_app, keep_all by lia. split; [exact HS|]. split; [rewrite HFR in HL; cbn [length] in HL; lia|].
        exists x', c'. split; [exact K5|]. rewrite app_length, rev_length. pose proof (keep_len (fr_value fr) (k_value m2)). lia.
      * unfold bind at 1, lift at 1. destruct (arg_int args 0) as [i|e]; [|exact I]. unfold bind at 1, mget at 1. unfold bind, lift. destruct (py_index _ i) as [a|e]; [|exact I]. apply CA; [apply calm_refl|reflexivity].
      * unfold bind at 1, mget at 1. apply mild_bind; [ms|]. intros j m1 C1. apply mild_bind; [ms|]. intros ta m2 C2. apply mild_bind; [ms|]. intros tabl m3 C3. apply mild_bind; [ms|]. intros i0 m4 C4.
        apply mild_bind; [ms|]. intros t m5 C5. apply mild_bind; [ms|]. intros v m6 C6. apply mild_bind; [ms|]. intros k m7 C7. apply mild_bind; [ms|]. intros r m8 C8. apply mild_bind; [ms|]. intros a m9 C9.
        apply mild_bind; [ms|]. intros f m10 C10. unfold bind at 1. destruct (assert _ m10) as [[u|e] m11] eqn:EA; [|exact I]. assert (m11 = m10) as ->.
        { unfold assert in EA. destruct (ft_eqb _ _); [injection EA as _ <-; reflexivity|discriminate EA]. }
        apply CA; [|reflexivity]. repeat (eapply calm_trans; [eassumption|]). apply calm_refl.
    + rewrite exec_op_basic by exact EC. unfold on_basic. rewrite HFR.
      pose proof (kf_basic F (fr_module fr) o args (mkb (k_store m) (fr_locals fr) (k_value m))) as KF.
      pose proof (ki_basic F (fr_module fr) o args (mkb (k_store m) (fr_locals fr) (k_value m))) as KI.
      pose proof (pb_basic F (fr_module fr) o args (mkb (k_store m) (fr_locals fr) (k_value m))) as KP.
      destruct (exec_basic F (fr_module fr) o args (mkb (k_store m) (fr_locals fr) (k_value m))) as [[u|e] b]; [|exact I]. cbn [snd b_store b_value fine] in *. unfold ok, code_same in *. cbn [k_store k_frame k_label k_value].
      split; [now rewrite KF, KI|]. split; [rewrite HFR in HL; exact HL|]. exists (Some (h, d)), c. split; [apply tower_locals; rewrite <- HFR; exact HT|]. cbn [grow] in HV. lia.
  - cbn [exec]. apply BT. intros t Ht. cbn [grow deep] in *. apply enter_ok with h d c; auto; [discriminate|unfold deeps; lia|unfold total; lia].
  - cbn [exec]. apply BT. intros t Ht. cbn [grow deep] in *. apply enter_ok with h d c; auto; [discriminate|unfold deeps; lia|unfold total; lia].
  - cbn [exec]. apply BT. intros t Ht. cbn [grow deep] in *. apply mild_bind; [ms|]. intros v m1 C1. apply mild_bind; [ms|]. intros z m2 C2.
    destruct (calm_trans _ _ _ C1 C2) as [(S1 & S2 & S3) L]. apply enter_ok with h d c; [unfold code_same in *; now rewrite S3|now rewrite S2|now rewrite S1, S2|discriminate|exact Ht|destruct (z =? 0); assumption|..].
    + unfold deeps. destruct (z =? 0); lia.
    + unfold total. destruct (z =? 0); lia.
  - assert (G : forall m1, calm m m1 -> fine ok ((let! l := lift (arg_int args 0) in evaluate_br l) m1)).
    { intros m1 C1. unfold bind, lift. destruct (arg_int args 0) as [l|e] eqn:EA; [|exact I]. apply BR; [exact C1|exact (X2 _ eq_refl)]. }
    destruct X1 as [<-|[<-|[]]]; cbn [exec]; [apply G, calm_refl|].
    apply mild_bind; [ms|]. intros v m1 C1. apply mild_bind; [ms|]. intros z m2 C2. pose proof (calm_trans _ _ _ C1 C2) as C3.
    destruct (z =? 0); [|exact (G m2 C3)]. cbn [ret fine]. exact (ok_calm _ _ C3 OK).
  - cbn [exec]. apply mild_bind; [ms|]. intros v m1 C1. apply mild_bind; [ms|]. intros a m2 C2. pose proof (calm_trans _ _ _ C1 C2) as C3.
    unfold bind at 1, lift at 1. destruct (arg_int args 1) as [b|e] eqn:EB; [|exact I]. unfold bind at 1, lift at 1. destruct (arg_list args 0) as [ls|e] eqn:EL; [|exact I].
    unfold bind at 1. destruct (a <? len ls).
    + unfold lift. destruct (py_index ls a) as [l|e] eqn:EI; [|exact I]. apply BR; [exact C3|]. specialize (X2 _ eq_refl). rewrite Forall_forall in X2. apply X2. exact (index_In _ _ _ EI).
    + cbn [ret]. apply BR; [exact C3|exact (X1 _ eq_refl)].
Qed.
Lemma step_ok m : ok m -> k_label m <> [] -> fine ok (step F host m).
Proof.
  intros (HS & HL & x & c & HT & HV) HN. destruct (k_label m) as [|lb ls] eqn:EL; [congruence|]. destruct (tower_top _ _ _ _ _ HT) as (h & d & -> & -> & H1 & H2 & H3).
  destruct (tower_frame _ _ _ _ _ _ HT eq_refl) as (fr & fs & _ & _ & _ & _ & _ & HFR & _).
  unfold step, bind at 1, mget at 1. rewrite EL. unfold bind at 1, top_frame. rewrite HFR. destruct (Nat.eqb (lb_index lb) (length (lb_instr lb))) eqn:EN.
  - apply PeanoNat.Nat.eqb_eq in EN. unfold bind, mget, mput, set_label. cbn [k_store k_value k_frame k_label].
    inversion HT as [|x' fr' fs' lb' ls' h' c' H4 E1 E2 E3 E4 E5 E6|h' d' fs' lb' ls' c' H4 E1 E2 E3 E4 E5 E6]; subst.
    + assert (EFR : fr' = fr /\ fs' = fs) by (split; congruence). destruct EFR as [-> ->]. rewrite E3.
      destruct (Nat.eqb (length (k_value m)) (fr_value fr + fr_arity fr)) eqn:EV; [|cbn [k_value]; rewrite EV; exact I]. cbn [k_value]. rewrite EV. apply PeanoNat.Nat.eqb_eq in EV.
      unfold assert, ret, pop_frame. cbn [k_frame]. rewrite ?HFR. cbn [fine set_frame]. unfold ok, code_same in *. cbn [set_frame k_store k_value k_frame k_label]. split; [exact HS|].
      split; [rewrite HFR in HL; cbn [length k_frame set_frame] in *; lia|]. exists x', c'. split; [exact H4|cbn [k_value set_frame]; lia].
    + assert (OK : ok (mkmach (k_store m) (k_value m) ls (k_frame m))).
      { split; [exact HS|]. split; [exact HL|]. exists (Some (h, d')), c'. split; [exact H4|]. cbn [k_value]. unfold allow in HV. rewrite EN, firstn_all in HV. lia. }
      destruct (lb_carry lb); [exact OK|exact OK|congruence].
  - destruct (nth_error (lb_instr lb) (lb_index lb)) as [i|] eqn:EI; [|exact I]. pose proof (nth_error_In _ _ EI) as IN.
    unfold bind at 1, mget at 1. unfold bind at 1, mput, set_label. cbn [k_store k_value k_frame].
    apply exec_ok with h d (allow (mklabel (lb_arity lb) (lb_frame lb) (lb_value lb) (lb_carry lb) (lb_instr lb) (S (lb_index lb)))); cbn [k_frame k_label k_value].
    + exact HS.
    + exact HL.
    + apply H3.
    + exists fs. exact HFR.
    + unfold allow in *. cbn [lb_value lb_index lb_instr]. rewrite (total_next _ _ _ _ EI). lia.
    + exact (inside_one _ _ _ H1 IN).
    + pose proof (deeps_in _ _ IN). lia.
Qed.
Lemma evaluate_ok n : forall m u m', ok m -> evaluate F host n m = (Ok u, m') -> ok m'.
Proof.
  induction n as [|n IH]; intros m u m' H E; cbn [evaluate] in E; [injection E as _ <-; exact H|]. destruct (k_label m) eqn:EL; [injection E as _ <-; exact H|].
  unfold bind in E. pose proof (step_ok m H ltac:(rewrite EL; discriminate)) as S1. destruct (step F host m) as [[v|e] m1]; [|discriminate E]. exact (IH _ _ _ S1 E).
Qed.
Lemma ok_bounds m : ok m -> stacks_below (1024 + base + 1024 * (R + T) + 1024 * (1 + D)) m.
Proof.
  intros (_ & HL & x & c & HT & HV). apply tower_bounds in HT. destruct HT as [B1 B2].
  assert (P1 : (length (k_frame m) * (R + T) <= 1024 * (R + T))%nat) by (apply PeanoNat.Nat.mul_le_mono_r; exact HL).
  assert (P2 : (length (k_frame m) * (1 + D) <= 1024 * (1 + D))%nat) by (apply PeanoNat.Nat.mul_le_mono_r; exact HL).
  set (p1 := (1024 * (R + T))%nat) in *. set (p2 := (1024 * (1 + D))%nat) in *. set (q1 := (length (k_frame m) * (R + T))%nat) in *. set (q2 := (length (k_frame m) * (1 + D))%nat) in *.
  clearbody p1 p2 q1 q2. unfold stacks_below. destruct x as [[h d]|]; [lia|]. rewrite B2. cbn [length]. lia.
Qed.
End run.
