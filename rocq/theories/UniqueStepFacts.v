(* One instruction has one result where no choice is made. *)
From Coq Require Import ZArith List Bool Reals Lia.
From Flocq Require Import Core IEEE754.BinarySingleNaN IEEE754.Binary IEEE754.Bits.
From Verif Require Import Py Arith Floatops Val Opcode Numeric Syntax Store Basic Machine SpecInt SpecNum SpecMachine SpecMem SpecRun SpecIeee SpecSimd SpecVecFloat
  SpecControl SpecType SpecConverse SpecStandard SpecCode SpecUnique Float StepFacts RunFacts SimdStepFacts TypeFacts TypeIeeeFacts ControlFacts ConverseFacts StandardFacts UniqueFacts.
Import ListNotations.
Open Scope Z_scope.

Definition numbers (o : opc) (r : option val) : Prop := forall N v, arithmetic o = Some N -> r = Some v -> nan_in N v = false.
Lemma ar_fbin32 o f : ieee_binop32 o = Some f -> arithmetic o = Some 32.
Proof. destruct o; intros H; (discriminate H || reflexivity). Qed.
Lemma ar_fbin64 o f : ieee_binop64 o = Some f -> arithmetic o = Some 64.
Proof. destruct o; intros H; (discriminate H || reflexivity). Qed.
Lemma ar_vbin32 o f : vec_binop32 o = Some f -> arithmetic o = Some 32.
Proof. destruct o; intros H; (discriminate H || reflexivity). Qed.
Lemma ar_vbin64 o f : vec_binop64 o = Some f -> arithmetic o = Some 64.
Proof. destruct o; intros H; (discriminate H || reflexivity). Qed.
Lemma ar_ext o N up : extremum_op o = Some (N, up) -> arithmetic o = Some N.
Proof. destruct o; intros H; (discriminate H || (injection H as <- _; reflexivity)). Qed.
Lemma ar_int o N up : integral_op o = Some (N, up) -> arithmetic o = Some N.
Proof. destruct o; intros H; (discriminate H || (injection H as <- _; reflexivity)). Qed.
Lemma ar_vext o N up : vec_extremum o = Some (N, up) -> arithmetic o = Some N /\ (N = 32 \/ N = 64).
Proof. destruct o; intros H; (discriminate H || (injection H as <- _; split; [reflexivity|tauto])). Qed.
Lemma ar_vint o N up : vec_integral o = Some (N, up) -> arithmetic o = Some N.
Proof. destruct o; intros H; (discriminate H || (injection H as <- _; reflexivity)). Qed.
Lemma nan32 r : lane_nan 32 r = false -> is_nan 24 128 (b32_of_bits r) = false.
Proof. exact (fun H => H). Qed.
Lemma nan64 r : lane_nan 64 r = false -> is_nan 53 1024 (b64_of_bits r) = false.
Proof. exact (fun H => H). Qed.

Lemma value_once o (Q : val -> Prop) N r r' : arithmetic o = Some N -> (forall v w, nan_in N v = false -> Q v -> Q w -> v = w) ->
  numbers o r -> value Q r -> value Q r' -> r = r'.
Proof. intros A U H (v & -> & Q1) (w & -> & Q2). f_equal. apply U; try assumption. exact (H N v A eq_refl). Qed.
Lemma value_exact (Q : val -> Prop) r r' : (forall v w, Q v -> Q w -> v = w) -> value Q r -> value Q r' -> r = r'.
Proof. intros U (v & -> & Q1) (w & -> & Q2). f_equal. now apply U. Qed.
Lemma code_once t u : vt_code t = vt_code u -> t = u.
Proof. destruct t, u; intros H; try reflexivity; discriminate H. Qed.
Lemma demote_once l l' la : Forall (urange 32) l -> Forall (urange 32) l' -> (forall k, (k < length l)%nat -> lane_nan 32 (nth k l 0) = false) ->
  (exists l2, l = l2 ++ [0; 0] /\ each1 (fun a r => demoted (b64_of_bits a) (b32_of_bits r)) la l2) ->
  (exists l2, l' = l2 ++ [0; 0] /\ each1 (fun a r => demoted (b64_of_bits a) (b32_of_bits r)) la l2) -> l = l'.
Proof.
  intros F1 F2 H (x & -> & X) (y & -> & Y). f_equal. apply Forall_app in F1, F2. destruct F1 as [F1 _], F2 as [F2 _].
  apply (each1_once 32 (fun a r => demoted (b64_of_bits a) (b32_of_bits r)) la); try assumption.
  - intros a r r' R1 R2 N D1 D2. apply bits32_once; [assumption..|]. apply (demoted_once (b64_of_bits a)); assumption.
  - intros k Hk. rewrite <- (app_nth1 x [0; 0] 0 Hk). apply H. rewrite app_length. cbn. lia.
Qed.


Definition once (o : opc) (p : pred) : Prop := forall r r', numbers o r -> p r -> p r' -> r = r'.
Lemma once_exact o v : once o (exactly v).
Proof. intros r r' _ -> ->. reflexivity. Qed.
Lemma once_eq o x : once o (fun r => r = x).
Proof. intros r r' _ -> ->. reflexivity. Qed.
Lemma once_no o : once o (fun _ => False).
Proof. intros r r' _ []. Qed.
Lemma once_un o ops f : (forall a, once o (f a)) -> once o (un ops f).
Proof. intros H. destruct ops as [|a [|]]; try apply once_no. apply H. Qed.
Lemma once_bin o ops f : (forall a b, once o (f a b)) -> once o (bin ops f).
Proof. intros H. destruct ops as [|a [|b [|]]]; try apply once_no. apply H. Qed.
Lemma once_ter o ops f : (forall a b c, once o (f a b c)) -> once o (ter ops f).
Proof. intros H. destruct ops as [|a [|b [|c [|]]]]; try apply once_no. apply H. Qed.
Lemma once_on {A} o (x : option A) f k : (forall a, x = Some a -> once o (f a)) -> once o k -> once o (on x f k).
Proof. intros H1 H2. unfold on. destruct x as [a|]; [now apply H1|exact H2]. Qed.
Lemma once_value o N (Q : val -> Prop) : arithmetic o = Some N -> (forall v w, nan_in N v = false -> Q v -> Q w -> v = w) -> once o (value Q).
Proof. intros A U r r'. now apply value_once with (N := N). Qed.
Lemma once_sure o (Q : val -> Prop) : (forall v w, Q v -> Q w -> v = w) -> once o (value Q).
Proof. intros U r r' _. now apply value_exact. Qed.
Lemma once_const o t args : once o (const t args).
Proof. unfold const. destruct args as [|[] [|]]; try apply once_no. apply once_exact. Qed.
Ltac exact_ones := lazymatch goal with
  | |- once _ (un _ _) => apply once_un; intros ?; exact_ones
  | |- once _ (bin _ _) => apply once_bin; intros ? ?; exact_ones
  | |- once _ (ter _ _) => apply once_ter; intros ? ? ?; exact_ones
  | |- once _ (exactly _) => apply once_exact
  | |- once _ (const _ _) => apply once_const
  | |- _ => idtac end.
Ltac lanes32 tac := eapply once_value; [reflexivity|]; intros vv ww; apply (lanes_once 32); [tauto|]; intros l l' F1 F2 HN;
  apply (each1_once 32); [|assumption..]; intros xa xr xs R1 R2 NN X1 X2; apply bits32_once; [assumption..|]; revert X1 X2; tac.
Ltac lanes64 tac := eapply once_value; [reflexivity|]; intros vv ww; apply (lanes_once 64); [tauto|]; intros l l' F1 F2 HN;
  apply (each1_once 64); [|assumption..]; intros xa xr xs R1 R2 NN X1 X2; apply bits64_once; [assumption..|]; revert X1 X2; tac.
Lemma special_once o args ops : match special o args ops with Some p => once o p | None => True end.
Proof.
  destruct o; cbn [special]; try exact I; exact_ones.
  - eapply once_value; [reflexivity|]. intros vv ww. apply single_once. intros x y. apply same_once.
  - eapply once_value; [reflexivity|]. intros vv ww. apply double_once. intros x y. apply same_once.
  - eapply once_value; [reflexivity|]. intros vv ww. apply single_once. intros x y. apply demoted_once.
  - eapply once_value; [reflexivity|]. intros vv ww. apply double_once. intros x y. apply promoted_once.
  - destruct args as [|[] [|]]; try apply once_no. intros r r' _ (t & -> & ->) (u & E & ->). now rewrite (code_once _ _ E).
  - destruct args as [|[] [|]]; try apply once_no. apply once_exact.
  - eapply once_value; [reflexivity|]. intros vv ww. apply (lanes_once 32); [tauto|]. intros l l' F1 F2 HN. now apply demote_once.
  - lanes64 ltac:(apply promoted_once; exact NN).
  - lanes32 ltac:(apply same_once; exact NN).
  - lanes64 ltac:(apply same_once; exact NN).
Qed.
Lemma table_once o args ops : once o (table o args ops).
Proof.
  unfold table.
  repeat (apply once_on; [intros ?x ?E; repeat match goal with x : _ * _ |- _ => destruct x end; exact_ones|]).
  all: try apply once_eq; try apply once_no.
  - eapply once_value; [exact (ar_fbin32 _ _ E)|]. intros vv ww. apply single_once. intros xa xb. apply same_once.
  - eapply once_value; [exact (ar_fbin64 _ _ E)|]. intros vv ww. apply double_once. intros xa xb. apply same_once.
  - eapply once_value; [exact (ar_ext _ _ _ E)|]. intros vv ww HN [[-> X]|[-> X]] [[E' Y]|[E' Y]]; try discriminate E'; revert HN X Y; [apply single_once|apply double_once]; intros xa xb; apply extremum_once.
  - eapply once_value; [exact (ar_int _ _ _ E)|]. intros vv ww HN [[-> X]|[-> X]] [[E' Y]|[E' Y]]; try discriminate E'; revert HN X Y; [apply single_once|apply double_once]; intros xa xb; apply same_once.
  - apply once_sure. intros vv ww [[-> X]|[-> X]] [[E' Y]|[E' Y]]; try discriminate E'; revert X Y; [apply single_exact|apply double_exact]; intros xa xb; [apply rounds_single_once|apply rounds_double_once].
  - destruct args as [|[] [|]]; try apply once_no. apply once_exact.
  - destruct args as [|[] [|]]; try apply once_no. apply once_exact.
  - eapply once_value; [exact (ar_vbin32 _ _ E)|]. intros vv ww. apply (lanes_once 32); [tauto|]. intros l l' F1 F2 HN.
    apply (each2_once 32); [|assumption..]. intros xa xb xr xs R1 R2 NN X1 X2. apply bits32_once; [assumption..|]. revert X1 X2. apply same_once. exact NN.
  - eapply once_value; [exact (ar_vbin64 _ _ E)|]. intros vv ww. apply (lanes_once 64); [tauto|]. intros l l' F1 F2 HN.
    apply (each2_once 64); [|assumption..]. intros xa xb xr xs R1 R2 NN X1 X2. apply bits64_once; [assumption..|]. revert X1 X2. apply same_once. exact NN.
  - destruct (ar_vext _ _ _ E) as [A N2]. eapply once_value; [exact A|]. intros vv ww. apply lanes_once; [exact N2|]. intros l l' F1 F2 HN.
    apply (each2_once z); [|assumption..]. intros xa xb xr xs R1 R2 NN X1 X2. destruct N2 as [-> | ->]; [apply bits32_once|apply bits64_once]; try assumption; revert X1 X2; apply extremum_once; exact NN.
  - apply once_sure. intros vv ww. apply lanes_exact. intros l l' _ _. apply each2_exact.
  - eapply once_value; [exact (ar_vint _ _ _ E)|]. intros vv ww HN [[-> X]|[-> X]] [[E' Y]|[E' Y]]; try discriminate E'; revert HN X Y.
    + apply (lanes_once 32); [tauto|]. intros l l' F1 F2 HN. apply (each1_once 32); [|assumption..]. intros xa xr xs R1 R2 NN X1 X2. apply bits32_once; [assumption..|]. revert X1 X2. apply same_once. exact NN.
    + apply (lanes_once 64); [tauto|]. intros l l' F1 F2 HN. apply (each1_once 64); [|assumption..]. intros xa xr xs R1 R2 NN X1 X2. apply bits64_once; [assumption..|]. revert X1 X2. apply same_once. exact NN.
  - apply once_sure. intros vv ww. apply lanes_exact. intros l l' F1 F2. apply (each1_exact z); [|assumption..]. intros xa xr xs _ _ -> ->. reflexivity.
  - apply once_sure. intros vv ww. apply lanes_exact. intros l l' F1 F2. apply (each1_exact 32); [|assumption..]. intros xa xr xs R1 R2 X1 X2. apply bits32_once; [assumption..|]. revert X1 X2. apply rounds_single_once.
  - apply once_sure. intros vv ww. apply lanes_exact. intros l l' F1 F2. apply (each1_exact 64); [|assumption..]. intros xa xr xs R1 R2 X1 X2. apply bits64_once; [assumption..|]. revert X1 X2. apply rounds_double_once.
Qed.
Lemma computes_once o args ops r r' : numbers o r -> computes o args ops r -> computes o args ops r' -> r = r'.
Proof.
  intros N H1 H2. apply computes_prescribed in H1, H2. revert N H1 H2. unfold prescribed. pose proof (special_once o args ops) as S.
  destruct (special o args ops) as [p|]; [apply S|apply table_once].
Qed.
