(* What an instruction does to operands, locals and store is one thing where no choice is made. *)
From Coq Require Import ZArith List Bool Lia.
From Verif Require Import Py Arith Floatops Val Opcode Numeric Syntax Store Basic Machine SpecInt SpecNum SpecMachine SpecMem SpecRun SpecIeee SpecSimd SpecVecFloat
  SpecControl SpecType SpecConverse SpecStandard SpecCode SpecUnique Float StepFacts RunFacts TypeFacts TypeIeeeFacts ControlFacts ConverseFacts StandardFacts UniqueFacts UniqueStepFacts.
Import ListNotations.
Open Scope Z_scope.

(* how many operands a computing instruction takes *)
Definition place (o : opc) : option nat :=
  match signature o with
  | Some (ins, _) => Some (length ins)
  | None => match o with O_ref_null => Some 0%nat | O_ref_is_null => Some 1%nat | O_select | O_select_type => Some 3%nat | _ => None end
  end.
Lemma computes_place o args ops r : computes o args ops r -> place o = Some (length ops).
Proof.
  intros H. destruct H; try reflexivity; match goal with H : _ o = Some _ |- _ => clear -H; destruct o; (discriminate H || reflexivity) end.
Qed.
Lemma load_place o x : wasm_load o = Some x -> place o = None /\ wasm_load_lane o = None /\ wasm_store o = None /\ wasm_store_lane o = None.
Proof. destruct o; intros H; (discriminate H || now repeat split). Qed.
Lemma load_lane_place o x : wasm_load_lane o = Some x -> place o = None /\ wasm_load o = None /\ wasm_store o = None /\ wasm_store_lane o = None.
Proof. destruct o; intros H; (discriminate H || now repeat split). Qed.
Lemma store_place o x : wasm_store o = Some x -> place o = None /\ wasm_load o = None /\ wasm_load_lane o = None /\ wasm_store_lane o = None.
Proof. destruct o; intros H; (discriminate H || now repeat split). Qed.
Lemma store_lane_place o x : wasm_store_lane o = Some x -> place o = None /\ wasm_load o = None /\ wasm_load_lane o = None /\ wasm_store o = None.
Proof. destruct o; intros H; (discriminate H || now repeat split). Qed.

Lemma app_once {A} (a b c d : list A) : length a = length c -> a ++ b = c ++ d -> a = c /\ b = d.
Proof. revert c. induction a as [|x a IH]; intros [|y c] L E; try discriminate L; [now split|]. cbn in E. injection E as -> E. injection L as L. destruct (IH c L E) as [-> ->]. now split. Qed.
Lemma nth_error_ext {A} (l l' : list A) : (forall i, nth_error l i = nth_error l' i) -> l = l'.
Proof.
  revert l'. induction l as [|x l IH]; intros [|y l'] H; [reflexivity|discriminate (H 0%nat)|discriminate (H 0%nat)|].
  f_equal; [injection (H 0%nat); auto|]. apply IH. intros i. exact (H (Datatypes.S i)).
Qed.
Lemma overwritten_once {A} (d d1 d2 : list A) a bs : overwritten d d1 a bs -> overwritten d d2 a bs -> d1 = d2.
Proof. intros [_ H1] [_ H2]. apply nth_error_ext. intros i. now rewrite H1, H2. Qed.
Lemma idx_once i j : idx i = idx j -> i = j.
Proof. intros H. injection H. lia. Qed.

Lemma memory_once s mr a x b y : memory_of s mr a x -> memory_of s mr b y -> a = b /\ x = y.
Proof. intros [H1 H2] [H3 H4]. rewrite H1 in H3. injection H3 as H3. apply Nat2Z.inj in H3. subst b. split; congruence. Qed.
Lemma table_of_once s mr j a x b y : table_of s mr j a x -> table_of s mr j b y -> a = b /\ x = y.
Proof. intros [H1 H2] [H3 H4]. rewrite H1 in H3. injection H3 as H3. apply Nat2Z.inj in H3. subst b. split; congruence. Qed.
Lemma global_once s mr j a x b y : global_of s mr j a x -> global_of s mr j b y -> a = b /\ x = y.
Proof. intros [H1 H2] [H3 H4]. rewrite H1 in H3. injection H3 as H3. apply Nat2Z.inj in H3. subst b. split; congruence. Qed.
Lemma elem_once s mr j a x b y : elem_of s mr j a x -> elem_of s mr j b y -> a = b /\ x = y.
Proof. intros [H1 H2] [H3 H4]. rewrite H1 in H3. injection H3 as H3. apply Nat2Z.inj in H3. subst b. split; congruence. Qed.
Lemma data_once s mr j a x b y : data_of s mr j a x -> data_of s mr j b y -> a = b /\ x = y.
Proof. intros [H1 (c & H2 & H5)] [H3 (c' & H4 & H6)]. rewrite H1 in H3. injection H3 as H3. apply Nat2Z.inj in H3. subst b. split; congruence. Qed.

Ltac same1 := match goal with
  | H : idx ?i = idx ?j |- _ => apply idx_once in H; subst
  | H : Z.of_nat _ = Z.of_nat _ |- _ => apply Nat2Z.inj in H; subst
  | H : nth_error ?l ?i = Some _, H' : nth_error ?l ?i = Some _ |- _ => rewrite H in H'; injection H'; clear H'; intros; subst
  | H : memory_of ?s ?mr _ _, H' : memory_of ?s ?mr _ _ |- _ => destruct (memory_once _ _ _ _ _ _ H H'); clear H'; subst
  | H : table_of ?s ?mr ?j _ _, H' : table_of ?s ?mr ?j _ _ |- _ => destruct (table_of_once _ _ _ _ _ _ _ H H'); clear H'; subst
  | H : global_of ?s ?mr ?j _ _, H' : global_of ?s ?mr ?j _ _ |- _ => destruct (global_once _ _ _ _ _ _ _ H H'); clear H'; subst
  | H : elem_of ?s ?mr ?j _ _, H' : elem_of ?s ?mr ?j _ _ |- _ => destruct (elem_once _ _ _ _ _ _ _ H H'); clear H'; subst
  | H : data_of ?s ?mr ?j _ _, H' : data_of ?s ?mr ?j _ _ |- _ => destruct (data_once _ _ _ _ _ _ _ H H'); clear H'; subst
  | H : overwritten ?d _ ?a ?b, H' : overwritten ?d _ ?a ?b |- _ => pose proof (overwritten_once _ _ _ _ _ H H'); clear H'; subst
  end.
Ltac apart := match goal with
  | H : computes _ _ _ _ |- _ => apply computes_place in H; discriminate H
  | H : wasm_load _ = Some _ |- _ => discriminate H
  | H : wasm_load_lane _ = Some _ |- _ => discriminate H
  | H : wasm_store _ = Some _ |- _ => discriminate H
  | H : wasm_store_lane _ = Some _ |- _ => discriminate H
  end.
Definition settles (o : opc) (r : option (list val)) : Prop := free o = false /\ forall N v V', arithmetic o = Some N -> r = Some (v :: V') -> nan_in N v = false.
Lemma does_once mr o args s L V s1 L1 r1 s2 L2 r2 : settles o r1 -> does mr o args s L V s1 L1 r1 -> does mr o args s L V s2 L2 r2 -> s1 = s2 /\ L1 = L2 /\ r1 = r2.
Proof.
  intros [HF HN] H1 H2. destruct H1.
  all: try discriminate HF.
  all: inversion H2; subst; try apart.
  all: try (repeat split; fail).
  all: try match goal with
    | H1 : computes ?o _ _ _, H2 : wasm_load ?o = _ |- _ => apply computes_place in H1; apply load_place in H2; destruct H2; congruence
    | H1 : computes ?o _ _ _, H2 : wasm_load_lane ?o = _ |- _ => apply computes_place in H1; apply load_lane_place in H2; destruct H2; congruence
    | H1 : computes ?o _ _ _, H2 : wasm_store ?o = _ |- _ => apply computes_place in H1; apply store_place in H2; destruct H2; congruence
    | H1 : computes ?o _ _ _, H2 : wasm_store_lane ?o = _ |- _ => apply computes_place in H1; apply store_lane_place in H2; destruct H2; congruence
    | H1 : wasm_load ?o = _, H2 : wasm_store ?o = _ |- _ => apply load_place in H1; destruct H1 as (_ & _ & H1 & _); congruence
    | H1 : wasm_load_lane ?o = _, H2 : wasm_store_lane ?o = _ |- _ => apply load_lane_place in H1; destruct H1 as (_ & _ & _ & H1); congruence
    end.
  all: try match goal with H1 : computes ?o ?args ?ops ?r, H2 : computes ?o ?args ?ops' ?r', E : ?ops' ++ _ = ?ops ++ _ |- _ =>
    let LE := fresh in assert (length ops' = length ops) as LE by (pose proof (computes_place _ _ _ _ H1); pose proof (computes_place _ _ _ _ H2); congruence);
    destruct (app_once _ _ _ _ LE E); subst;
    assert (r = r') as X by (apply (computes_once o args ops); [intros ?N ?v0 ?A ?B; (discriminate B || (injection B as <-; exact (HN _ _ _ A eq_refl)))|exact H1|exact H2]);
    (discriminate X || (try injection X as <-; repeat split)) end.
  all: repeat same1.
  all: try match goal with H1 : ?t ?o = Some _, H2 : ?t ?o = Some _ |- _ => rewrite H1 in H2; injection H2; clear H2; intros; subst end.
  all: unfold stands in *; subst.
  all: repeat same1.
  all: try (repeat split; fail).
  all: try (exfalso; lia).
  all: try (exfalso; match goal with H : nth_error ?l ?i = Some _ |- _ => assert (i < length l)%nat by (apply nth_error_Some; congruence) end; lia).
  - exfalso. assert (Z.to_nat (low 32 i) < length (ti_elem x0))%nat by (apply nth_error_Some; congruence). unfold len in *. lia.
  - exfalso. assert (Z.to_nat (low 32 i) < length (ti_elem x0))%nat by (apply nth_error_Some; congruence). unfold len in *. lia.
  - split; [|now split]. f_equal. apply nth_error_ext. intros b. destruct (Nat.eq_dec b a0) as [->|N]; [congruence|].
    repeat match goal with H : forall b, b <> _ -> _ |- _ => rewrite (H b N); clear H end. reflexivity.
Qed.
