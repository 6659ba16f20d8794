(* One bound for all calls (C135). *)
From Coq Require Import ZArith List Bool Lia ZifyBool ZifyNat.
From Verif Require Import Py Floatops Val Opcode Numeric Syntax Store Basic Machine SpecControl SpecType SpecStacks PyFacts StepFacts ControlFacts CodeFacts EndsFacts EndsRunFacts StacksBasicFacts StacksFacts.
Import ListNotations.
Open Scope Z_scope.

Lemma types_bound (l : list functype) : exists R, forall t, In t l -> small_type R t.
Proof.
  apply (list_bound (fun t R => small_type R t)).
  - intros t n n' [H1 H2] L. split; lia.
  - intros t _. exists (length (ft_args t) + length (ft_rets t))%nat. split; lia.
Qed.
Lemma sizes s : (forall t h code, In (FWasm t h code) (s_func s) -> stays_inside 0 (fd_expr code)) ->
  exists R T D, (1 <= R)%nat /\ Forall (fun f => small_type R (fi_type f) /\ forall t h code, f = FWasm t h code -> small_code R T D (fd_expr code)) (s_func s) /\
    Forall (fun mi => Forall (small_type R) (m_type mi)) (s_inst s).
Proof.
  intros H. destruct (types_bound (map fi_type (s_func s))) as [R1 H1]. destruct (types_bound (concat (map m_type (s_inst s)))) as [R2 H2]. set (R := (1 + R1 + R2)%nat).
  destruct (list_bound (fun f n => forall t h code, f = FWasm t h code -> (total R (fd_expr code) <= n /\ deeps (fd_expr code) <= n)%nat) (s_func s)) as [N HN].
  - intros x n n' X L t h code E. destruct (X t h code E). lia.
  - intros [t h code|t hid] _; [|exists O; discriminate]. exists (total R (fd_expr code) + deeps (fd_expr code))%nat. intros t' h' code' E. injection E as <- <- <-. lia.
  - exists R, N, N. split; [unfold R; lia|]. split.
    + apply Forall_forall. intros f HI. split.
      * destruct (H1 (fi_type f) (in_map _ _ _ HI)) as [A B]. unfold R. split; lia.
      * intros t h code ->. destruct (HN _ HI t h code eq_refl). split; [exact (H _ _ _ HI)|]. split; assumption.
    + apply Forall_forall. intros mi HI. apply Forall_forall. intros t HT. destruct (H2 t) as [A B]; [apply in_concat; exists (m_type mi); split; [apply in_map, HI|exact HT]|]. unfold R. split; lia.
Qed.
Lemma bounded s : (forall t h code, In (FWasm t h code) (s_func s) -> stays_inside 0 (fd_expr code)) ->
  exists B, forall F host s' t h code args n m', leaves_stacks host -> s_func s' = s_func s -> s_inst s' = s_inst s -> In (FWasm t h code) (s_func s) ->
    evaluate F host n (SpecType.starts s' t h code args) = (Ok tt, m') -> stacks_below B m'.
Proof.
  intros H. destruct (sizes s H) as (R & T & D & HR & HF & HI). exists (1024 + R + 1024 * (R + T) + 1024 * (1 + D))%nat.
  intros F host s' t h code args n m' Hh E1 E2 IN E. apply ok_bounds with (s := s); [exact HR|].
  refine (evaluate_ok F host s Hh R T D R HR HF HI n _ _ _ _ E). rewrite Forall_forall in HF. destruct (HF _ IN) as [[A B] C].
  split; [split; [exact E1|exact E2]|]. split; [cbn [SpecType.starts k_frame length]; lia|]. eexists _, _. split.
  - apply tw_func with None R; [constructor|reflexivity|reflexivity|reflexivity|exact (C _ _ _ eq_refl)|reflexivity|]. exact B.
  - cbn [SpecType.starts k_value length]. lia.
Qed.
