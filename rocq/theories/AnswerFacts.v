(* What comes back from runs that are cut off by the limit of turns (C109, C127). *)
From Coq Require Import ZArith List Bool Lia.
From Verif Require Import Py Floatops Val Opcode Numeric Syntax Store Basic Machine SpecMachine SpecControl SpecType SpecConverse PyFacts MemFacts ControlFacts TypeFacts CodeFacts.
Import ListNotations.
Open Scope Z_scope.

Lemma cut_invocate F host n s z t h code args m' : py_index (s_func s) z = Ok (FWasm t h code) ->
  evaluate F host n (starts s t h code args) = (Ok tt, m') -> k_label m' <> [] -> exists x, fst (invocate F host n z args (mkmach s [] [] [])) = Err x.
Proof.
  intros EF EV NL. unfold invocate. unfold bind at 1, mget at 1. cbn [k_store]. unfold bind at 1, lift at 1. rewrite EF.
  unfold bind at 1, assert at 1, lift at 1. destruct (py_assert _) as [[]|x]; [|now exists x].
  unfold bind at 1, push_frame at 1. unfold bind at 1, push_frame at 1. unfold bind at 1, push_label at 1. unfold bind at 1.
  rewrite starts_eq in EV. rewrite ControlFacts.default_zero. match goal with |- context [evaluate F host n ?m] => change m with (mkmach s [] [first_label t code] [first_frame t h code args; dummy]) end. rewrite EV.
  unfold bind at 1. destruct (popn _ m') as [[rets|x] m1] eqn:EP; [|now exists x]. apply (gs_popn _) in EP. destruct EP as [L1 _].
  unfold bind at 1, assert at 1, lift at 1. destruct (py_assert _) as [[]|x]; [|now exists x]. unfold bind at 1. destruct (pop_frame m1) as [[[]|x] m2] eqn:EP; [|now exists x]. apply gs_pop_frame in EP. destruct EP as [L2 _].
  unfold bind at 1, mget at 1. unfold bind at 1, assert at 1, lift at 1. destruct (py_assert _) as [[]|x]; [|now exists x].
  unfold bind at 1, assert at 1, lift at 1. rewrite L2, L1. destruct (k_label m') as [|l ls]; [contradiction|]. cbn. now eexists.
Qed.
Lemma cut_call F host n h nm x a t g code args vs m : m = mkmach (k_store m) [] [] [] -> find_export (mod_of (k_store m) (MRef h)) nm = Ok x ->
  Store.e_data x = Z.of_nat a -> nth_error (s_func (k_store m)) a = Some (FWasm t g code) -> from_alls F (ft_args t) args = Ok vs ->
  unfinished F host n (starts (k_store m) t g code vs) -> exists e, fst (rt_invocate F host n h nm args m) = Err e.
Proof.
  intros EM EX EA NF EV (m1 & E1 & E2). unfold rt_invocate. unfold bind at 1, mget at 1. unfold bind at 1, lift at 1. rewrite EX. unfold bind at 1, lift at 1. rewrite EA, (py_index_nth _ _ _ NF).
  unfold bind at 1, assert at 1, lift at 1. destruct (py_assert _) as [[]|y]; [|now exists y]. unfold bind at 1, lift at 1. cbn [fi_type]. rewrite EV.
  destruct (cut_invocate F host n (k_store m) (Z.of_nat a) t g code vs m1 (py_index_nth _ _ _ NF) E1 E2) as (y & EY). rewrite <- EM in EY. unfold bind at 1.
  destruct (invocate F host n (Z.of_nat a) vs m) as [r m2]. cbn [fst] in EY. subst r. now exists y.
Qed.
Lemma cut_expr F host n e k m : unfinished F host n (set_label m (mklabel 1 1 0 KBlock e 0 :: k_label m)) -> exists x, fst (run_expr F host n e k m) = Err x.
Proof.
  intros (m1 & E1 & E2). unfold run_expr. unfold bind at 1, push_label at 1. unfold bind at 1. rewrite E1. unfold bind at 1, mget at 1.
  unfold bind at 1, assert at 1, lift at 1. destruct (py_assert _) as [[]|x]; [|now exists x]. unfold bind at 1, assert at 1, lift at 1. destruct (k_label m1); [contradiction|]. cbn. now eexists.
Qed.
