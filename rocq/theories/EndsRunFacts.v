(* Calls of code without a way back (C134). *)
From Coq Require Import ZArith List Bool Lia ZifyBool ZifyNat.
From Verif Require Import Py Floatops Val Opcode Numeric Syntax Store Basic Machine SpecControl SpecType SpecEnds PyFacts StepFacts ControlFacts CodeFacts EndsFacts.
Import ListNotations.
Open Scope Z_scope.

Lemma starts_ends F host s t h code args N : minds_its_business host -> ends_within s 1022 h [] (fd_expr code) N -> forall n, (N < n)%nat ->
  match evaluate F host n (SpecType.starts s t h code args) with (Ok _, m') => k_label m' = [] | (Err _, _) => True end.
Proof.
  intros Hh H n Hn. destruct (evaluate_goes F host s Hh (1 + N + 0) (SpecType.starts s t h code args) (Some (h, []))) as [E1 E2].
  - split; reflexivity.
  - apply st_func with (x := None); [constructor|reflexivity|reflexivity|reflexivity|]. apply ends_less with 1022%nat; [exact H|]. unfold room. cbn [length k_frame]. lia.
  - rewrite E1 by lia. destruct (evaluate F host (1 + N + 0) _) as [[u|e] m']; [exact (E2 _ _ eq_refl)|exact I].
Qed.
Lemma invocate_limit F host s a t h code N : minds_its_business host -> py_index (s_func s) a = Ok (FWasm t h code) -> ends_within s 1022 h [] (fd_expr code) N ->
  forall m args n n', k_label m = [] -> s_func (k_store m) = s_func s -> s_inst (k_store m) = s_inst s -> (N < n)%nat -> (N < n')%nat ->
    invocate F host n a args m = invocate F host n' a args m.
Proof.
  intros Hh EF H [ms mv ml mf] args n n' HL E1 E2 Hn Hn'. cbn [k_label] in HL. subst ml. set (m := mkmach ms mv [] mf) in *.
  set (m0 := mkmach (k_store m) (k_value m) [mklabel (length (ft_rets t)) 1 0 KFunc (fd_expr code) 0]
         (mkframe (MRef h) (args ++ zero_locals (fd_locals code)) (length (ft_rets t)) 0 0 :: mkframe (MVal modinst_empty) [] 0 0 0 :: k_frame m)).
  assert (E : exists K : M (list val), forall j, invocate F host j a args m = if types_agree (ft_args t) args then (evaluate F host j ;; K) m0 else (Err EAssert, m)).
  { eexists. intros j. unfold invocate. unfold bind at 1, mget at 1. unfold bind at 1, lift at 1. rewrite E1, EF. destruct (types_agree (ft_args t) args); [|reflexivity].
    reflexivity. }
  destruct E as [K E]. rewrite !E. destruct (types_agree (ft_args t) args); [|reflexivity]. unfold bind.
  destruct (evaluate_goes F host s Hh (1 + N + 0) m0 (Some (h, []))) as [X _].
  - split; [exact E1|exact E2].
  - apply st_func with (x := None); [constructor|reflexivity|reflexivity|reflexivity|]. apply ends_less with 1022%nat; [exact H|]. unfold room. cbn [length k_frame]. lia.
  - rewrite (X n), (X n') by lia. reflexivity.
Qed.

(* ---- ranks ---- *)
Lemma code_bound s (lower : funcinst -> Prop) d h A C is :
  (forall d' t h' code, d = S d' -> In (FWasm t h' code) (s_func s) -> lower (FWasm t h' code) -> ends_within s d' h' [] (fd_expr code) A) ->
  no_way_back s lower h C is -> exists n, ends_within s d h C is n.
Proof.
  intros HA H. induction H as [C|C o args is X H [n IH]|C bt body is H1 [a IH1] H2 [n IH2]|C bt body is H1 [a IH1] H2 [n IH2]|C bt th el is H1 [a IH1] H2 [b IH2] H3 [n IH3]
    |C o args is X1 X2 H [n IH]|C args is X1 X2 H [n IH]|C args is X H [n IH]|C args is X H [n IH]].
  - exists O. constructor.
  - exists (S n). apply ew_plain; assumption.
  - exists (2 + a + n)%nat. apply ew_block; assumption.
  - exists (2 + a + n)%nat. apply ew_loop; assumption.
  - exists (2 + Nat.max a b + n)%nat. apply ew_if; assumption.
  - exists (S n). apply ew_br; assumption.
  - exists (S n). apply ew_br_table; assumption.
  - exists (2 + A + n)%nat. apply ew_call; [|exact IH]. intros d' i addr t h' code ED E1 E2 E3. apply (HA d' t h' code ED). { exact (index_In _ _ _ E3). } exact (X _ _ _ E1 E2 E3).
  - exists (2 + A + n)%nat. apply ew_call_indirect; [|exact IH]. intros d' i t t' h' code ED E1 E2 E3 E4. apply (HA d' t' h' code ED E3). exact (X _ _ _ E1 E2 E3 E4).
Qed.
Lemma list_bound {A} (Q : A -> nat -> Prop) l : (forall x n n', Q x n -> (n <= n')%nat -> Q x n') -> (forall x, In x l -> exists n, Q x n) -> exists n, forall x, In x l -> Q x n.
Proof.
  intros HM. induction l as [|x l IH]; intros H; [exists O; intros ? []|]. destruct (H x (or_introl eq_refl)) as [a Ha]. destruct IH as [b Hb]; [intros y Hy; apply H; right; exact Hy|].
  exists (Nat.max a b). intros y [<-|Hy]; [apply HM with a|apply HM with b]; auto; lia.
Qed.
Definition func_within s d (f : funcinst) (n : nat) : Prop := match f with FWasm t h code => ends_within s d h [] (fd_expr code) n | FHost _ _ => True end.
Lemma func_more s d f n n' : func_within s d f n -> (n <= n')%nat -> func_within s d f n'.
Proof. destruct f as [t h code|t hid]; cbn [func_within]; [apply ends_more|auto]. Qed.
Lemma ranked_bound s d rank : ranked s rank -> exists N, forall f, In f (s_func s) -> func_within s d f N.
Proof.
  intros HR.
  assert (G : forall r, exists N, forall f, In f (s_func s) -> (rank f < r)%nat -> func_within s d f N).
  { induction r as [|r [N IH]]; [exists O; intros; lia|].
    destruct (list_bound (fun f n => (rank f < S r)%nat -> func_within s d f n) (s_func s)) as [N' HN].
    - intros x n n' H L HX. exact (func_more _ _ _ _ _ (H HX) L).
    - intros [t h code|t hid] HI; [|exists O; intros _; exact I]. destruct (Nat.ltb (rank (FWasm t h code)) (S r)) eqn:E; [|exists O; intros HX; apply PeanoNat.Nat.ltb_ge in E; lia].
      apply PeanoNat.Nat.ltb_lt in E. destruct (code_bound s (fun f => (rank f < rank (FWasm t h code))%nat) d h N [] (fd_expr code)) as [n Hn].
      + intros d' t' h' code' -> HI' HL. apply ends_less with (S d'); [|lia]. apply (IH (FWasm t' h' code') HI'). lia.
      + exact (HR _ _ _ HI).
      + exists n. intros _. exact Hn.
    - exists N'. exact HN. }
  destruct (list_bound (fun f n => (rank f < n)%nat) (s_func s)) as [r Hr]; [intros; lia|intros x _; exists (S (rank x)); lia|].
  destruct (G r) as [N HN]. exists N. intros f HI. exact (HN f HI (Hr f HI)).
Qed.
(* with recursion: by the number of calls that may nest *)
Lemma loopless_bound s d : loopless s -> exists N, forall f, In f (s_func s) -> func_within s d f N.
Proof.
  intros HR. induction d as [|d [N IH]].
  - apply list_bound; [apply func_more|]. intros [t h code|t hid] HI; [|exists O; exact I]. apply (code_bound s (fun _ => True) 0 h 0); [intros; discriminate|exact (HR _ _ _ HI)].
  - apply list_bound; [apply func_more|]. intros [t h code|t hid] HI; [|exists O; exact I]. apply (code_bound s (fun _ => True) (S d) h N); [|exact (HR _ _ _ HI)].
    intros d' t' h' code' E HI' _. injection E as <-. exact (IH _ HI').
Qed.
Lemma bound_ends F host s : minds_its_business host -> (exists N, forall f, In f (s_func s) -> func_within s 1022 f N) ->
  exists N, (forall t h code, In (FWasm t h code) (s_func s) -> ends_within s 1022 h [] (fd_expr code) N) /\
    forall a m args n n', k_label m = [] -> s_func (k_store m) = s_func s -> s_inst (k_store m) = s_inst s -> (N < n)%nat -> (N < n')%nat ->
      invocate F host n a args m = invocate F host n' a args m.
Proof.
  intros Hh [N HN]. exists N. assert (H : forall t h code, In (FWasm t h code) (s_func s) -> ends_within s 1022 h [] (fd_expr code) N) by (intros t h code HI; exact (HN _ HI)).
  split; [exact H|]. intros a m args n n' HL E1 E2 Hn Hn'. destruct (py_index (s_func s) a) as [[t h code|t hid]|e] eqn:EF.
  - exact (invocate_limit F host s a t h code N Hh EF (H _ _ _ (index_In _ _ _ EF)) m args n n' HL E1 E2 Hn Hn').
  - unfold invocate, bind, mget, lift. rewrite E1, EF. reflexivity.
  - unfold invocate, bind, mget, lift. rewrite E1, EF. reflexivity.
Qed.
