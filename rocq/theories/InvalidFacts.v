(* What instantiation has checked of a module that it accepted. *)
From Coq Require Import ZArith List Bool Lia ZifyBool ZifyNat.
From Verif Require Import Py Arith Floatops Val Opcode Numeric Syntax Store Basic Machine SpecMachine SpecRun SpecControl SpecInst SpecType
  PyFacts StepFacts RunFacts ControlFacts InstFacts.
Import ListNotations.
Open Scope Z_scope.

Lemma index_below {A} (l : list A) z x : py_index l z = Ok x -> z < len l.
Proof. intros E. destruct (Z.ltb_spec z (len l)); [assumption|]. rewrite py_index_out in E by lia. discriminate. Qed.
Lemma forl_each {S A} (f : A -> ST S unit) l : forall m m', forl f l m = (Ok tt, m') -> Forall (fun x => exists m1 m2, f x m1 = (Ok tt, m2)) l.
Proof.
  induction l as [|x l IH]; intros m m' E; [constructor|]. cbn [forl] in E. unfold bind in E. destruct (f x m) as [[[]|e] m1] eqn:E1; [|discriminate].
  constructor; [exists m, m1; exact E1|exact (IH _ _ E)].
Qed.
Lemma f2_left {A B} (P : A -> Prop) (R : A -> B -> Prop) l l' : Forall2 R l l' -> (forall a b, R a b -> P a) -> Forall P l.
Proof. intros H HP. induction H; constructor; [eapply HP; eassumption|assumption]. Qed.
Lemma combined {A} (P : A -> Prop) (l : list A) : Forall (fun p : Z * A => P (snd p)) (combine (py_range (len l)) l) -> Forall P l.
Proof.
  intros H. apply Forall_forall. intros x Hx. destruct (In_nth_error _ _ Hx) as (k & Hk). rewrite Forall_forall in H.
  assert (Hl : (k < length l)%nat) by (apply nth_error_Some; congruence).
  destruct (nth_error (combine (py_range (len l)) l) k) as [[i y]|] eqn:E.
  - pose proof (H _ (nth_error_In _ _ E)) as X. cbn [snd] in X. replace x with y; [exact X|].
    pose proof (f_equal (fun o => option_map snd o) E) as Y. cbn beta in Y. rewrite <- nth_error_map in Y. cbn [option_map snd] in Y.
    assert (M : map snd (combine (py_range (len l)) l) = l).
    { clear. unfold len. generalize (py_range_len (length l)). generalize (py_range (Z.of_nat (length l))) as r. induction l as [|a l IH]; intros [|z r] Hr; try discriminate; [reflexivity|]. cbn. f_equal. apply IH. cbn in Hr. lia. }
    rewrite M, Hk in Y. congruence.
  - apply nth_error_None in E. rewrite enum_len in E. lia.
Qed.
Lemma allocate_checks L ext globin elemin m h m' : allocate L ext globin elemin m = (Ok h, m') ->
  Forall (fun d => gt_mut (gd_type d) = 0 \/ gt_mut (gd_type d) = 1) (md_glob (l_desc L)) /\ Forall (fun d => is_ref (ed_type d) = true) (md_elem (l_desc L)).
Proof.
  intros E. unfold allocate in E. nxt E m1 x. injection E0 as <- <-. cbv zeta in E. nxt E m2 u. clear E0. nxt E m3 u1. clear E0. nxt E m4 u2. clear E0. nxt E m5 u3. clear E0.
  nxt E m6 u4. nxt E m7 u5. clear E. destruct u4, u5. apply forl_each in E0. apply forl_each in E1. split; apply combined.
  - eapply Forall_impl; [|exact E0]. intros [i d] (n1 & n2 & X). cbn [snd]. nxt X n3 v. clear X0. nxt X n4 a. unfold on_store, alloc_global in X0.
    destruct (Z.eqb_spec (gt_mut (gd_type d)) 0); [left; assumption|]. destruct (Z.eqb_spec (gt_mut (gd_type d)) 1); [right; assumption|]. discriminate.
  - eapply Forall_impl; [|exact E1]. intros [i d] (n1 & n2 & X). cbn [snd]. nxt X n3 v. clear X0. nxt X n4 a. unfold on_store, alloc_elem in X0.
    destruct (is_ref (ed_type d)); [reflexivity|discriminate].
Qed.
Lemma fresh_len b n : length (fresh b n) = n.
Proof. unfold fresh. rewrite map_length. apply seq_length. Qed.
Lemma instance_checks F host n L ext m h m' : instance F host n L ext m = (Ok h, m') -> let md := l_desc L in
  length (md_imps md) = length ext /\
  Forall (fun d => fd_type d < len (md_type md)) (md_func md) /\
  Forall (fun t => l_m (tt_limits t) = 0 \/ l_n (tt_limits t) <= l_m (tt_limits t)) (md_tabl md) /\
  Forall (fun t => sound_limits t /\ l_n t <= 65536) (md_mems md) /\
  Forall (fun d => gt_mut (gd_type d) = 0 \/ gt_mut (gd_type d) = 1) (md_glob md) /\
  Forall (fun d => is_ref (ed_type d) = true) (md_elem md) /\
  Forall (fun e => ex_kind e = 0 /\ ex_desc e < len (imported 0 ext) + len (md_func md) \/
    ex_kind e = 1 /\ ex_desc e < len (imported 1 ext) + len (md_tabl md) \/
    ex_kind e = 2 /\ ex_desc e < len (imported 2 ext) + len (md_mems md) \/
    ex_kind e = 3 /\ ex_desc e < len (imported 3 ext) + len (md_glob md)) (md_exps md).
Proof.
  intros E md. destruct (instance_ok _ _ _ _ _ _ _ _ E) as (HL & _ & globin & elemin & m1 & m2 & _ & E2 & _ & _).
  destruct (allocate_checks _ _ _ _ _ _ _ E2) as [HG HE]. destruct (allocate_ok _ _ _ _ _ _ _ E2) as (s' & mi & fs & ts & ms & gs & es & AL & _). destruct AL.
  split; [exact HL|]. split; [|split; [|split; [|split; [exact HG|split; [exact HE|]]]]].
  - eapply f2_left; [exact al_fs|]. intros d f (t & X & _). exact (index_below _ _ _ X).
  - eapply f2_left; [exact al_ts|]. intros t x X. unfold tab_new, tab_grow in X. cbn [ti_type ti_size] in X.
    destruct (Z.eqb_spec (l_m (tt_limits t)) 0); [left; assumption|right]. cbn [rbind] in X. unfold py_assert at 1 in X. destruct (Z.leb_spec (0 + l_n (tt_limits t)) (l_m (tt_limits t))); [lia|discriminate].
  - eapply f2_left; [exact al_ms|]. intros t x X. unfold mem_new, mem_grow in X. cbn [mi_type mi_size] in X. unfold sound_limits.
    destruct (Z.eqb_spec (l_m t) 0) as [Z0|Z0].
    + cbn [rbind] in X. unfold py_assert at 1 in X. destruct (Z.leb_spec (0 + l_n t) 65536); [|discriminate]. cbn [rbind] in X. destruct (Z.ltb_spec (l_n t) 0); [discriminate|]. lia.
    + unfold py_assert at 1 in X. destruct (Z.leb_spec (0 + l_n t) (l_m t)); [|discriminate]. cbn [rbind] in X. unfold py_assert at 1 in X. destruct (Z.leb_spec (0 + l_n t) 65536); [|discriminate]. cbn [rbind] in X. destruct (Z.ltb_spec (l_n t) 0); [discriminate|]. lia.
  - eapply f2_left; [exact al_exps|]. intros e x (_ & _ & K & X). apply index_below in X. unfold space in X.
    assert (LN : forall k b (c : nat), len (imported k ext ++ fresh b c) = len (imported k ext) + Z.of_nat c) by (intros; unfold len; rewrite app_length, fresh_len; lia).
    destruct (Z.eqb_spec (ex_kind e) 0); [left|right; destruct (Z.eqb_spec (ex_kind e) 1); [left|right; destruct (Z.eqb_spec (ex_kind e) 2); [left|right]]];
      rewrite ?al_func, ?al_tabl, ?al_mems, ?al_glob, LN in X; (split; [lia|exact X]).
Qed.

(* a single instruction without operands *)
Lemma single C i ts : typed_seq C [i] [] ts -> typed_inst C i [] ts.
Proof.
  intros H. remember [] as e eqn:E in H at 2. remember [i] as l eqn:El in H. destruct H as [|C i' is A B R ts H1 H2]; [discriminate|]. injection El as -> ->.
  apply app_eq_nil in E. destruct E as [-> ->]. inversion H2; subst. rewrite app_nil_r. exact H1.
Qed.
