(* WASI functions that raise and hand nothing back through memory have changed nothing either (C141). *)
From Coq Require Import ZArith List Bool Lia ZifyBool ZifyNat.
From Verif Require Import Py Syntax Store Val Machine Utf8 Os Wasi PyFacts SpecWasiLeave SpecWasiErr WasiLeaveFacts WasiErrFacts.
Import ListNotations.
Open Scope Z_scope.

Section pass.
Context (p : preview1).
(* started with the descriptors [p], anything but success leaves all as it was *)
Definition atomic (e : W (list Z)) : Prop := forall w r w', w_self w = p -> e w = (r, w') -> r <> Ok [E_SUCCESS] -> unmoved w w'.
Lemma atomic_bind {A} (e : W A) f : still e -> (forall a, atomic (f a)) -> atomic (bind e f).
Proof.
  intros H K w r w' EP E N. unfold bind in E. pose proof (still_unmoved e w H) as U. destruct (e w) as [[a|x] w1] eqn:E1; cbn [snd] in U; [|injection E as <- <-; exact U].
  refine (unmoved_trans _ _ _ U (K a _ _ _ _ E N)). now rewrite (proj1 (proj2 U)).
Qed.
Lemma atomic_self f : atomic (f p) -> atomic (bind self f).
Proof. intros K w r w' EP E N. unfold bind, self in E. rewrite EP in E. exact (K _ _ _ EP E N). Qed.
Lemma atomic_assoc {A B} (a : W A) (b : A -> W B) k : atomic (bind a (fun x => bind (b x) k)) -> atomic (bind (bind a b) k).
Proof. intros K w r w' EP E N. apply (K w r w' EP); [|exact N]. rewrite <- E. unfold bind. now destruct (a w) as [[v|x] w1]. Qed.
Lemma atomic_still e : still e -> atomic e.
Proof. intros H w r w' _ E _. pose proof (still_unmoved e w H) as U. now rewrite E in U. Qed.
End pass.
(* with [n] descriptors, success is sure *)
Definition sure (n : Z) (e : W (list Z)) : Prop := forall w, len (p_fd (w_self w)) = n -> exists w', e w = (Ok [E_SUCCESS], w').
Lemma sure_ret n : sure n (ret [E_SUCCESS]). Proof. intros w _. now exists w. Qed.
Lemma sure_file n x k : 0 <= x < n -> (forall f, sure n (k f)) -> sure n (bind (the_file x) k).
Proof.
  intros H K w E. unfold bind, the_file, self, lift, bind. assert (HX : exists f, py_index (p_fd (w_self w)) x = Ok f).
  { destruct (p_fd (w_self w)) as [|d l] eqn:EL; [cbn in E; lia|]. exists (nth (Z.to_nat x) (d :: l) d). apply PyFacts.py_index_in. lia. }
  destruct HX as (f & ->). exact (K f w E).
Qed.
Lemma sure_put n x f k : 0 <= x < n -> sure n (k tt) -> sure n (bind (put_file x f) k).
Proof.
  intros H K w E. unfold bind, put_file, set_fd, set_self, self, lift, bind, py_setitem. replace (x <? 0) with false by lia. rewrite E.
  replace ((x <? 0) || (n <=? x)) with false by lia. apply K. cbn [w_self p_fd]. rewrite <- E. unfold len. f_equal. clear.
  generalize (Z.to_nat x). induction (p_fd (w_self w)) as [|d l IH]; intros [|m]; cbn; auto.
Qed.
Lemma atomic_sure p e : sure (len (p_fd p)) e -> atomic p e.
Proof. intros H w r w' EP E N. destruct (H w) as (w2 & E2); [now rewrite EP|]. rewrite E2 in E. injection E as <- _. congruence. Qed.
Lemma badf_range p fd : help_badf p fd = false -> 0 <= fd < len (p_fd p).
Proof. unfold help_badf. lia. Qed.
Lemma close_atomic Os p x : atomic p (fd_close Os x).
Proof.
  unfold fd_close, unless_badf. apply atomic_self. destruct (help_badf p x) eqn:EB; [apply atomic_still, lv_ret|]. apply badf_range in EB.
  apply atomic_bind; [unfold still; a_tac|intros f]. destruct (wasm_type f =? T_CHARACTER_DEVICE).
  - apply atomic_bind; [apply lv_ret|intros _]. apply atomic_sure. apply sure_file; [exact EB|intros g]. apply sure_put; [exact EB|apply sure_ret].
  - apply atomic_assoc. apply atomic_bind; [unfold still; a_tac|intros _]. apply atomic_sure. apply sure_put; [exact EB|]. apply sure_file; [exact EB|intros g].
    apply sure_put; [exact EB|apply sure_ret].
Qed.
Lemma renumber_atomic Os p x y : atomic p (fd_renumber Os x y).
Proof.
  unfold fd_renumber. apply atomic_self. destruct (help_badf p x) eqn:EB; [apply atomic_still, lv_ret|]. destruct (help_badf p y) eqn:EC; [apply atomic_still, lv_ret|].
  apply badf_range in EB, EC. cbn [orb]. apply atomic_bind; [unfold still; a_tac|intros f]. apply atomic_bind; [unfold still; a_tac|intros _].
  apply atomic_sure. apply sure_file; [exact EB|intros g]. apply sure_put; [exact EC|]. apply sure_file; [exact EB|intros h]. apply sure_put; [exact EB|apply sure_ret].
Qed.
Lemma rights_atomic p x y z : atomic p (fd_fdstat_set_rights x y z).
Proof.
  unfold fd_fdstat_set_rights, unless_badf. apply atomic_self. destruct (help_badf p x) eqn:EB; [apply atomic_still, lv_ret|]. apply badf_range in EB.
  apply atomic_bind; [unfold still; a_tac|intros f]. destruct (negb _); [apply atomic_still, lv_ret|]. destruct (negb _); [apply atomic_still, lv_ret|].
  apply atomic_sure. apply sure_put; [exact EB|apply sure_ret].
Qed.
Lemma raise_unmoved Os f args w r w' : fills_memory f = false -> f <> F_fd_fdstat_set_flags -> wasi_call Os f args w = (r, w') -> r <> Ok [E_SUCCESS] -> unmoved w w'.
Proof.
  intros HF NF E N. destruct (sets_descriptors f) eqn:ES.
  - enough (K : atomic (w_self w) (wasi_call Os f args)) by exact (K w r w' eq_refl E N).
    assert (KF : forall x, atomic (w_self w) (fail x)) by (intros x; apply atomic_still, lv_fail).
    destruct f; try discriminate ES; try discriminate HF; try congruence; destruct args as [|x [|y [|z [|u args]]]]; cbn [wasi_call]; try apply KF;
      [apply close_atomic|apply rights_atomic|apply renumber_atomic].
  - destruct (call_leaves Os f args w) as (H1 & H2 & H3). rewrite E in *. cbn [snd] in *. split; [exact (H1 HF)|]. split; [exact (H2 ES)|]. apply H3. now destruct f.
Qed.
