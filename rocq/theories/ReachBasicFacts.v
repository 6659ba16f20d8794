(* Instructions without control transfer change only the part of the store they write (C136). *)
From Coq Require Import ZArith List Bool.
From Verif Require Import Py Floatops Val Opcode Numeric Syntax Store Basic Machine SpecReach.
Import ListNotations.
Open Scope Z_scope.

Section part.
Context (p : part).
Definition kp {A} (c : B A) : Prop := forall b, same_part p (b_store b) (b_store (snd (c b))).
Lemma same_refl s : same_part p s s. Proof. now destruct p. Qed.
Lemma same_trans a b c : same_part p a b -> same_part p b c -> same_part p a c.
Proof. destruct p; cbn [same_part]; try congruence. intros [-> ->] [-> ->]. now split. Qed.
Lemma kp_bind {A B'} (c : B A) (f : A -> B B') : kp c -> (forall a, kp (f a)) -> kp (bind c f).
Proof. intros H K b. unfold bind. specialize (H b). destruct (c b) as [[a|x] b1]; cbn [snd] in *; [|exact H]. exact (same_trans _ _ _ H (K a b1)). Qed.
Lemma kp_ret {A} (a : A) : kp (ret a). Proof. intros b. apply same_refl. Qed.
Lemma kp_fail {A} x : kp (fail x : B A). Proof. intros b. apply same_refl. Qed.
Lemma kp_lift {A} (r : res A) : kp (lift r). Proof. intros b. apply same_refl. Qed.
Lemma kp_assert c : kp (assert c). Proof. intros b. destruct c; apply same_refl. Qed.
Lemma kp_pop : kp pop. Proof. intros b. unfold pop. destruct (b_value b); apply same_refl. Qed.
Lemma kp_top : kp top. Proof. intros b. unfold top. destruct (b_value b); apply same_refl. Qed.
Lemma kp_push v : kp (push v). Proof. intros b. apply same_refl. Qed.
Lemma kp_store : kp get_store. Proof. intros b. apply same_refl. Qed.
Lemma kp_locals : kp get_locals. Proof. intros b. apply same_refl. Qed.
Lemma kp_put_locals l : kp (put_locals l). Proof. intros b. apply same_refl. Qed.
Lemma kp_put_mem a x : p <> Memories -> kp (put_mem a x).
Proof. intros N b. unfold put_mem, bind, get_store, lift, put_store. destruct (py_setitem _ _ _); [|apply same_refl]. destruct p; try (congruence || (cbn; auto)). Qed.
Lemma kp_put_tab a x : p <> Tables -> kp (put_tab a x).
Proof. intros N b. unfold put_tab, bind, get_store, lift, put_store. destruct (py_setitem _ _ _); [|apply same_refl]. destruct p; try (congruence || (cbn; auto)). Qed.
Lemma kp_put_glob a x : p <> Globals -> kp (put_glob a x).
Proof. intros N b. unfold put_glob, bind, get_store, lift, put_store. destruct (py_setitem _ _ _); [|apply same_refl]. destruct p; try (congruence || (cbn; auto)). Qed.
Lemma kp_put_elem a x : p <> Elements -> kp (put_elem a x).
Proof. intros N b. unfold put_elem, bind, get_store, lift, put_store. destruct (py_setitem _ _ _); [|apply same_refl]. destruct p; try (congruence || (cbn; auto)). Qed.
Lemma kp_put_blob a x : p <> Data -> kp (put_blob a x).
Proof. intros N b. destruct p; try (congruence || (cbn; auto)). Qed.
Ltac kps := repeat (cbn beta zeta; match goal with
  | |- kp (bind _ _) => apply kp_bind; [|intros ?]
  | |- kp (ret _) => apply kp_ret
  | |- kp (fail _) => apply kp_fail
  | |- kp (lift _) => apply kp_lift
  | |- kp (assert _) => apply kp_assert
  | |- kp pop => apply kp_pop
  | |- kp top => apply kp_top
  | |- kp (push _) => apply kp_push
  | |- kp get_store => apply kp_store
  | |- kp get_locals => apply kp_locals
  | |- kp (put_locals _) => apply kp_put_locals
  | N : writes p _ = false |- kp (put_mem _ _) => apply kp_put_mem; intros ->; discriminate N
  | N : writes p _ = false |- kp (put_tab _ _) => apply kp_put_tab; intros ->; discriminate N
  | N : writes p _ = false |- kp (put_glob _ _) => apply kp_put_glob; intros ->; discriminate N
  | N : writes p _ = false |- kp (put_elem _ _) => apply kp_put_elem; intros ->; discriminate N
  | N : writes p _ = false |- kp (put_blob _ _) => apply kp_put_blob; intros ->; discriminate N
  | |- kp (if ?b then _ else _) => destruct b
  | |- kp (pushr _) => unfold pushr
  | |- kp pop_u32 => unfold pop_u32
  | |- kp (mod_addr _ _ _) => unfold mod_addr
  | |- kp (get_mem _) => unfold get_mem
  | |- kp (get_tab _) => unfold get_tab
  | |- kp (get_glob _) => unfold get_glob
  | |- kp (get_elem _) => unfold get_elem
  | |- kp (get_data _) => unfold get_data
  | |- kp (get_blob _) => unfold get_blob
  | |- kp (mem_load _ _ _) => unfold mem_load
  | |- kp (mem_save _ _ _) => unfold mem_save
  | |- kp (load_lane _ _ _) => unfold load_lane
  | |- kp (store_lane _ _ _) => unfold store_lane
  end).
Lemma kp_basic F mr o args : writes p o = false -> kp (exec_basic F mr o args).
Proof.
  intros N. unfold exec_basic. destruct (num_op F o) as [[f|f|f|f]|]; cbn [exec_num]; kps. destruct (load_op o) as [[size conv]|]; kps.
  destruct (store_op o) eqn:ES.
  - assert (p <> Memories) by (intros ->; destruct o; try discriminate ES; discriminate N). kps. now apply kp_put_mem.
  - clear ES. destruct o; cbn [exec_misc]; kps.
Qed.
End part.
