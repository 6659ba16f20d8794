(* How much instructions without control transfer push (C135). *)
From Coq Require Import ZArith List Bool Lia ZifyBool ZifyNat.
From Verif Require Import Py Floatops Val Opcode Numeric Syntax Store Basic Machine.
Import ListNotations.
Open Scope Z_scope.

(* ---- instructions without control transfer push at most one operand ---- *)
Definition pb (k : nat) {A} (c : B A) : Prop := forall b, (length (b_value (snd (c b))) <= k + length (b_value b))%nat.
Lemma pb_bind {A B'} j k (c : B A) (f : A -> B B') : pb j c -> (forall a, pb k (f a)) -> pb (j + k) (bind c f).
Proof. intros H K b. unfold bind. specialize (H b). destruct (c b) as [[a|x] b1]; cbn [snd] in *; [|lia]. specialize (K a b1). lia. Qed.
Lemma pb0 {A B'} k (c : B A) (f : A -> B B') : pb 0 c -> (forall a, pb k (f a)) -> pb k (bind c f).
Proof. exact (pb_bind 0 k c f). Qed.
Lemma pb1 {A B'} (c : B A) (f : A -> B B') : pb 1 c -> (forall a, pb 0 (f a)) -> pb 1 (bind c f).
Proof. exact (pb_bind 1 0 c f). Qed.
Lemma pb_up {A} (c : B A) : pb 0 c -> pb 1 c. Proof. intros H b. specialize (H b). lia. Qed.
Lemma pb_ret {A} k (a : A) : pb k (ret a). Proof. intros b. cbn. lia. Qed.
Lemma pb_fail {A} k x : pb k (fail x : B A). Proof. intros b. cbn. lia. Qed.
Lemma pb_lift {A} k (r : res A) : pb k (lift r). Proof. intros b. cbn. lia. Qed.
Lemma pb_assert k c : pb k (assert c). Proof. intros b. unfold assert. destruct c; cbn; lia. Qed.
Lemma pb_pop k : pb k pop. Proof. intros b. unfold pop. destruct (b_value b) eqn:E; cbn; rewrite ?E; cbn; lia. Qed.
Lemma pb_top k : pb k top. Proof. intros b. unfold top. destruct (b_value b) eqn:E; cbn; rewrite ?E; cbn; lia. Qed.
Lemma pb_push v : pb 1 (push v). Proof. intros b. cbn. lia. Qed.
Lemma pb_store k : pb k get_store. Proof. intros b. cbn. lia. Qed.
Lemma pb_locals k : pb k get_locals. Proof. intros b. cbn. lia. Qed.
Lemma pb_put_locals k l : pb k (put_locals l). Proof. intros b. cbn. lia. Qed.
Lemma pb_put_mem k a x : pb k (put_mem a x). Proof. intros b. unfold put_mem, bind, get_store, lift, put_store. destruct (py_setitem _ _ _); cbn; lia. Qed.
Lemma pb_put_tab k a x : pb k (put_tab a x). Proof. intros b. unfold put_tab, bind, get_store, lift, put_store. destruct (py_setitem _ _ _); cbn; lia. Qed.
Lemma pb_put_glob k a x : pb k (put_glob a x). Proof. intros b. unfold put_glob, bind, get_store, lift, put_store. destruct (py_setitem _ _ _); cbn; lia. Qed.
Lemma pb_put_elem k a x : pb k (put_elem a x). Proof. intros b. unfold put_elem, bind, get_store, lift, put_store. destruct (py_setitem _ _ _); cbn; lia. Qed.
Lemma pb_put_blob k a x : pb k (put_blob a x). Proof. intros b. cbn. lia. Qed.
Ltac pbs0 := repeat (cbn beta zeta; match goal with
  | |- pb 0 (bind _ _) => apply pb0; [|intros ?]
  | |- pb _ (ret _) => apply pb_ret
  | |- pb _ (fail _) => apply pb_fail
  | |- pb _ (lift _) => apply pb_lift
  | |- pb _ (assert _) => apply pb_assert
  | |- pb _ (pop) => apply pb_pop
  | |- pb _ (top) => apply pb_top
  | |- pb _ (get_store) => apply pb_store
  | |- pb _ (get_locals) => apply pb_locals
  | |- pb _ (put_locals _) => apply pb_put_locals
  | |- pb _ (put_mem _ _) => apply pb_put_mem
  | |- pb _ (put_tab _ _) => apply pb_put_tab
  | |- pb _ (put_glob _ _) => apply pb_put_glob
  | |- pb _ (put_elem _ _) => apply pb_put_elem
  | |- pb _ (put_blob _ _) => apply pb_put_blob
  | |- pb _ (if ?b then _ else _) => destruct b
  | |- pb _ (pushr _) => unfold pushr
  | |- pb _ pop_u32 => unfold pop_u32
  | |- pb _ (mod_addr _ _ _) => unfold mod_addr
  | |- pb _ (get_mem _) => unfold get_mem
  | |- pb _ (get_tab _) => unfold get_tab
  | |- pb _ (get_glob _) => unfold get_glob
  | |- pb _ (get_elem _) => unfold get_elem
  | |- pb _ (get_data _) => unfold get_data
  | |- pb _ (get_blob _) => unfold get_blob
  | |- pb _ (mem_load _ _ _) => unfold mem_load
  | |- pb _ (mem_save _ _ _) => unfold mem_save
  | |- pb _ (load_lane _ _ _) => unfold load_lane
  | |- pb _ (store_lane _ _ _) => unfold store_lane
  end).
Ltac pbs := repeat (cbn beta zeta; match goal with
  | |- pb 0 (bind _ _) => apply pb0; [|intros ?]
  | |- pb 1 (push _) => apply pb_push
  | |- pb 1 (bind _ _) => first [apply pb0; [solve [pbs0]|intros ?]|apply pb1; [|intros ?; solve [pbs0]]]
  | |- pb _ (ret _) => apply pb_ret
  | |- pb _ (fail _) => apply pb_fail
  | |- pb _ (lift _) => apply pb_lift
  | |- pb _ (assert _) => apply pb_assert
  | |- pb _ (pop) => apply pb_pop
  | |- pb _ (top) => apply pb_top
  | |- pb _ (get_store) => apply pb_store
  | |- pb _ (get_locals) => apply pb_locals
  | |- pb _ (put_locals _) => apply pb_put_locals
  | |- pb _ (put_mem _ _) => apply pb_put_mem
  | |- pb _ (put_tab _ _) => apply pb_put_tab
  | |- pb _ (put_glob _ _) => apply pb_put_glob
  | |- pb _ (put_elem _ _) => apply pb_put_elem
  | |- pb _ (put_blob _ _) => apply pb_put_blob
  | |- pb _ (if ?b then _ else _) => destruct b
  | |- pb _ (pushr _) => unfold pushr
  | |- pb _ pop_u32 => unfold pop_u32
  | |- pb _ (mod_addr _ _ _) => unfold mod_addr
  | |- pb _ (get_mem _) => unfold get_mem
  | |- pb _ (get_tab _) => unfold get_tab
  | |- pb _ (get_glob _) => unfold get_glob
  | |- pb _ (get_elem _) => unfold get_elem
  | |- pb _ (get_data _) => unfold get_data
  | |- pb _ (get_blob _) => unfold get_blob
  | |- pb _ (mem_load _ _ _) => unfold mem_load
  | |- pb _ (mem_save _ _ _) => unfold mem_save
  | |- pb _ (load_lane _ _ _) => unfold load_lane
  | |- pb _ (store_lane _ _ _) => unfold store_lane
  end).
Lemma pb_basic F mr o args : pb 1 (exec_basic F mr o args).
Proof.
  unfold exec_basic. destruct (num_op F o) as [[f|f|f|f]|]; cbn [exec_num]; pbs. destruct (load_op o) as [[size conv]|]; pbs. destruct (store_op o); pbs.
  destruct o; cbn [exec_misc]; pbs.
Qed.
