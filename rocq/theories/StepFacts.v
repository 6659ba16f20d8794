(* One turn of the loop for an instruction that does not transfer control. *)
From Coq Require Import ZArith List Bool Lia.
From Verif Require Import Py Arith Floatops Val Opcode Numeric Syntax Store Basic Machine SpecMachine PyFacts ValFacts.
Import ListNotations.
Open Scope Z_scope.

Definition is_control (o : opc) : bool :=
  match o with
  | O_block | O_loop | O_if_then | O_br | O_br_if | O_br_table | O_return_call | O_call | O_call_indirect => true
  | _ => false
  end.

Lemma exec_op_basic F host lb fr o args : is_control o = false ->
  exec F host lb fr (IOp o args) = on_basic (fun mr => exec_basic F mr o args).
Proof. destruct o; cbn [is_control]; intros H; try discriminate H; reflexivity. Qed.

Lemma about_ne lb (i : inst) : nth_error (lb_instr lb) (lb_index lb) = Some i ->
  Nat.eqb (lb_index lb) (length (lb_instr lb)) = false.
Proof.
  intros H. apply PeanoNat.Nat.eqb_neq. intros E.
  assert (L : (lb_index lb < length (lb_instr lb))%nat) by (apply nth_error_Some; congruence). lia.
Qed.

(* a step that runs [i] *)
Lemma step_inst F host m i fr : about_to_run m i fr ->
  exists lb ls,
    k_label m = lb :: ls /\
    step F host m =
      exec F host (mklabel (lb_arity lb) (lb_frame lb) (lb_value lb) (lb_carry lb) (lb_instr lb) (S (lb_index lb)))
        fr i (moved_on m (k_value m)).
Proof.
  intros [(lb & ls & El & Ei) (fs & Ef)]. exists lb, ls. split; [exact El|].
  unfold step, bind, mget, top_frame. rewrite El, Ef, (about_ne _ _ Ei), Ei.
  unfold mput, set_label, moved_on. rewrite El. reflexivity.
Qed.

Lemma step_basic F host m o args fr : about_to_run m (IOp o args) fr -> is_control o = false ->
  step F host m =
    let (r, b) := exec_basic F (fr_module fr) o args (mkb (k_store m) (fr_locals fr) (k_value m)) in
    (r, with_locals (with_store (moved_on m (b_value b)) (b_store b)) (b_locals b)).
Proof.
  intros H Hc. destruct (step_inst F host m _ fr H) as (lb & ls & El & ->).
  rewrite (exec_op_basic F host _ fr o args Hc).
  destruct H as [_ (fs & Ef)].
  unfold on_basic. cbn [k_frame moved_on k_store k_value]. rewrite Ef.
  destruct (exec_basic F (fr_module fr) o args _) as [r b].
  unfold with_locals, with_store, moved_on. cbn [k_frame k_store k_value k_label]. rewrite Ef. reflexivity.
Qed.

(* when the store and the locals are as before *)
Lemma step_basic_pure F host m o args fr r V : about_to_run m (IOp o args) fr -> is_control o = false ->
  exec_basic F (fr_module fr) o args (mkb (k_store m) (fr_locals fr) (k_value m)) =
    (r, mkb (k_store m) (fr_locals fr) V) ->
  step F host m = (r, moved_on m V).
Proof.
  intros H Hc E. rewrite (step_basic F host m o args fr H Hc), E.
  destruct H as [_ (fs & Ef)].
  unfold with_locals, with_store, moved_on. cbn [k_frame k_store k_value k_label b_store b_value b_locals].
  rewrite Ef. destruct fr; reflexivity.
Qed.

(* when the locals are as before *)
Lemma step_basic_store F host m o args fr r V s : about_to_run m (IOp o args) fr -> is_control o = false ->
  exec_basic F (fr_module fr) o args (mkb (k_store m) (fr_locals fr) (k_value m)) =
    (r, mkb s (fr_locals fr) V) ->
  step F host m = (r, with_store (moved_on m V) s).
Proof.
  intros H Hc E. rewrite (step_basic F host m o args fr H Hc), E.
  destruct H as [_ (fs & Ef)].
  unfold with_locals, with_store, moved_on. cbn [k_frame k_store k_value k_label b_store b_value b_locals].
  rewrite Ef. destruct fr; reflexivity.
Qed.

(* value instructions *)
Lemma num_not_control F o n : num_op F o = Some n -> is_control o = false.
Proof. destruct o; try reflexivity; intros H; discriminate H. Qed.

Lemma basic_num1 F mr o args f s l v V : num_op F o = Some (N1 f) ->
  exec_basic F mr o args (mkb s l (v :: V)) =
    match f args v with Ok x => (Ok tt, mkb s l (x :: V)) | Err e => (Err e, mkb s l V) end.
Proof. intros H. unfold exec_basic. rewrite H. cbn. unfold pushr, bind, lift, push. cbn. destruct (f args v); reflexivity. Qed.
Lemma basic_num2 F mr o args f s l va vb V : num_op F o = Some (N2 f) ->
  exec_basic F mr o args (mkb s l (vb :: va :: V)) =
    match f args va vb with Ok x => (Ok tt, mkb s l (x :: V)) | Err e => (Err e, mkb s l V) end.
Proof. intros H. unfold exec_basic. rewrite H. cbn. unfold pushr, bind, lift, push. cbn. destruct (f args va vb); reflexivity. Qed.
Lemma basic_num3 F mr o args f s l va vb vc V : num_op F o = Some (N3 f) ->
  exec_basic F mr o args (mkb s l (vc :: vb :: va :: V)) =
    match f args va vb vc with Ok x => (Ok tt, mkb s l (x :: V)) | Err e => (Err e, mkb s l V) end.
Proof. intros H. unfold exec_basic. rewrite H. cbn. unfold pushr, bind, lift, push. cbn. destruct (f args va vb vc); reflexivity. Qed.
Lemma basic_num0 F mr o args f s l V : num_op F o = Some (N0 f) ->
  exec_basic F mr o args (mkb s l V) =
    match f args with Ok x => (Ok tt, mkb s l (x :: V)) | Err e => (Err e, mkb s l V) end.
Proof. intros H. unfold exec_basic. rewrite H. cbn. unfold pushr, bind, lift, push. cbn. destruct (f args); reflexivity. Qed.

Lemma step_num1 F host m o args fr f v V : about_to_run m (IOp o args) fr -> num_op F o = Some (N1 f) ->
  k_value m = v :: V ->
  step F host m = match f args v with Ok x => (Ok tt, moved_on m (x :: V)) | Err e => (Err e, moved_on m V) end.
Proof.
  intros H Hn Hv. pose proof (basic_num1 F (fr_module fr) o args f (k_store m) (fr_locals fr) v V Hn) as E.
  rewrite <- Hv in E. destruct (f args v) as [x|e];
    exact (step_basic_pure F host m o args fr _ _ H (num_not_control F o _ Hn) E).
Qed.
Lemma step_num2 F host m o args fr f va vb V : about_to_run m (IOp o args) fr -> num_op F o = Some (N2 f) ->
  k_value m = vb :: va :: V ->
  step F host m = match f args va vb with Ok x => (Ok tt, moved_on m (x :: V)) | Err e => (Err e, moved_on m V) end.
Proof.
  intros H Hn Hv. pose proof (basic_num2 F (fr_module fr) o args f (k_store m) (fr_locals fr) va vb V Hn) as E.
  rewrite <- Hv in E. destruct (f args va vb) as [x|e];
    exact (step_basic_pure F host m o args fr _ _ H (num_not_control F o _ Hn) E).
Qed.
Lemma step_num3 F host m o args fr f va vb vc V : about_to_run m (IOp o args) fr -> num_op F o = Some (N3 f) ->
  k_value m = vc :: vb :: va :: V ->
  step F host m = match f args va vb vc with Ok x => (Ok tt, moved_on m (x :: V)) | Err e => (Err e, moved_on m V) end.
Proof.
  intros H Hn Hv. pose proof (basic_num3 F (fr_module fr) o args f (k_store m) (fr_locals fr) va vb vc V Hn) as E.
  rewrite <- Hv in E. destruct (f args va vb vc) as [x|e];
    exact (step_basic_pure F host m o args fr _ _ H (num_not_control F o _ Hn) E).
Qed.
Lemma step_num0 F host m o args fr f : about_to_run m (IOp o args) fr -> num_op F o = Some (N0 f) ->
  step F host m = match f args with Ok x => (Ok tt, moved_on m (x :: k_value m)) | Err e => (Err e, moved_on m (k_value m)) end.
Proof.
  intros H Hn. pose proof (basic_num0 F (fr_module fr) o args f (k_store m) (fr_locals fr) (k_value m) Hn) as E.
  destruct (f args) as [x|e]; exact (step_basic_pure F host m o args fr _ _ H (num_not_control F o _ Hn) E).
Qed.
