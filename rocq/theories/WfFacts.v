(* Every instruction turns well-formed values into well-formed values. *)
From Coq Require Import ZArith List Bool Lia ZifyBool ZifyNat.
From Verif Require Import Py Arith Floatops Val Opcode Numeric Syntax Store Basic Machine
  SpecInt SpecNum SpecMem SpecRun PyFacts ArithFacts ValFacts LaneFacts.
Import ListNotations.
Open Scope Z_scope.

(* a computation yields only results satisfying P *)
Definition gives {A} (P : A -> Prop) (r : res A) : Prop := forall x, r = Ok x -> P x.
Lemma gives_ok {A} (P : A -> Prop) x : P x -> gives P (Ok x).
Proof. intros H y E. apply Ok_inj in E. subst. exact H. Qed.
Lemma gives_err {A} (P : A -> Prop) e : gives P (@Err A e).
Proof. intros y E. discriminate E. Qed.
Lemma gives_bind {A B} (Q : A -> Prop) (P : B -> Prop) (r : res A) (f : A -> res B) :
  gives Q r -> (forall x, Q x -> gives P (f x)) -> gives P (rbind r f).
Proof. intros H1 H2 y E. destruct r as [a|e]; [|discriminate E]. exact (H2 a (H1 a eq_refl) y E). Qed.
Lemma gives_bind_any {A B} (P : B -> Prop) (r : res A) (f : A -> res B) :
  (forall x, gives P (f x)) -> gives P (rbind r f).
Proof. intros H. apply (gives_bind (fun _ => True)); [intros y _; exact I|]. intros x _. apply H. Qed.
Lemma gives_true {A} (r : res A) : gives (fun _ => True) r.
Proof. intros x _. exact I. Qed.
Lemma gives_weaken {A} (P Q : A -> Prop) r : (forall x, P x -> Q x) -> gives P r -> gives Q r.
Proof. intros H G x E. apply H, G, E. Qed.
Lemma gives_rmapl {A B} (P : B -> Prop) (f : A -> res B) l : (forall x, In x l -> gives P (f x)) -> gives (Forall P) (rmapl f l).
Proof.
  induction l as [|a l IH]; intros H; cbn [rmapl].
  - apply gives_ok. constructor.
  - apply (gives_bind P); [apply H; left; reflexivity|]. intros y Hy. apply (gives_bind (Forall P)).
    + apply IH. intros x Hx. apply H. right. exact Hx.
    + intros ys Hys. apply gives_ok. constructor; assumption.
Qed.
Lemma gives_index {A} (P : A -> Prop) (l : list A) i : Forall P l -> gives P (py_index l i).
Proof.
  intros H x E. unfold py_index in E. destruct (_ <? 0); [discriminate E|].
  destruct (nth_error l _) eqn:N; [|discriminate E]. apply Ok_inj in E. subst a.
  apply nth_error_In in N. rewrite Forall_forall in H. apply H, N.
Qed.
Lemma gives_setitem {A} (P : A -> Prop) (l : list A) i x : Forall P l -> P x -> gives (Forall P) (py_setitem l i x).
Proof. intros H Hx y E. unfold py_setitem in E. destruct (_ || _); [discriminate E|]. apply Ok_inj in E. subst y. apply upd_Forall; assumption. Qed.

(* ---- writers ---- *)
Lemma mk_val_gives t d : bytes d -> gives val_wf (mk_val t d).
Proof. intros H v E. apply mk_val_inv in E. destruct E as [-> Hl]. split; assumption. Qed.
Lemma from_i32_gives n : gives val_wf (from_i32 n).
Proof. intros v E. apply from_i32_inv in E. destruct E as [_ ->]. apply mkval_wf. Qed.
Lemma from_i64_gives n : gives val_wf (from_i64 n).
Proof. intros v E. apply from_i64_inv in E. destruct E as [_ ->]. apply mkval_wf. Qed.
Lemma from_u32_gives n : gives val_wf (from_u32 n).
Proof. intros v E. apply from_u32_inv in E. destruct E as [_ ->]. apply mkval_wf. Qed.
Lemma from_u64_gives n : gives val_wf (from_u64 n).
Proof. intros v E. apply from_u64_inv in E. destruct E as [_ ->]. apply mkval_wf. Qed.
Lemma from_f32_gives F n : gives val_wf (from_f32 F n).
Proof. rewrite from_f32_ok. apply gives_ok, mkval_wf. Qed.
Lemma from_f64_gives n : gives val_wf (from_f64 n).
Proof. rewrite from_f64_ok. apply gives_ok, mkval_wf. Qed.
Lemma from_ref_gives t n : gives val_wf (from_ref t n).
Proof. intros v E. apply from_ref_inv in E. destruct E as [_ ->]. apply mkval_wf. Qed.
Lemma from_v128_gives d : bytes d -> gives val_wf (from_v128 d).
Proof. intros H v E. apply from_v128_inv in E. destruct E as [Hl ->]. split; assumption. Qed.
Lemma i_into_bytes n z : gives bytes (i_into_bytearray n z).
Proof. unfold i_into_bytearray, to_bytes_s. destruct (_ && _); [apply gives_ok, to_le_bytes|apply gives_err]. Qed.
Lemma u_into_bytes n z : gives bytes (u_into_bytearray n z).
Proof. unfold u_into_bytearray, to_bytes_u. destruct (_ && _); [apply gives_ok, to_le_bytes|apply gives_err]. Qed.
Lemma concat_bytes ls : Forall bytes ls -> bytes (concat ls).
Proof. induction 1; [constructor|]. apply bytes_app. split; assumption. Qed.
Lemma from_lanes_gives into w n : (forall k z, gives bytes (into k z)) -> gives val_wf (from_lanes into w n).
Proof.
  intros H. unfold from_lanes. apply gives_bind_any. intros _.
  apply (gives_bind (Forall bytes)); [apply gives_rmapl; intros; apply H|].
  intros bs Hbs. apply mk_val_gives, bytes_app. split; [apply concat_bytes, Hbs|apply bytes_zeros].
Qed.
Lemma from_v128_i_gives w n : gives val_wf (from_v128_i w n).
Proof. apply from_lanes_gives, i_into_bytes. Qed.
Lemma from_v128_u_gives w n : gives val_wf (from_v128_u w n).
Proof. apply from_lanes_gives, u_into_bytes. Qed.
Lemma concat_map_bytes {A} (f : A -> list Z) l : (forall x, bytes (f x)) -> bytes (concat (map f l)).
Proof. intros H. apply concat_bytes. induction l; constructor; [apply H|assumption]. Qed.
Lemma from_v128_f32_gives F n : gives val_wf (from_v128_f32 F n).
Proof.
  unfold from_v128_f32. apply gives_bind_any. intros _. apply mk_val_gives, bytes_app.
  split; [|apply bytes_zeros]. apply concat_map_bytes. intros x. apply to_le_bytes.
Qed.
Lemma from_v128_f64_gives n : gives val_wf (from_v128_f64 n).
Proof.
  unfold from_v128_f64. apply gives_bind_any. intros _. apply mk_val_gives, bytes_app.
  split; [|apply bytes_zeros]. apply concat_map_bytes. intros x. apply to_le_bytes.
Qed.
Lemma checked_gives wr rd b : gives val_wf (wr b) -> gives val_wf (checked wr rd b).
Proof.
  intros H. unfold checked. apply (gives_bind val_wf _ _ _ H). intros c Hc.
  apply gives_bind_any. intros x. apply gives_bind_any. intros _. apply gives_ok, Hc.
Qed.
Lemma val_zero_wf t : val_wf (val_zero t).
Proof. split; [reflexivity|apply bytes_zeros]. Qed.
Lemma from_all_gives F t p : pyval_ok p -> gives val_wf (from_all F t p).
Proof.
  intros H. destruct t, p; cbn [from_all]; try apply gives_err;
    first [apply from_i32_gives|apply from_i64_gives|apply from_f32_gives|apply from_f64_gives|apply from_ref_gives|
           apply from_v128_gives, H|
           apply gives_bind_any; intros; first [apply from_f32_gives|apply from_f64_gives]].
Qed.

(* ---- the instructions ---- *)
Definition numop_ok (n : numop) : Prop :=
  forall args, (forall b, In (ABytes b) args -> bytes b) ->
  match n with
  | N0 f => gives val_wf (f args)
  | N1 f => forall a, val_wf a -> gives val_wf (f args a)
  | N2 f => forall a b, val_wf a -> val_wf b -> gives val_wf (f args a b)
  | N3 f => forall a b c, val_wf a -> val_wf b -> val_wf c -> gives val_wf (f args a b c)
  end.
Lemma op1_ok {A R} (rd : val -> res A) f (wr : R -> res val) : (forall x, gives val_wf (wr x)) -> numop_ok (op1 rd f wr).
Proof. intros H args _ a _. cbv beta. apply gives_bind_any. intros x. apply gives_bind_any. exact H. Qed.
Lemma op2_ok {A B R} (rda : val -> res A) (rdb : val -> res B) f (wr : R -> res val) :
  (forall x, gives val_wf (wr x)) -> numop_ok (op2 rda rdb f wr).
Proof.
  intros H args _ a b _ _. cbv beta. apply gives_bind_any. intros x. apply gives_bind_any. intros y.
  apply gives_bind_any. exact H.
Qed.
Lemma op3_ok {A B C R} (rda : val -> res A) (rdb : val -> res B) (rdc : val -> res C) f (wr : R -> res val) :
  (forall x, gives val_wf (wr x)) -> numop_ok (op3 rda rdb rdc f wr).
Proof.
  intros H args _ a b c _ _ _. cbv beta. apply gives_bind_any. intros x. apply gives_bind_any. intros y.
  apply gives_bind_any. intros z. apply gives_bind_any. exact H.
Qed.
Definition byte (x : Z) : Prop := 0 <= x < 256.
Lemma bytes_byte l : bytes l <-> Forall byte l.
Proof. reflexivity. Qed.
Lemma byte_bits x : byte x <-> 0 <= x < 2 ^ 8.
Proof. reflexivity. Qed.
Lemma byte_of_bits x : (forall i, 8 <= i -> Z.testbit x i = false) -> byte x.
Proof.
  intros H. assert (E : x = x mod 2 ^ 8).
  { apply Z.bits_inj'. intros i Hi. destruct (Z.lt_ge_cases i 8).
    - rewrite Z.mod_pow2_bits_low by lia. reflexivity.
    - rewrite Z.mod_pow2_bits_high by lia. apply H. lia. }
  rewrite E. apply Z.mod_pos_bound. reflexivity.
Qed.
Lemma bits_of_byte x i : byte x -> 8 <= i -> Z.testbit x i = false.
Proof. intros H Hi. apply (testbit_above 8); [lia|exact H|exact Hi]. Qed.
Lemma byte_land x y : byte x -> byte (Z.land x y).
Proof. intros H. apply byte_of_bits. intros i Hi. rewrite Z.land_spec, (bits_of_byte x i H Hi). reflexivity. Qed.
Lemma byte_lor x y : byte x -> byte y -> byte (Z.lor x y).
Proof. intros H H'. apply byte_of_bits. intros i Hi. rewrite Z.lor_spec, (bits_of_byte x i H Hi), (bits_of_byte y i H' Hi). reflexivity. Qed.
Lemma byte_lxor x y : byte x -> byte y -> byte (Z.lxor x y).
Proof. intros H H'. apply byte_of_bits. intros i Hi. rewrite Z.lxor_spec, (bits_of_byte x i H Hi), (bits_of_byte y i H' Hi). reflexivity. Qed.
Lemma byte_op_gives f k d : bytes d -> (forall x, byte x -> byte (f x)) -> gives bytes (byte_op f k d).
Proof.
  intros H Hf. unfold byte_op. apply (gives_bind byte); [apply gives_index, H|]. intros x Hx.
  apply (gives_setitem byte); [exact H|apply Hf, Hx].
Qed.
Lemma lanes2_gives lo hi f a b : bytes a -> bytes b -> (forall x y, byte x -> byte y -> gives byte (f x y)) ->
  gives bytes (lanes2 lo hi f a b).
Proof.
  intros Ha Hb Hf. apply (gives_rmapl byte). intros i _. apply (gives_bind byte); [apply gives_index, Ha|]. intros x Hx.
  apply (gives_bind byte); [apply gives_index, Hb|]. intros y Hy. apply Hf; assumption.
Qed.
Lemma lanes3_gives lo hi f a b c : bytes a -> bytes b -> bytes c ->
  (forall x y z, byte x -> byte y -> byte z -> gives byte (f x y z)) -> gives bytes (lanes3 lo hi f a b c).
Proof.
  intros Ha Hb Hc Hf. apply (gives_rmapl byte). intros i _. apply (gives_bind byte); [apply gives_index, Ha|]. intros x Hx.
  apply (gives_bind byte); [apply gives_index, Hb|]. intros y Hy.
  apply (gives_bind byte); [apply gives_index, Hc|]. intros z Hz. apply Hf; assumption.
Qed.
Lemma into_v128_gives v : val_wf v -> gives bytes (into_v128 v).
Proof. intros [_ H]. apply gives_ok, bytes_slice, H. Qed.
Lemma arg_bytes_gives args k : (forall b, In (ABytes b) args -> bytes b) -> gives bytes (arg_bytes args k).
Proof.
  intros H x E. unfold arg_bytes, py_index in E. destruct (_ <? 0); [discriminate E|].
  destruct (nth_error args _) as [[|?|?]|] eqn:N; try discriminate E. cbn [rbind] in E. apply Ok_inj in E. subst b.
  apply H. apply nth_error_In in N. exact N.
Qed.
Lemma concat_repeat_bytes d n : bytes d -> bytes (concat (repeat d n)).
Proof. intros H. apply concat_bytes. induction n; constructor; assumption. Qed.

Ltac writer := first
  [ apply from_i32_gives | apply from_i64_gives | apply from_u32_gives | apply from_u64_gives
  | apply from_f32_gives | apply from_f64_gives | apply from_v128_i_gives | apply from_v128_u_gives
  | apply from_v128_f32_gives | apply from_v128_f64_gives | apply checked_gives; writer ].
Ltac plain := match goal with
  | |- True => exact I
  | |- numop_ok (op1 _ _ _) => apply op1_ok; intros x; writer
  | |- numop_ok (op2 _ _ _ _) => apply op2_ok; intros x; writer
  | |- numop_ok (op3 _ _ _ _ _) => apply op3_ok; intros x; writer
  | |- numop_ok (N0 (fun args => wr0 _ _)) => intros args _; cbv beta; apply gives_bind_any; intros x; writer
  end.

Lemma scalar_ok F o : match num_scalar F o with Some n => numop_ok n | None => True end.
Proof.
  destruct o; cbn [num_scalar]; try plain.
  (* select *)
  1: intros args _ a b c Ha Hb Hc; apply gives_bind_any; intros x; apply gives_ok; destruct (negb (x =? 0)); assumption.
  1: intros args _ a b c Ha Hb Hc; apply gives_bind_any; intros x; cbn [rbind]; apply (gives_bind val_wf);
     [|intros y Hy; apply gives_ok, Hy]; do 4 (apply gives_bind_any; intros ?); apply gives_ok;
     destruct (negb (x =? 0)); assumption.
  (* float constants *)
  1: intros args _; apply gives_bind_any; intros n; apply (gives_bind val_wf); [apply from_i32_gives|];
     intros v [H1 H2]; apply gives_ok; split; assumption.
  1: intros args _; apply gives_bind_any; intros n; apply (gives_bind val_wf); [apply from_i64_gives|];
     intros v [H1 H2]; apply gives_ok; split; assumption.
  (* sign bytes *)
  all: try (intros args _ a [Hl Ha]; cbn [rbind]; apply (gives_bind bytes); [|intros d Hd; apply mk_val_gives, Hd];
            apply byte_op_gives; [exact Ha|]; intros y Hy; first [apply byte_land, Hy|apply byte_lxor; [exact Hy|split; [discriminate|reflexivity]]]).
  (* reinterpret *)
  all: try (intros args _ a [Hl Ha]; cbn [rbind]; apply mk_val_gives, Ha).
  (* ref.null *)
  intros args _. apply gives_bind_any. intros n. apply gives_bind_any. intros t. apply gives_ok, val_zero_wf.
Qed.
Lemma simd_ok F o : match num_simd F o with Some n => numop_ok n | None => True end.
Proof.
  destruct o; cbn [num_simd]; try plain.
  (* v128.const *)
  1: intros args H; unfold wr0; apply (gives_bind bytes); [apply arg_bytes_gives, H|]; intros d Hd; apply from_v128_gives, Hd.
  (* float splats *)
  1,2: intros args _ a [_ Ha]; cbn [rbind]; apply from_v128_gives, concat_repeat_bytes, bytes_slice, Ha.
  (* lanes of floats *)
  1,3: intros args _ a Ha; apply (gives_bind bytes); [apply into_v128_gives, Ha|]; intros d Hd;
       apply (gives_bind bytes); [|intros y Hy; apply mk_val_gives, Hy];
       apply gives_bind_any; intros k; apply gives_ok, bytes_app; split; [apply bytes_slice, Hd|apply bytes_zeros].
  1,2: intros args _ a b Ha Hb; apply gives_bind_any; intros z; apply (gives_bind bytes); [apply into_v128_gives, Ha|]; intros d Hd;
       apply (gives_bind bytes); [|intros y Hy; apply mk_val_gives, Hy];
       apply gives_bind_any; intros k; apply (gives_bind bytes); [apply u_into_bytes|]; intros y Hy; apply gives_ok, bytes_slice_set; assumption.
  (* bitwise *)
  1: intros args _ a Ha; apply gives_bind_any; intros d; apply (gives_bind bytes); [|intros y Hy; apply from_v128_gives, Hy];
     apply gives_ok; apply Forall_forall; intros x Hx; apply in_map_iff in Hx; destruct Hx as (e & <- & _); apply (u_fit_range 1); lia.
  1-4: intros args _ a b Ha Hb; apply (gives_bind bytes); [apply into_v128_gives, Hb|]; intros db Hdb;
     apply (gives_bind bytes); [apply into_v128_gives, Ha|]; intros da Hda;
     apply (gives_bind bytes); [|intros y Hy; apply from_v128_gives, Hy]; apply lanes2_gives; try assumption;
     intros x y Hx Hy; apply gives_ok; first [apply byte_land, Hx|apply byte_lor; assumption|apply byte_lxor; assumption].
  1: intros args _ a b c Ha Hb Hc; apply (gives_bind bytes); [apply into_v128_gives, Hc|]; intros dc Hdc;
     apply (gives_bind bytes); [apply into_v128_gives, Hb|]; intros db Hdb;
     apply (gives_bind bytes); [apply into_v128_gives, Ha|]; intros da Hda;
     apply (gives_bind bytes); [|intros y Hy; apply from_v128_gives, Hy]; apply lanes3_gives; try assumption;
     intros x y z Hx Hy Hz; apply gives_ok; apply byte_lor; apply byte_land; assumption.
Qed.
Lemma num_ok F o n : num_op F o = Some n -> numop_ok n.
Proof.
  unfold num_op. pose proof (scalar_ok F o) as H1. pose proof (simd_ok F o) as H2.
  destruct (num_scalar F o); [|destruct (num_simd F o)]; intros E; try discriminate E; injection E as <-; assumption.
Qed.
Lemma load_gives o : match load_op o with Some (n, conv) => forall d, bytes d -> gives val_wf (conv d) | None => True end.
Proof.
  destruct o; cbn [load_op]; try exact I; intros d Hd; cbv beta;
    try (apply mk_val_gives, bytes_app; split; [exact Hd|apply bytes_zeros]);
    try (apply gives_bind_any; intros x; first [apply from_i32_gives|apply from_i64_gives]; fail);
    try (apply from_v128_gives; first [exact Hd|apply concat_repeat_bytes, Hd|apply bytes_app; split; [exact Hd|apply bytes_zeros]]).
  all: unfold load_widen; apply (gives_bind (Forall bytes)); [|intros bs Hbs; apply from_v128_gives, concat_bytes, Hbs];
    apply gives_rmapl; intros i _; apply gives_bind_any; intros x; first [apply i_into_bytes|apply u_into_bytes].
Qed.
