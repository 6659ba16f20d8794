(* The IEEE floating-point unit can convert what the typed instructions ask of it. *)
From Coq Require Import ZArith List Bool Reals Lia ZifyBool.
From Flocq Require Import Core IEEE754.BinarySingleNaN IEEE754.Binary IEEE754.Bits.
From Verif Require Import Py Floatops Float SpecType PyFacts FloatConvFacts.
Open Scope Z_scope.

Lemma low_scaled x : fl_scaled (x mod 2 ^ 64) = fl_scaled x /\ fl_exp (x mod 2 ^ 64) = fl_exp x /\ fl_man (x mod 2 ^ 64) = fl_man x.
Proof.
  assert (E : fl_exp (x mod 2 ^ 64) = fl_exp x).
  { unfold fl_exp. change (2 ^ 64) with 18446744073709551616. change (2 ^ 52) with 4503599627370496. change (2 ^ 11) with 2048. lia. }
  assert (M : fl_man (x mod 2 ^ 64) = fl_man x).
  { unfold fl_man. change (2 ^ 64) with 18446744073709551616. change (2 ^ 52) with 4503599627370496. lia. }
  split; [|split; assumption]. unfold fl_scaled. rewrite E, M. unfold fl_sign. rewrite Z.mod_pow2_bits_low by lia. reflexivity.
Qed.
Lemma converts_integral md x : md <> mode_NA -> fl_isnan x = false -> fl_isinf x = false ->
  f_of_int ieee (rounder md (x mod 2 ^ 64)) <> None.
Proof.
  intros Hm H1 H2. destruct (low_scaled x) as (_ & E & M).
  destruct (integral64_ok md (x mod 2 ^ 64) Hm (Z.mod_pos_bound x (2 ^ 64) eq_refl)) as (z & Hz & _).
  unfold fl_integral in Hz. unfold fl_isnan, fl_isinf in Hz. rewrite E, M in Hz. unfold fl_isnan in H1. unfold fl_isinf in H2. rewrite H1, H2 in Hz.
  cbn [orb] in Hz. unfold fl_of_int in Hz. intros K. rewrite K in Hz. discriminate Hz.
Qed.
Lemma ieee_converts : converts ieee.
Proof.
  split.
  - intros n Hn. destruct (of_int_rounds n) as (x & Ex & _); [apply int_bounded; change (2 ^ 64) with 18446744073709551616 in *; change (2 ^ 63) with 9223372036854775808 in *; lia|].
    unfold fl_of_int in Ex. intros K. rewrite K in Ex. discriminate Ex.
  - intros x H1 H2. destruct (low_scaled x) as (E & _).
    assert (G : forall md, md <> mode_NA -> f_of_int ieee (rounder md (x mod 2 ^ 64)) <> None) by (intros md Hm; apply converts_integral; assumption).
    split; [|split; [|split]].
    + pose proof (G mode_ZR ltac:(discriminate)) as K. cbn [rounder] in K. unfold fl_trunc in *. rewrite E in K. exact K.
    + pose proof (G mode_DN ltac:(discriminate)) as K. cbn [rounder] in K. unfold fl_floor in *. rewrite E in K. exact K.
    + pose proof (G mode_UP ltac:(discriminate)) as K. cbn [rounder] in K. unfold fl_ceil in *. rewrite E in K. exact K.
    + pose proof (G mode_NE ltac:(discriminate)) as K. cbn [rounder] in K. unfold fl_round in *. rewrite E in K. exact K.
Qed.
