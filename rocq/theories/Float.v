(* IEEE-754 arithmetic as the instance of [fops] (Floatops.v) that the host's floating-point unit provides. CPython's
   float is a C double: + - * / and math.sqrt round to nearest even; struct.pack/unpack 'f' and ctypes.c_float convert
   with the C casts float <-> double; float(int) rounds to nearest even and raises OverflowError when the result would be
   infinite. The operations are Flocq's. Which NaN an operation on NaNs produces is not fixed by IEEE-754; the arithmetic
   below takes Flocq's choice and no theorem depends on it. The casts keep the sign and the upper payload bits of a NaN
   and make it quiet, as cvtss2sd / cvtsd2ss (x86) and FCVT (ARM) do. *)
From Coq Require Import ZArith Bool.
From Flocq Require Import Core.Zaux IEEE754.BinarySingleNaN IEEE754.Binary IEEE754.Bits.
From Verif Require Import Py Floatops.
Open Scope Z_scope.

(* (double) x for a single x that is not a NaN: exact *)
Definition widen (x : binary32) : binary64 :=
  match x with
  | B754_zero _ _ s => B754_zero 53 1024 s
  | B754_infinity _ _ s => B754_infinity 53 1024 s
  | B754_nan _ _ _ _ _ => B754_zero 53 1024 false
  | B754_finite _ _ s m e _ => binary_normalize 53 1024 eq_refl eq_refl mode_NE (cond_Zopp s (Zpos m)) e s
  end.
(* (float) x for a double x that is not a NaN: rounds to nearest even *)
Definition narrow (x : binary64) : binary32 :=
  match x with
  | B754_zero _ _ s => B754_zero 24 128 s
  | B754_infinity _ _ s => B754_infinity 24 128 s
  | B754_nan _ _ _ _ _ => B754_zero 24 128 false
  | B754_finite _ _ s m e _ => binary_normalize 24 128 eq_refl eq_refl mode_NE (cond_Zopp s (Zpos m)) e s
  end.

Definition nan32 (x : Z) : bool := ((x / 2 ^ 23) mod 2 ^ 8 =? 255) && negb (x mod 2 ^ 23 =? 0).
Definition ieee_of32 (x : Z) : Z :=
  if nan32 x
  then (if Z.testbit x 31 then 2 ^ 63 else 0) + 2047 * 2 ^ 52 + Z.lor (2 ^ 51) ((x mod 2 ^ 23) * 2 ^ 29)
  else bits_of_b64 (widen (b32_of_bits x)).
Definition ieee_to32 (x : Z) : Z :=
  if fl_isnan x
  then (if fl_sign x then 2 ^ 31 else 0) + 255 * 2 ^ 23 + Z.lor (2 ^ 22) (fl_man x / 2 ^ 29)
  else bits_of_b32 (narrow (b64_of_bits x)).
Definition ieee_of_int (n : Z) : option Z :=
  match binary_normalize 53 1024 eq_refl eq_refl mode_NE n 0 false with
  | B754_infinity _ _ _ => None
  | b => Some (bits_of_b64 b)
  end.
Definition on64 (f : binary64 -> binary64 -> binary64) (x y : Z) : Z :=
  bits_of_b64 (f (b64_of_bits x) (b64_of_bits y)).

Definition ieee : fops := {|
  f_of32 := ieee_of32;
  f_to32 := ieee_to32;
  f_of_int := ieee_of_int;
  f_add := on64 (b64_plus mode_NE);
  f_sub := on64 (b64_minus mode_NE);
  f_mul := on64 (b64_mult mode_NE);
  f_div := on64 (b64_div mode_NE);
  f_sqrt := fun x => bits_of_b64 (b64_sqrt mode_NE (b64_of_bits x))
|}.
