(* Properties C06-C11: integer arithmetic. [n] is the byte width, 8 * n the bit width; SpecInt.v defines the ranges,
   congruence, wrapping, closeness and bit counting. *)
From Coq Require Import ZArith List Bool Lia.
From Verif Require Import Py Arith SpecInt ArithFacts.
Import ListNotations.
Open Scope Z_scope.

(* C06 *)
Theorem C06_signed_wrap : forall n a b, 1 <= n ->
  wraps_s (8 * n) a (i_fit n a) /\
  wraps_s (8 * n) (a + b) (i_add n a b) /\
  wraps_s (8 * n) (a - b) (i_sub n a b) /\
  wraps_s (8 * n) (a * b) (i_mul n a b).
Proof. exact signed_wrap_all. Qed.
Print Assumptions C06_signed_wrap.
Theorem C06_unsigned_wrap : forall n a b, 1 <= n ->
  wraps_u (8 * n) a (u_fit n a) /\
  wraps_u (8 * n) (a + b) (u_add n a b) /\
  wraps_u (8 * n) (a - b) (u_sub n a b) /\
  wraps_u (8 * n) (a * b) (u_mul n a b).
Proof. exact unsigned_wrap_all. Qed.
Print Assumptions C06_unsigned_wrap.
Example C06_example : i_add 4 0x7fffffff 1 = -0x80000000 /\ u_sub 8 0 1 = 0xffffffffffffffff /\
  i_mul 2 300 300 = 24464.
Proof. repeat split; vm_compute; reflexivity. Qed.

(* C07 *)
Theorem C07_div_rem : forall n a b, 1 <= n -> b <> 0 -> ~ (a = - 2 ^ (8 * n - 1) /\ b = -1) ->
  exists q r, i_div n a b = Ok q /\ i_rem n a b = Ok r /\
    a = q * b + r /\ Z.abs r < Z.abs b /\ (r = 0 \/ (r < 0 <-> a < 0)) /\ q = Z.quot a b /\ r = Z.rem a b.
Proof. exact div_rem_spec. Qed.
Print Assumptions C07_div_rem.
Theorem C07_div_raises : forall n a, 1 <= n ->
  i_div n a 0 = Err EZeroDiv /\ i_rem n a 0 = Err EZeroDiv /\
  i_div n (- 2 ^ (8 * n - 1)) (-1) = Err EAssert /\ i_rem n (- 2 ^ (8 * n - 1)) (-1) = Ok 0.
Proof. exact div_raises. Qed.
Print Assumptions C07_div_raises.
Example C07_example : i_div 4 (-7) 2 = Ok (-3) /\ i_rem 4 (-7) 2 = Ok (-1) /\ i_rem 4 7 (-2) = Ok 1 /\
  i_rem 1 (-128) (-1) = Ok 0 /\ i_div 1 (-128) (-1) = Err EAssert.
Proof. repeat split; vm_compute; reflexivity. Qed.

(* C08 *)
Theorem C08_shl : forall n k a b, 1 <= n -> 8 * n = 2 ^ k ->
  (srange (8 * n) (i_shl n a b) /\ forall i, 0 <= i < 8 * n ->
    Z.testbit (i_shl n a b) i = if i <? b mod (8 * n) then false else Z.testbit a (i - b mod (8 * n))) /\
  (urange (8 * n) (u_shl n a b) /\ forall i, 0 <= i < 8 * n ->
    Z.testbit (u_shl n a b) i = if i <? b mod (8 * n) then false else Z.testbit a (i - b mod (8 * n))).
Proof. exact shl_bits. Qed.
Print Assumptions C08_shl.
Theorem C08_shr_s : forall n k a b, 1 <= n -> 8 * n = 2 ^ k -> srange (8 * n) a ->
  srange (8 * n) (i_shr n a b) /\ forall i, 0 <= i < 8 * n ->
    Z.testbit (i_shr n a b) i =
      if i + b mod (8 * n) <? 8 * n then Z.testbit a (i + b mod (8 * n)) else (a <? 0).
Proof. exact i_shr_bits. Qed.
Print Assumptions C08_shr_s.
Theorem C08_shr_u : forall n k a b, 1 <= n -> 8 * n = 2 ^ k -> urange (8 * n) a ->
  urange (8 * n) (u_shr n a b) /\ forall i, 0 <= i < 8 * n ->
    Z.testbit (u_shr n a b) i =
      if i + b mod (8 * n) <? 8 * n then Z.testbit a (i + b mod (8 * n)) else false.
Proof. exact u_shr_bits. Qed.
Print Assumptions C08_shr_u.
(* bit i moves to position i + b (left) or i - b (right), modulo the width *)
Theorem C08_rotate : forall n a b, 1 <= n -> urange (8 * n) a ->
  (urange (8 * n) (u_rotl n a b) /\ forall i, 0 <= i < 8 * n ->
     Z.testbit (u_rotl n a b) ((i + b) mod (8 * n)) = Z.testbit a i) /\
  (urange (8 * n) (u_rotr n a b) /\ forall i, 0 <= i < 8 * n ->
     Z.testbit (u_rotr n a b) ((i - b) mod (8 * n)) = Z.testbit a i).
Proof. exact rot_bits. Qed.
Print Assumptions C08_rotate.
Example C08_example : 8 * 4 = 2 ^ 5 /\ i_shl 4 1 31 = -0x80000000 /\ i_shr 4 (-8) 33 = -4 /\
  u_shr 4 0x80000000 (-1) = 1 /\ u_rotl 4 0x80000001 (-28) = 0x18 /\ u_rotr 1 0x81 1 = 0xc0.
Proof. repeat split; vm_compute; reflexivity. Qed.

(* C09 *)
Theorem C09_bit_counting : forall n a, 1 <= n -> urange (8 * n) a ->
  is_clz (8 * n) a (u_clz n a) /\ is_ctz (8 * n) a (u_ctz n a) /\ u_popcnt n a = bitcount (8 * n) a.
Proof. exact bit_counting. Qed.
Print Assumptions C09_bit_counting.
Example C09_example : urange (8 * 4) 0x00f0 /\ u_clz 4 0x00f0 = 24 /\ u_ctz 4 0x00f0 = 4 /\ u_popcnt 4 0x00f0 = 4 /\
  u_clz 4 0 = 32 /\ u_ctz 4 0 = 32.
Proof. unfold urange. repeat split; try lia; vm_compute; reflexivity. Qed.

(* C10 *)
Theorem C10_saturation : forall n a b, 1 <= n ->
  closest (srange (8 * n)) a (i_sat n a) /\
  closest (srange (8 * n)) (a + b) (i_add_sat n a b) /\
  closest (srange (8 * n)) (a - b) (i_sub_sat n a b) /\
  closest (urange (8 * n)) a (u_sat n a) /\
  closest (urange (8 * n)) (a + b) (u_add_sat n a b) /\
  closest (urange (8 * n)) (a - b) (u_sub_sat n a b).
Proof. exact saturation_all. Qed.
Print Assumptions C10_saturation.
Example C10_example : i_add_sat 1 100 100 = 127 /\ u_sub_sat 1 3 5 = 0 /\ i_sub_sat 1 (-100) 100 = -128.
Proof. repeat split; vm_compute; reflexivity. Qed.

(* C11 *)
Theorem C11_into_bytes_signed : forall n z, 1 <= n ->
  (srange (8 * n) z -> exists b, i_into_bytearray n z = Ok b /\ len b = n /\ bytes b /\
     (forall i, 0 <= i < n -> py_index b i = Ok ((z / 256 ^ i) mod 256)) /\ i_from_bytearray n b = Ok z) /\
  (~ srange (8 * n) z -> exists e, i_into_bytearray n z = Err e).
Proof. exact into_bytes_spec_s. Qed.
Print Assumptions C11_into_bytes_signed.
Theorem C11_into_bytes_unsigned : forall n z, 1 <= n ->
  (urange (8 * n) z -> exists b, u_into_bytearray n z = Ok b /\ len b = n /\ bytes b /\
     (forall i, 0 <= i < n -> py_index b i = Ok ((z / 256 ^ i) mod 256)) /\ u_from_bytearray n b = Ok z) /\
  (~ urange (8 * n) z -> exists e, u_into_bytearray n z = Err e).
Proof. exact into_bytes_spec_u. Qed.
Print Assumptions C11_into_bytes_unsigned.
Theorem C11_from_bytes : forall n b, 1 <= n -> bytes b ->
  (len b = n -> exists s u, i_from_bytearray n b = Ok s /\ u_from_bytearray n b = Ok u /\
      srange (8 * n) s /\ urange (8 * n) u /\ congr (8 * n) s u /\
      i_into_bytearray n s = Ok b /\ u_into_bytearray n u = Ok b) /\
  (len b <> n -> exists e e', i_from_bytearray n b = Err e /\ u_from_bytearray n b = Err e').
Proof. exact from_bytes_spec. Qed.
Print Assumptions C11_from_bytes.
Example C11_example : i_into_bytearray 4 (-2) = Ok [0xfe; 0xff; 0xff; 0xff] /\
  i_from_bytearray 4 [0xfe; 0xff; 0xff; 0xff] = Ok (-2) /\ u_from_bytearray 4 [0xfe; 0xff; 0xff; 0xff] = Ok 0xfffffffe /\
  i_into_bytearray 4 0x80000000 = Err EOverflow /\ u_into_bytearray 2 (-1) = Err EOverflow.
Proof. repeat split; vm_compute; reflexivity. Qed.
