(* What the float instructions compute according to the WebAssembly specification, in terms of IEEE-754 binary floats
   (Flocq's model) and the reals they stand for. Nothing here mentions how the interpreter computes. *)
From Coq Require Import ZArith List Bool Reals.
From Flocq Require Import Core IEEE754.BinarySingleNaN IEEE754.Binary IEEE754.Bits.
From Verif Require Import Py Val Opcode SpecNum SpecMachine.
Import ListNotations.
Open Scope Z_scope.

(* the floats in the low bits of a value *)
Definition single (v : val) : binary32 := b32_of_bits (low 32 v).
Definition double (v : val) : binary64 := b64_of_bits (low 64 v).

(* the same float, any NaN counting as the same as any other: WebAssembly leaves NaN payloads open *)
Definition same_float {p e} (a b : binary_float p e) : Prop :=
  a = b \/ (is_nan p e a = true /\ is_nan p e b = true).

(* an instruction that pushes a single (a double) satisfying [P] on the operands [V] *)
Definition pushes_single {A} (r : res unit * A) (push : list val -> A) (V : list val) (P : binary32 -> Prop) : Prop :=
  exists z, 0 <= z < 2 ^ 32 /\ r = (Ok tt, push (num_val T_f32 z :: V)) /\ P (b32_of_bits z).
Definition pushes_double {A} (r : res unit * A) (push : list val -> A) (V : list val) (P : binary64 -> Prop) : Prop :=
  exists z, 0 <= z < 2 ^ 64 /\ r = (Ok tt, push (num_val T_f64 z :: V)) /\ P (b64_of_bits z).

(* ---- arithmetic: the IEEE operation, rounding to nearest even ---- *)
Definition ieee_binop32 (o : opc) : option (binary32 -> binary32 -> binary32) :=
  match o with
  | O_f32_add => Some (b32_plus mode_NE)
  | O_f32_sub => Some (b32_minus mode_NE)
  | O_f32_mul => Some (b32_mult mode_NE)
  | O_f32_div => Some (b32_div mode_NE)
  | _ => None
  end.
Definition ieee_binop64 (o : opc) : option (binary64 -> binary64 -> binary64) :=
  match o with
  | O_f64_add => Some (b64_plus mode_NE)
  | O_f64_sub => Some (b64_minus mode_NE)
  | O_f64_mul => Some (b64_mult mode_NE)
  | O_f64_div => Some (b64_div mode_NE)
  | _ => None
  end.

(* ---- comparison: None if an operand is a NaN, the two zeros are equal ---- *)
Definition float_relop (o : opc) : option (Z * (option comparison -> bool)) :=
  match o with
  | O_f32_eq => Some (32, fun c => match c with Some Eq => true | _ => false end)
  | O_f64_eq => Some (64, fun c => match c with Some Eq => true | _ => false end)
  | O_f32_ne => Some (32, fun c => match c with Some Eq => false | _ => true end)
  | O_f64_ne => Some (64, fun c => match c with Some Eq => false | _ => true end)
  | O_f32_lt => Some (32, fun c => match c with Some Lt => true | _ => false end)
  | O_f64_lt => Some (64, fun c => match c with Some Lt => true | _ => false end)
  | O_f32_gt => Some (32, fun c => match c with Some Gt => true | _ => false end)
  | O_f64_gt => Some (64, fun c => match c with Some Gt => true | _ => false end)
  | O_f32_le => Some (32, fun c => match c with Some Lt | Some Eq => true | _ => false end)
  | O_f64_le => Some (64, fun c => match c with Some Lt | Some Eq => true | _ => false end)
  | O_f32_ge => Some (32, fun c => match c with Some Gt | Some Eq => true | _ => false end)
  | O_f64_ge => Some (64, fun c => match c with Some Gt | Some Eq => true | _ => false end)
  | _ => None
  end.
Definition float_compare (N : Z) (va vb : val) : option comparison :=
  if N =? 32 then b32_compare (single va) (single vb) else b64_compare (double va) (double vb).

(* ---- minimum and maximum ---- *)
Definition is_zero {p e} (a : binary_float p e) : bool := match a with B754_zero _ _ _ => true | _ => false end.
(* [r] is the minimum ([up] = false) or maximum ([up] = true) of [a] and [b]: a NaN if one of them is; the smaller
   (larger) one; of two zeros the negative (positive) one if they differ *)
Definition is_extremum {p e} (up : bool) (a b r : binary_float p e) : Prop :=
  if is_nan p e a || is_nan p e b then is_nan p e r = true
  else if is_zero a && is_zero b
  then r = B754_zero p e (if up then Bsign p e a && Bsign p e b else Bsign p e a || Bsign p e b)
  else match Bcompare p e a b with
       | Some Lt => r = if up then b else a
       | Some Gt => r = if up then a else b
       | _ => r = a /\ a = b
       end.
Definition extremum_op (o : opc) : option (Z * bool) :=
  match o with
  | O_f32_min => Some (32, false) | O_f32_max => Some (32, true)
  | O_f64_min => Some (64, false) | O_f64_max => Some (64, true)
  | _ => None
  end.
Definition opposite_zeros {p e} (a b : binary_float p e) : bool :=
  is_zero a && is_zero b && negb (Bool.eqb (Bsign p e a) (Bsign p e b)).

(* ---- rounding to an integral value: IEEE roundToIntegral in the given direction, which keeps the operand's sign ---- *)
Definition integral_op (o : opc) : option (Z * mode) :=
  match o with
  | O_f32_ceil => Some (32, mode_UP) | O_f32_floor => Some (32, mode_DN)
  | O_f32_trunc => Some (32, mode_ZR) | O_f32_nearest => Some (32, mode_NE)
  | O_f64_ceil => Some (64, mode_UP) | O_f64_floor => Some (64, mode_DN)
  | O_f64_trunc => Some (64, mode_ZR) | O_f64_nearest => Some (64, mode_NE)
  | _ => None
  end.
Definition integral32 (md : mode) : binary32 -> binary32 := Bnearbyint 24 128 eq_refl unop_nan_pl32 md.
Definition integral64 (md : mode) : binary64 -> binary64 := Bnearbyint 53 1024 eq_refl unop_nan_pl64 md.
(* the same, except that [a] is the positive zero where [b] is the negative one *)
Definition same_but_zero_sign {p e} (a b : binary_float p e) : Prop :=
  same_float a b \/ (a = B754_zero p e false /\ b = B754_zero p e true).

(* ---- conversion between the formats and from integers ---- *)
(* the real [x] rounded to the nearest single: a finite one of that value with sign [s], or an infinity *)
Definition rounds_to_single (x : R) (s : bool) (r : binary32) : Prop :=
  let y := round radix2 (FLT_exp (-149) 24) ZnearestE x in
  if Rlt_bool (Rabs y) (bpow radix2 128)
  then B2R 24 128 r = y /\ is_finite 24 128 r = true /\ Bsign 24 128 r = s
  else r = B754_infinity 24 128 s.
Definition rounds_to_double (x : R) (s : bool) (r : binary64) : Prop :=
  let y := round radix2 (FLT_exp (-1074) 53) ZnearestE x in
  if Rlt_bool (Rabs y) (bpow radix2 1024)
  then B2R 53 1024 r = y /\ is_finite 53 1024 r = true /\ Bsign 53 1024 r = s
  else r = B754_infinity 53 1024 s.
(* the operand's integer: width and signedness of the source of the convert instructions *)
Definition convert_op (o : opc) : option (Z * bool * Z) :=
  match o with
  | O_f32_convert_i32_s => Some (32, true, 32) | O_f32_convert_i32_u => Some (32, false, 32)
  | O_f32_convert_i64_s => Some (64, true, 32) | O_f32_convert_i64_u => Some (64, false, 32)
  | O_f64_convert_i32_s => Some (32, true, 64) | O_f64_convert_i32_u => Some (32, false, 64)
  | O_f64_convert_i64_s => Some (64, true, 64) | O_f64_convert_i64_u => Some (64, false, 64)
  | _ => None
  end.

(* that integer *)
Definition source_int (N : Z) (sg : bool) (v : val) : Z := if sg then sgn N (low N v) else low N v.

(* ---- truncation to an integer ---- *)
(* source width, target width, signed, saturating *)
Definition trunc_op (o : opc) : option (Z * Z * bool * bool) :=
  match o with
  | O_i32_trunc_f32_s => Some (32, 32, true, false) | O_i32_trunc_f32_u => Some (32, 32, false, false)
  | O_i32_trunc_f64_s => Some (64, 32, true, false) | O_i32_trunc_f64_u => Some (64, 32, false, false)
  | O_i64_trunc_f32_s => Some (32, 64, true, false) | O_i64_trunc_f32_u => Some (32, 64, false, false)
  | O_i64_trunc_f64_s => Some (64, 64, true, false) | O_i64_trunc_f64_u => Some (64, 64, false, false)
  | O_i32_trunc_sat_f32_s => Some (32, 32, true, true) | O_i32_trunc_sat_f32_u => Some (32, 32, false, true)
  | O_i32_trunc_sat_f64_s => Some (64, 32, true, true) | O_i32_trunc_sat_f64_u => Some (64, 32, false, true)
  | O_i64_trunc_sat_f32_s => Some (32, 64, true, true) | O_i64_trunc_sat_f32_u => Some (32, 64, false, true)
  | O_i64_trunc_sat_f64_s => Some (64, 64, true, true) | O_i64_trunc_sat_f64_u => Some (64, 64, false, true)
  | _ => None
  end.
Definition least (N : Z) (sg : bool) : Z := if sg then - 2 ^ (N - 1) else 0.
Definition greatest (N : Z) (sg : bool) : Z := if sg then 2 ^ (N - 1) - 1 else 2 ^ N - 1.
(* a float as the truncation instructions see it *)
Inductive magnitude : Type := NotANumber | Infinite (negative : bool) | Number (x : R).
Definition magnitude_of {p e} (a : binary_float p e) : magnitude :=
  match a with
  | B754_nan _ _ _ _ _ => NotANumber
  | B754_infinity _ _ s => Infinite s
  | _ => Number (B2R p e a)
  end.
Definition float_magnitude (N : Z) (v : val) : magnitude :=
  if N =? 32 then magnitude_of (single v) else magnitude_of (double v).
(* the integer to store, or None to trap *)
Definition truncated (N : Z) (sg sat : bool) (m : magnitude) : option Z :=
  match m with
  | NotANumber => if sat then Some 0 else None
  | Infinite neg => if sat then Some (if neg then least N sg else greatest N sg) else None
  | Number x =>
    let z := Ztrunc x in
    if z <? least N sg then (if sat then Some (least N sg) else None)
    else if greatest N sg <? z then (if sat then Some (greatest N sg) else None)
    else Some z
  end.

(* ---- the sign bit ---- *)
(* an N-bit pattern with its top bit replaced *)
Definition with_sign (N : Z) (s : bool) (x : Z) : Z := x mod 2 ^ (N - 1) + (if s then 2 ^ (N - 1) else 0).
Definition sign_op (o : opc) : option (Z * (bool -> bool)) :=
  match o with
  | O_f32_abs => Some (32, fun _ => false) | O_f64_abs => Some (64, fun _ => false)
  | O_f32_neg => Some (32, negb) | O_f64_neg => Some (64, negb)
  | _ => None
  end.
Definition float_type (N : Z) : valtype := if N =? 32 then T_f32 else T_f64.
