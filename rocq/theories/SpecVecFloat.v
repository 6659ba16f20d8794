(* What the float vector instructions compute according to the WebAssembly specification: the scalar operation of
   SpecIeee.v on each lane. Lanes are given by their bit patterns, as in SpecSimd.v. *)
From Coq Require Import ZArith List Bool Reals.
From Flocq Require Import Core IEEE754.BinarySingleNaN IEEE754.Binary IEEE754.Bits.
From Verif Require Import Py Val Opcode SpecInt SpecNum SpecMachine SpecMem SpecSimd SpecIeee.
Import ListNotations.
Open Scope Z_scope.

(* an instruction that pushes a v128 whose lanes of [N] bits satisfy [P] on the operands [V] *)
Definition pushes_lanes {A} (N : Z) (r : res unit * A) (push : list val -> A) (V : list val) (P : list Z -> Prop) : Prop :=
  exists l, len l = 128 / N /\ Forall (urange N) l /\ r = (Ok tt, push (vec N l :: V)) /\ P l.
(* corresponding elements of two (three) lists of equal length are related *)
Definition each1 (P : Z -> Z -> Prop) (la l : list Z) : Prop :=
  length la = length l /\ forall k, (k < length l)%nat -> P (nth k la 0) (nth k l 0).
Definition each2 (P : Z -> Z -> Z -> Prop) (la lb l : list Z) : Prop :=
  length la = length l /\ length lb = length l /\
  forall k, (k < length l)%nat -> P (nth k la 0) (nth k lb 0) (nth k l 0).

(* ---- arithmetic ---- *)
Definition vec_binop32 (o : opc) : option (binary32 -> binary32 -> binary32) :=
  match o with
  | O_f32x4_add => Some (b32_plus mode_NE)
  | O_f32x4_sub => Some (b32_minus mode_NE)
  | O_f32x4_mul => Some (b32_mult mode_NE)
  | O_f32x4_div => Some (b32_div mode_NE)
  | _ => None
  end.
Definition vec_binop64 (o : opc) : option (binary64 -> binary64 -> binary64) :=
  match o with
  | O_f64x2_add => Some (b64_plus mode_NE)
  | O_f64x2_sub => Some (b64_minus mode_NE)
  | O_f64x2_mul => Some (b64_mult mode_NE)
  | O_f64x2_div => Some (b64_div mode_NE)
  | _ => None
  end.

(* ---- comparison: lane width and which outcomes give all ones ---- *)
Definition vec_relop (o : opc) : option (Z * (option comparison -> bool)) :=
  match o with
  | O_f32x4_eq => Some (32, fun c => match c with Some Eq => true | _ => false end)
  | O_f64x2_eq => Some (64, fun c => match c with Some Eq => true | _ => false end)
  | O_f32x4_ne => Some (32, fun c => match c with Some Eq => false | _ => true end)
  | O_f64x2_ne => Some (64, fun c => match c with Some Eq => false | _ => true end)
  | O_f32x4_lt => Some (32, fun c => match c with Some Lt => true | _ => false end)
  | O_f64x2_lt => Some (64, fun c => match c with Some Lt => true | _ => false end)
  | O_f32x4_gt => Some (32, fun c => match c with Some Gt => true | _ => false end)
  | O_f64x2_gt => Some (64, fun c => match c with Some Gt => true | _ => false end)
  | O_f32x4_le => Some (32, fun c => match c with Some Lt | Some Eq => true | _ => false end)
  | O_f64x2_le => Some (64, fun c => match c with Some Lt | Some Eq => true | _ => false end)
  | O_f32x4_ge => Some (32, fun c => match c with Some Gt | Some Eq => true | _ => false end)
  | O_f64x2_ge => Some (64, fun c => match c with Some Gt | Some Eq => true | _ => false end)
  | _ => None
  end.
Definition lane_compare (N a b : Z) : option comparison :=
  if N =? 32 then b32_compare (b32_of_bits a) (b32_of_bits b) else b64_compare (b64_of_bits a) (b64_of_bits b).

(* ---- minimum and maximum ---- *)
Definition vec_extremum (o : opc) : option (Z * bool) :=
  match o with
  | O_f32x4_min => Some (32, false) | O_f32x4_max => Some (32, true)
  | O_f64x2_min => Some (64, false) | O_f64x2_max => Some (64, true)
  | _ => None
  end.
Definition lane_extremum (N : Z) (up : bool) (a b r : Z) : Prop :=
  if N =? 32 then is_extremum up (b32_of_bits a) (b32_of_bits b) (b32_of_bits r)
  else is_extremum up (b64_of_bits a) (b64_of_bits b) (b64_of_bits r).
Definition lane_opposite (N a b : Z) : bool :=
  if N =? 32 then opposite_zeros (b32_of_bits a) (b32_of_bits b) else opposite_zeros (b64_of_bits a) (b64_of_bits b).
(* pseudo-minimum and -maximum: the second operand, bit for bit, if it compares smaller (larger), the first one otherwise *)
Definition vec_pick (o : opc) : option (Z * comparison) :=
  match o with
  | O_f32x4_pmin => Some (32, Gt) | O_f32x4_pmax => Some (32, Lt)
  | O_f64x2_pmin => Some (64, Gt) | O_f64x2_pmax => Some (64, Lt)
  | _ => None
  end.
Definition pick_lane (N : Z) (c : comparison) (a b : Z) : Z :=
  match lane_compare N a b, c with Some Gt, Gt | Some Lt, Lt => b | _, _ => a end.
Definition lane_nan (N a : Z) : bool :=
  if N =? 32 then is_nan 24 128 (b32_of_bits a) else is_nan 53 1024 (b64_of_bits a).

(* ---- rounding to an integral value ---- *)
Definition vec_integral (o : opc) : option (Z * mode) :=
  match o with
  | O_f32x4_ceil => Some (32, mode_UP) | O_f32x4_floor => Some (32, mode_DN)
  | O_f32x4_trunc => Some (32, mode_ZR) | O_f32x4_nearest => Some (32, mode_NE)
  | O_f64x2_ceil => Some (64, mode_UP) | O_f64x2_floor => Some (64, mode_DN)
  | O_f64x2_trunc => Some (64, mode_ZR) | O_f64x2_nearest => Some (64, mode_NE)
  | _ => None
  end.
Definition lane_integral (N : Z) (md : mode) (a r : Z) : Prop :=
  if N =? 32 then same_but_zero_sign (b32_of_bits r) (integral32 md (b32_of_bits a))
  else same_but_zero_sign (b64_of_bits r) (integral64 md (b64_of_bits a)).

(* ---- the sign bit ---- *)
Definition vec_sign (o : opc) : option (Z * (bool -> bool)) :=
  match o with
  | O_f32x4_abs => Some (32, fun _ => false) | O_f64x2_abs => Some (64, fun _ => false)
  | O_f32x4_neg => Some (32, negb) | O_f64x2_neg => Some (64, negb)
  | _ => None
  end.

(* ---- conversions ---- *)
(* a double made a single, a single made a double *)
Definition demoted (a : binary64) (r : binary32) : Prop :=
  match a with
  | B754_nan _ _ _ _ _ => is_nan 24 128 r = true
  | B754_infinity _ _ s => r = B754_infinity 24 128 s
  | x => rounds_to_single (B2R 53 1024 x) (Bsign 53 1024 x) r
  end.
Definition promoted (a : binary32) (r : binary64) : Prop :=
  match a with
  | B754_nan _ _ _ _ _ => is_nan 53 1024 r = true
  | B754_infinity _ _ s => r = B754_infinity 53 1024 s
  | x => B2R 53 1024 r = B2R 24 128 x /\ is_finite 53 1024 r = true /\ Bsign 53 1024 r = Bsign 24 128 x
  end.
(* signedness of the integer lanes *)
Definition vec_convert32 (o : opc) : option bool :=
  match o with O_f32x4_convert_i32x4_s => Some true | O_f32x4_convert_i32x4_u => Some false | _ => None end.
Definition vec_convert64 (o : opc) : option bool :=
  match o with O_f64x2_convert_low_i32x4_s => Some true | O_f64x2_convert_low_i32x4_u => Some false | _ => None end.
Definition vec_trunc32 (o : opc) : option bool :=
  match o with O_i32x4_trunc_sat_f32x4_s => Some true | O_i32x4_trunc_sat_f32x4_u => Some false | _ => None end.
Definition vec_trunc64 (o : opc) : option bool :=
  match o with O_i32x4_trunc_sat_f64x2_s_zero => Some true | O_i32x4_trunc_sat_f64x2_u_zero => Some false | _ => None end.
(* the integer a saturating truncation stores, as an unsigned 32-bit number *)
Definition saturated (sg : bool) (m : magnitude) : Z :=
  match truncated 32 sg true m with Some z => z mod 2 ^ 32 | None => 0 end.
