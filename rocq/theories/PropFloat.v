(* Float instructions, with the host's floating-point arithmetic being IEEE-754 ([ieee], Float.v). Specification:
   SpecIeee.v, which uses Flocq's IEEE-754 floats. *)
From Coq Require Import ZArith List Bool Lia Reals Lra.
From Flocq Require Import Core IEEE754.BinarySingleNaN IEEE754.Binary IEEE754.Bits.
From Verif Require Import Py Arith Floatops Val Opcode Numeric Syntax Store Basic Machine SpecInt SpecNum SpecMachine.
From Verif Require Import Float SpecIeee FloatFacts FloatOpFacts FloatArithFacts FloatConvFacts FloatSignFacts FloatWitness PropNum.
Import ListNotations.
Open Scope Z_scope.

(* C48: although computed in double precision and rounded again to single precision, the result is the IEEE
   single-precision operation rounded once; for all operands, infinities, zeros and subnormals included. *)
Theorem C48_f32_arithmetic : forall host m o args fr f va vb V,
  about_to_run m (IOp o args) fr -> ieee_binop32 o = Some f ->
  k_value m = vb :: va :: V -> val_wf va -> val_wf vb ->
  pushes_single (step ieee host m) (moved_on m) V (fun r => same_float r (f (single va) (single vb))).
Proof. exact farith32_step. Qed.
Print Assumptions C48_f32_arithmetic.
Theorem C48_f32_sqrt : forall host m args fr va V,
  about_to_run m (IOp O_f32_sqrt args) fr -> k_value m = va :: V -> val_wf va ->
  pushes_single (step ieee host m) (moved_on m) V (fun r => same_float r (b32_sqrt mode_NE (single va))).
Proof. exact fsqrt32_step. Qed.
Print Assumptions C48_f32_sqrt.
(* 1.5 + 2.25 = 3.75; 1 / 3 rounds to 0x3eaaaaab; sqrt 2 *)
Example C48_example host :
  step ieee host (one_inst (IOp O_f32_add []) [num_val T_f32 0x40100000; num_val T_f32 0x3fc00000]) =
    (Ok tt, moved_on (one_inst (IOp O_f32_add []) []) [num_val T_f32 0x40700000]) /\
  step ieee host (one_inst (IOp O_f32_div []) [num_val T_f32 0x40400000; num_val T_f32 0x3f800000]) =
    (Ok tt, moved_on (one_inst (IOp O_f32_div []) []) [num_val T_f32 0x3eaaaaab]) /\
  step ieee host (one_inst (IOp O_f32_sqrt []) [num_val T_f32 0x40000000]) =
    (Ok tt, moved_on (one_inst (IOp O_f32_sqrt []) []) [num_val T_f32 0x3fb504f3]) /\
  about_to_run (one_inst (IOp O_f32_sqrt []) [num_val T_f32 0x40000000]) (IOp O_f32_sqrt [])
    (mkframe (MVal modinst_empty) [] 0 0 0).
Proof. split; [|split; [|split]]; try (vm_compute; reflexivity). apply one_inst_runs. Qed.

(* C49: true for 32-bit integers. For 64-bit integers it is false in general (below); proved for those a double holds
   exactly, k * 2^j with |k| < 2^53. *)
Theorem C49_convert_i32 : forall host m o args fr sg va V,
  about_to_run m (IOp o args) fr -> convert_op o = Some (32, sg, 32) -> k_value m = va :: V -> val_wf va ->
  pushes_single (step ieee host m) (moved_on m) V
    (rounds_to_single (IZR (source_int 32 sg va)) (source_int 32 sg va <? 0)).
Proof. exact convert32_32_step. Qed.
Print Assumptions C49_convert_i32.
Theorem C49_convert_i64_partial : forall host m o args fr N sg va V,
  about_to_run m (IOp o args) fr -> convert_op o = Some (N, sg, 32) -> k_value m = va :: V -> val_wf va ->
  (exists k j, source_int N sg va = k * 2 ^ j /\ 0 <= j /\ Z.abs k < 2 ^ 53) ->
  pushes_single (step ieee host m) (moved_on m) V
    (rounds_to_single (IZR (source_int N sg va)) (source_int N sg va <? 0)).
Proof. exact convert32_step. Qed.
Print Assumptions C49_convert_i64_partial.
(* 2^53 + 2^29 + 1 gives 2^53 although 2^53 + 2^30 is nearer: it is first rounded to the double 2^53 + 2^29, a tie *)
Theorem C49_convert_i64_refuted : exists va z z', val_wf va /\ v_type va = T_i64 /\
  (forall host m args fr V, about_to_run m (IOp O_f32_convert_i64_s args) fr -> k_value m = va :: V ->
     step ieee host m = (Ok tt, moved_on m (num_val T_f32 z :: V))) /\
  (Rabs (B2R 24 128 (b32_of_bits z') - IZR (source_int 64 true va)) <
   Rabs (B2R 24 128 (b32_of_bits z) - IZR (source_int 64 true va)))%R.
Proof. exact convert_double_rounding. Qed.
Print Assumptions C49_convert_i64_refuted.
Example C49_example host :
  step ieee host (one_inst (IOp O_f32_convert_i32_s []) [num_val T_i32 (2 ^ 32 - 16777217)]) =
    (Ok tt, moved_on (one_inst (IOp O_f32_convert_i32_s []) []) [num_val T_f32 0xcb800000]).
Proof. vm_compute. reflexivity. Qed.

(* C50 is false for a pair of opposite zeros; it holds for all other operands. *)
Theorem C50_min_max_partial : forall host m o args fr N up va vb V,
  about_to_run m (IOp o args) fr -> extremum_op o = Some (N, up) ->
  k_value m = vb :: va :: V -> val_wf va -> val_wf vb ->
  if N =? 32
  then opposite_zeros (single va) (single vb) = false ->
       pushes_single (step ieee host m) (moved_on m) V (is_extremum up (single va) (single vb))
  else opposite_zeros (double va) (double vb) = false ->
       pushes_double (step ieee host m) (moved_on m) V (is_extremum up (double va) (double vb)).
Proof. exact extremum_step. Qed.
Print Assumptions C50_min_max_partial.
(* f64.min (+0) (-0) is +0 *)
Theorem C50_min_max_refuted : exists va vb, val_wf va /\ val_wf vb /\
  forall host m args fr V, about_to_run m (IOp O_f64_min args) fr -> k_value m = vb :: va :: V ->
    ~ pushes_double (step ieee host m) (moved_on m) V (is_extremum false (double va) (double vb)).
Proof. exact min_of_zeros. Qed.
Print Assumptions C50_min_max_refuted.
Example C50_example host :
  opposite_zeros (single (num_val T_f32 0xbf800000)) (single (num_val T_f32 0x40000000)) = false /\
  step ieee host (one_inst (IOp O_f32_min []) [num_val T_f32 0x40000000; num_val T_f32 0xbf800000]) =
    (Ok tt, moved_on (one_inst (IOp O_f32_min []) []) [num_val T_f32 0xbf800000]) /\
  step ieee host (one_inst (IOp O_f32_max []) [num_val T_f32 0x40000000; num_val T_f32 0x7fc00000]) =
    (Ok tt, moved_on (one_inst (IOp O_f32_max []) []) [num_val T_f32 0x7fc00000]).
Proof. split; [reflexivity|split; vm_compute; reflexivity]. Qed.

(* C51 is false where the result should be a negative zero, which comes out positive; everything else is right. *)
Theorem C51_rounding_partial : forall host m o args fr N md va V,
  about_to_run m (IOp o args) fr -> integral_op o = Some (N, md) -> k_value m = va :: V -> val_wf va ->
  if N =? 32
  then pushes_single (step ieee host m) (moved_on m) V (fun r => same_but_zero_sign r (integral32 md (single va)))
  else pushes_double (step ieee host m) (moved_on m) V (fun r => same_but_zero_sign r (integral64 md (double va))).
Proof. exact integral_step. Qed.
Print Assumptions C51_rounding_partial.
(* f64.ceil (-0.5) is +0 *)
Theorem C51_rounding_refuted : exists va, val_wf va /\
  forall host m args fr V, about_to_run m (IOp O_f64_ceil args) fr -> k_value m = va :: V ->
    ~ pushes_double (step ieee host m) (moved_on m) V (fun r => same_float r (integral64 mode_UP (double va))).
Proof. exact ceil_of_minus_half. Qed.
Print Assumptions C51_rounding_refuted.
(* nearest 2.5 = 2, floor (-1.5) = -2 *)
Example C51_example host :
  step ieee host (one_inst (IOp O_f64_nearest []) [num_val T_f64 0x4004000000000000]) =
    (Ok tt, moved_on (one_inst (IOp O_f64_nearest []) []) [num_val T_f64 0x4000000000000000]) /\
  step ieee host (one_inst (IOp O_f32_floor []) [num_val T_f32 0xbfc00000]) =
    (Ok tt, moved_on (one_inst (IOp O_f32_floor []) []) [num_val T_f32 0xc0000000]).
Proof. split; vm_compute; reflexivity. Qed.

(* C52 *)
Theorem C52_truncation : forall host m o args fr S N sg sat va V,
  about_to_run m (IOp o args) fr -> trunc_op o = Some (S, N, sg, sat) -> k_value m = va :: V -> val_wf va ->
  match truncated N sg sat (float_magnitude S va) with
  | Some z => step ieee host m = (Ok tt, moved_on m (num_val (int_type N) (z mod 2 ^ N) :: V))
  | None => exists e, step ieee host m = (Err e, moved_on m V)
  end.
Proof. exact trunc_step. Qed.
Print Assumptions C52_truncation.
(* -1.5 becomes -1; 2^31 traps and saturates *)
Example C52_example host :
  step ieee host (one_inst (IOp O_i32_trunc_f32_s []) [num_val T_f32 0xbfc00000]) =
    (Ok tt, moved_on (one_inst (IOp O_i32_trunc_f32_s []) []) [num_val T_i32 (2 ^ 32 - 1)]) /\
  step ieee host (one_inst (IOp O_i32_trunc_f32_s []) [num_val T_f32 0x4f000000]) =
    (Err EOverflow, moved_on (one_inst (IOp O_i32_trunc_f32_s []) []) []) /\
  step ieee host (one_inst (IOp O_i32_trunc_sat_f32_s []) [num_val T_f32 0x4f000000]) =
    (Ok tt, moved_on (one_inst (IOp O_i32_trunc_sat_f32_s []) []) [num_val T_i32 (2 ^ 31 - 1)]).
Proof. split; [|split]; vm_compute; reflexivity. Qed.

(* C53: the sign bit is set as told, all other bits of the float stay, and so do the unused bytes of the value. *)
Theorem C53_sign_bit : forall host m o args fr N f va V,
  about_to_run m (IOp o args) fr -> sign_op o = Some (N, f) -> k_value m = va :: V -> val_wf va ->
  exists v, step ieee host m = (Ok tt, moved_on m (v :: V)) /\ v_type v = float_type N /\ val_wf v /\
    low N v = with_sign N (f (Z.testbit (low N va) (N - 1))) (low N va) /\
    le_of (v_data v) / 2 ^ N = le_of (v_data va) / 2 ^ N.
Proof. exact sign_step. Qed.
Print Assumptions C53_sign_bit.
(* a signalling NaN keeps its payload *)
Example C53_example host :
  step ieee host (one_inst (IOp O_f32_neg []) [num_val T_f32 0x7f800001]) =
    (Ok tt, moved_on (one_inst (IOp O_f32_neg []) []) [num_val T_f32 0xff800001]).
Proof. vm_compute. reflexivity. Qed.

(* C76 *)
Theorem C76_float_comparisons : forall host m o args fr N f va vb V,
  about_to_run m (IOp o args) fr -> float_relop o = Some (N, f) ->
  k_value m = vb :: va :: V -> val_wf va -> val_wf vb ->
  step ieee host m = (Ok tt, moved_on m (num_val T_i32 (truth (f (float_compare N va vb))) :: V)).
Proof. exact frelop_step. Qed.
Print Assumptions C76_float_comparisons.
(* +0 = -0; a NaN is not equal to itself *)
Example C76_example host :
  step ieee host (one_inst (IOp O_f32_eq []) [num_val T_f32 0; num_val T_f32 0x80000000]) =
    (Ok tt, moved_on (one_inst (IOp O_f32_eq []) []) [num_val T_i32 1]) /\
  step ieee host (one_inst (IOp O_f64_ne []) [num_val T_f64 0x7ff8000000000000; num_val T_f64 0x7ff8000000000000]) =
    (Ok tt, moved_on (one_inst (IOp O_f64_ne []) []) [num_val T_i32 1]).
Proof. split; vm_compute; reflexivity. Qed.

(* C77: Python raises where IEEE arithmetic does not (division by zero, the square root of a negative number); the
   interpreter has to catch all of these cases. *)
Theorem C77_f64_arithmetic : forall host m o args fr f va vb V,
  about_to_run m (IOp o args) fr -> ieee_binop64 o = Some f ->
  k_value m = vb :: va :: V -> val_wf va -> val_wf vb ->
  pushes_double (step ieee host m) (moved_on m) V (fun r => same_float r (f (double va) (double vb))).
Proof. exact farith64_step. Qed.
Print Assumptions C77_f64_arithmetic.
Theorem C77_f64_sqrt : forall host m args fr va V,
  about_to_run m (IOp O_f64_sqrt args) fr -> k_value m = va :: V -> val_wf va ->
  pushes_double (step ieee host m) (moved_on m) V (fun r => same_float r (b64_sqrt mode_NE (double va))).
Proof. exact fsqrt64_step. Qed.
Print Assumptions C77_f64_sqrt.
(* -1 / 0 is -infinity *)
Example C77_example host :
  step ieee host (one_inst (IOp O_f64_div []) [num_val T_f64 0; num_val T_f64 0xbff0000000000000]) =
    (Ok tt, moved_on (one_inst (IOp O_f64_div []) []) [num_val T_f64 0xfff0000000000000]).
Proof. vm_compute. reflexivity. Qed.

(* C78 *)
Theorem C78_demote : forall host m args fr va V,
  about_to_run m (IOp O_f32_demote_f64 args) fr -> k_value m = va :: V -> val_wf va ->
  pushes_single (step ieee host m) (moved_on m) V (fun r =>
    match double va with
    | B754_nan _ _ _ _ _ => is_nan 24 128 r = true
    | B754_infinity _ _ s => r = B754_infinity 24 128 s
    | x => rounds_to_single (B2R 53 1024 x) (Bsign 53 1024 x) r
    end).
Proof. exact demote_step. Qed.
Print Assumptions C78_demote.
Theorem C78_promote : forall host m args fr va V,
  about_to_run m (IOp O_f64_promote_f32 args) fr -> k_value m = va :: V -> val_wf va ->
  pushes_double (step ieee host m) (moved_on m) V (fun r =>
    match single va with
    | B754_nan _ _ _ _ _ => is_nan 53 1024 r = true
    | B754_infinity _ _ s => r = B754_infinity 53 1024 s
    | x => B2R 53 1024 r = B2R 24 128 x /\ is_finite 53 1024 r = true /\ Bsign 53 1024 r = Bsign 24 128 x
    end).
Proof. exact promote_step. Qed.
Print Assumptions C78_promote.
Theorem C78_convert_to_f64 : forall host m o args fr N sg va V,
  about_to_run m (IOp o args) fr -> convert_op o = Some (N, sg, 64) -> k_value m = va :: V -> val_wf va ->
  pushes_double (step ieee host m) (moved_on m) V
    (rounds_to_double (IZR (source_int N sg va)) (source_int N sg va <? 0)).
Proof. exact convert64_step. Qed.
Print Assumptions C78_convert_to_f64.
(* 2^64 - 1 becomes 2^64; 1e39 becomes an infinity *)
Example C78_example host :
  step ieee host (one_inst (IOp O_f64_convert_i64_u []) [num_val T_i64 (2 ^ 64 - 1)]) =
    (Ok tt, moved_on (one_inst (IOp O_f64_convert_i64_u []) []) [num_val T_f64 0x43f0000000000000]) /\
  step ieee host (one_inst (IOp O_f32_demote_f64 []) [num_val T_f64 0x480af1b6f0c3a0a1]) =
    (Ok tt, moved_on (one_inst (IOp O_f32_demote_f64 []) []) [num_val T_f32 0x7f800000]).
Proof. split; vm_compute; reflexivity. Qed.

(* C79: true of f64.copysign; f32.copysign reads its operands as doubles, which makes a signalling NaN quiet. *)
Theorem C79_f64_copysign : forall host m args fr va vb V,
  about_to_run m (IOp O_f64_copysign args) fr -> k_value m = vb :: va :: V -> val_wf va -> val_wf vb ->
  step ieee host m = (Ok tt, moved_on m (num_val T_f64 (with_sign 64 (Z.testbit (low 64 vb) 63) (low 64 va)) :: V)).
Proof. exact copysign64_step. Qed.
Print Assumptions C79_f64_copysign.
Theorem C79_f32_copysign_partial : forall host m args fr va vb V,
  about_to_run m (IOp O_f32_copysign args) fr -> k_value m = vb :: va :: V -> val_wf va -> val_wf vb ->
  is_nan 24 128 (single va) = false ->
  step ieee host m = (Ok tt, moved_on m (num_val T_f32 (with_sign 32 (Z.testbit (low 32 vb) 31) (low 32 va)) :: V)).
Proof. exact copysign32_step. Qed.
Print Assumptions C79_f32_copysign_partial.
Theorem C79_f32_copysign_refuted : exists va vb, val_wf va /\ val_wf vb /\
  forall host m args fr V, about_to_run m (IOp O_f32_copysign args) fr -> k_value m = vb :: va :: V ->
    step ieee host m <>
      (Ok tt, moved_on m (num_val T_f32 (with_sign 32 (Z.testbit (low 32 vb) 31) (low 32 va)) :: V)).
Proof. exact copysign_of_signalling. Qed.
Print Assumptions C79_f32_copysign_refuted.
(* copysign 1 (-0) = -1 *)
Example C79_example host :
  is_nan 24 128 (single (num_val T_f32 0x3f800000)) = false /\
  step ieee host (one_inst (IOp O_f32_copysign []) [num_val T_f32 0x80000000; num_val T_f32 0x3f800000]) =
    (Ok tt, moved_on (one_inst (IOp O_f32_copysign []) []) [num_val T_f32 0xbf800000]).
Proof. split; [reflexivity|vm_compute; reflexivity]. Qed.

(* C12 for IEEE floats: a Python float passed as an f32 comes back rounded once to single precision *)
Theorem C12_floats_survive : forall x n,
  (urange 64 x -> exists v, from_all ieee T_f64 (PFloat x) = Ok v /\ into_all ieee v = Ok (PFloat x)) /\
  (exists v, from_all ieee T_f32 (PFloat x) = Ok v /\ into_all ieee v = Ok (PFloat (ieee_of32 (ieee_to32 x)))) /\
  (forall y, ieee_of_int n = Some y -> exists v, from_all ieee T_f32 (PInt n) = Ok v /\
     into_all ieee v = Ok (PFloat (ieee_of32 (ieee_to32 y)))).
Proof. exact floats_survive. Qed.
Print Assumptions C12_floats_survive.
