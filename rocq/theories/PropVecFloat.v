(* Properties C80-C85: the float vector instructions. *)
From Coq Require Import ZArith List Bool Lia Reals.
From Flocq Require Import Core IEEE754.BinarySingleNaN IEEE754.Binary IEEE754.Bits.
From Verif Require Import Py Floatops Val Opcode Syntax Store Machine SpecInt SpecNum SpecMachine SpecMem SpecSimd.
From Verif Require Import Float SpecIeee SpecVecFloat VecFloatFacts VecFloatWitness PropNum.
Import ListNotations.
Open Scope Z_scope.

(* C80: each lane is the IEEE operation, rounded once. *)
Theorem C80_f32x4_arithmetic : forall host m o args fr f va vb V,
  about_to_run m (IOp o args) fr -> vec_binop32 o = Some f -> k_value m = vb :: va :: V -> val_wf va -> val_wf vb ->
  pushes_lanes 32 (step ieee host m) (moved_on m) V
    (each2 (fun a b r => same_float (b32_of_bits r) (f (b32_of_bits a) (b32_of_bits b))) (vlanes 32 va) (vlanes 32 vb)).
Proof. exact varith32_step. Qed.
Print Assumptions C80_f32x4_arithmetic.
Theorem C80_f64x2_arithmetic : forall host m o args fr f va vb V,
  about_to_run m (IOp o args) fr -> vec_binop64 o = Some f -> k_value m = vb :: va :: V -> val_wf va -> val_wf vb ->
  pushes_lanes 64 (step ieee host m) (moved_on m) V
    (each2 (fun a b r => same_float (b64_of_bits r) (f (b64_of_bits a) (b64_of_bits b))) (vlanes 64 va) (vlanes 64 vb)).
Proof. exact varith64_step. Qed.
Print Assumptions C80_f64x2_arithmetic.
Theorem C80_f32x4_sqrt : forall host m args fr va V,
  about_to_run m (IOp O_f32x4_sqrt args) fr -> k_value m = va :: V -> val_wf va ->
  pushes_lanes 32 (step ieee host m) (moved_on m) V
    (each1 (fun a r => same_float (b32_of_bits r) (b32_sqrt mode_NE (b32_of_bits a))) (vlanes 32 va)).
Proof. exact vsqrt32_step. Qed.
Print Assumptions C80_f32x4_sqrt.
Theorem C80_f64x2_sqrt : forall host m args fr va V,
  about_to_run m (IOp O_f64x2_sqrt args) fr -> k_value m = va :: V -> val_wf va ->
  pushes_lanes 64 (step ieee host m) (moved_on m) V
    (each1 (fun a r => same_float (b64_of_bits r) (b64_sqrt mode_NE (b64_of_bits a))) (vlanes 64 va)).
Proof. exact vsqrt64_step. Qed.
Print Assumptions C80_f64x2_sqrt.
(* (1, 1.5, 1, -1) / (3, -0.5, 0, 2): 1/3 rounds to 0x3eaaaaab, 1/0 is an infinity *)
Example C80_example host :
  step ieee host (one_inst (IOp O_f32x4_div [])
      [vec 32 [0x40400000; 0xbf000000; 0; 0x40000000]; vec 32 [0x3f800000; 0x3fc00000; 0x3f800000; 0xbf800000]]) =
    (Ok tt, moved_on (one_inst (IOp O_f32x4_div []) []) [vec 32 [0x3eaaaaab; 0xc0400000; 0x7f800000; 0xbf000000]]).
Proof. vm_compute. reflexivity. Qed.

(* C81: comparisons *)
Theorem C81_vector_comparisons : forall host m o args fr N f va vb V,
  about_to_run m (IOp o args) fr -> vec_relop o = Some (N, f) -> k_value m = vb :: va :: V -> val_wf va -> val_wf vb ->
  step ieee host m = (Ok tt, moved_on m (vec N (map2 (fun a b => all_ones N (f (lane_compare N a b)))
    (vlanes N va) (vlanes N vb)) :: V)).
Proof. exact vrel_step. Qed.
Print Assumptions C81_vector_comparisons.
(* 1 <= 2, +0 <= -0, a NaN is not below itself, 2 is not below 1 *)
Example C81_example host :
  step ieee host (one_inst (IOp O_f32x4_le [])
      [vec 32 [0x40000000; 0x80000000; 0x7fc00000; 0x3f800000]; vec 32 [0x3f800000; 0; 0x7fc00000; 0x40000000]]) =
    (Ok tt, moved_on (one_inst (IOp O_f32x4_le []) []) [vec 32 [2 ^ 32 - 1; 2 ^ 32 - 1; 0; 0]]).
Proof. vm_compute. reflexivity. Qed.

(* C82: minimum and maximum, except for lanes holding zeros of opposite sign *)
Theorem C82_min_max_partial : forall host m o args fr N up va vb V,
  about_to_run m (IOp o args) fr -> vec_extremum o = Some (N, up) -> k_value m = vb :: va :: V -> val_wf va -> val_wf vb ->
  pushes_lanes N (step ieee host m) (moved_on m) V
    (each2 (fun a b r => lane_opposite N a b = false -> lane_extremum N up a b r) (vlanes N va) (vlanes N vb)).
Proof. exact vextremum_step. Qed.
Print Assumptions C82_min_max_partial.
Theorem C82_min_max_refuted : exists va vb, val_wf va /\ val_wf vb /\
  forall host m args fr V, about_to_run m (IOp O_f64x2_min args) fr -> k_value m = vb :: va :: V ->
    ~ pushes_lanes 64 (step ieee host m) (moved_on m) V (each2 (lane_extremum 64 false) (vlanes 64 va) (vlanes 64 vb)).
Proof. exact vmin_zeros. Qed.
Print Assumptions C82_min_max_refuted.
(* pmin and pmax pick a lane bit for bit; only an f32 NaN may come out as another NaN *)
Theorem C82_pick_partial : forall host m o args fr N c va vb V,
  about_to_run m (IOp o args) fr -> vec_pick o = Some (N, c) -> k_value m = vb :: va :: V -> val_wf va -> val_wf vb ->
  pushes_lanes N (step ieee host m) (moved_on m) V
    (each2 (fun a b r => if (N =? 64) || negb (lane_nan N (pick_lane N c a b)) then r = pick_lane N c a b
                         else lane_nan N r = true) (vlanes N va) (vlanes N vb)).
Proof. exact vpick_step. Qed.
Print Assumptions C82_pick_partial.
Theorem C82_pick_refuted : exists va vb, val_wf va /\ val_wf vb /\
  forall host m args fr V, about_to_run m (IOp O_f32x4_pmin args) fr -> k_value m = vb :: va :: V ->
    ~ pushes_lanes 32 (step ieee host m) (moved_on m) V
        (each2 (fun a b r => r = pick_lane 32 Gt a b) (vlanes 32 va) (vlanes 32 vb)).
Proof. exact vpmin_signalling. Qed.
Print Assumptions C82_pick_refuted.
(* min (1, -1) (2, NaN) = (1, NaN); pmax (-0, 1) (+0, 2) = (-0, 2) *)
Example C82_example host :
  lane_opposite 64 0x3ff0000000000000 0x4000000000000000 = false /\
  step ieee host (one_inst (IOp O_f64x2_min [])
      [vec 64 [0x4000000000000000; 0x7ff8000000000000]; vec 64 [0x3ff0000000000000; 0xbff0000000000000]]) =
    (Ok tt, moved_on (one_inst (IOp O_f64x2_min []) []) [vec 64 [0x3ff0000000000000; 0x7ff8000000000000]]) /\
  step ieee host (one_inst (IOp O_f64x2_pmax [])
      [vec 64 [0; 0x4000000000000000]; vec 64 [2 ^ 63; 0x3ff0000000000000]]) =
    (Ok tt, moved_on (one_inst (IOp O_f64x2_pmax []) []) [vec 64 [2 ^ 63; 0x4000000000000000]]).
Proof. split; [|split]; vm_compute; reflexivity. Qed.

(* C83: rounding, except that a negative zero comes out positive *)
Theorem C83_rounding_partial : forall host m o args fr N md va V,
  about_to_run m (IOp o args) fr -> vec_integral o = Some (N, md) -> k_value m = va :: V -> val_wf va ->
  pushes_lanes N (step ieee host m) (moved_on m) V (each1 (lane_integral N md) (vlanes N va)).
Proof. exact vintegral_step. Qed.
Print Assumptions C83_rounding_partial.
Theorem C83_rounding_refuted : exists va, val_wf va /\
  forall host m args fr V, about_to_run m (IOp O_f64x2_ceil args) fr -> k_value m = va :: V ->
    ~ pushes_lanes 64 (step ieee host m) (moved_on m) V
        (each1 (fun a r => same_float (b64_of_bits r) (integral64 mode_UP (b64_of_bits a))) (vlanes 64 va)).
Proof. exact vceil_minus_half. Qed.
Print Assumptions C83_rounding_refuted.
(* nearest (2.5, -1.5, infinity, 0.25) = (2, -2, infinity, 0) *)
Example C83_example host :
  step ieee host (one_inst (IOp O_f32x4_nearest []) [vec 32 [0x40200000; 0xbfc00000; 0x7f800000; 0x3e800000]]) =
    (Ok tt, moved_on (one_inst (IOp O_f32x4_nearest []) []) [vec 32 [0x40000000; 0xc0000000; 0x7f800000; 0]]).
Proof. vm_compute. reflexivity. Qed.

(* C84: only the sign bit changes, except that an f32 NaN may come out as another NaN *)
Theorem C84_sign_bit_partial : forall host m o args fr N f va V,
  about_to_run m (IOp o args) fr -> vec_sign o = Some (N, f) -> k_value m = va :: V -> val_wf va ->
  pushes_lanes N (step ieee host m) (moved_on m) V
    (each1 (fun a r => if (N =? 64) || negb (lane_nan N a) then r = with_sign N (f (Z.testbit a (N - 1))) a
                       else lane_nan N r = true) (vlanes N va)).
Proof. exact vsign_step. Qed.
Print Assumptions C84_sign_bit_partial.
Theorem C84_sign_bit_refuted : exists va, val_wf va /\
  forall host m args fr V, about_to_run m (IOp O_f32x4_neg args) fr -> k_value m = va :: V ->
    ~ pushes_lanes 32 (step ieee host m) (moved_on m) V
        (each1 (fun a r => r = with_sign 32 (negb (Z.testbit a 31)) a) (vlanes 32 va)).
Proof. exact vneg_signalling. Qed.
Print Assumptions C84_sign_bit_refuted.
Example C84_example host :
  step ieee host (one_inst (IOp O_f64x2_neg []) [vec 64 [0x7ff0000000000001; 0]]) =
    (Ok tt, moved_on (one_inst (IOp O_f64x2_neg []) []) [vec 64 [0xfff0000000000001; 2 ^ 63]]) /\
  step ieee host (one_inst (IOp O_f32x4_abs []) [vec 32 [0xbf800000; 0x80000000; 0xff800000; 1]]) =
    (Ok tt, moved_on (one_inst (IOp O_f32x4_abs []) []) [vec 32 [0x3f800000; 0; 0x7f800000; 1]]).
Proof. split; vm_compute; reflexivity. Qed.

(* C85: conversions *)
Theorem C85_trunc_sat_f32x4 : forall host m o args fr sg va V,
  about_to_run m (IOp o args) fr -> vec_trunc32 o = Some sg -> k_value m = va :: V -> val_wf va ->
  step ieee host m = (Ok tt, moved_on m (vec 32 (map (fun a => saturated sg (magnitude_of (b32_of_bits a))) (vlanes 32 va)) :: V)).
Proof. exact vtrunc32_step. Qed.
Print Assumptions C85_trunc_sat_f32x4.
Theorem C85_trunc_sat_f64x2 : forall host m o args fr sg va V,
  about_to_run m (IOp o args) fr -> vec_trunc64 o = Some sg -> k_value m = va :: V -> val_wf va ->
  step ieee host m = (Ok tt, moved_on m
    (vec 32 (map (fun a => saturated sg (magnitude_of (b64_of_bits a))) (vlanes 64 va) ++ [0; 0]) :: V)).
Proof. exact vtrunc64_step. Qed.
Print Assumptions C85_trunc_sat_f64x2.
Theorem C85_convert_f32x4 : forall host m o args fr sg va V,
  about_to_run m (IOp o args) fr -> vec_convert32 o = Some sg -> k_value m = va :: V -> val_wf va ->
  pushes_lanes 32 (step ieee host m) (moved_on m) V
    (each1 (fun a r => rounds_to_single (IZR (as_int 32 sg a)) (as_int 32 sg a <? 0) (b32_of_bits r)) (vlanes 32 va)).
Proof. exact vconvert32_step. Qed.
Print Assumptions C85_convert_f32x4.
Theorem C85_convert_f64x2 : forall host m o args fr sg va V,
  about_to_run m (IOp o args) fr -> vec_convert64 o = Some sg -> k_value m = va :: V -> val_wf va ->
  pushes_lanes 64 (step ieee host m) (moved_on m) V
    (each1 (fun a r => rounds_to_double (IZR (as_int 32 sg a)) (as_int 32 sg a <? 0) (b64_of_bits r)) (half false (vlanes 32 va))).
Proof. exact vconvert64_step. Qed.
Print Assumptions C85_convert_f64x2.
Theorem C85_demote : forall host m args fr va V,
  about_to_run m (IOp O_f32x4_demote_f64x2_zero args) fr -> k_value m = va :: V -> val_wf va ->
  pushes_lanes 32 (step ieee host m) (moved_on m) V (fun l => exists l2, l = l2 ++ [0; 0] /\
    each1 (fun a r => demoted (b64_of_bits a) (b32_of_bits r)) (vlanes 64 va) l2).
Proof. exact vdemote_step. Qed.
Print Assumptions C85_demote.
Theorem C85_promote : forall host m args fr va V,
  about_to_run m (IOp O_f64x2_promote_low_f32x4 args) fr -> k_value m = va :: V -> val_wf va ->
  pushes_lanes 64 (step ieee host m) (moved_on m) V
    (each1 (fun a r => promoted (b32_of_bits a) (b64_of_bits r)) (half false (vlanes 32 va))).
Proof. exact vpromote_step. Qed.
Print Assumptions C85_promote.
(* trunc_sat_s (-1.5, NaN, infinity, 2^31) ; convert_u (2^32 - 1, 0, 1, 3) ; demote (1e39-ish, -0.5) *)
Example C85_example host :
  step ieee host (one_inst (IOp O_i32x4_trunc_sat_f32x4_s []) [vec 32 [0xbfc00000; 0x7fc00000; 0x7f800000; 0x4f000000]]) =
    (Ok tt, moved_on (one_inst (IOp O_i32x4_trunc_sat_f32x4_s []) []) [vec 32 [2 ^ 32 - 1; 0; 2 ^ 31 - 1; 2 ^ 31 - 1]]) /\
  step ieee host (one_inst (IOp O_f32x4_convert_i32x4_u []) [vec 32 [2 ^ 32 - 1; 0; 1; 3]]) =
    (Ok tt, moved_on (one_inst (IOp O_f32x4_convert_i32x4_u []) []) [vec 32 [0x4f800000; 0; 0x3f800000; 0x40400000]]) /\
  step ieee host (one_inst (IOp O_f32x4_demote_f64x2_zero []) [vec 64 [0x480af1b6f0c3a0a1; 0xbfe0000000000000]]) =
    (Ok tt, moved_on (one_inst (IOp O_f32x4_demote_f64x2_zero []) []) [vec 32 [0x7f800000; 0xbf000000; 0; 0]]).
Proof. split; [|split]; vm_compute; reflexivity. Qed.
