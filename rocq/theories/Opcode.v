(* Opcodes: pywasm/opcode.py lines 3-440 (the constants) and 441-878 (the [name] dict, which lists every constant).
   One constructor per constant, in source order; [opc_code] gives the constant's value.
   The three-byte codes are how core.py 367-370 names prefixed opcodes: prefix byte followed by the canonical LEB128
   bytes of the sub-opcode, read as a big-endian integer. *)
From Coq Require Import ZArith List.
Import ListNotations.
Open Scope Z_scope.

Inductive opc : Set :=
| O_unreachable
| O_nop
| O_block
| O_loop
| O_if_then
| O_else_fi
| O_end
| O_br
| O_br_if
| O_br_table
| O_return_call
| O_call
| O_call_indirect
| O_drop
| O_select
| O_select_type
| O_local_get
| O_local_set
| O_local_tee
| O_global_get
| O_global_set
| O_table_get
| O_table_set
| O_i32_load
| O_i64_load
| O_f32_load
| O_f64_load
| O_i32_load8_s
| O_i32_load8_u
| O_i32_load16_s
| O_i32_load16_u
| O_i64_load8_s
| O_i64_load8_u
| O_i64_load16_s
| O_i64_load16_u
| O_i64_load32_s
| O_i64_load32_u
| O_i32_store
| O_i64_store
| O_f32_store
| O_f64_store
| O_i32_store8
| O_i32_store16
| O_i64_store8
| O_i64_store16
| O_i64_store32
| O_memory_size
| O_memory_grow
| O_i32_const
| O_i64_const
| O_f32_const
| O_f64_const
| O_i32_eqz
| O_i32_eq
| O_i32_ne
| O_i32_lt_s
| O_i32_lt_u
| O_i32_gt_s
| O_i32_gt_u
| O_i32_le_s
| O_i32_le_u
| O_i32_ge_s
| O_i32_ge_u
| O_i64_eqz
| O_i64_eq
| O_i64_ne
| O_i64_lt_s
| O_i64_lt_u
| O_i64_gt_s
| O_i64_gt_u
| O_i64_le_s
| O_i64_le_u
| O_i64_ge_s
| O_i64_ge_u
| O_f32_eq
| O_f32_ne
| O_f32_lt
| O_f32_gt
| O_f32_le
| O_f32_ge
| O_f64_eq
| O_f64_ne
| O_f64_lt
| O_f64_gt
| O_f64_le
| O_f64_ge
| O_i32_clz
| O_i32_ctz
| O_i32_popcnt
| O_i32_add
| O_i32_sub
| O_i32_mul
| O_i32_div_s
| O_i32_div_u
| O_i32_rem_s
| O_i32_rem_u
| O_i32_and
| O_i32_or
| O_i32_xor
| O_i32_shl
| O_i32_shr_s
| O_i32_shr_u
| O_i32_rotl
| O_i32_rotr
| O_i64_clz
| O_i64_ctz
| O_i64_popcnt
| O_i64_add
| O_i64_sub
| O_i64_mul
| O_i64_div_s
| O_i64_div_u
| O_i64_rem_s
| O_i64_rem_u
| O_i64_and
| O_i64_or
| O_i64_xor
| O_i64_shl
| O_i64_shr_s
| O_i64_shr_u
| O_i64_rotl
| O_i64_rotr
| O_f32_abs
| O_f32_neg
| O_f32_ceil
| O_f32_floor
| O_f32_trunc
| O_f32_nearest
| O_f32_sqrt
| O_f32_add
| O_f32_sub
| O_f32_mul
| O_f32_div
| O_f32_min
| O_f32_max
| O_f32_copysign
| O_f64_abs
| O_f64_neg
| O_f64_ceil
| O_f64_floor
| O_f64_trunc
| O_f64_nearest
| O_f64_sqrt
| O_f64_add
| O_f64_sub
| O_f64_mul
| O_f64_div
| O_f64_min
| O_f64_max
| O_f64_copysign
| O_i32_wrap_i64
| O_i32_trunc_f32_s
| O_i32_trunc_f32_u
| O_i32_trunc_f64_s
| O_i32_trunc_f64_u
| O_i64_extend_i32_s
| O_i64_extend_i32_u
| O_i64_trunc_f32_s
| O_i64_trunc_f32_u
| O_i64_trunc_f64_s
| O_i64_trunc_f64_u
| O_f32_convert_i32_s
| O_f32_convert_i32_u
| O_f32_convert_i64_s
| O_f32_convert_i64_u
| O_f32_demote_f64
| O_f64_convert_i32_s
| O_f64_convert_i32_u
| O_f64_convert_i64_s
| O_f64_convert_i64_u
| O_f64_promote_f32
| O_i32_reinterpret_f32
| O_i64_reinterpret_f64
| O_f32_reinterpret_i32
| O_f64_reinterpret_i64
| O_i32_extend8_s
| O_i32_extend16_s
| O_i64_extend8_s
| O_i64_extend16_s
| O_i64_extend32_s
| O_ref_null
| O_ref_is_null
| O_ref_func
| O_i32_trunc_sat_f32_s
| O_i32_trunc_sat_f32_u
| O_i32_trunc_sat_f64_s
| O_i32_trunc_sat_f64_u
| O_i64_trunc_sat_f32_s
| O_i64_trunc_sat_f32_u
| O_i64_trunc_sat_f64_s
| O_i64_trunc_sat_f64_u
| O_memory_init
| O_data_drop
| O_memory_copy
| O_memory_fill
| O_table_init
| O_elem_drop
| O_table_copy
| O_table_grow
| O_table_size
| O_table_fill
| O_v128_load
| O_v128_load8x8_s
| O_v128_load8x8_u
| O_v128_load16x4_s
| O_v128_load16x4_u
| O_v128_load32x2_s
| O_v128_load32x2_u
| O_v128_load8_splat
| O_v128_load16_splat
| O_v128_load32_splat
| O_v128_load64_splat
| O_v128_store
| O_v128_const
| O_i8x16_shuffle
| O_i8x16_swizzle
| O_i8x16_splat
| O_i16x8_splat
| O_i32x4_splat
| O_i64x2_splat
| O_f32x4_splat
| O_f64x2_splat
| O_i8x16_extract_lane_s
| O_i8x16_extract_lane_u
| O_i8x16_replace_lane
| O_i16x8_extract_lane_s
| O_i16x8_extract_lane_u
| O_i16x8_replace_lane
| O_i32x4_extract_lane
| O_i32x4_replace_lane
| O_i64x2_extract_lane
| O_i64x2_replace_lane
| O_f32x4_extract_lane
| O_f32x4_replace_lane
| O_f64x2_extract_lane
| O_f64x2_replace_lane
| O_i8x16_eq
| O_i8x16_ne
| O_i8x16_lt_s
| O_i8x16_lt_u
| O_i8x16_gt_s
| O_i8x16_gt_u
| O_i8x16_le_s
| O_i8x16_le_u
| O_i8x16_ge_s
| O_i8x16_ge_u
| O_i16x8_eq
| O_i16x8_ne
| O_i16x8_lt_s
| O_i16x8_lt_u
| O_i16x8_gt_s
| O_i16x8_gt_u
| O_i16x8_le_s
| O_i16x8_le_u
| O_i16x8_ge_s
| O_i16x8_ge_u
| O_i32x4_eq
| O_i32x4_ne
| O_i32x4_lt_s
| O_i32x4_lt_u
| O_i32x4_gt_s
| O_i32x4_gt_u
| O_i32x4_le_s
| O_i32x4_le_u
| O_i32x4_ge_s
| O_i32x4_ge_u
| O_f32x4_eq
| O_f32x4_ne
| O_f32x4_lt
| O_f32x4_gt
| O_f32x4_le
| O_f32x4_ge
| O_f64x2_eq
| O_f64x2_ne
| O_f64x2_lt
| O_f64x2_gt
| O_f64x2_le
| O_f64x2_ge
| O_v128_not
| O_v128_and
| O_v128_andnot
| O_v128_or
| O_v128_xor
| O_v128_bitselect
| O_v128_any_true
| O_v128_load8_lane
| O_v128_load16_lane
| O_v128_load32_lane
| O_v128_load64_lane
| O_v128_store8_lane
| O_v128_store16_lane
| O_v128_store32_lane
| O_v128_store64_lane
| O_v128_load32_zero
| O_v128_load64_zero
| O_f32x4_demote_f64x2_zero
| O_f64x2_promote_low_f32x4
| O_i8x16_abs
| O_i8x16_neg
| O_i8x16_popcnt
| O_i8x16_all_true
| O_i8x16_bitmask
| O_i8x16_narrow_i16x8_s
| O_i8x16_narrow_i16x8_u
| O_f32x4_ceil
| O_f32x4_floor
| O_f32x4_trunc
| O_f32x4_nearest
| O_i8x16_shl
| O_i8x16_shr_s
| O_i8x16_shr_u
| O_i8x16_add
| O_i8x16_add_sat_s
| O_i8x16_add_sat_u
| O_i8x16_sub
| O_i8x16_sub_sat_s
| O_i8x16_sub_sat_u
| O_f64x2_ceil
| O_f64x2_floor
| O_i8x16_min_s
| O_i8x16_min_u
| O_i8x16_max_s
| O_i8x16_max_u
| O_f64x2_trunc
| O_i8x16_avgr_u
| O_i16x8_extadd_pairwise_i8x16_s
| O_i16x8_extadd_pairwise_i8x16_u
| O_i32x4_extadd_pairwise_i16x8_s
| O_i32x4_extadd_pairwise_i16x8_u
| O_i16x8_abs
| O_i16x8_neg
| O_i16x8_q15mulr_sat_s
| O_i16x8_all_true
| O_i16x8_bitmask
| O_i16x8_narrow_i32x4_s
| O_i16x8_narrow_i32x4_u
| O_i16x8_extend_low_i8x16_s
| O_i16x8_extend_high_i8x16_s
| O_i16x8_extend_low_i8x16_u
| O_i16x8_extend_high_i8x16_u
| O_i16x8_shl
| O_i16x8_shr_s
| O_i16x8_shr_u
| O_i16x8_add
| O_i16x8_add_sat_s
| O_i16x8_add_sat_u
| O_i16x8_sub
| O_i16x8_sub_sat_s
| O_i16x8_sub_sat_u
| O_f64x2_nearest
| O_i16x8_mul
| O_i16x8_min_s
| O_i16x8_min_u
| O_i16x8_max_s
| O_i16x8_max_u
| O_i16x8_avgr_u
| O_i16x8_extmul_low_i8x16_s
| O_i16x8_extmul_high_i8x16_s
| O_i16x8_extmul_low_i8x16_u
| O_i16x8_extmul_high_i8x16_u
| O_i32x4_abs
| O_i32x4_neg
| O_i32x4_all_true
| O_i32x4_bitmask
| O_i32x4_extend_low_i16x8_s
| O_i32x4_extend_high_i16x8_s
| O_i32x4_extend_low_i16x8_u
| O_i32x4_extend_high_i16x8_u
| O_i32x4_shl
| O_i32x4_shr_s
| O_i32x4_shr_u
| O_i32x4_add
| O_i32x4_sub
| O_i32x4_mul
| O_i32x4_min_s
| O_i32x4_min_u
| O_i32x4_max_s
| O_i32x4_max_u
| O_i32x4_dot_i16x8_s
| O_i32x4_extmul_low_i16x8_s
| O_i32x4_extmul_high_i16x8_s
| O_i32x4_extmul_low_i16x8_u
| O_i32x4_extmul_high_i16x8_u
| O_i64x2_abs
| O_i64x2_neg
| O_i64x2_all_true
| O_i64x2_bitmask
| O_i64x2_extend_low_i32x4_s
| O_i64x2_extend_high_i32x4_s
| O_i64x2_extend_low_i32x4_u
| O_i64x2_extend_high_i32x4_u
| O_i64x2_shl
| O_i64x2_shr_s
| O_i64x2_shr_u
| O_i64x2_add
| O_i64x2_sub
| O_i64x2_mul
| O_i64x2_eq
| O_i64x2_ne
| O_i64x2_lt_s
| O_i64x2_gt_s
| O_i64x2_le_s
| O_i64x2_ge_s
| O_i64x2_extmul_low_i32x4_s
| O_i64x2_extmul_high_i32x4_s
| O_i64x2_extmul_low_i32x4_u
| O_i64x2_extmul_high_i32x4_u
| O_f32x4_abs
| O_f32x4_neg
| O_f32x4_sqrt
| O_f32x4_add
| O_f32x4_sub
| O_f32x4_mul
| O_f32x4_div
| O_f32x4_min
| O_f32x4_max
| O_f32x4_pmin
| O_f32x4_pmax
| O_f64x2_abs
| O_f64x2_neg
| O_f64x2_sqrt
| O_f64x2_add
| O_f64x2_sub
| O_f64x2_mul
| O_f64x2_div
| O_f64x2_min
| O_f64x2_max
| O_f64x2_pmin
| O_f64x2_pmax
| O_i32x4_trunc_sat_f32x4_s
| O_i32x4_trunc_sat_f32x4_u
| O_f32x4_convert_i32x4_s
| O_f32x4_convert_i32x4_u
| O_i32x4_trunc_sat_f64x2_s_zero
| O_i32x4_trunc_sat_f64x2_u_zero
| O_f64x2_convert_low_i32x4_s
| O_f64x2_convert_low_i32x4_u.

(* pywasm/opcode.py 3-440 *)
Definition opc_code (o : opc) : Z :=
  match o with
  | O_unreachable => 0x0
  | O_nop => 0x1
  | O_block => 0x2
  | O_loop => 0x3
  | O_if_then => 0x4
  | O_else_fi => 0x5
  | O_end => 0xb
  | O_br => 0xc
  | O_br_if => 0xd
  | O_br_table => 0xe
  | O_return_call => 0xf
  | O_call => 0x10
  | O_call_indirect => 0x11
  | O_drop => 0x1a
  | O_select => 0x1b
  | O_select_type => 0x1c
  | O_local_get => 0x20
  | O_local_set => 0x21
  | O_local_tee => 0x22
  | O_global_get => 0x23
  | O_global_set => 0x24
  | O_table_get => 0x25
  | O_table_set => 0x26
  | O_i32_load => 0x28
  | O_i64_load => 0x29
  | O_f32_load => 0x2a
  | O_f64_load => 0x2b
  | O_i32_load8_s => 0x2c
  | O_i32_load8_u => 0x2d
  | O_i32_load16_s => 0x2e
  | O_i32_load16_u => 0x2f
  | O_i64_load8_s => 0x30
  | O_i64_load8_u => 0x31
  | O_i64_load16_s => 0x32
  | O_i64_load16_u => 0x33
  | O_i64_load32_s => 0x34
  | O_i64_load32_u => 0x35
  | O_i32_store => 0x36
  | O_i64_store => 0x37
  | O_f32_store => 0x38
  | O_f64_store => 0x39
  | O_i32_store8 => 0x3a
  | O_i32_store16 => 0x3b
  | O_i64_store8 => 0x3c
  | O_i64_store16 => 0x3d
  | O_i64_store32 => 0x3e
  | O_memory_size => 0x3f
  | O_memory_grow => 0x40
  | O_i32_const => 0x41
  | O_i64_const => 0x42
  | O_f32_const => 0x43
  | O_f64_const => 0x44
  | O_i32_eqz => 0x45
  | O_i32_eq => 0x46
  | O_i32_ne => 0x47
  | O_i32_lt_s => 0x48
  | O_i32_lt_u => 0x49
  | O_i32_gt_s => 0x4a
  | O_i32_gt_u => 0x4b
  | O_i32_le_s => 0x4c
  | O_i32_le_u => 0x4d
  | O_i32_ge_s => 0x4e
  | O_i32_ge_u => 0x4f
  | O_i64_eqz => 0x50
  | O_i64_eq => 0x51
  | O_i64_ne => 0x52
  | O_i64_lt_s => 0x53
  | O_i64_lt_u => 0x54
  | O_i64_gt_s => 0x55
  | O_i64_gt_u => 0x56
  | O_i64_le_s => 0x57
  | O_i64_le_u => 0x58
  | O_i64_ge_s => 0x59
  | O_i64_ge_u => 0x5a
  | O_f32_eq => 0x5b
  | O_f32_ne => 0x5c
  | O_f32_lt => 0x5d
  | O_f32_gt => 0x5e
  | O_f32_le => 0x5f
  | O_f32_ge => 0x60
  | O_f64_eq => 0x61
  | O_f64_ne => 0x62
  | O_f64_lt => 0x63
  | O_f64_gt => 0x64
  | O_f64_le => 0x65
  | O_f64_ge => 0x66
  | O_i32_clz => 0x67
  | O_i32_ctz => 0x68
  | O_i32_popcnt => 0x69
  | O_i32_add => 0x6a
  | O_i32_sub => 0x6b
  | O_i32_mul => 0x6c
  | O_i32_div_s => 0x6d
  | O_i32_div_u => 0x6e
  | O_i32_rem_s => 0x6f
  | O_i32_rem_u => 0x70
  | O_i32_and => 0x71
  | O_i32_or => 0x72
  | O_i32_xor => 0x73
  | O_i32_shl => 0x74
  | O_i32_shr_s => 0x75
  | O_i32_shr_u => 0x76
  | O_i32_rotl => 0x77
  | O_i32_rotr => 0x78
  | O_i64_clz => 0x79
  | O_i64_ctz => 0x7a
  | O_i64_popcnt => 0x7b
  | O_i64_add => 0x7c
  | O_i64_sub => 0x7d
  | O_i64_mul => 0x7e
  | O_i64_div_s => 0x7f
  | O_i64_div_u => 0x80
  | O_i64_rem_s => 0x81
  | O_i64_rem_u => 0x82
  | O_i64_and => 0x83
  | O_i64_or => 0x84
  | O_i64_xor => 0x85
  | O_i64_shl => 0x86
  | O_i64_shr_s => 0x87
  | O_i64_shr_u => 0x88
  | O_i64_rotl => 0x89
  | O_i64_rotr => 0x8a
  | O_f32_abs => 0x8b
  | O_f32_neg => 0x8c
  | O_f32_ceil => 0x8d
  | O_f32_floor => 0x8e
  | O_f32_trunc => 0x8f
  | O_f32_nearest => 0x90
  | O_f32_sqrt => 0x91
  | O_f32_add => 0x92
  | O_f32_sub => 0x93
  | O_f32_mul => 0x94
  | O_f32_div => 0x95
  | O_f32_min => 0x96
  | O_f32_max => 0x97
  | O_f32_copysign => 0x98
  | O_f64_abs => 0x99
  | O_f64_neg => 0x9a
  | O_f64_ceil => 0x9b
  | O_f64_floor => 0x9c
  | O_f64_trunc => 0x9d
  | O_f64_nearest => 0x9e
  | O_f64_sqrt => 0x9f
  | O_f64_add => 0xa0
  | O_f64_sub => 0xa1
  | O_f64_mul => 0xa2
  | O_f64_div => 0xa3
  | O_f64_min => 0xa4
  | O_f64_max => 0xa5
  | O_f64_copysign => 0xa6
  | O_i32_wrap_i64 => 0xa7
  | O_i32_trunc_f32_s => 0xa8
  | O_i32_trunc_f32_u => 0xa9
  | O_i32_trunc_f64_s => 0xaa
  | O_i32_trunc_f64_u => 0xab
  | O_i64_extend_i32_s => 0xac
  | O_i64_extend_i32_u => 0xad
  | O_i64_trunc_f32_s => 0xae
  | O_i64_trunc_f32_u => 0xaf
  | O_i64_trunc_f64_s => 0xb0
  | O_i64_trunc_f64_u => 0xb1
  | O_f32_convert_i32_s => 0xb2
  | O_f32_convert_i32_u => 0xb3
  | O_f32_convert_i64_s => 0xb4
  | O_f32_convert_i64_u => 0xb5
  | O_f32_demote_f64 => 0xb6
  | O_f64_convert_i32_s => 0xb7
  | O_f64_convert_i32_u => 0xb8
  | O_f64_convert_i64_s => 0xb9
  | O_f64_convert_i64_u => 0xba
  | O_f64_promote_f32 => 0xbb
  | O_i32_reinterpret_f32 => 0xbc
  | O_i64_reinterpret_f64 => 0xbd
  | O_f32_reinterpret_i32 => 0xbe
  | O_f64_reinterpret_i64 => 0xbf
  | O_i32_extend8_s => 0xc0
  | O_i32_extend16_s => 0xc1
  | O_i64_extend8_s => 0xc2
  | O_i64_extend16_s => 0xc3
  | O_i64_extend32_s => 0xc4
  | O_ref_null => 0xd0
  | O_ref_is_null => 0xd1
  | O_ref_func => 0xd2
  | O_i32_trunc_sat_f32_s => 0xfc00
  | O_i32_trunc_sat_f32_u => 0xfc01
  | O_i32_trunc_sat_f64_s => 0xfc02
  | O_i32_trunc_sat_f64_u => 0xfc03
  | O_i64_trunc_sat_f32_s => 0xfc04
  | O_i64_trunc_sat_f32_u => 0xfc05
  | O_i64_trunc_sat_f64_s => 0xfc06
  | O_i64_trunc_sat_f64_u => 0xfc07
  | O_memory_init => 0xfc08
  | O_data_drop => 0xfc09
  | O_memory_copy => 0xfc0a
  | O_memory_fill => 0xfc0b
  | O_table_init => 0xfc0c
  | O_elem_drop => 0xfc0d
  | O_table_copy => 0xfc0e
  | O_table_grow => 0xfc0f
  | O_table_size => 0xfc10
  | O_table_fill => 0xfc11
  | O_v128_load => 0xfd00
  | O_v128_load8x8_s => 0xfd01
  | O_v128_load8x8_u => 0xfd02
  | O_v128_load16x4_s => 0xfd03
  | O_v128_load16x4_u => 0xfd04
  | O_v128_load32x2_s => 0xfd05
  | O_v128_load32x2_u => 0xfd06
  | O_v128_load8_splat => 0xfd07
  | O_v128_load16_splat => 0xfd08
  | O_v128_load32_splat => 0xfd09
  | O_v128_load64_splat => 0xfd0a
  | O_v128_store => 0xfd0b
  | O_v128_const => 0xfd0c
  | O_i8x16_shuffle => 0xfd0d
  | O_i8x16_swizzle => 0xfd0e
  | O_i8x16_splat => 0xfd0f
  | O_i16x8_splat => 0xfd10
  | O_i32x4_splat => 0xfd11
  | O_i64x2_splat => 0xfd12
  | O_f32x4_splat => 0xfd13
  | O_f64x2_splat => 0xfd14
  | O_i8x16_extract_lane_s => 0xfd15
  | O_i8x16_extract_lane_u => 0xfd16
  | O_i8x16_replace_lane => 0xfd17
  | O_i16x8_extract_lane_s => 0xfd18
  | O_i16x8_extract_lane_u => 0xfd19
  | O_i16x8_replace_lane => 0xfd1a
  | O_i32x4_extract_lane => 0xfd1b
  | O_i32x4_replace_lane => 0xfd1c
  | O_i64x2_extract_lane => 0xfd1d
  | O_i64x2_replace_lane => 0xfd1e
  | O_f32x4_extract_lane => 0xfd1f
  | O_f32x4_replace_lane => 0xfd20
  | O_f64x2_extract_lane => 0xfd21
  | O_f64x2_replace_lane => 0xfd22
  | O_i8x16_eq => 0xfd23
  | O_i8x16_ne => 0xfd24
  | O_i8x16_lt_s => 0xfd25
  | O_i8x16_lt_u => 0xfd26
  | O_i8x16_gt_s => 0xfd27
  | O_i8x16_gt_u => 0xfd28
  | O_i8x16_le_s => 0xfd29
  | O_i8x16_le_u => 0xfd2a
  | O_i8x16_ge_s => 0xfd2b
  | O_i8x16_ge_u => 0xfd2c
  | O_i16x8_eq => 0xfd2d
  | O_i16x8_ne => 0xfd2e
  | O_i16x8_lt_s => 0xfd2f
  | O_i16x8_lt_u => 0xfd30
  | O_i16x8_gt_s => 0xfd31
  | O_i16x8_gt_u => 0xfd32
  | O_i16x8_le_s => 0xfd33
  | O_i16x8_le_u => 0xfd34
  | O_i16x8_ge_s => 0xfd35
  | O_i16x8_ge_u => 0xfd36
  | O_i32x4_eq => 0xfd37
  | O_i32x4_ne => 0xfd38
  | O_i32x4_lt_s => 0xfd39
  | O_i32x4_lt_u => 0xfd3a
  | O_i32x4_gt_s => 0xfd3b
  | O_i32x4_gt_u => 0xfd3c
  | O_i32x4_le_s => 0xfd3d
  | O_i32x4_le_u => 0xfd3e
  | O_i32x4_ge_s => 0xfd3f
  | O_i32x4_ge_u => 0xfd40
  | O_f32x4_eq => 0xfd41
  | O_f32x4_ne => 0xfd42
  | O_f32x4_lt => 0xfd43
  | O_f32x4_gt => 0xfd44
  | O_f32x4_le => 0xfd45
  | O_f32x4_ge => 0xfd46
  | O_f64x2_eq => 0xfd47
  | O_f64x2_ne => 0xfd48
  | O_f64x2_lt => 0xfd49
  | O_f64x2_gt => 0xfd4a
  | O_f64x2_le => 0xfd4b
  | O_f64x2_ge => 0xfd4c
  | O_v128_not => 0xfd4d
  | O_v128_and => 0xfd4e
  | O_v128_andnot => 0xfd4f
  | O_v128_or => 0xfd50
  | O_v128_xor => 0xfd51
  | O_v128_bitselect => 0xfd52
  | O_v128_any_true => 0xfd53
  | O_v128_load8_lane => 0xfd54
  | O_v128_load16_lane => 0xfd55
  | O_v128_load32_lane => 0xfd56
  | O_v128_load64_lane => 0xfd57
  | O_v128_store8_lane => 0xfd58
  | O_v128_store16_lane => 0xfd59
  | O_v128_store32_lane => 0xfd5a
  | O_v128_store64_lane => 0xfd5b
  | O_v128_load32_zero => 0xfd5c
  | O_v128_load64_zero => 0xfd5d
  | O_f32x4_demote_f64x2_zero => 0xfd5e
  | O_f64x2_promote_low_f32x4 => 0xfd5f
  | O_i8x16_abs => 0xfd60
  | O_i8x16_neg => 0xfd61
  | O_i8x16_popcnt => 0xfd62
  | O_i8x16_all_true => 0xfd63
  | O_i8x16_bitmask => 0xfd64
  | O_i8x16_narrow_i16x8_s => 0xfd65
  | O_i8x16_narrow_i16x8_u => 0xfd66
  | O_f32x4_ceil => 0xfd67
  | O_f32x4_floor => 0xfd68
  | O_f32x4_trunc => 0xfd69
  | O_f32x4_nearest => 0xfd6a
  | O_i8x16_shl => 0xfd6b
  | O_i8x16_shr_s => 0xfd6c
  | O_i8x16_shr_u => 0xfd6d
  | O_i8x16_add => 0xfd6e
  | O_i8x16_add_sat_s => 0xfd6f
  | O_i8x16_add_sat_u => 0xfd70
  | O_i8x16_sub => 0xfd71
  | O_i8x16_sub_sat_s => 0xfd72
  | O_i8x16_sub_sat_u => 0xfd73
  | O_f64x2_ceil => 0xfd74
  | O_f64x2_floor => 0xfd75
  | O_i8x16_min_s => 0xfd76
  | O_i8x16_min_u => 0xfd77
  | O_i8x16_max_s => 0xfd78
  | O_i8x16_max_u => 0xfd79
  | O_f64x2_trunc => 0xfd7a
  | O_i8x16_avgr_u => 0xfd7b
  | O_i16x8_extadd_pairwise_i8x16_s => 0xfd7c
  | O_i16x8_extadd_pairwise_i8x16_u => 0xfd7d
  | O_i32x4_extadd_pairwise_i16x8_s => 0xfd7e
  | O_i32x4_extadd_pairwise_i16x8_u => 0xfd7f
  | O_i16x8_abs => 0xfd8001
  | O_i16x8_neg => 0xfd8101
  | O_i16x8_q15mulr_sat_s => 0xfd8201
  | O_i16x8_all_true => 0xfd8301
  | O_i16x8_bitmask => 0xfd8401
  | O_i16x8_narrow_i32x4_s => 0xfd8501
  | O_i16x8_narrow_i32x4_u => 0xfd8601
  | O_i16x8_extend_low_i8x16_s => 0xfd8701
  | O_i16x8_extend_high_i8x16_s => 0xfd8801
  | O_i16x8_extend_low_i8x16_u => 0xfd8901
  | O_i16x8_extend_high_i8x16_u => 0xfd8a01
  | O_i16x8_shl => 0xfd8b01
  | O_i16x8_shr_s => 0xfd8c01
  | O_i16x8_shr_u => 0xfd8d01
  | O_i16x8_add => 0xfd8e01
  | O_i16x8_add_sat_s => 0xfd8f01
  | O_i16x8_add_sat_u => 0xfd9001
  | O_i16x8_sub => 0xfd9101
  | O_i16x8_sub_sat_s => 0xfd9201
  | O_i16x8_sub_sat_u => 0xfd9301
  | O_f64x2_nearest => 0xfd9401
  | O_i16x8_mul => 0xfd9501
  | O_i16x8_min_s => 0xfd9601
  | O_i16x8_min_u => 0xfd9701
  | O_i16x8_max_s => 0xfd9801
  | O_i16x8_max_u => 0xfd9901
  | O_i16x8_avgr_u => 0xfd9b01
  | O_i16x8_extmul_low_i8x16_s => 0xfd9c01
  | O_i16x8_extmul_high_i8x16_s => 0xfd9d01
  | O_i16x8_extmul_low_i8x16_u => 0xfd9e01
  | O_i16x8_extmul_high_i8x16_u => 0xfd9f01
  | O_i32x4_abs => 0xfda001
  | O_i32x4_neg => 0xfda101
  | O_i32x4_all_true => 0xfda301
  | O_i32x4_bitmask => 0xfda401
  | O_i32x4_extend_low_i16x8_s => 0xfda701
  | O_i32x4_extend_high_i16x8_s => 0xfda801
  | O_i32x4_extend_low_i16x8_u => 0xfda901
  | O_i32x4_extend_high_i16x8_u => 0xfdaa01
  | O_i32x4_shl => 0xfdab01
  | O_i32x4_shr_s => 0xfdac01
  | O_i32x4_shr_u => 0xfdad01
  | O_i32x4_add => 0xfdae01
  | O_i32x4_sub => 0xfdb101
  | O_i32x4_mul => 0xfdb501
  | O_i32x4_min_s => 0xfdb601
  | O_i32x4_min_u => 0xfdb701
  | O_i32x4_max_s => 0xfdb801
  | O_i32x4_max_u => 0xfdb901
  | O_i32x4_dot_i16x8_s => 0xfdba01
  | O_i32x4_extmul_low_i16x8_s => 0xfdbc01
  | O_i32x4_extmul_high_i16x8_s => 0xfdbd01
  | O_i32x4_extmul_low_i16x8_u => 0xfdbe01
  | O_i32x4_extmul_high_i16x8_u => 0xfdbf01
  | O_i64x2_abs => 0xfdc001
  | O_i64x2_neg => 0xfdc101
  | O_i64x2_all_true => 0xfdc301
  | O_i64x2_bitmask => 0xfdc401
  | O_i64x2_extend_low_i32x4_s => 0xfdc701
  | O_i64x2_extend_high_i32x4_s => 0xfdc801
  | O_i64x2_extend_low_i32x4_u => 0xfdc901
  | O_i64x2_extend_high_i32x4_u => 0xfdca01
  | O_i64x2_shl => 0xfdcb01
  | O_i64x2_shr_s => 0xfdcc01
  | O_i64x2_shr_u => 0xfdcd01
  | O_i64x2_add => 0xfdce01
  | O_i64x2_sub => 0xfdd101
  | O_i64x2_mul => 0xfdd501
  | O_i64x2_eq => 0xfdd601
  | O_i64x2_ne => 0xfdd701
  | O_i64x2_lt_s => 0xfdd801
  | O_i64x2_gt_s => 0xfdd901
  | O_i64x2_le_s => 0xfdda01
  | O_i64x2_ge_s => 0xfddb01
  | O_i64x2_extmul_low_i32x4_s => 0xfddc01
  | O_i64x2_extmul_high_i32x4_s => 0xfddd01
  | O_i64x2_extmul_low_i32x4_u => 0xfdde01
  | O_i64x2_extmul_high_i32x4_u => 0xfddf01
  | O_f32x4_abs => 0xfde001
  | O_f32x4_neg => 0xfde101
  | O_f32x4_sqrt => 0xfde301
  | O_f32x4_add => 0xfde401
  | O_f32x4_sub => 0xfde501
  | O_f32x4_mul => 0xfde601
  | O_f32x4_div => 0xfde701
  | O_f32x4_min => 0xfde801
  | O_f32x4_max => 0xfde901
  | O_f32x4_pmin => 0xfdea01
  | O_f32x4_pmax => 0xfdeb01
  | O_f64x2_abs => 0xfdec01
  | O_f64x2_neg => 0xfded01
  | O_f64x2_sqrt => 0xfdef01
  | O_f64x2_add => 0xfdf001
  | O_f64x2_sub => 0xfdf101
  | O_f64x2_mul => 0xfdf201
  | O_f64x2_div => 0xfdf301
  | O_f64x2_min => 0xfdf401
  | O_f64x2_max => 0xfdf501
  | O_f64x2_pmin => 0xfdf601
  | O_f64x2_pmax => 0xfdf701
  | O_i32x4_trunc_sat_f32x4_s => 0xfdf801
  | O_i32x4_trunc_sat_f32x4_u => 0xfdf901
  | O_f32x4_convert_i32x4_s => 0xfdfa01
  | O_f32x4_convert_i32x4_u => 0xfdfb01
  | O_i32x4_trunc_sat_f64x2_s_zero => 0xfdfc01
  | O_i32x4_trunc_sat_f64x2_u_zero => 0xfdfd01
  | O_f64x2_convert_low_i32x4_s => 0xfdfe01
  | O_f64x2_convert_low_i32x4_u => 0xfdff01
  end.

(* The keys of the [name] dict, pywasm/opcode.py 441-878. *)
Definition all_opcs : list opc := [
  O_unreachable; O_nop; O_block; O_loop;
  O_if_then; O_else_fi; O_end; O_br;
  O_br_if; O_br_table; O_return_call; O_call;
  O_call_indirect; O_drop; O_select; O_select_type;
  O_local_get; O_local_set; O_local_tee; O_global_get;
  O_global_set; O_table_get; O_table_set; O_i32_load;
  O_i64_load; O_f32_load; O_f64_load; O_i32_load8_s;
  O_i32_load8_u; O_i32_load16_s; O_i32_load16_u; O_i64_load8_s;
  O_i64_load8_u; O_i64_load16_s; O_i64_load16_u; O_i64_load32_s;
  O_i64_load32_u; O_i32_store; O_i64_store; O_f32_store;
  O_f64_store; O_i32_store8; O_i32_store16; O_i64_store8;
  O_i64_store16; O_i64_store32; O_memory_size; O_memory_grow;
  O_i32_const; O_i64_const; O_f32_const; O_f64_const;
  O_i32_eqz; O_i32_eq; O_i32_ne; O_i32_lt_s;
  O_i32_lt_u; O_i32_gt_s; O_i32_gt_u; O_i32_le_s;
  O_i32_le_u; O_i32_ge_s; O_i32_ge_u; O_i64_eqz;
  O_i64_eq; O_i64_ne; O_i64_lt_s; O_i64_lt_u;
  O_i64_gt_s; O_i64_gt_u; O_i64_le_s; O_i64_le_u;
  O_i64_ge_s; O_i64_ge_u; O_f32_eq; O_f32_ne;
  O_f32_lt; O_f32_gt; O_f32_le; O_f32_ge;
  O_f64_eq; O_f64_ne; O_f64_lt; O_f64_gt;
  O_f64_le; O_f64_ge; O_i32_clz; O_i32_ctz;
  O_i32_popcnt; O_i32_add; O_i32_sub; O_i32_mul;
  O_i32_div_s; O_i32_div_u; O_i32_rem_s; O_i32_rem_u;
  O_i32_and; O_i32_or; O_i32_xor; O_i32_shl;
  O_i32_shr_s; O_i32_shr_u; O_i32_rotl; O_i32_rotr;
  O_i64_clz; O_i64_ctz; O_i64_popcnt; O_i64_add;
  O_i64_sub; O_i64_mul; O_i64_div_s; O_i64_div_u;
  O_i64_rem_s; O_i64_rem_u; O_i64_and; O_i64_or;
  O_i64_xor; O_i64_shl; O_i64_shr_s; O_i64_shr_u;
  O_i64_rotl; O_i64_rotr; O_f32_abs; O_f32_neg;
  O_f32_ceil; O_f32_floor; O_f32_trunc; O_f32_nearest;
  O_f32_sqrt; O_f32_add; O_f32_sub; O_f32_mul;
  O_f32_div; O_f32_min; O_f32_max; O_f32_copysign;
  O_f64_abs; O_f64_neg; O_f64_ceil; O_f64_floor;
  O_f64_trunc; O_f64_nearest; O_f64_sqrt; O_f64_add;
  O_f64_sub; O_f64_mul; O_f64_div; O_f64_min;
  O_f64_max; O_f64_copysign; O_i32_wrap_i64; O_i32_trunc_f32_s;
  O_i32_trunc_f32_u; O_i32_trunc_f64_s; O_i32_trunc_f64_u; O_i64_extend_i32_s;
  O_i64_extend_i32_u; O_i64_trunc_f32_s; O_i64_trunc_f32_u; O_i64_trunc_f64_s;
  O_i64_trunc_f64_u; O_f32_convert_i32_s; O_f32_convert_i32_u; O_f32_convert_i64_s;
  O_f32_convert_i64_u; O_f32_demote_f64; O_f64_convert_i32_s; O_f64_convert_i32_u;
  O_f64_convert_i64_s; O_f64_convert_i64_u; O_f64_promote_f32; O_i32_reinterpret_f32;
  O_i64_reinterpret_f64; O_f32_reinterpret_i32; O_f64_reinterpret_i64; O_i32_extend8_s;
  O_i32_extend16_s; O_i64_extend8_s; O_i64_extend16_s; O_i64_extend32_s;
  O_ref_null; O_ref_is_null; O_ref_func; O_i32_trunc_sat_f32_s;
  O_i32_trunc_sat_f32_u; O_i32_trunc_sat_f64_s; O_i32_trunc_sat_f64_u; O_i64_trunc_sat_f32_s;
  O_i64_trunc_sat_f32_u; O_i64_trunc_sat_f64_s; O_i64_trunc_sat_f64_u; O_memory_init;
  O_data_drop; O_memory_copy; O_memory_fill; O_table_init;
  O_elem_drop; O_table_copy; O_table_grow; O_table_size;
  O_table_fill; O_v128_load; O_v128_load8x8_s; O_v128_load8x8_u;
  O_v128_load16x4_s; O_v128_load16x4_u; O_v128_load32x2_s; O_v128_load32x2_u;
  O_v128_load8_splat; O_v128_load16_splat; O_v128_load32_splat; O_v128_load64_splat;
  O_v128_store; O_v128_const; O_i8x16_shuffle; O_i8x16_swizzle;
  O_i8x16_splat; O_i16x8_splat; O_i32x4_splat; O_i64x2_splat;
  O_f32x4_splat; O_f64x2_splat; O_i8x16_extract_lane_s; O_i8x16_extract_lane_u;
  O_i8x16_replace_lane; O_i16x8_extract_lane_s; O_i16x8_extract_lane_u; O_i16x8_replace_lane;
  O_i32x4_extract_lane; O_i32x4_replace_lane; O_i64x2_extract_lane; O_i64x2_replace_lane;
  O_f32x4_extract_lane; O_f32x4_replace_lane; O_f64x2_extract_lane; O_f64x2_replace_lane;
  O_i8x16_eq; O_i8x16_ne; O_i8x16_lt_s; O_i8x16_lt_u;
  O_i8x16_gt_s; O_i8x16_gt_u; O_i8x16_le_s; O_i8x16_le_u;
  O_i8x16_ge_s; O_i8x16_ge_u; O_i16x8_eq; O_i16x8_ne;
  O_i16x8_lt_s; O_i16x8_lt_u; O_i16x8_gt_s; O_i16x8_gt_u;
  O_i16x8_le_s; O_i16x8_le_u; O_i16x8_ge_s; O_i16x8_ge_u;
  O_i32x4_eq; O_i32x4_ne; O_i32x4_lt_s; O_i32x4_lt_u;
  O_i32x4_gt_s; O_i32x4_gt_u; O_i32x4_le_s; O_i32x4_le_u;
  O_i32x4_ge_s; O_i32x4_ge_u; O_f32x4_eq; O_f32x4_ne;
  O_f32x4_lt; O_f32x4_gt; O_f32x4_le; O_f32x4_ge;
  O_f64x2_eq; O_f64x2_ne; O_f64x2_lt; O_f64x2_gt;
  O_f64x2_le; O_f64x2_ge; O_v128_not; O_v128_and;
  O_v128_andnot; O_v128_or; O_v128_xor; O_v128_bitselect;
  O_v128_any_true; O_v128_load8_lane; O_v128_load16_lane; O_v128_load32_lane;
  O_v128_load64_lane; O_v128_store8_lane; O_v128_store16_lane; O_v128_store32_lane;
  O_v128_store64_lane; O_v128_load32_zero; O_v128_load64_zero; O_f32x4_demote_f64x2_zero;
  O_f64x2_promote_low_f32x4; O_i8x16_abs; O_i8x16_neg; O_i8x16_popcnt;
  O_i8x16_all_true; O_i8x16_bitmask; O_i8x16_narrow_i16x8_s; O_i8x16_narrow_i16x8_u;
  O_f32x4_ceil; O_f32x4_floor; O_f32x4_trunc; O_f32x4_nearest;
  O_i8x16_shl; O_i8x16_shr_s; O_i8x16_shr_u; O_i8x16_add;
  O_i8x16_add_sat_s; O_i8x16_add_sat_u; O_i8x16_sub; O_i8x16_sub_sat_s;
  O_i8x16_sub_sat_u; O_f64x2_ceil; O_f64x2_floor; O_i8x16_min_s;
  O_i8x16_min_u; O_i8x16_max_s; O_i8x16_max_u; O_f64x2_trunc;
  O_i8x16_avgr_u; O_i16x8_extadd_pairwise_i8x16_s; O_i16x8_extadd_pairwise_i8x16_u; O_i32x4_extadd_pairwise_i16x8_s;
  O_i32x4_extadd_pairwise_i16x8_u; O_i16x8_abs; O_i16x8_neg; O_i16x8_q15mulr_sat_s;
  O_i16x8_all_true; O_i16x8_bitmask; O_i16x8_narrow_i32x4_s; O_i16x8_narrow_i32x4_u;
  O_i16x8_extend_low_i8x16_s; O_i16x8_extend_high_i8x16_s; O_i16x8_extend_low_i8x16_u; O_i16x8_extend_high_i8x16_u;
  O_i16x8_shl; O_i16x8_shr_s; O_i16x8_shr_u; O_i16x8_add;
  O_i16x8_add_sat_s; O_i16x8_add_sat_u; O_i16x8_sub; O_i16x8_sub_sat_s;
  O_i16x8_sub_sat_u; O_f64x2_nearest; O_i16x8_mul; O_i16x8_min_s;
  O_i16x8_min_u; O_i16x8_max_s; O_i16x8_max_u; O_i16x8_avgr_u;
  O_i16x8_extmul_low_i8x16_s; O_i16x8_extmul_high_i8x16_s; O_i16x8_extmul_low_i8x16_u; O_i16x8_extmul_high_i8x16_u;
  O_i32x4_abs; O_i32x4_neg; O_i32x4_all_true; O_i32x4_bitmask;
  O_i32x4_extend_low_i16x8_s; O_i32x4_extend_high_i16x8_s; O_i32x4_extend_low_i16x8_u; O_i32x4_extend_high_i16x8_u;
  O_i32x4_shl; O_i32x4_shr_s; O_i32x4_shr_u; O_i32x4_add;
  O_i32x4_sub; O_i32x4_mul; O_i32x4_min_s; O_i32x4_min_u;
  O_i32x4_max_s; O_i32x4_max_u; O_i32x4_dot_i16x8_s; O_i32x4_extmul_low_i16x8_s;
  O_i32x4_extmul_high_i16x8_s; O_i32x4_extmul_low_i16x8_u; O_i32x4_extmul_high_i16x8_u; O_i64x2_abs;
  O_i64x2_neg; O_i64x2_all_true; O_i64x2_bitmask; O_i64x2_extend_low_i32x4_s;
  O_i64x2_extend_high_i32x4_s; O_i64x2_extend_low_i32x4_u; O_i64x2_extend_high_i32x4_u; O_i64x2_shl;
  O_i64x2_shr_s; O_i64x2_shr_u; O_i64x2_add; O_i64x2_sub;
  O_i64x2_mul; O_i64x2_eq; O_i64x2_ne; O_i64x2_lt_s;
  O_i64x2_gt_s; O_i64x2_le_s; O_i64x2_ge_s; O_i64x2_extmul_low_i32x4_s;
  O_i64x2_extmul_high_i32x4_s; O_i64x2_extmul_low_i32x4_u; O_i64x2_extmul_high_i32x4_u; O_f32x4_abs;
  O_f32x4_neg; O_f32x4_sqrt; O_f32x4_add; O_f32x4_sub;
  O_f32x4_mul; O_f32x4_div; O_f32x4_min; O_f32x4_max;
  O_f32x4_pmin; O_f32x4_pmax; O_f64x2_abs; O_f64x2_neg;
  O_f64x2_sqrt; O_f64x2_add; O_f64x2_sub; O_f64x2_mul;
  O_f64x2_div; O_f64x2_min; O_f64x2_max; O_f64x2_pmin;
  O_f64x2_pmax; O_i32x4_trunc_sat_f32x4_s; O_i32x4_trunc_sat_f32x4_u; O_f32x4_convert_i32x4_s;
  O_f32x4_convert_i32x4_u; O_i32x4_trunc_sat_f64x2_s_zero; O_i32x4_trunc_sat_f64x2_u_zero; O_f64x2_convert_low_i32x4_s;
  O_f64x2_convert_low_i32x4_u
].

(* `b in pywasm.opcode.name`, core.py 370, together with the identification of the constant that the following `match`
   compares with: the opcode whose constant is [z], if any. *)
Definition opc_of_code (z : Z) : option opc :=
  find (fun o => opc_code o =? z) all_opcs.
