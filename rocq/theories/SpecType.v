(* The type system of the WebAssembly standard (2.0, chapter 3) over the decoded instructions, and what it means for a store
   to hold validated functions. Nothing here refers to the interpreter.
   Type lists in signatures are in the standard's order (deepest operand first); the operand stacks of [typed_inst] and
   [typed_seq] have their top first.
   One deliberate difference from the standard: the body of a function is typed without the label of the function itself,
   so that a branch to it is not typable; pywasm executes such a branch wrongly (property C29). *)
From Coq Require Import ZArith List Bool.
From Verif Require Import Py Floatops Val Opcode Numeric Syntax Store Machine SpecInt SpecMem SpecRun.
Import ListNotations.
Open Scope Z_scope.

(* ---- instructions that compute on their operands alone ---- *)
Definition signature (o : opc) : option (list valtype * valtype) :=
  match o with
  | O_i32_const
    => Some ([], T_i32)
  | O_i64_const
    => Some ([], T_i64)
  | O_f32_const
    => Some ([], T_f32)
  | O_f64_const
    => Some ([], T_f64)
  | O_i32_eqz | O_i32_clz | O_i32_ctz | O_i32_popcnt | O_i32_extend8_s | O_i32_extend16_s
    => Some ([T_i32], T_i32)
  | O_i32_eq | O_i32_ne | O_i32_lt_s | O_i32_lt_u | O_i32_gt_s | O_i32_gt_u | O_i32_le_s | O_i32_le_u | O_i32_ge_s
  | O_i32_ge_u | O_i32_add | O_i32_sub | O_i32_mul | O_i32_div_s | O_i32_div_u | O_i32_rem_s | O_i32_rem_u
  | O_i32_and | O_i32_or | O_i32_xor | O_i32_shl | O_i32_shr_s | O_i32_shr_u | O_i32_rotl | O_i32_rotr
    => Some ([T_i32; T_i32], T_i32)
  | O_i64_eqz | O_i32_wrap_i64
    => Some ([T_i64], T_i32)
  | O_i64_eq | O_i64_ne | O_i64_lt_s | O_i64_lt_u | O_i64_gt_s | O_i64_gt_u | O_i64_le_s | O_i64_le_u | O_i64_ge_s
  | O_i64_ge_u
    => Some ([T_i64; T_i64], T_i32)
  | O_f32_eq | O_f32_ne | O_f32_lt | O_f32_gt | O_f32_le | O_f32_ge
    => Some ([T_f32; T_f32], T_i32)
  | O_f64_eq | O_f64_ne | O_f64_lt | O_f64_gt | O_f64_le | O_f64_ge
    => Some ([T_f64; T_f64], T_i32)
  | O_i64_clz | O_i64_ctz | O_i64_popcnt | O_i64_extend8_s | O_i64_extend16_s | O_i64_extend32_s
    => Some ([T_i64], T_i64)
  | O_i64_add | O_i64_sub | O_i64_mul | O_i64_div_s | O_i64_div_u | O_i64_rem_s | O_i64_rem_u | O_i64_and
  | O_i64_or | O_i64_xor | O_i64_shl | O_i64_shr_s | O_i64_shr_u | O_i64_rotl | O_i64_rotr
    => Some ([T_i64; T_i64], T_i64)
  | O_f32_abs | O_f32_neg | O_f32_ceil | O_f32_floor | O_f32_trunc | O_f32_nearest | O_f32_sqrt
    => Some ([T_f32], T_f32)
  | O_f32_add | O_f32_sub | O_f32_mul | O_f32_div | O_f32_min | O_f32_max | O_f32_copysign
    => Some ([T_f32; T_f32], T_f32)
  | O_f64_abs | O_f64_neg | O_f64_ceil | O_f64_floor | O_f64_trunc | O_f64_nearest | O_f64_sqrt
    => Some ([T_f64], T_f64)
  | O_f64_add | O_f64_sub | O_f64_mul | O_f64_div | O_f64_min | O_f64_max | O_f64_copysign
    => Some ([T_f64; T_f64], T_f64)
  | O_i32_trunc_f32_s | O_i32_trunc_f32_u | O_i32_reinterpret_f32 | O_i32_trunc_sat_f32_s | O_i32_trunc_sat_f32_u
    => Some ([T_f32], T_i32)
  | O_i32_trunc_f64_s | O_i32_trunc_f64_u | O_i32_trunc_sat_f64_s | O_i32_trunc_sat_f64_u
    => Some ([T_f64], T_i32)
  | O_i64_extend_i32_s | O_i64_extend_i32_u
    => Some ([T_i32], T_i64)
  | O_i64_trunc_f32_s | O_i64_trunc_f32_u | O_i64_trunc_sat_f32_s | O_i64_trunc_sat_f32_u
    => Some ([T_f32], T_i64)
  | O_i64_trunc_f64_s | O_i64_trunc_f64_u | O_i64_reinterpret_f64 | O_i64_trunc_sat_f64_s | O_i64_trunc_sat_f64_u
    => Some ([T_f64], T_i64)
  | O_f32_convert_i32_s | O_f32_convert_i32_u | O_f32_reinterpret_i32
    => Some ([T_i32], T_f32)
  | O_f32_convert_i64_s | O_f32_convert_i64_u
    => Some ([T_i64], T_f32)
  | O_f32_demote_f64
    => Some ([T_f64], T_f32)
  | O_f64_convert_i32_s | O_f64_convert_i32_u
    => Some ([T_i32], T_f64)
  | O_f64_convert_i64_s | O_f64_convert_i64_u | O_f64_reinterpret_i64
    => Some ([T_i64], T_f64)
  | O_f64_promote_f32
    => Some ([T_f32], T_f64)
  | O_v128_const
    => Some ([], T_v128)
  | O_i8x16_shuffle | O_i8x16_swizzle | O_i8x16_eq | O_i8x16_ne | O_i8x16_lt_s | O_i8x16_lt_u | O_i8x16_gt_s
  | O_i8x16_gt_u | O_i8x16_le_s | O_i8x16_le_u | O_i8x16_ge_s | O_i8x16_ge_u | O_i16x8_eq | O_i16x8_ne
  | O_i16x8_lt_s | O_i16x8_lt_u | O_i16x8_gt_s | O_i16x8_gt_u | O_i16x8_le_s | O_i16x8_le_u | O_i16x8_ge_s
  | O_i16x8_ge_u | O_i32x4_eq | O_i32x4_ne | O_i32x4_lt_s | O_i32x4_lt_u | O_i32x4_gt_s | O_i32x4_gt_u
  | O_i32x4_le_s | O_i32x4_le_u | O_i32x4_ge_s | O_i32x4_ge_u | O_f32x4_eq | O_f32x4_ne | O_f32x4_lt | O_f32x4_gt
  | O_f32x4_le | O_f32x4_ge | O_f64x2_eq | O_f64x2_ne | O_f64x2_lt | O_f64x2_gt | O_f64x2_le | O_f64x2_ge
  | O_v128_and | O_v128_andnot | O_v128_or | O_v128_xor | O_i8x16_narrow_i16x8_s | O_i8x16_narrow_i16x8_u
  | O_i8x16_add | O_i8x16_add_sat_s | O_i8x16_add_sat_u | O_i8x16_sub | O_i8x16_sub_sat_s | O_i8x16_sub_sat_u
  | O_i8x16_min_s | O_i8x16_min_u | O_i8x16_max_s | O_i8x16_max_u | O_i8x16_avgr_u | O_i16x8_q15mulr_sat_s
  | O_i16x8_narrow_i32x4_s | O_i16x8_narrow_i32x4_u | O_i16x8_add | O_i16x8_add_sat_s | O_i16x8_add_sat_u
  | O_i16x8_sub | O_i16x8_sub_sat_s | O_i16x8_sub_sat_u | O_i16x8_mul | O_i16x8_min_s | O_i16x8_min_u
  | O_i16x8_max_s | O_i16x8_max_u | O_i16x8_avgr_u | O_i16x8_extmul_low_i8x16_s | O_i16x8_extmul_high_i8x16_s
  | O_i16x8_extmul_low_i8x16_u | O_i16x8_extmul_high_i8x16_u | O_i32x4_add | O_i32x4_sub | O_i32x4_mul
  | O_i32x4_min_s | O_i32x4_min_u | O_i32x4_max_s | O_i32x4_max_u | O_i32x4_dot_i16x8_s
  | O_i32x4_extmul_low_i16x8_s | O_i32x4_extmul_high_i16x8_s | O_i32x4_extmul_low_i16x8_u
  | O_i32x4_extmul_high_i16x8_u | O_i64x2_add | O_i64x2_sub | O_i64x2_mul | O_i64x2_eq | O_i64x2_ne | O_i64x2_lt_s
  | O_i64x2_gt_s | O_i64x2_le_s | O_i64x2_ge_s | O_i64x2_extmul_low_i32x4_s | O_i64x2_extmul_high_i32x4_s
  | O_i64x2_extmul_low_i32x4_u | O_i64x2_extmul_high_i32x4_u | O_f32x4_add | O_f32x4_sub | O_f32x4_mul
  | O_f32x4_div | O_f32x4_min | O_f32x4_max | O_f32x4_pmin | O_f32x4_pmax | O_f64x2_add | O_f64x2_sub | O_f64x2_mul
  | O_f64x2_div | O_f64x2_min | O_f64x2_max | O_f64x2_pmin | O_f64x2_pmax
    => Some ([T_v128; T_v128], T_v128)
  | O_i8x16_splat | O_i16x8_splat | O_i32x4_splat
    => Some ([T_i32], T_v128)
  | O_i64x2_splat
    => Some ([T_i64], T_v128)
  | O_f32x4_splat
    => Some ([T_f32], T_v128)
  | O_f64x2_splat
    => Some ([T_f64], T_v128)
  | O_i8x16_extract_lane_s | O_i8x16_extract_lane_u | O_i16x8_extract_lane_s | O_i16x8_extract_lane_u
  | O_i32x4_extract_lane | O_v128_any_true | O_i8x16_all_true | O_i8x16_bitmask | O_i16x8_all_true
  | O_i16x8_bitmask | O_i32x4_all_true | O_i32x4_bitmask | O_i64x2_all_true | O_i64x2_bitmask
    => Some ([T_v128], T_i32)
  | O_i8x16_replace_lane | O_i16x8_replace_lane | O_i32x4_replace_lane | O_i8x16_shl | O_i8x16_shr_s
  | O_i8x16_shr_u | O_i16x8_shl | O_i16x8_shr_s | O_i16x8_shr_u | O_i32x4_shl | O_i32x4_shr_s | O_i32x4_shr_u
  | O_i64x2_shl | O_i64x2_shr_s | O_i64x2_shr_u
    => Some ([T_v128; T_i32], T_v128)
  | O_i64x2_extract_lane
    => Some ([T_v128], T_i64)
  | O_i64x2_replace_lane
    => Some ([T_v128; T_i64], T_v128)
  | O_f32x4_extract_lane
    => Some ([T_v128], T_f32)
  | O_f32x4_replace_lane
    => Some ([T_v128; T_f32], T_v128)
  | O_f64x2_extract_lane
    => Some ([T_v128], T_f64)
  | O_f64x2_replace_lane
    => Some ([T_v128; T_f64], T_v128)
  | O_v128_not | O_f32x4_demote_f64x2_zero | O_f64x2_promote_low_f32x4 | O_i8x16_abs | O_i8x16_neg | O_i8x16_popcnt
  | O_f32x4_ceil | O_f32x4_floor | O_f32x4_trunc | O_f32x4_nearest | O_f64x2_ceil | O_f64x2_floor | O_f64x2_trunc
  | O_i16x8_extadd_pairwise_i8x16_s | O_i16x8_extadd_pairwise_i8x16_u | O_i32x4_extadd_pairwise_i16x8_s
  | O_i32x4_extadd_pairwise_i16x8_u | O_i16x8_abs | O_i16x8_neg | O_i16x8_extend_low_i8x16_s
  | O_i16x8_extend_high_i8x16_s | O_i16x8_extend_low_i8x16_u | O_i16x8_extend_high_i8x16_u | O_f64x2_nearest
  | O_i32x4_abs | O_i32x4_neg | O_i32x4_extend_low_i16x8_s | O_i32x4_extend_high_i16x8_s
  | O_i32x4_extend_low_i16x8_u | O_i32x4_extend_high_i16x8_u | O_i64x2_abs | O_i64x2_neg
  | O_i64x2_extend_low_i32x4_s | O_i64x2_extend_high_i32x4_s | O_i64x2_extend_low_i32x4_u
  | O_i64x2_extend_high_i32x4_u | O_f32x4_abs | O_f32x4_neg | O_f32x4_sqrt | O_f64x2_abs | O_f64x2_neg
  | O_f64x2_sqrt | O_i32x4_trunc_sat_f32x4_s | O_i32x4_trunc_sat_f32x4_u | O_f32x4_convert_i32x4_s
  | O_f32x4_convert_i32x4_u | O_i32x4_trunc_sat_f64x2_s_zero | O_i32x4_trunc_sat_f64x2_u_zero
  | O_f64x2_convert_low_i32x4_s | O_f64x2_convert_low_i32x4_u
    => Some ([T_v128], T_v128)
  | O_v128_bitselect
    => Some ([T_v128; T_v128; T_v128], T_v128)
  | _ => None
  end.

(* ---- loads and stores, of whole values and of single lanes ---- *)
Definition mem_signature (o : opc) : option (list valtype * list valtype) :=
  match o with
  | O_i32_load | O_i32_load8_s | O_i32_load8_u | O_i32_load16_s | O_i32_load16_u
    => Some ([T_i32], [T_i32])
  | O_i64_load | O_i64_load8_s | O_i64_load8_u | O_i64_load16_s | O_i64_load16_u | O_i64_load32_s | O_i64_load32_u
    => Some ([T_i32], [T_i64])
  | O_f32_load
    => Some ([T_i32], [T_f32])
  | O_f64_load
    => Some ([T_i32], [T_f64])
  | O_i32_store | O_i32_store8 | O_i32_store16
    => Some ([T_i32; T_i32], [])
  | O_i64_store | O_i64_store8 | O_i64_store16 | O_i64_store32
    => Some ([T_i32; T_i64], [])
  | O_f32_store
    => Some ([T_i32; T_f32], [])
  | O_f64_store
    => Some ([T_i32; T_f64], [])
  | O_v128_load | O_v128_load8x8_s | O_v128_load8x8_u | O_v128_load16x4_s | O_v128_load16x4_u | O_v128_load32x2_s
  | O_v128_load32x2_u | O_v128_load8_splat | O_v128_load16_splat | O_v128_load32_splat | O_v128_load64_splat
  | O_v128_load32_zero | O_v128_load64_zero
    => Some ([T_i32], [T_v128])
  | O_v128_store | O_v128_store8_lane | O_v128_store16_lane | O_v128_store32_lane | O_v128_store64_lane
    => Some ([T_i32; T_v128], [])
  | O_v128_load8_lane | O_v128_load16_lane | O_v128_load32_lane | O_v128_load64_lane
    => Some ([T_i32; T_v128], [T_v128])
  | _ => None
  end.

(* ---- instructions that the standard allows to trap (calls: because the call stack is limited, and because a host
   function may fail) ---- *)
Definition may_trap (o : opc) : bool :=
  match o with
  | O_unreachable | O_i32_div_s | O_i32_div_u | O_i32_rem_s | O_i32_rem_u | O_i64_div_s | O_i64_div_u | O_i64_rem_s
  | O_i64_rem_u | O_i32_trunc_f32_s | O_i32_trunc_f32_u | O_i32_trunc_f64_s | O_i32_trunc_f64_u | O_i64_trunc_f32_s
  | O_i64_trunc_f32_u | O_i64_trunc_f64_s | O_i64_trunc_f64_u | O_table_get | O_table_set | O_memory_init
  | O_memory_copy | O_memory_fill | O_table_init | O_table_copy | O_table_fill | O_call | O_call_indirect
    => true
  | _ => match mem_signature o with Some _ => true | None => false end
  end.
Definition inst_may_trap (i : inst) : bool := match i with IOp o _ => may_trap o | _ => false end.

(* ---- immediates ---- *)
Definition lane_imm (n : Z) (args : list arg) : Prop := exists k, args = [AInt k] /\ 0 <= k < n.
Definition imm_ok (o : opc) (args : list arg) : Prop :=
  match o with
  | O_i32_const | O_f32_const => exists n, args = [AInt n] /\ srange 32 n
  | O_i64_const | O_f64_const => exists n, args = [AInt n] /\ srange 64 n
  | O_v128_const => exists b, args = [ABytes b] /\ len b = 16
  | O_i8x16_extract_lane_s | O_i8x16_extract_lane_u | O_i8x16_replace_lane => lane_imm 16 args
  | O_i16x8_extract_lane_s | O_i16x8_extract_lane_u | O_i16x8_replace_lane => lane_imm 8 args
  | O_i32x4_extract_lane | O_i32x4_replace_lane | O_f32x4_extract_lane | O_f32x4_replace_lane => lane_imm 4 args
  | O_i64x2_extract_lane | O_i64x2_replace_lane | O_f64x2_extract_lane | O_f64x2_replace_lane => lane_imm 2 args
  | O_i8x16_shuffle => exists ks, args = map AInt ks /\ length ks = 16%nat /\ Forall (fun k => 0 <= k < 32) ks
  | _ => True
  end.

(* loads and stores: the alignment, as a power of two that is at most the width, and the offset; for a single lane of a
   vector also the number of the lane *)
Definition lane_width (o : opc) : option Z := match wasm_load_lane o with Some w => Some w | None => wasm_store_lane o end.
Definition access_width (o : opc) : option Z := match wasm_load o with Some (w, _, _) => Some w | None => wasm_store o end.
Definition mem_imm (o : opc) (args : list arg) : Prop :=
  (forall w, access_width o = Some w ->
     exists al off, args = [AInt al; AInt off] /\ 0 <= al /\ 2 ^ al <= w /\ 0 <= off < 2 ^ 32) /\
  (forall w, lane_width o = Some w ->
     exists al off k, args = [AInt al; AInt off; AInt k] /\ 0 <= al /\ 2 ^ al <= w /\ 0 <= off < 2 ^ 32 /\ 0 <= k < 16 / w).

(* ---- contexts ---- *)
Record tctx : Set := mkctx {
  c_types : list functype;
  c_funcs : list functype;
  c_tabls : list valtype;           (* element types *)
  c_mems : nat;                     (* how many *)
  c_globs : list (valtype * Z);     (* type and mutability *)
  c_elems : list valtype;
  c_datas : nat;
  c_locals : list valtype;
  c_labels : list (list valtype);   (* what a branch to each enclosing block takes, top first; innermost block first *)
  c_return : list valtype
}.
Definition in_block (ts : list valtype) (C : tctx) : tctx :=
  mkctx (c_types C) (c_funcs C) (c_tabls C) (c_mems C) (c_globs C) (c_elems C) (c_datas C) (c_locals C)
    (ts :: c_labels C) (c_return C).
Definition typed_block (C : tctx) (bt : bype) (t : functype) : Prop :=
  match bt with
  | BT_empty => t = mkft [] []
  | BT_val x => t = mkft [] [x]
  | BT_idx i => 0 <= i /\ nth_error (c_types C) (Z.to_nat i) = Some t
  end.
Definition imm (i : nat) : arg := AInt (Z.of_nat i).

(* ---- the typing rules ---- *)
Inductive typed_inst : tctx -> inst -> list valtype -> list valtype -> Prop :=
| t_pure C o args ins out : signature o = Some (ins, out) -> imm_ok o args ->
    typed_inst C (IOp o args) (rev ins) [out]
| t_memory C o args ins outs : mem_signature o = Some (ins, outs) -> mem_imm o args -> (0 < c_mems C)%nat ->
    typed_inst C (IOp o args) (rev ins) (rev outs)
| t_unreachable C args A B : typed_inst C (IOp O_unreachable args) A B
| t_nop C args : typed_inst C (IOp O_nop args) [] []
| t_drop C args t : typed_inst C (IOp O_drop args) [t] []
| t_select C args t : is_ref t = false -> typed_inst C (IOp O_select args) [T_i32; t; t] [t]
| t_select_type C t : typed_inst C (IOp O_select_type [AList [vt_code t]]) [T_i32; t; t] [t]
| t_local_get C i t : nth_error (c_locals C) i = Some t -> typed_inst C (IOp O_local_get [imm i]) [] [t]
| t_local_set C i t : nth_error (c_locals C) i = Some t -> typed_inst C (IOp O_local_set [imm i]) [t] []
| t_local_tee C i t : nth_error (c_locals C) i = Some t -> typed_inst C (IOp O_local_tee [imm i]) [t] [t]
| t_global_get C i t mut : nth_error (c_globs C) i = Some (t, mut) -> typed_inst C (IOp O_global_get [imm i]) [] [t]
| t_global_set C i t : nth_error (c_globs C) i = Some (t, 1) -> typed_inst C (IOp O_global_set [imm i]) [t] []
| t_table_get C i t : nth_error (c_tabls C) i = Some t -> typed_inst C (IOp O_table_get [imm i]) [T_i32] [t]
| t_table_set C i t : nth_error (c_tabls C) i = Some t -> typed_inst C (IOp O_table_set [imm i]) [t; T_i32] []
| t_table_size C i t : nth_error (c_tabls C) i = Some t -> typed_inst C (IOp O_table_size [imm i]) [] [T_i32]
| t_table_grow C i t : nth_error (c_tabls C) i = Some t -> typed_inst C (IOp O_table_grow [imm i]) [T_i32; t] [T_i32]
| t_table_fill C i t : nth_error (c_tabls C) i = Some t -> typed_inst C (IOp O_table_fill [imm i]) [T_i32; t; T_i32] []
| t_table_copy C i j t : nth_error (c_tabls C) i = Some t -> nth_error (c_tabls C) j = Some t ->
    typed_inst C (IOp O_table_copy [imm i; imm j]) [T_i32; T_i32; T_i32] []
| t_table_init C i j t : nth_error (c_elems C) i = Some t -> nth_error (c_tabls C) j = Some t ->
    typed_inst C (IOp O_table_init [imm i; imm j]) [T_i32; T_i32; T_i32] []
| t_elem_drop C i t : nth_error (c_elems C) i = Some t -> typed_inst C (IOp O_elem_drop [imm i]) [] []
| t_memory_size C args : (0 < c_mems C)%nat -> typed_inst C (IOp O_memory_size args) [] [T_i32]
| t_memory_grow C args : (0 < c_mems C)%nat -> typed_inst C (IOp O_memory_grow args) [T_i32] [T_i32]
| t_memory_fill C args : (0 < c_mems C)%nat -> typed_inst C (IOp O_memory_fill args) [T_i32; T_i32; T_i32] []
| t_memory_copy C args : (0 < c_mems C)%nat -> typed_inst C (IOp O_memory_copy args) [T_i32; T_i32; T_i32] []
| t_memory_init C i more : (0 < c_mems C)%nat -> (i < c_datas C)%nat ->
    typed_inst C (IOp O_memory_init (imm i :: more)) [T_i32; T_i32; T_i32] []
| t_data_drop C i : (i < c_datas C)%nat -> typed_inst C (IOp O_data_drop [imm i]) [] []
| t_ref_null C t : is_ref t = true -> typed_inst C (IOp O_ref_null [AInt (vt_code t)]) [] [t]
| t_ref_is_null C args t : is_ref t = true -> typed_inst C (IOp O_ref_is_null args) [t] [T_i32]
| t_ref_func C i t : nth_error (c_funcs C) i = Some t -> typed_inst C (IOp O_ref_func [imm i]) [] [T_func]
| t_block C bt t body : typed_block C bt t ->
    typed_seq (in_block (rev (ft_rets t)) C) body (rev (ft_args t)) (rev (ft_rets t)) ->
    typed_inst C (IBlock bt body) (rev (ft_args t)) (rev (ft_rets t))
| t_loop C bt t body : typed_block C bt t ->
    typed_seq (in_block (rev (ft_args t)) C) body (rev (ft_args t)) (rev (ft_rets t)) ->
    typed_inst C (ILoop bt body) (rev (ft_args t)) (rev (ft_rets t))
| t_if C bt t th el : typed_block C bt t ->
    typed_seq (in_block (rev (ft_rets t)) C) th (rev (ft_args t)) (rev (ft_rets t)) ->
    typed_seq (in_block (rev (ft_rets t)) C) el (rev (ft_args t)) (rev (ft_rets t)) ->
    typed_inst C (IIf bt th el) (T_i32 :: rev (ft_args t)) (rev (ft_rets t))
| t_br C l ts A B : nth_error (c_labels C) l = Some ts -> typed_inst C (IOp O_br [imm l]) (ts ++ A) B
| t_br_if C l ts : nth_error (c_labels C) l = Some ts -> typed_inst C (IOp O_br_if [imm l]) (T_i32 :: ts) ts
| t_br_table C ls d ts A B : Forall (fun l => nth_error (c_labels C) l = Some ts) (d :: ls) ->
    typed_inst C (IOp O_br_table [AList (map Z.of_nat ls); imm d]) (T_i32 :: ts ++ A) B
| t_return C args A B : typed_inst C (IOp O_return_call args) (rev (c_return C) ++ A) B
| t_call C i t : nth_error (c_funcs C) i = Some t ->
    typed_inst C (IOp O_call [imm i]) (rev (ft_args t)) (rev (ft_rets t))
| t_call_indirect C i j t : nth_error (c_types C) i = Some t -> nth_error (c_tabls C) j = Some T_func ->
    typed_inst C (IOp O_call_indirect [imm i; imm j]) (T_i32 :: rev (ft_args t)) (rev (ft_rets t))
with typed_seq : tctx -> list inst -> list valtype -> list valtype -> Prop :=
| t_nil C ts : typed_seq C [] ts ts
| t_cons C i is A B R ts : typed_inst C i A B -> typed_seq C is (B ++ R) ts -> typed_seq C (i :: is) (A ++ R) ts.

(* ---- typed stores ---- *)
Definition has_types (vs : list val) (ts : list valtype) : Prop := map v_type vs = ts.

(* What a module instance refers to is in the store and has the types of the context. *)
Record instance_typed (s : store) (mi : modinst) (C : tctx) : Prop := mk_instance_typed {
  it_type : m_type mi = c_types C;
  it_func : forall i t, nth_error (c_funcs C) i = Some t -> exists a f,
    nth_error (m_func mi) i = Some (Z.of_nat a) /\ nth_error (s_func s) a = Some f /\ fi_type f = t;
  it_tabl : forall i t, nth_error (c_tabls C) i = Some t -> exists a x,
    nth_error (m_tabl mi) i = Some (Z.of_nat a) /\ nth_error (s_tabl s) a = Some x /\ tt_type (ti_type x) = t;
  it_mems : forall i, (i < c_mems C)%nat -> exists a x,
    nth_error (m_mems mi) i = Some (Z.of_nat a) /\ nth_error (s_mems s) a = Some x;
  it_glob : forall i t mut, nth_error (c_globs C) i = Some (t, mut) -> exists a g,
    nth_error (m_glob mi) i = Some (Z.of_nat a) /\ nth_error (s_glob s) a = Some g /\ v_type (gi_data g) = t /\ gi_mut g = mut;
  it_elem : forall i t, nth_error (c_elems C) i = Some t -> exists a e,
    nth_error (m_elem mi) i = Some (Z.of_nat a) /\ nth_error (s_elem s) a = Some e /\ li_type e = t;
  it_data : forall i, (i < c_datas C)%nat -> exists a b,
    nth_error (m_data mi) i = Some (Z.of_nat a) /\ nth_error (s_data s) a = Some b
}.
(* the types of the declared locals *)
Definition declared (d : list (Z * valtype)) : list valtype := flat_map (fun '(n, t) => repeat t (Z.to_nat n)) d.
(* A validated function: its body is typed in a context that fits its module instance. A host function is registered
   under its own type; [sg] gives the type of every host function. *)
Definition func_typed (sg : nat -> functype) (s : store) (f : funcinst) : Prop :=
  match f with
  | FHost t hid => t = sg hid
  | FWasm t h code => exists mi C,
    nth_error (s_inst s) h = Some mi /\ instance_typed s mi C /\
    c_locals C = ft_args t ++ declared (fd_locals code) /\ c_labels C = [] /\ c_return C = ft_rets t /\
    typed_seq C (fd_expr code) [] (rev (ft_rets t))
  end.
(* Every function is validated; tables and element segments hold references of their type; there are fewer than 2^31
   functions, and tables have fewer than 2^31 entries (references and table sizes are stored as 32-bit integers). *)
Record store_typed (sg : nat -> functype) (s : store) : Prop := mk_store_typed {
  st_func : Forall (func_typed sg s) (s_func s);
  st_many : len (s_func s) < 2 ^ 31;
  st_tabl : Forall (fun x => ti_size x < 2 ^ 31 /\ Forall (fun v => v_type v = tt_type (ti_type x)) (ti_elem x)) (s_tabl s);
  st_elem : Forall (fun e => Forall (fun v => v_type v = li_type e) (li_data e)) (s_elem s)
}.
Arguments st_func {sg} s _.
Arguments st_many {sg} s _.
Arguments st_tabl {sg} s _.
Arguments st_elem {sg} s _.
(* objects keep their types; there may be more of them *)
Record same_types (s s' : store) : Prop := mk_same_types {
  sa_func : kept eq (s_func s) (s_func s');
  sa_inst : kept eq (s_inst s) (s_inst s');
  sa_data : kept eq (s_data s) (s_data s');
  sa_mems : kept (fun _ _ => True) (s_mems s) (s_mems s');
  sa_tabl : kept (fun x x' => ti_type x' = ti_type x) (s_tabl s) (s_tabl s');
  sa_glob : kept (fun x x' => v_type (gi_data x') = v_type (gi_data x) /\ gi_mut x' = gi_mut x) (s_glob s) (s_glob s');
  sa_elem : kept (fun x x' => li_type x' = li_type x) (s_elem s) (s_elem s')
}.
(* A host function that respects types: it leaves the stacks alone unless it raises, keeps the store typed, and returns
   as many results as its type says. It may write memories, change tables and globals, allocate and raise. *)
Definition host_typed (sg : nat -> functype) (host : hostcode) : Prop :=
  forall hid args m r m', store_typed sg (k_store m) -> host hid args m = (r, m') ->
    store_typed sg (k_store m') /\ same_types (k_store m) (k_store m') /\
    forall l, r = Ok l ->
      k_value m' = k_value m /\ k_label m' = k_label m /\ k_frame m' = k_frame m /\ length l = length (ft_rets (sg hid)).
(* The floating-point unit converts integers of at most 64 bits, and integral values of doubles, to doubles. *)
Definition converts (F : fops) : Prop :=
  (forall n, - 2 ^ 63 <= n < 2 ^ 64 -> f_of_int F n <> None) /\
  (forall x, fl_isnan x = false -> fl_isinf x = false ->
     f_of_int F (fl_trunc x) <> None /\ f_of_int F (fl_floor x) <> None /\
     f_of_int F (fl_ceil x) <> None /\ f_of_int F (fl_round x) <> None).

(* ---- running a function ---- *)
(* the state in which a call of the function (t, h, code) with arguments [args] starts: the stacks hold an empty outermost
   frame, and the frame and label of the function *)
Definition starts (s : store) (t : functype) (h : nat) (code : funcdesc) (args : list val) : machine :=
  mkmach s [] [mklabel (length (ft_rets t)) 1 0 KFunc (fd_expr code) 0]
    [mkframe (MRef h) (args ++ map (fun t => mkval t (zeros 16)) (declared (fd_locals code))) (length (ft_rets t)) 0 0;
     mkframe (MVal modinst_empty) [] 0 0 0].
(* after some number of turns the state is [m'] *)
Definition gets_to (F : fops) (host : hostcode) (m m' : machine) : Prop := exists k, evaluate F host k m = (Ok tt, m').
