(* The WebAssembly binary format (WebAssembly 2.0, chapter 5), as relations between syntax and byte strings, written from
   the standard and not from pywasm's reader. A number may have any of its LEB128 encodings, within the length limits. *)
From Coq Require Import ZArith List Bool.
From Verif Require Import Py Val Opcode Numeric Syntax SpecLeb SpecMem.
Import ListNotations.
Open Scope Z_scope.

(* 5.2.2 integers *)
Definition u32 (n : Z) (b : list Z) : Prop := group b /\ len b <= 5 /\ base128 b = n /\ n < 2 ^ 32.
Definition sint (bits n : Z) (b : list Z) : Prop :=
  group b /\ len b <= (bits + 6) / 7 /\ base128_signed b = n /\ - 2 ^ (bits - 1) <= n < 2 ^ (bits - 1).

(* 5.1.3 vectors: the number of items, then the items *)
Definition vec {A} (item : A -> list Z -> Prop) (l : list A) (b : list Z) : Prop :=
  exists c bs, u32 (len l) c /\ Forall2 item l bs /\ b = c ++ concat bs.

(* 5.2.4 names: UTF-8 *)
Definition scalar (c : Z) : Prop := 0 <= c < 0xd800 \/ 0xe000 <= c < 0x110000.
Definition utf8_char (c : Z) : list Z :=
  if c <? 0x80 then [c]
  else if c <? 0x800 then [0xc0 + c / 64; 0x80 + c mod 64]
  else if c <? 0x10000 then [0xe0 + c / 4096; 0x80 + c / 64 mod 64; 0x80 + c mod 64]
  else [0xf0 + c / 262144; 0x80 + c / 4096 mod 64; 0x80 + c / 64 mod 64; 0x80 + c mod 64].
Definition utf8 (s : name) : list Z := concat (map utf8_char s).
Definition enc_name (s : name) (b : list Z) : Prop :=
  Forall scalar s /\ exists c, u32 (len (utf8 s)) c /\ b = c ++ utf8 s.

(* 5.3 types *)
Definition enc_valtype (t : valtype) (b : list Z) : Prop :=
  b = [match t with
       | T_i32 => 0x7f | T_i64 => 0x7e | T_f32 => 0x7d | T_f64 => 0x7c | T_v128 => 0x7b | T_func => 0x70 | T_extern => 0x6f
       end].
Definition enc_functype (t : functype) (b : list Z) : Prop :=
  exists x y, vec enc_valtype (ft_args t) x /\ vec enc_valtype (ft_rets t) y /\ b = 0x60 :: x ++ y.
(* A description has 0 for "no maximum"; what a declared maximum of 0 becomes is the subject of C22. *)
Inductive enc_limits : limits -> list Z -> Prop :=
| lim_min n x : u32 n x -> enc_limits (mklim n 0) (0x00 :: x)
| lim_max n m x y : u32 n x -> u32 m y -> m <> 0 -> enc_limits (mklim n m) (0x01 :: x ++ y).
Definition enc_reftype (t : valtype) (b : list Z) : Prop := (t = T_func \/ t = T_extern) /\ enc_valtype t b.
Definition enc_tabletype (t : tabletype) (b : list Z) : Prop :=
  exists x y, enc_reftype (tt_type t) x /\ enc_limits (tt_limits t) y /\ b = x ++ y.
Definition enc_globaltype (t : globaltype) (b : list Z) : Prop :=
  exists x, enc_valtype (gt_type t) x /\ (gt_mut t = 0 \/ gt_mut t = 1) /\ b = x ++ [gt_mut t].

(* 5.4 instructions: opcodes, in runs of consecutive numbers *)
Fixpoint numbered (n : Z) (l : list opc) : list (opc * Z) :=
  match l with [] => [] | o :: l' => (o, n) :: numbered (n + 1) l' end.
Definition runs (l : list (Z * list opc)) : list (opc * Z) := concat (map (fun p => numbered (fst p) (snd p)) l).
Definition one_byte : list (opc * Z) := runs [
  (0x0, [O_unreachable; O_nop; O_block; O_loop; O_if_then; O_else_fi]);
  (0xb, [O_end; O_br; O_br_if; O_br_table; O_return_call; O_call; O_call_indirect]);
  (0x1a, [O_drop; O_select; O_select_type]);
  (0x20, [O_local_get; O_local_set; O_local_tee; O_global_get; O_global_set; O_table_get; O_table_set]);
  (0x28, [O_i32_load; O_i64_load; O_f32_load; O_f64_load; O_i32_load8_s; O_i32_load8_u; O_i32_load16_s;
    O_i32_load16_u; O_i64_load8_s; O_i64_load8_u; O_i64_load16_s; O_i64_load16_u; O_i64_load32_s; O_i64_load32_u]);
  (0x36, [O_i32_store; O_i64_store; O_f32_store; O_f64_store; O_i32_store8; O_i32_store16; O_i64_store8;
    O_i64_store16; O_i64_store32; O_memory_size; O_memory_grow]);
  (0x41, [O_i32_const; O_i64_const; O_f32_const; O_f64_const]);
  (0x45, [O_i32_eqz; O_i32_eq; O_i32_ne; O_i32_lt_s; O_i32_lt_u; O_i32_gt_s; O_i32_gt_u; O_i32_le_s; O_i32_le_u;
    O_i32_ge_s; O_i32_ge_u]);
  (0x50, [O_i64_eqz; O_i64_eq; O_i64_ne; O_i64_lt_s; O_i64_lt_u; O_i64_gt_s; O_i64_gt_u; O_i64_le_s; O_i64_le_u;
    O_i64_ge_s; O_i64_ge_u]);
  (0x5b, [O_f32_eq; O_f32_ne; O_f32_lt; O_f32_gt; O_f32_le; O_f32_ge]);
  (0x61, [O_f64_eq; O_f64_ne; O_f64_lt; O_f64_gt; O_f64_le; O_f64_ge]);
  (0x67, [O_i32_clz; O_i32_ctz; O_i32_popcnt; O_i32_add; O_i32_sub; O_i32_mul; O_i32_div_s; O_i32_div_u; O_i32_rem_s;
    O_i32_rem_u; O_i32_and; O_i32_or; O_i32_xor; O_i32_shl; O_i32_shr_s; O_i32_shr_u; O_i32_rotl; O_i32_rotr]);
  (0x79, [O_i64_clz; O_i64_ctz; O_i64_popcnt; O_i64_add; O_i64_sub; O_i64_mul; O_i64_div_s; O_i64_div_u; O_i64_rem_s;
    O_i64_rem_u; O_i64_and; O_i64_or; O_i64_xor; O_i64_shl; O_i64_shr_s; O_i64_shr_u; O_i64_rotl; O_i64_rotr]);
  (0x8b, [O_f32_abs; O_f32_neg; O_f32_ceil; O_f32_floor; O_f32_trunc; O_f32_nearest; O_f32_sqrt; O_f32_add; O_f32_sub;
    O_f32_mul; O_f32_div; O_f32_min; O_f32_max; O_f32_copysign]);
  (0x99, [O_f64_abs; O_f64_neg; O_f64_ceil; O_f64_floor; O_f64_trunc; O_f64_nearest; O_f64_sqrt; O_f64_add; O_f64_sub;
    O_f64_mul; O_f64_div; O_f64_min; O_f64_max; O_f64_copysign]);
  (0xa7, [O_i32_wrap_i64; O_i32_trunc_f32_s; O_i32_trunc_f32_u; O_i32_trunc_f64_s; O_i32_trunc_f64_u]);
  (0xac, [O_i64_extend_i32_s; O_i64_extend_i32_u; O_i64_trunc_f32_s; O_i64_trunc_f32_u; O_i64_trunc_f64_s;
    O_i64_trunc_f64_u]);
  (0xb2, [O_f32_convert_i32_s; O_f32_convert_i32_u; O_f32_convert_i64_s; O_f32_convert_i64_u; O_f32_demote_f64]);
  (0xb7, [O_f64_convert_i32_s; O_f64_convert_i32_u; O_f64_convert_i64_s; O_f64_convert_i64_u; O_f64_promote_f32]);
  (0xbc, [O_i32_reinterpret_f32; O_i64_reinterpret_f64; O_f32_reinterpret_i32; O_f64_reinterpret_i64]);
  (0xc0, [O_i32_extend8_s; O_i32_extend16_s; O_i64_extend8_s; O_i64_extend16_s; O_i64_extend32_s]);
  (0xd0, [O_ref_null; O_ref_is_null; O_ref_func])
].
Definition after_fc : list (opc * Z) := runs [
  (0, [O_i32_trunc_sat_f32_s; O_i32_trunc_sat_f32_u; O_i32_trunc_sat_f64_s; O_i32_trunc_sat_f64_u;
    O_i64_trunc_sat_f32_s; O_i64_trunc_sat_f32_u; O_i64_trunc_sat_f64_s; O_i64_trunc_sat_f64_u]);
  (8, [O_memory_init; O_data_drop; O_memory_copy; O_memory_fill]);
  (12, [O_table_init; O_elem_drop; O_table_copy; O_table_grow; O_table_size; O_table_fill])
].
Definition after_fd : list (opc * Z) := runs [
  (0, [O_v128_load; O_v128_load8x8_s; O_v128_load8x8_u; O_v128_load16x4_s; O_v128_load16x4_u; O_v128_load32x2_s;
    O_v128_load32x2_u; O_v128_load8_splat; O_v128_load16_splat; O_v128_load32_splat; O_v128_load64_splat;
    O_v128_store; O_v128_const]);
  (13, [O_i8x16_shuffle; O_i8x16_swizzle; O_i8x16_splat; O_i16x8_splat; O_i32x4_splat; O_i64x2_splat; O_f32x4_splat;
    O_f64x2_splat]);
  (21, [O_i8x16_extract_lane_s; O_i8x16_extract_lane_u; O_i8x16_replace_lane; O_i16x8_extract_lane_s;
    O_i16x8_extract_lane_u; O_i16x8_replace_lane]);
  (27, [O_i32x4_extract_lane; O_i32x4_replace_lane; O_i64x2_extract_lane; O_i64x2_replace_lane; O_f32x4_extract_lane;
    O_f32x4_replace_lane; O_f64x2_extract_lane; O_f64x2_replace_lane]);
  (35, [O_i8x16_eq; O_i8x16_ne; O_i8x16_lt_s; O_i8x16_lt_u; O_i8x16_gt_s; O_i8x16_gt_u; O_i8x16_le_s; O_i8x16_le_u;
    O_i8x16_ge_s; O_i8x16_ge_u]);
  (45, [O_i16x8_eq; O_i16x8_ne; O_i16x8_lt_s; O_i16x8_lt_u; O_i16x8_gt_s; O_i16x8_gt_u; O_i16x8_le_s; O_i16x8_le_u;
    O_i16x8_ge_s; O_i16x8_ge_u]);
  (55, [O_i32x4_eq; O_i32x4_ne; O_i32x4_lt_s; O_i32x4_lt_u; O_i32x4_gt_s; O_i32x4_gt_u; O_i32x4_le_s; O_i32x4_le_u;
    O_i32x4_ge_s; O_i32x4_ge_u]);
  (65, [O_f32x4_eq; O_f32x4_ne; O_f32x4_lt; O_f32x4_gt; O_f32x4_le; O_f32x4_ge]);
  (71, [O_f64x2_eq; O_f64x2_ne; O_f64x2_lt; O_f64x2_gt; O_f64x2_le; O_f64x2_ge]);
  (77, [O_v128_not; O_v128_and; O_v128_andnot; O_v128_or; O_v128_xor; O_v128_bitselect; O_v128_any_true]);
  (84, [O_v128_load8_lane; O_v128_load16_lane; O_v128_load32_lane; O_v128_load64_lane; O_v128_store8_lane;
    O_v128_store16_lane; O_v128_store32_lane; O_v128_store64_lane; O_v128_load32_zero; O_v128_load64_zero]);
  (94, [O_f32x4_demote_f64x2_zero; O_f64x2_promote_low_f32x4]);
  (96, [O_i8x16_abs; O_i8x16_neg; O_i8x16_popcnt; O_i8x16_all_true; O_i8x16_bitmask; O_i8x16_narrow_i16x8_s;
    O_i8x16_narrow_i16x8_u]);
  (103, [O_f32x4_ceil; O_f32x4_floor; O_f32x4_trunc; O_f32x4_nearest]);
  (107, [O_i8x16_shl; O_i8x16_shr_s; O_i8x16_shr_u; O_i8x16_add; O_i8x16_add_sat_s; O_i8x16_add_sat_u; O_i8x16_sub;
    O_i8x16_sub_sat_s; O_i8x16_sub_sat_u]);
  (116, [O_f64x2_ceil; O_f64x2_floor]);
  (118, [O_i8x16_min_s; O_i8x16_min_u; O_i8x16_max_s; O_i8x16_max_u]);
  (122, [O_f64x2_trunc; O_i8x16_avgr_u]);
  (124, [O_i16x8_extadd_pairwise_i8x16_s; O_i16x8_extadd_pairwise_i8x16_u; O_i32x4_extadd_pairwise_i16x8_s;
    O_i32x4_extadd_pairwise_i16x8_u]);
  (128, [O_i16x8_abs; O_i16x8_neg; O_i16x8_q15mulr_sat_s; O_i16x8_all_true; O_i16x8_bitmask; O_i16x8_narrow_i32x4_s;
    O_i16x8_narrow_i32x4_u; O_i16x8_extend_low_i8x16_s; O_i16x8_extend_high_i8x16_s; O_i16x8_extend_low_i8x16_u;
    O_i16x8_extend_high_i8x16_u]);
  (139, [O_i16x8_shl; O_i16x8_shr_s; O_i16x8_shr_u; O_i16x8_add; O_i16x8_add_sat_s; O_i16x8_add_sat_u; O_i16x8_sub;
    O_i16x8_sub_sat_s; O_i16x8_sub_sat_u]);
  (148, [O_f64x2_nearest]);
  (149, [O_i16x8_mul; O_i16x8_min_s; O_i16x8_min_u; O_i16x8_max_s; O_i16x8_max_u]);
  (155, [O_i16x8_avgr_u; O_i16x8_extmul_low_i8x16_s; O_i16x8_extmul_high_i8x16_s; O_i16x8_extmul_low_i8x16_u;
    O_i16x8_extmul_high_i8x16_u]);
  (160, [O_i32x4_abs; O_i32x4_neg]);
  (163, [O_i32x4_all_true; O_i32x4_bitmask]);
  (167, [O_i32x4_extend_low_i16x8_s; O_i32x4_extend_high_i16x8_s; O_i32x4_extend_low_i16x8_u;
    O_i32x4_extend_high_i16x8_u; O_i32x4_shl; O_i32x4_shr_s; O_i32x4_shr_u; O_i32x4_add]);
  (177, [O_i32x4_sub]);
  (181, [O_i32x4_mul; O_i32x4_min_s; O_i32x4_min_u; O_i32x4_max_s; O_i32x4_max_u; O_i32x4_dot_i16x8_s]);
  (188, [O_i32x4_extmul_low_i16x8_s; O_i32x4_extmul_high_i16x8_s; O_i32x4_extmul_low_i16x8_u;
    O_i32x4_extmul_high_i16x8_u]);
  (192, [O_i64x2_abs; O_i64x2_neg]);
  (195, [O_i64x2_all_true; O_i64x2_bitmask]);
  (199, [O_i64x2_extend_low_i32x4_s; O_i64x2_extend_high_i32x4_s; O_i64x2_extend_low_i32x4_u;
    O_i64x2_extend_high_i32x4_u; O_i64x2_shl; O_i64x2_shr_s; O_i64x2_shr_u; O_i64x2_add]);
  (209, [O_i64x2_sub]);
  (213, [O_i64x2_mul; O_i64x2_eq; O_i64x2_ne; O_i64x2_lt_s; O_i64x2_gt_s; O_i64x2_le_s; O_i64x2_ge_s]);
  (220, [O_i64x2_extmul_low_i32x4_s; O_i64x2_extmul_high_i32x4_s; O_i64x2_extmul_low_i32x4_u;
    O_i64x2_extmul_high_i32x4_u]);
  (224, [O_f32x4_abs; O_f32x4_neg]);
  (227, [O_f32x4_sqrt; O_f32x4_add; O_f32x4_sub; O_f32x4_mul; O_f32x4_div; O_f32x4_min; O_f32x4_max; O_f32x4_pmin;
    O_f32x4_pmax]);
  (236, [O_f64x2_abs; O_f64x2_neg]);
  (239, [O_f64x2_sqrt; O_f64x2_add; O_f64x2_sub; O_f64x2_mul; O_f64x2_div; O_f64x2_min; O_f64x2_max; O_f64x2_pmin;
    O_f64x2_pmax]);
  (248, [O_i32x4_trunc_sat_f32x4_s; O_i32x4_trunc_sat_f32x4_u; O_f32x4_convert_i32x4_s; O_f32x4_convert_i32x4_u;
    O_i32x4_trunc_sat_f64x2_s_zero; O_i32x4_trunc_sat_f64x2_u_zero; O_f64x2_convert_low_i32x4_s;
    O_f64x2_convert_low_i32x4_u])
].
Inductive enc_opc : opc -> list Z -> Prop :=
| opc_one o n : In (o, n) one_byte -> enc_opc o [n]
| opc_fc o n b : In (o, n) after_fc -> u32 n b -> enc_opc o (0xfc :: b)
| opc_fd o n b : In (o, n) after_fd -> u32 n b -> enc_opc o (0xfd :: b).

(* the immediates an instruction has *)
Inductive shape : Set :=
| SNone              (* nothing *)
| SIdx               (* an index *)
| SIdx2              (* two indices *)
| SBrTable           (* a vector of labels and a label *)
| STypes             (* a vector of value types *)
| SMem (w : Z)       (* alignment and offset of an access to w bytes *)
| SMemLane (w : Z)   (* the same and a lane number *)
| SLane (n : Z)      (* a lane number below n *)
| SShuffle           (* sixteen lane numbers *)
| SI32 | SI64 | SF32 | SF64 | SV128   (* a constant *)
| SRef               (* a reference type *)
| SIdxZero           (* an index and a zero byte *)
| SZeroArg           (* a zero byte, kept *)
| SZero (n : nat).   (* n zero bytes *)

(* structured instructions and their delimiters have no entry *)
Definition shape_of (o : opc) : option shape :=
  match o with
  | O_block | O_loop | O_if_then | O_else_fi | O_end => None
  | O_br | O_br_if | O_call | O_local_get | O_local_set | O_local_tee | O_global_get | O_global_set | O_table_get
  | O_table_set | O_ref_func | O_data_drop | O_elem_drop | O_table_grow | O_table_size | O_table_fill => Some SIdx
  | O_call_indirect | O_table_init | O_table_copy => Some SIdx2
  | O_br_table => Some SBrTable
  | O_select_type => Some STypes
  | O_i8x16_extract_lane_s | O_i8x16_extract_lane_u | O_i8x16_replace_lane => Some (SLane 16)
  | O_i16x8_extract_lane_s | O_i16x8_extract_lane_u | O_i16x8_replace_lane => Some (SLane 8)
  | O_i32x4_extract_lane | O_i32x4_replace_lane | O_f32x4_extract_lane | O_f32x4_replace_lane => Some (SLane 4)
  | O_i64x2_extract_lane | O_i64x2_replace_lane | O_f64x2_extract_lane | O_f64x2_replace_lane => Some (SLane 2)
  | O_i8x16_shuffle => Some SShuffle
  | O_i32_const => Some SI32
  | O_i64_const => Some SI64
  | O_f32_const => Some SF32
  | O_f64_const => Some SF64
  | O_v128_const => Some SV128
  | O_ref_null => Some SRef
  | O_memory_init => Some SIdxZero
  | O_memory_size | O_memory_grow => Some SZeroArg
  | O_memory_copy => Some (SZero 2)
  | O_memory_fill => Some (SZero 1)
  | _ =>
    match wasm_load o, wasm_store o, wasm_load_lane o, wasm_store_lane o with
    | Some (w, _, _), _, _, _ | _, Some w, _, _ => Some (SMem w)
    | _, _, Some w, _ | _, _, _, Some w => Some (SMemLane w)
    | _, _, _, _ => Some SNone
    end
  end.

(* the bits of a floating-point constant are kept as a signed integer *)
Definition bits_of (n : Z) (z : Z) (b : list Z) : Prop :=
  bytes b /\ len b = n /\ z mod 2 ^ (8 * n) = le_of b /\ - 2 ^ (8 * n - 1) <= z < 2 ^ (8 * n - 1).
Definition memarg (w a off : Z) (b : list Z) : Prop :=
  exists x y, u32 a x /\ u32 off y /\ 2 ^ a <= w /\ b = x ++ y.
Inductive enc_args : shape -> list arg -> list Z -> Prop :=
| ea_none : enc_args SNone [] []
| ea_idx i x : u32 i x -> enc_args SIdx [AInt i] x
| ea_idx2 i j x y : u32 i x -> u32 j y -> enc_args SIdx2 [AInt i; AInt j] (x ++ y)
| ea_br_table l d x y : vec u32 l x -> u32 d y -> enc_args SBrTable [AList l; AInt d] (x ++ y)
| ea_types ts x : vec enc_valtype ts x -> enc_args STypes [AList (map vt_code ts)] x
| ea_mem w a off x : memarg w a off x -> enc_args (SMem w) [AInt a; AInt off] x
| ea_mem_lane w a off k x : memarg w a off x -> 0 <= k < 16 / w ->
    enc_args (SMemLane w) [AInt a; AInt off; AInt k] (x ++ [k])
| ea_lane n k : 0 <= k < n -> enc_args (SLane n) [AInt k] [k]
| ea_shuffle l : len l = 16 -> Forall (fun k => 0 <= k < 32) l -> enc_args SShuffle (map AInt l) l
| ea_i32 z x : sint 32 z x -> enc_args SI32 [AInt z] x
| ea_i64 z x : sint 64 z x -> enc_args SI64 [AInt z] x
| ea_f32 z x : bits_of 4 z x -> enc_args SF32 [AInt z] x
| ea_f64 z x : bits_of 8 z x -> enc_args SF64 [AInt z] x
| ea_v128 x : bytes x -> len x = 16 -> enc_args SV128 [ABytes x] x
| ea_ref t x : enc_reftype t [x] -> enc_args SRef [AInt x] [x]
| ea_idx_zero i x : u32 i x -> enc_args SIdxZero [AInt i] (x ++ [0])
| ea_zero_arg : enc_args SZeroArg [AInt 0] [0]
| ea_zero n : enc_args (SZero n) [] (repeat 0 n).

Inductive enc_bype : bype -> list Z -> Prop :=
| bt_empty : enc_bype BT_empty [0x40]
| bt_val t x : enc_valtype t x -> enc_bype (BT_val t) x
| bt_idx i x : sint 33 i x -> 0 <= i -> enc_bype (BT_idx i) x.

Inductive enc_inst : inst -> list Z -> Prop :=
| ei_op o s args x y : shape_of o = Some s -> enc_opc o x -> enc_args s args y -> enc_inst (IOp o args) (x ++ y)
| ei_block t l x y : enc_bype t x -> enc_seq l y -> enc_inst (IBlock t l) (0x02 :: x ++ y ++ [0x0b])
| ei_loop t l x y : enc_bype t x -> enc_seq l y -> enc_inst (ILoop t l) (0x03 :: x ++ y ++ [0x0b])
| ei_if t l x y : enc_bype t x -> enc_seq l y -> enc_inst (IIf t l []) (0x04 :: x ++ y ++ [0x0b])
| ei_if_else t l k x y z : enc_bype t x -> enc_seq l y -> enc_seq k z ->
    enc_inst (IIf t l k) (0x04 :: x ++ y ++ [0x05] ++ z ++ [0x0b])
with enc_seq : list inst -> list Z -> Prop :=
| es_nil : enc_seq [] []
| es_cons i l x y : enc_inst i x -> enc_seq l y -> enc_seq (i :: l) (x ++ y).
Definition enc_expr (l : expr) (b : list Z) : Prop := exists x, enc_seq l x /\ b = x ++ [0x0b].

(* 5.5 modules *)
Definition enc_import (i : import) (b : list Z) : Prop :=
  exists x y z, enc_name (im_module i) x /\ enc_name (im_name i) y /\ b = x ++ y ++ z /\
  match im_desc i with
  | ImpFunc t => exists w, u32 t w /\ z = 0x00 :: w
  | ImpTable t => exists w, enc_tabletype t w /\ z = 0x01 :: w
  | ImpMem t => exists w, enc_limits t w /\ z = 0x02 :: w
  | ImpGlobal t => exists w, enc_globaltype t w /\ z = 0x03 :: w
  end.
Definition enc_global (g : globaldesc) (b : list Z) : Prop :=
  exists x y, enc_globaltype (gd_type g) x /\ enc_expr (gd_init g) y /\ b = x ++ y.
Definition enc_export (e : exportdesc) (b : list Z) : Prop :=
  exists x y, enc_name (ex_name e) x /\ 0 <= ex_kind e <= 3 /\ u32 (ex_desc e) y /\ b = x ++ [ex_kind e] ++ y.
(* a function index standing for the expression `ref.func` *)
Definition enc_funcref (e : expr) (b : list Z) : Prop := exists f, e = [IOp O_ref_func [AInt f]] /\ u32 f b.
Inductive enc_elem : elemdesc -> list Z -> Prop :=
| el_0 e i x y z : u32 0 z -> enc_expr e x -> vec enc_funcref i y -> enc_elem (mked 0 T_func 0 e i) (z ++ x ++ y)
| el_1 i y z : u32 1 z -> vec enc_funcref i y -> enc_elem (mked 1 T_func 0 [] i) (z ++ [0x00] ++ y)
| el_2 t e i w x y z : u32 2 z -> u32 t w -> enc_expr e x -> vec enc_funcref i y ->
    enc_elem (mked 2 T_func t e i) (z ++ w ++ x ++ [0x00] ++ y)
| el_3 i y z : u32 3 z -> vec enc_funcref i y -> enc_elem (mked 3 T_func 0 [] i) (z ++ [0x00] ++ y)
| el_4 e i x y z : u32 4 z -> enc_expr e x -> vec enc_expr i y -> enc_elem (mked 4 T_func 0 e i) (z ++ x ++ y)
| el_5 r i v y z : u32 5 z -> enc_reftype r v -> vec enc_expr i y -> enc_elem (mked 5 r 0 [] i) (z ++ v ++ y)
| el_6 t e r i w x v y z : u32 6 z -> u32 t w -> enc_expr e x -> enc_reftype r v -> vec enc_expr i y ->
    enc_elem (mked 6 r t e i) (z ++ w ++ x ++ v ++ y)
| el_7 r i v y z : u32 7 z -> enc_reftype r v -> vec enc_expr i y -> enc_elem (mked 7 r 0 [] i) (z ++ v ++ y).
Definition enc_bytes (d : list Z) (b : list Z) : Prop := bytes d /\ exists c, u32 (len d) c /\ b = c ++ d.
Inductive enc_data : datadesc -> list Z -> Prop :=
| da_0 e d x y z : u32 0 z -> enc_expr e x -> enc_bytes d y -> enc_data (mkdd 0 0 e d) (z ++ x ++ y)
| da_1 d y z : u32 1 z -> enc_bytes d y -> enc_data (mkdd 1 0 [] d) (z ++ y)
| da_2 e d w x y z : u32 2 z -> u32 0 w -> enc_expr e x -> enc_bytes d y -> enc_data (mkdd 2 0 e d) (z ++ w ++ x ++ y).
Definition enc_locals (l : Z * valtype) (b : list Z) : Prop :=
  exists x y, u32 (fst l) x /\ enc_valtype (snd l) y /\ b = x ++ y.
(* a function is its type in the function section and its size and body in the code section *)
Definition enc_func_type (f : funcdesc) (b : list Z) : Prop := u32 (fd_type f) b.
Definition enc_func_code (f : funcdesc) (b : list Z) : Prop :=
  exists c x y, vec enc_locals (fd_locals f) x /\ enc_expr (fd_expr f) y /\ u32 (len (x ++ y)) c /\ b = c ++ x ++ y.
Definition enc_custom (b : list Z) : Prop := exists nm x rest, enc_name nm x /\ b = x ++ rest.

(* The sections: number and content. A section for an empty component may be left out. *)
Definition section : Type := Z * list Z.
Definition part {A} (id : Z) (item : A -> list Z -> Prop) (l : list A) (ss : list section) : Prop :=
  (l = [] /\ ss = []) \/ exists p, ss = [(id, p)] /\ vec item l p.
Definition start_part (start : Z) (ss : list section) : Prop :=
  (start = -1 /\ ss = []) \/ exists p, ss = [(8, p)] /\ u32 start p.
Definition count_part (ss : list section) : Prop := ss = [] \/ exists n p, ss = [(12, p)] /\ u32 n p.
Definition standard_sections (md : moddesc) (ss : list section) : Prop :=
  exists ty im fn tb me gl ex st el dc co da,
    ss = ty ++ im ++ fn ++ tb ++ me ++ gl ++ ex ++ st ++ el ++ dc ++ co ++ da /\
    part 1 enc_functype (md_type md) ty /\ part 2 enc_import (md_imps md) im /\
    part 3 enc_func_type (md_func md) fn /\ part 4 enc_tabletype (md_tabl md) tb /\
    part 5 enc_limits (md_mems md) me /\ part 6 enc_global (md_glob md) gl /\
    part 7 enc_export (md_exps md) ex /\ start_part (md_star md) st /\
    part 9 enc_elem (md_elem md) el /\ count_part dc /\
    part 10 enc_func_code (md_func md) co /\ part 11 enc_data (md_data md) da.
Definition enc_section (s : section) (b : list Z) : Prop := exists c, u32 (len (snd s)) c /\ b = fst s :: c ++ snd s.
(* [all] are the sections of the module with custom sections anywhere between them *)
Definition enc_module (all : list section) (md : moddesc) (b : list Z) : Prop :=
  exists bs,
    standard_sections md (filter (fun s => negb (fst s =? 0)) all) /\
    Forall (fun s => fst s = 0 -> enc_custom (snd s)) all /\
    Forall2 enc_section all bs /\
    b = [0x00; 0x61; 0x73; 0x6d; 0x01; 0x00; 0x00; 0x00] ++ concat bs.

(* [P] holds of every plain instruction in a tree *)
Inductive everywhere (P : opc -> list arg -> Prop) : inst -> Prop :=
| ev_op o args : P o args -> everywhere P (IOp o args)
| ev_block t l : Forall (everywhere P) l -> everywhere P (IBlock t l)
| ev_loop t l : Forall (everywhere P) l -> everywhere P (ILoop t l)
| ev_if t l k : Forall (everywhere P) l -> Forall (everywhere P) k -> everywhere P (IIf t l k).
(* the expressions of a module *)
Definition expressions (md : moddesc) : list expr :=
  map fd_expr (md_func md) ++ map gd_init (md_glob md) ++ map ed_offset (md_elem md) ++ concat (map ed_init (md_elem md)) ++
  map dd_offset (md_data md).
(* memory accesses of one value: bytes accessed *)
Definition access_bytes (o : opc) : option Z :=
  match wasm_load o, wasm_store o with Some (w, _, _), _ => Some w | _, Some w => Some w | _, _ => None end.
(* the alignment exponent says at most the natural alignment *)
Definition aligned (o : opc) (args : list arg) : Prop :=
  forall w, access_bytes o = Some w -> exists a off, args = [AInt a; AInt off] /\ 0 <= a /\ 2 ^ a <= w.
