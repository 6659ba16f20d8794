(* The meaning that the WebAssembly standard (2.0, chapter 4) gives to the instructions other than control flow, and the
   cases in which pywasm is known to differ. Nothing here refers to the interpreter; the operators are those of SpecNum.v,
   SpecIeee.v, SpecSimd.v, SpecVecFloat.v and SpecMem.v.
   Conventions: operand lists have their top first. A value is 16 bytes; only the low bytes that its type needs count.
   Any NaN may stand for any other where an arithmetic instruction produces one (the standard further limits the payload).
   Simplification: a limit of 0 stands for no maximum, because the loader does not keep the difference (property C22). *)
From Coq Require Import ZArith List Bool Reals.
From Flocq Require Import Core IEEE754.BinarySingleNaN IEEE754.Binary IEEE754.Bits.
From Verif Require Import Py Floatops Val Opcode Numeric Syntax Store Machine SpecInt SpecNum SpecMachine SpecMem SpecIeee SpecSimd SpecVecFloat
  SpecControl SpecType.
Import ListNotations.
Open Scope Z_scope.

(* ---- values ---- *)
Definition width (t : valtype) : Z := match t with T_i32 | T_f32 => 32 | T_i64 | T_f64 => 64 | _ => 128 end.
(* [v] is the value of type [t] whose bits are those of [z]; the rules below give [z] in the range of the type, but for the
   bits of an operand beyond its type, which reinterpretations and sign changes keep *)
Definition stands (t : valtype) (z : Z) (v : val) : Prop := v = num_val t z.
Definition wrapped (t : valtype) (z : Z) : Z := z mod 2 ^ width t.
(* the bits of [v] beyond the [N] that count *)
Definition beyond (N : Z) (v : val) : Z := 2 ^ N * (le_of (v_data v) / 2 ^ N).
(* the instructions that only change the type of a value *)
Definition reinterpret_op (o : opc) : option valtype :=
  match o with
  | O_i32_reinterpret_f32 => Some T_i32 | O_i64_reinterpret_f64 => Some T_i64
  | O_f32_reinterpret_i32 => Some T_f32 | O_f64_reinterpret_i64 => Some T_f64
  | _ => None
  end.
(* [v] is a float that satisfies [P] *)
Definition is_single (P : binary32 -> Prop) (v : val) : Prop := exists z, 0 <= z < 2 ^ 32 /\ v = num_val T_f32 z /\ P (b32_of_bits z).
Definition is_double (P : binary64 -> Prop) (v : val) : Prop := exists z, 0 <= z < 2 ^ 64 /\ v = num_val T_f64 z /\ P (b64_of_bits z).
(* [v] is a vector whose lanes of [N] bits satisfy [P] *)
Definition has_lanes (N : Z) (P : list Z -> Prop) (v : val) : Prop :=
  exists l, len l = 128 / N /\ Forall (urange N) l /\ P l /\ v = vec N l.
(* a reference is null: there is no 1 above its 32-bit address *)
Definition null (r : val) : bool := low 40 r / 2 ^ 32 =? 0.

(* ---- instructions that compute a value from their operands ([None]: they trap) ---- *)
Inductive computes : opc -> list arg -> list val -> option val -> Prop :=
(* constants *)
| c_i32_const n v : stands T_i32 (wrapped T_i32 n) v -> computes O_i32_const [AInt n] [] (Some v)
| c_i64_const n v : stands T_i64 (wrapped T_i64 n) v -> computes O_i64_const [AInt n] [] (Some v)
| c_f32_const n v : stands T_f32 (wrapped T_f32 n) v -> computes O_f32_const [AInt n] [] (Some v)
| c_f64_const n v : stands T_f64 (wrapped T_f64 n) v -> computes O_f64_const [AInt n] [] (Some v)
| c_v128_const b v : stands T_v128 (le_of b) v -> computes O_v128_const [ABytes b] [] (Some v)
(* integers *)
| c_binop o args N f va vb r v : wasm_binop o = Some (N, f) -> f (low N va) (low N vb) = Some r -> stands (int_type N) r v ->
    computes o args [vb; va] (Some v)
| c_binop_trap o args N f va vb : wasm_binop o = Some (N, f) -> f (low N va) (low N vb) = None -> computes o args [vb; va] None
| c_unop o args N f va v : wasm_unop o = Some (N, f) -> stands (int_type N) (f (low N va)) v -> computes o args [va] (Some v)
| c_relop o args N f va vb v : wasm_relop o = Some (N, f) -> stands T_i32 (truth (f (low N va) (low N vb))) v ->
    computes o args [vb; va] (Some v)
| c_testop o args N f va v : wasm_testop o = Some (N, f) -> stands T_i32 (truth (f (low N va))) v -> computes o args [va] (Some v)
| c_intcvt o args N t f va v : wasm_intcvt o = Some (N, t, f) -> reinterpret_op o = None -> stands t (f (low N va)) v ->
    computes o args [va] (Some v)
| c_reinterpret o args t va v : reinterpret_op o = Some t -> stands t (le_of (v_data va)) v -> computes o args [va] (Some v)
(* floats *)
| c_f32_binop o args f va vb v : ieee_binop32 o = Some f -> is_single (fun r => same_float r (f (single va) (single vb))) v ->
    computes o args [vb; va] (Some v)
| c_f64_binop o args f va vb v : ieee_binop64 o = Some f -> is_double (fun r => same_float r (f (double va) (double vb))) v ->
    computes o args [vb; va] (Some v)
| c_f32_sqrt args va v : is_single (fun r => same_float r (b32_sqrt mode_NE (single va))) v -> computes O_f32_sqrt args [va] (Some v)
| c_f64_sqrt args va v : is_double (fun r => same_float r (b64_sqrt mode_NE (double va))) v -> computes O_f64_sqrt args [va] (Some v)
| c_float_relop o args N f va vb v : float_relop o = Some (N, f) -> stands T_i32 (truth (f (float_compare N va vb))) v ->
    computes o args [vb; va] (Some v)
| c_f32_extremum o args up va vb v : extremum_op o = Some (32, up) -> is_single (is_extremum up (single va) (single vb)) v ->
    computes o args [vb; va] (Some v)
| c_f64_extremum o args up va vb v : extremum_op o = Some (64, up) -> is_double (is_extremum up (double va) (double vb)) v ->
    computes o args [vb; va] (Some v)
| c_f32_integral o args md va v : integral_op o = Some (32, md) -> is_single (fun r => same_float r (integral32 md (single va))) v ->
    computes o args [va] (Some v)
| c_f64_integral o args md va v : integral_op o = Some (64, md) -> is_double (fun r => same_float r (integral64 md (double va))) v ->
    computes o args [va] (Some v)
| c_f32_convert o args N sg va v : convert_op o = Some (N, sg, 32) ->
    is_single (rounds_to_single (IZR (source_int N sg va)) (source_int N sg va <? 0)) v -> computes o args [va] (Some v)
| c_f64_convert o args N sg va v : convert_op o = Some (N, sg, 64) ->
    is_double (rounds_to_double (IZR (source_int N sg va)) (source_int N sg va <? 0)) v -> computes o args [va] (Some v)
| c_demote args va v : is_single (demoted (double va)) v -> computes O_f32_demote_f64 args [va] (Some v)
| c_promote args va v : is_double (promoted (single va)) v -> computes O_f64_promote_f32 args [va] (Some v)
| c_trunc o args S N sg sat va z v : trunc_op o = Some (S, N, sg, sat) -> truncated N sg sat (float_magnitude S va) = Some z ->
    stands (int_type N) (wrapped (int_type N) z) v -> computes o args [va] (Some v)
| c_trunc_trap o args S N sg sat va : trunc_op o = Some (S, N, sg, sat) -> truncated N sg sat (float_magnitude S va) = None ->
    computes o args [va] None
| c_sign o args N f va v : sign_op o = Some (N, f) ->
    stands (float_type N) (with_sign N (f (Z.testbit (low N va) (N - 1))) (low N va) + beyond N va) v -> computes o args [va] (Some v)
| c_f32_copysign args va vb v : stands T_f32 (with_sign 32 (Z.testbit (low 32 vb) 31) (low 32 va)) v ->
    computes O_f32_copysign args [vb; va] (Some v)
| c_f64_copysign args va vb v : stands T_f64 (with_sign 64 (Z.testbit (low 64 vb) 63) (low 64 va)) v ->
    computes O_f64_copysign args [vb; va] (Some v)
(* integer vectors *)
| c_lane_unop o args N f va : lane_unop o = Some (N, f) -> computes o args [va] (Some (vec N (map f (vlanes N va))))
| c_lane_binop o args N f va vb : lane_binop o = Some (N, f) ->
    computes o args [vb; va] (Some (vec N (map2 f (vlanes N va) (vlanes N vb))))
| c_lane_shift o args N f va vb : lane_shift o = Some (N, f) ->
    computes o args [vb; va] (Some (vec N (map (fun a => f a (low 32 vb)) (vlanes N va))))
| c_lane_relop o args N f va vb : lane_relop o = Some (N, f) ->
    computes o args [vb; va] (Some (vec N (map2 (fun a b => all_ones N (f a b)) (vlanes N va) (vlanes N vb))))
| c_splat o args N va : splat_op o = Some N -> computes o args [va] (Some (vec N (repeat (low N va) (Z.to_nat (128 / N)))))
| c_extract o N t f k va v : extract_op o = Some (N, t, f) -> stands t (f (nth_lane (vlanes N va) k)) v ->
    computes o [AInt k] [va] (Some v)
| c_replace o N k va vb : replace_op o = Some N -> computes o [AInt k] [vb; va] (Some (vec N (put_lane k (low N vb) (vlanes N va))))
| c_shuffle ks va vb : computes O_i8x16_shuffle (map AInt ks) [vb; va]
    (Some (vec 8 (map (nth_lane (vlanes 8 va ++ vlanes 8 vb)) ks)))
| c_swizzle args va vb : computes O_i8x16_swizzle args [vb; va]
    (Some (vec 8 (map (fun k => if k <? 16 then nth_lane (vlanes 8 va) k else 0) (vlanes 8 vb))))
| c_extend o args M sg high va : extend_op o = Some (M, sg, high) ->
    computes o args [va] (Some (vec (2 * M) (map (fun a => unsgn (2 * M) (as_int M sg a)) (half high (vlanes M va)))))
| c_extmul o args M sg high va vb : extmul_op o = Some (M, sg, high) ->
    computes o args [vb; va] (Some (vec (2 * M) (map2 (fun a b => unsgn (2 * M) (as_int M sg a * as_int M sg b))
      (half high (vlanes M va)) (half high (vlanes M vb)))))
| c_pairwise o args M sg va : pairwise_op o = Some (M, sg) ->
    computes o args [va] (Some (vec (2 * M) (map (unsgn (2 * M)) (pair_sums (map (as_int M sg) (vlanes M va))))))
| c_dot args va vb : computes O_i32x4_dot_i16x8_s args [vb; va]
    (Some (vec 32 (map (unsgn 32) (pair_sums (map2 (fun a b => sgn 16 a * sgn 16 b) (vlanes 16 va) (vlanes 16 vb))))))
| c_narrow o args N sg va vb : narrow_op o = Some (N, sg) ->
    computes o args [vb; va] (Some (vec N (map (fun a => sat N sg (sgn (2 * N) a)) (vlanes (2 * N) va ++ vlanes (2 * N) vb))))
| c_logic o args f va vb v : logic_op o = Some f -> stands T_v128 (f (low 128 va) (low 128 vb)) v -> computes o args [vb; va] (Some v)
| c_not args va v : stands T_v128 (2 ^ 128 - 1 - low 128 va) v -> computes O_v128_not args [va] (Some v)
| c_bitselect args va vb vc v :
    stands T_v128 (Z.lor (Z.land (low 128 va) (low 128 vc)) (Z.ldiff (low 128 vb) (low 128 vc))) v ->
    computes O_v128_bitselect args [vc; vb; va] (Some v)
| c_any_true args va v : stands T_i32 (truth (negb (low 128 va =? 0))) v -> computes O_v128_any_true args [va] (Some v)
| c_all_true o args N va v : all_true_op o = Some N -> stands T_i32 (truth (forallb (fun a => negb (a =? 0)) (vlanes N va))) v ->
    computes o args [va] (Some v)
| c_bitmask o args N va v : bitmask_op o = Some N -> stands T_i32 (join 1 (map (fun a => a / 2 ^ (N - 1)) (vlanes N va))) v ->
    computes o args [va] (Some v)
(* float vectors *)
| c_f32x4_binop o args f va vb v : vec_binop32 o = Some f ->
    has_lanes 32 (each2 (fun a b r => same_float (b32_of_bits r) (f (b32_of_bits a) (b32_of_bits b))) (vlanes 32 va) (vlanes 32 vb)) v ->
    computes o args [vb; va] (Some v)
| c_f64x2_binop o args f va vb v : vec_binop64 o = Some f ->
    has_lanes 64 (each2 (fun a b r => same_float (b64_of_bits r) (f (b64_of_bits a) (b64_of_bits b))) (vlanes 64 va) (vlanes 64 vb)) v ->
    computes o args [vb; va] (Some v)
| c_f32x4_sqrt args va v :
    has_lanes 32 (each1 (fun a r => same_float (b32_of_bits r) (b32_sqrt mode_NE (b32_of_bits a))) (vlanes 32 va)) v ->
    computes O_f32x4_sqrt args [va] (Some v)
| c_f64x2_sqrt args va v :
    has_lanes 64 (each1 (fun a r => same_float (b64_of_bits r) (b64_sqrt mode_NE (b64_of_bits a))) (vlanes 64 va)) v ->
    computes O_f64x2_sqrt args [va] (Some v)
| c_vec_relop o args N f va vb : vec_relop o = Some (N, f) ->
    computes o args [vb; va] (Some (vec N (map2 (fun a b => all_ones N (f (lane_compare N a b))) (vlanes N va) (vlanes N vb))))
| c_vec_extremum o args N up va vb v : vec_extremum o = Some (N, up) ->
    has_lanes N (each2 (lane_extremum N up) (vlanes N va) (vlanes N vb)) v -> computes o args [vb; va] (Some v)
| c_vec_pick o args N c va vb v : vec_pick o = Some (N, c) ->
    has_lanes N (each2 (fun a b r => r = pick_lane N c a b) (vlanes N va) (vlanes N vb)) v -> computes o args [vb; va] (Some v)
| c_f32x4_integral o args md va v : vec_integral o = Some (32, md) ->
    has_lanes 32 (each1 (fun a r => same_float (b32_of_bits r) (integral32 md (b32_of_bits a))) (vlanes 32 va)) v ->
    computes o args [va] (Some v)
| c_f64x2_integral o args md va v : vec_integral o = Some (64, md) ->
    has_lanes 64 (each1 (fun a r => same_float (b64_of_bits r) (integral64 md (b64_of_bits a))) (vlanes 64 va)) v ->
    computes o args [va] (Some v)
| c_vec_sign o args N f va v : vec_sign o = Some (N, f) ->
    has_lanes N (each1 (fun a r => r = with_sign N (f (Z.testbit a (N - 1))) a) (vlanes N va)) v -> computes o args [va] (Some v)
| c_vec_trunc32 o args sg va : vec_trunc32 o = Some sg ->
    computes o args [va] (Some (vec 32 (map (fun a => saturated sg (magnitude_of (b32_of_bits a))) (vlanes 32 va))))
| c_vec_trunc64 o args sg va : vec_trunc64 o = Some sg ->
    computes o args [va] (Some (vec 32 (map (fun a => saturated sg (magnitude_of (b64_of_bits a))) (vlanes 64 va) ++ [0; 0])))
| c_vec_convert32 o args sg va v : vec_convert32 o = Some sg ->
    has_lanes 32 (each1 (fun a r => rounds_to_single (IZR (as_int 32 sg a)) (as_int 32 sg a <? 0) (b32_of_bits r)) (vlanes 32 va)) v ->
    computes o args [va] (Some v)
| c_vec_convert64 o args sg va v : vec_convert64 o = Some sg ->
    has_lanes 64 (each1 (fun a r => rounds_to_double (IZR (as_int 32 sg a)) (as_int 32 sg a <? 0) (b64_of_bits r))
      (half false (vlanes 32 va))) v -> computes o args [va] (Some v)
| c_vec_demote args va v :
    has_lanes 32 (fun l => exists l2, l = l2 ++ [0; 0] /\ each1 (fun a r => demoted (b64_of_bits a) (b32_of_bits r)) (vlanes 64 va) l2) v ->
    computes O_f32x4_demote_f64x2_zero args [va] (Some v)
| c_vec_promote args va v :
    has_lanes 64 (each1 (fun a r => promoted (b32_of_bits a) (b64_of_bits r)) (half false (vlanes 32 va))) v ->
    computes O_f64x2_promote_low_f32x4 args [va] (Some v)
(* references and choices *)
| c_ref_null t : computes O_ref_null [AInt (vt_code t)] [] (Some (null_ref t))
| c_ref_is_null args r v : stands T_i32 (truth (null r)) v -> computes O_ref_is_null args [r] (Some v)
| c_select args vc vb va : computes O_select args [vc; vb; va] (Some (if low 32 vc =? 0 then vb else va))
| c_select_type args vc vb va : computes O_select_type args [vc; vb; va] (Some (if low 32 vc =? 0 then vb else va)).

(* ---- what a module instance refers to ---- *)
Definition memory_of (s : store) (mr : modref) (a : nat) (x : meminst) : Prop :=
  nth_error (m_mems (mod_of s mr)) 0 = Some (Z.of_nat a) /\ nth_error (s_mems s) a = Some x.
Definition table_of (s : store) (mr : modref) (j a : nat) (x : tableinst) : Prop :=
  nth_error (m_tabl (mod_of s mr)) j = Some (Z.of_nat a) /\ nth_error (s_tabl s) a = Some x.
Definition global_of (s : store) (mr : modref) (j a : nat) (x : globalinst) : Prop :=
  nth_error (m_glob (mod_of s mr)) j = Some (Z.of_nat a) /\ nth_error (s_glob s) a = Some x.
Definition elem_of (s : store) (mr : modref) (j a : nat) (x : eleminst) : Prop :=
  nth_error (m_elem (mod_of s mr)) j = Some (Z.of_nat a) /\ nth_error (s_elem s) a = Some x.
(* the bytes of data instance [a], which it may share with others *)
Definition segment (s : store) (a : nat) (d : list Z) : Prop :=
  exists b, nth_error (s_data s) a = Some b /\ nth b (s_blob s) [] = d.
Definition data_of (s : store) (mr : modref) (j a : nat) (d : list Z) : Prop :=
  nth_error (m_data (mod_of s mr)) j = Some (Z.of_nat a) /\ segment s a d.
Definition idx (i : nat) : arg := AInt (Z.of_nat i).

(* ---- all instructions but control flow ---- *)
Inductive does (mr : modref) : opc -> list arg -> store -> list val -> list val -> store -> list val -> option (list val) -> Prop :=
| d_computes o args s L ops V v : computes o args ops (Some v) -> does mr o args s L (ops ++ V) s L (Some (v :: V))
| d_computes_trap o args s L ops V : computes o args ops None -> does mr o args s L (ops ++ V) s L None
| d_unreachable args s L V : does mr O_unreachable args s L V s L None
| d_nop args s L V : does mr O_nop args s L V s L (Some V)
| d_drop args s L v V : does mr O_drop args s L (v :: V) s L (Some V)
(* variables *)
| d_local_get i s L V v : nth_error L i = Some v -> does mr O_local_get [idx i] s L V s L (Some (v :: V))
| d_local_set i s L V v L' : (i < length L)%nat -> overwritten L L' (Z.of_nat i) [v] ->
    does mr O_local_set [idx i] s L (v :: V) s L' (Some V)
| d_local_tee i s L V v L' : (i < length L)%nat -> overwritten L L' (Z.of_nat i) [v] ->
    does mr O_local_tee [idx i] s L (v :: V) s L' (Some (v :: V))
| d_global_get i s L V a g : global_of s mr i a g -> does mr O_global_get [idx i] s L V s L (Some (gi_data g :: V))
| d_global_set i s L V v a g : global_of s mr i a g ->
    does mr O_global_set [idx i] s L (v :: V) (with_global s a (mkglob v (gi_mut g))) L (Some V)
(* memory: the effective address is the operand plus the offset, without wrapping around *)
| d_load o al off s L V i a x n t f v : wasm_load o = Some (n, t, f) -> memory_of s mr a x ->
    low 32 i + off + n <= len (mi_data x) -> stands t (f (le_of (range_of (mi_data x) (low 32 i + off) n))) v ->
    does mr o [AInt al; AInt off] s L (i :: V) s L (Some (v :: V))
| d_load_trap o al off s L V i a x n t f : wasm_load o = Some (n, t, f) -> memory_of s mr a x ->
    len (mi_data x) < low 32 i + off + n -> does mr o [AInt al; AInt off] s L (i :: V) s L None
| d_load_lane o al off k s L V w i a x n v : wasm_load_lane o = Some n -> memory_of s mr a x ->
    low 32 i + off + n <= len (mi_data x) ->
    stands T_v128 (set_lane n (low 128 w) k (le_of (range_of (mi_data x) (low 32 i + off) n))) v ->
    does mr o [AInt al; AInt off; AInt k] s L (w :: i :: V) s L (Some (v :: V))
| d_load_lane_trap o al off k s L V w i a x n : wasm_load_lane o = Some n -> memory_of s mr a x ->
    len (mi_data x) < low 32 i + off + n -> does mr o [AInt al; AInt off; AInt k] s L (w :: i :: V) s L None
| d_store o al off s L V v i a x n d' : wasm_store o = Some n -> memory_of s mr a x ->
    low 32 i + off + n <= len (mi_data x) ->
    overwritten (mi_data x) d' (low 32 i + off) (to_le (Z.to_nat n) (low (8 * n) v)) ->
    does mr o [AInt al; AInt off] s L (v :: i :: V) (with_mem s a (mkmem (mi_type x) d' (mi_size x))) L (Some V)
| d_store_trap o al off s L V v i a x n : wasm_store o = Some n -> memory_of s mr a x ->
    len (mi_data x) < low 32 i + off + n -> does mr o [AInt al; AInt off] s L (v :: i :: V) s L None
| d_store_lane o al off k s L V v i a x n d' : wasm_store_lane o = Some n -> memory_of s mr a x ->
    low 32 i + off + n <= len (mi_data x) ->
    overwritten (mi_data x) d' (low 32 i + off) (to_le (Z.to_nat n) (lane (8 * n) (low 128 v) k)) ->
    does mr o [AInt al; AInt off; AInt k] s L (v :: i :: V) (with_mem s a (mkmem (mi_type x) d' (mi_size x))) L (Some V)
| d_store_lane_trap o al off k s L V v i a x n : wasm_store_lane o = Some n -> memory_of s mr a x ->
    len (mi_data x) < low 32 i + off + n -> does mr o [AInt al; AInt off; AInt k] s L (v :: i :: V) s L None
| d_memory_size args s L V a x v : memory_of s mr a x -> stands T_i32 (len (mi_data x) / 65536) v ->
    does mr O_memory_size args s L V s L (Some (v :: V))
| d_memory_grow args s L V n a x v : memory_of s mr a x -> mi_size x + low 32 n <= 65536 ->
    (l_m (mi_type x) <> 0 -> mi_size x + low 32 n <= l_m (mi_type x)) -> stands T_i32 (len (mi_data x) / 65536) v ->
    does mr O_memory_grow args s L (n :: V)
      (with_mem s a (mkmem (mi_type x) (mi_data x ++ repeat 0 (Z.to_nat (65536 * low 32 n))) (mi_size x + low 32 n))) L (Some (v :: V))
| d_memory_grow_fails args s L V n v : stands T_i32 (2 ^ 32 - 1) v -> does mr O_memory_grow args s L (n :: V) s L (Some (v :: V))
| d_memory_fill args s L V n b i a x d' : memory_of s mr a x -> low 32 i + low 32 n <= len (mi_data x) ->
    overwritten (mi_data x) d' (low 32 i) (repeat (low 8 b) (Z.to_nat (low 32 n))) ->
    does mr O_memory_fill args s L (n :: b :: i :: V) (with_mem s a (mkmem (mi_type x) d' (mi_size x))) L (Some V)
| d_memory_fill_trap args s L V n b i a x : memory_of s mr a x -> len (mi_data x) < low 32 i + low 32 n ->
    does mr O_memory_fill args s L (n :: b :: i :: V) s L None
| d_memory_copy args s L V n j i a x d' : memory_of s mr a x -> low 32 j + low 32 n <= len (mi_data x) ->
    low 32 i + low 32 n <= len (mi_data x) -> overwritten (mi_data x) d' (low 32 i) (range_of (mi_data x) (low 32 j) (low 32 n)) ->
    does mr O_memory_copy args s L (n :: j :: i :: V) (with_mem s a (mkmem (mi_type x) d' (mi_size x))) L (Some V)
| d_memory_copy_trap args s L V n j i a x : memory_of s mr a x ->
    len (mi_data x) < low 32 j + low 32 n \/ len (mi_data x) < low 32 i + low 32 n ->
    does mr O_memory_copy args s L (n :: j :: i :: V) s L None
| d_memory_init k more s L V n j i a x e d d' : memory_of s mr a x -> data_of s mr k e d -> low 32 j + low 32 n <= len d ->
    low 32 i + low 32 n <= len (mi_data x) -> overwritten (mi_data x) d' (low 32 i) (range_of d (low 32 j) (low 32 n)) ->
    does mr O_memory_init (idx k :: more) s L (n :: j :: i :: V) (with_mem s a (mkmem (mi_type x) d' (mi_size x))) L (Some V)
| d_memory_init_trap k more s L V n j i a x e d : memory_of s mr a x -> data_of s mr k e d ->
    len d < low 32 j + low 32 n \/ len (mi_data x) < low 32 i + low 32 n ->
    does mr O_memory_init (idx k :: more) s L (n :: j :: i :: V) s L None
(* a dropped segment is empty; every other segment keeps its bytes *)
| d_data_drop k s L V a d D : data_of s mr k a d -> segment (set_s_blob s D) a [] ->
    (forall a' d', a' <> a -> segment s a' d' -> segment (set_s_blob s D) a' d') ->
    does mr O_data_drop [idx k] s L V (set_s_blob s D) L (Some V)
(* tables *)
| d_table_get j s L V i a x r : table_of s mr j a x -> nth_error (ti_elem x) (Z.to_nat (low 32 i)) = Some r ->
    does mr O_table_get [idx j] s L (i :: V) s L (Some (r :: V))
| d_table_get_trap j s L V i a x : table_of s mr j a x -> len (ti_elem x) <= low 32 i ->
    does mr O_table_get [idx j] s L (i :: V) s L None
| d_table_set j s L V r i a x l' : table_of s mr j a x -> low 32 i < len (ti_elem x) -> overwritten (ti_elem x) l' (low 32 i) [r] ->
    does mr O_table_set [idx j] s L (r :: i :: V) (with_table s a (mktab (ti_type x) l' (ti_size x))) L (Some V)
| d_table_set_trap j s L V r i a x : table_of s mr j a x -> len (ti_elem x) <= low 32 i ->
    does mr O_table_set [idx j] s L (r :: i :: V) s L None
| d_table_size j s L V a x v : table_of s mr j a x -> stands T_i32 (len (ti_elem x)) v ->
    does mr O_table_size [idx j] s L V s L (Some (v :: V))
| d_table_grow j s L V n r a x v : table_of s mr j a x -> ti_size x + low 32 n < 2 ^ 32 ->
    (l_m (tt_limits (ti_type x)) <> 0 -> ti_size x + low 32 n <= l_m (tt_limits (ti_type x))) -> stands T_i32 (len (ti_elem x)) v ->
    does mr O_table_grow [idx j] s L (n :: r :: V)
      (with_table s a (mktab (ti_type x) (ti_elem x ++ repeat r (Z.to_nat (low 32 n))) (ti_size x + low 32 n))) L (Some (v :: V))
| d_table_grow_fails j s L V n r v : stands T_i32 (2 ^ 32 - 1) v -> does mr O_table_grow [idx j] s L (n :: r :: V) s L (Some (v :: V))
| d_table_fill j s L V n r i a x l' : table_of s mr j a x -> low 32 i + low 32 n <= len (ti_elem x) ->
    overwritten (ti_elem x) l' (low 32 i) (repeat r (Z.to_nat (low 32 n))) ->
    does mr O_table_fill [idx j] s L (n :: r :: i :: V) (with_table s a (mktab (ti_type x) l' (ti_size x))) L (Some V)
| d_table_fill_trap j s L V n r i a x : table_of s mr j a x -> len (ti_elem x) < low 32 i + low 32 n ->
    does mr O_table_fill [idx j] s L (n :: r :: i :: V) s L None
| d_table_copy j k s L V n m i a x b y l' : table_of s mr j a x -> table_of s mr k b y -> low 32 m + low 32 n <= len (ti_elem y) ->
    low 32 i + low 32 n <= len (ti_elem x) -> overwritten (ti_elem x) l' (low 32 i) (range_of (ti_elem y) (low 32 m) (low 32 n)) ->
    does mr O_table_copy [idx j; idx k] s L (n :: m :: i :: V) (with_table s a (mktab (ti_type x) l' (ti_size x))) L (Some V)
| d_table_copy_trap j k s L V n m i a x b y : table_of s mr j a x -> table_of s mr k b y ->
    len (ti_elem y) < low 32 m + low 32 n \/ len (ti_elem x) < low 32 i + low 32 n ->
    does mr O_table_copy [idx j; idx k] s L (n :: m :: i :: V) s L None
| d_table_init k j s L V n m i a x b e l' : table_of s mr j a x -> elem_of s mr k b e -> low 32 m + low 32 n <= len (li_data e) ->
    low 32 i + low 32 n <= len (ti_elem x) -> overwritten (ti_elem x) l' (low 32 i) (range_of (li_data e) (low 32 m) (low 32 n)) ->
    does mr O_table_init [idx k; idx j] s L (n :: m :: i :: V) (with_table s a (mktab (ti_type x) l' (ti_size x))) L (Some V)
| d_table_init_trap k j s L V n m i a x b e : table_of s mr j a x -> elem_of s mr k b e ->
    len (li_data e) < low 32 m + low 32 n \/ len (ti_elem x) < low 32 i + low 32 n ->
    does mr O_table_init [idx k; idx j] s L (n :: m :: i :: V) s L None
| d_elem_drop k s L V a e E : elem_of s mr k a e -> nth_error E a = Some (mkelem (li_type e) []) ->
    (forall b, b <> a -> nth_error E b = nth_error (s_elem s) b) -> does mr O_elem_drop [idx k] s L V (set_s_elem s E) L (Some V)
(* references *)
| d_ref_func i s L V a : nth_error (m_func (mod_of s mr)) i = Some (Z.of_nat a) ->
    does mr O_ref_func [idx i] s L V s L (Some (ref_to T_func a :: V)).

(* ---- the cases in which pywasm differs: instruction, immediates, store, operands ---- *)
Definition opposite (N : Z) (va vb : val) : Prop :=
  if N =? 32 then opposite_zeros (single va) (single vb) = true else opposite_zeros (double va) (double vb) = true.
Definition negative_zero (N : Z) (md : mode) (a : Z) : Prop :=
  if N =? 32 then integral32 md (b32_of_bits a) = B754_zero 24 128 true
  else integral64 md (b64_of_bits a) = B754_zero 53 1024 true.
Inductive amiss (mr : modref) (s : store) : opc -> list arg -> list val -> Prop :=
(* C15: the quotient needs the top bit *)
| am_div_u args va vb V : low 64 vb <> 0 -> 2 ^ 63 <= low 64 va / low 64 vb -> amiss mr s O_i64_div_u args (vb :: va :: V)
(* C49: the integer is not representable as a double, and may be rounded twice *)
| am_convert o args sg va V : convert_op o = Some (64, sg, 32) ->
    ~ (exists k j, source_int 64 sg va = k * 2 ^ j /\ 0 <= j /\ Z.abs k < 2 ^ 53) -> amiss mr s o args (va :: V)
(* C50, C82: the minimum or maximum of a positive and a negative zero *)
| am_extremum o args N up va vb V : extremum_op o = Some (N, up) -> opposite N va vb -> amiss mr s o args (vb :: va :: V)
| am_vec_extremum o args N up va vb V k : vec_extremum o = Some (N, up) ->
    lane_opposite N (nth k (vlanes N va) 0) (nth k (vlanes N vb) 0) = true -> amiss mr s o args (vb :: va :: V)
(* C51, C83: a result that should be the negative zero *)
| am_integral o args N md va V : integral_op o = Some (N, md) -> negative_zero N md (low N va) -> amiss mr s o args (va :: V)
| am_vec_integral o args N md va V k : vec_integral o = Some (N, md) -> negative_zero N md (nth k (vlanes N va) 0) ->
    amiss mr s o args (va :: V)
(* C79, C82, C84: single NaNs do not keep their bits *)
| am_copysign args va vb V : is_nan 24 128 (single va) = true -> amiss mr s O_f32_copysign args (vb :: va :: V)
| am_vec_pick o args c va vb V k : vec_pick o = Some (32, c) ->
    lane_nan 32 (pick_lane 32 c (nth k (vlanes 32 va) 0) (nth k (vlanes 32 vb) 0)) = true -> amiss mr s o args (vb :: va :: V)
| am_vec_sign o args f va V k : vec_sign o = Some (32, f) -> lane_nan 32 (nth k (vlanes 32 va) 0) = true ->
    amiss mr s o args (va :: V)
(* C25: another data instance shares the bytes *)
| am_data_drop k V a a' b : nth_error (m_data (mod_of s mr)) k = Some (Z.of_nat a) -> a' <> a ->
    nth_error (s_data s) a = Some b -> nth_error (s_data s) a' = Some b -> nth b (s_blob s) [] <> [] ->
    amiss mr s O_data_drop [idx k] V.
(* the machine is about to run such an instruction *)
Definition deviates (m : machine) : Prop := exists o args fr,
  about_to_run m (IOp o args) fr /\ amiss (fr_module fr) (k_store m) o args (k_value m).
(* a run that comes to such a state *)
Definition meets_deviation (F : fops) (host : hostcode) (m : machine) : Prop := exists m1, gets_to F host m m1 /\ deviates m1.
