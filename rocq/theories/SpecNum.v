(* The integer operators of the WebAssembly core specification (section 4.3.2), on N-bit integers represented by their
   unsigned value 0 <= i < 2^N. [None] is a trap. Nothing here refers to the model of the interpreter. *)
From Coq Require Import ZArith List Bool.
From Verif Require Import Opcode Val.
Import ListNotations.
Open Scope Z_scope.

(* the signed interpretation of an N-bit integer, and back *)
Definition sgn (N i : Z) : Z := if i <? 2 ^ (N - 1) then i else i - 2 ^ N.
Definition unsgn (N j : Z) : Z := j mod 2 ^ N.

Definition iadd (N a b : Z) : Z := (a + b) mod 2 ^ N.
Definition isub (N a b : Z) : Z := (a - b + 2 ^ N) mod 2 ^ N.
Definition imul (N a b : Z) : Z := (a * b) mod 2 ^ N.
Definition idiv_u (N a b : Z) : option Z := if b =? 0 then None else Some (a / b).
Definition irem_u (N a b : Z) : option Z := if b =? 0 then None else Some (a - b * (a / b)).
(* Z.quot truncates towards zero *)
Definition idiv_s (N a b : Z) : option Z :=
  if sgn N b =? 0 then None
  else if Z.quot (sgn N a) (sgn N b) =? 2 ^ (N - 1) then None
  else Some (unsgn N (Z.quot (sgn N a) (sgn N b))).
Definition irem_s (N a b : Z) : option Z :=
  if sgn N b =? 0 then None else Some (unsgn N (sgn N a - sgn N b * Z.quot (sgn N a) (sgn N b))).
Definition iand (N a b : Z) : Z := Z.land a b.
Definition ior (N a b : Z) : Z := Z.lor a b.
Definition ixor (N a b : Z) : Z := Z.lxor a b.
Definition ishl (N a b : Z) : Z := (a * 2 ^ (b mod N)) mod 2 ^ N.
Definition ishr_u (N a b : Z) : Z := a / 2 ^ (b mod N).
Definition ishr_s (N a b : Z) : Z := unsgn N (sgn N a / 2 ^ (b mod N)).
(* the bits that leave at one end come back at the other *)
Definition irotl (N a b : Z) : Z := (a * 2 ^ (b mod N)) mod 2 ^ N + a / 2 ^ (N - b mod N).
Definition irotr (N a b : Z) : Z := a / 2 ^ (b mod N) + (a mod 2 ^ (b mod N)) * 2 ^ (N - b mod N).

(* the bits of an N-bit integer, lowest first *)
Definition ibits (N a : Z) : list bool := map (fun k => Z.testbit a (Z.of_nat k)) (seq 0 (Z.to_nat N)).
Fixpoint zero_run (l : list bool) : Z :=
  match l with false :: l' => 1 + zero_run l' | _ => 0 end.
Definition ictz (N a : Z) : Z := zero_run (ibits N a).
Definition iclz (N a : Z) : Z := zero_run (rev (ibits N a)).
Definition ipopcnt (N a : Z) : Z := Z.of_nat (length (filter (fun b => b) (ibits N a))).

Definition iextend_s (M N a : Z) : Z := unsgn N (sgn M (a mod 2 ^ M)).

Definition truth (b : bool) : Z := if b then 1 else 0.

(* The operand width and the operator of every integer instruction *)
Definition wasm_binop (o : opc) : option (Z * (Z -> Z -> option Z)) :=
  let tot (f : Z -> Z -> Z -> Z) (N : Z) := Some (N, fun a b => Some (f N a b)) in
  match o with
  | O_i32_add => tot iadd 32 | O_i64_add => tot iadd 64
  | O_i32_sub => tot isub 32 | O_i64_sub => tot isub 64
  | O_i32_mul => tot imul 32 | O_i64_mul => tot imul 64
  | O_i32_div_s => Some (32, idiv_s 32) | O_i64_div_s => Some (64, idiv_s 64)
  | O_i32_div_u => Some (32, idiv_u 32) | O_i64_div_u => Some (64, idiv_u 64)
  | O_i32_rem_s => Some (32, irem_s 32) | O_i64_rem_s => Some (64, irem_s 64)
  | O_i32_rem_u => Some (32, irem_u 32) | O_i64_rem_u => Some (64, irem_u 64)
  | O_i32_and => tot iand 32 | O_i64_and => tot iand 64
  | O_i32_or => tot ior 32 | O_i64_or => tot ior 64
  | O_i32_xor => tot ixor 32 | O_i64_xor => tot ixor 64
  | O_i32_shl => tot ishl 32 | O_i64_shl => tot ishl 64
  | O_i32_shr_s => tot ishr_s 32 | O_i64_shr_s => tot ishr_s 64
  | O_i32_shr_u => tot ishr_u 32 | O_i64_shr_u => tot ishr_u 64
  | O_i32_rotl => tot irotl 32 | O_i64_rotl => tot irotl 64
  | O_i32_rotr => tot irotr 32 | O_i64_rotr => tot irotr 64
  | _ => None
  end.

Definition wasm_unop (o : opc) : option (Z * (Z -> Z)) :=
  match o with
  | O_i32_clz => Some (32, iclz 32) | O_i64_clz => Some (64, iclz 64)
  | O_i32_ctz => Some (32, ictz 32) | O_i64_ctz => Some (64, ictz 64)
  | O_i32_popcnt => Some (32, ipopcnt 32) | O_i64_popcnt => Some (64, ipopcnt 64)
  | O_i32_extend8_s => Some (32, iextend_s 8 32) | O_i32_extend16_s => Some (32, iextend_s 16 32)
  | O_i64_extend8_s => Some (64, iextend_s 8 64) | O_i64_extend16_s => Some (64, iextend_s 16 64)
  | O_i64_extend32_s => Some (64, iextend_s 32 64)
  | _ => None
  end.

(* tests and comparisons push an i32 that is 0 or 1 *)
Definition wasm_relop (o : opc) : option (Z * (Z -> Z -> bool)) :=
  match o with
  | O_i32_eq => Some (32, Z.eqb) | O_i64_eq => Some (64, Z.eqb)
  | O_i32_ne => Some (32, fun a b => negb (a =? b)) | O_i64_ne => Some (64, fun a b => negb (a =? b))
  | O_i32_lt_u => Some (32, Z.ltb) | O_i64_lt_u => Some (64, Z.ltb)
  | O_i32_gt_u => Some (32, fun a b => b <? a) | O_i64_gt_u => Some (64, fun a b => b <? a)
  | O_i32_le_u => Some (32, Z.leb) | O_i64_le_u => Some (64, Z.leb)
  | O_i32_ge_u => Some (32, fun a b => b <=? a) | O_i64_ge_u => Some (64, fun a b => b <=? a)
  | O_i32_lt_s => Some (32, fun a b => sgn 32 a <? sgn 32 b) | O_i64_lt_s => Some (64, fun a b => sgn 64 a <? sgn 64 b)
  | O_i32_gt_s => Some (32, fun a b => sgn 32 b <? sgn 32 a) | O_i64_gt_s => Some (64, fun a b => sgn 64 b <? sgn 64 a)
  | O_i32_le_s => Some (32, fun a b => sgn 32 a <=? sgn 32 b) | O_i64_le_s => Some (64, fun a b => sgn 64 a <=? sgn 64 b)
  | O_i32_ge_s => Some (32, fun a b => sgn 32 b <=? sgn 32 a) | O_i64_ge_s => Some (64, fun a b => sgn 64 b <=? sgn 64 a)
  | _ => None
  end.
Definition wasm_testop (o : opc) : option (Z * (Z -> bool)) :=
  match o with
  | O_i32_eqz => Some (32, fun a => a =? 0) | O_i64_eqz => Some (64, fun a => a =? 0)
  | _ => None
  end.

(* conversions between the two integer widths, and reinterpretation of bit patterns:
   operand width, result type, result bits *)
Definition wasm_intcvt (o : opc) : option (Z * valtype * (Z -> Z)) :=
  match o with
  | O_i32_wrap_i64 => Some (64, T_i32, fun a => a mod 2 ^ 32)
  | O_i64_extend_i32_u => Some (32, T_i64, fun a => a)
  | O_i64_extend_i32_s => Some (32, T_i64, fun a => unsgn 64 (sgn 32 a))
  | O_i32_reinterpret_f32 => Some (32, T_i32, fun a => a)
  | O_i64_reinterpret_f64 => Some (64, T_i64, fun a => a)
  | O_f32_reinterpret_i32 => Some (32, T_f32, fun a => a)
  | O_f64_reinterpret_i64 => Some (64, T_f64, fun a => a)
  | _ => None
  end.

(* the integer type of a width *)
Definition int_type (N : Z) : valtype := if N =? 32 then T_i32 else T_i64.
