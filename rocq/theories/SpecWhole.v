(* How Python values stand for WebAssembly values in calls of exported functions. *)
From Coq Require Import ZArith List Bool.
From Flocq Require Import IEEE754.Bits.
From Verif Require Import Py Val Opcode Numeric SpecNum SpecMachine SpecIeee SpecVecFloat SpecValid SpecStandard.
Import ListNotations.
Open Scope Z_scope.

(* The value passed for argument [p] of a parameter of type [t]: whole numbers are signed, a Python float (its 64 bits) is
   rounded for f32, a reference is the number of what it refers to. *)
Definition argument (t : valtype) (p : pyval) (v : val) : Prop :=
  match t, p with
  | T_i32, PInt z => v = num_val T_i32 (z mod 2 ^ 32)
  | T_i64, PInt z => v = num_val T_i64 (z mod 2 ^ 64)
  | T_f32, PFloat x => is_single (demoted (b64_of_bits x)) v
  | T_f64, PFloat x => v = num_val T_f64 x
  | T_v128, PBytes b => v = num_val T_v128 (le_of b)
  | T_func, PInt z => v = num_val T_func (z mod 2 ^ 32 + 2 ^ 32)
  | T_extern, PInt z => v = num_val T_extern (z mod 2 ^ 32 + 2 ^ 32)
  | _, _ => False
  end.
Fixpoint arguments (ts : list valtype) (ps : list pyval) (vs : list val) : Prop :=
  match ts, ps, vs with
  | [], [], [] => True
  | t :: ts, p :: ps, v :: vs => argument t p v /\ arguments ts ps vs
  | _, _, _ => False
  end.
(* the Python value returned for a result [v], which is not a null reference *)
Definition answer (v : val) (p : pyval) : Prop :=
  ~ is_null v /\
  match v_type v, p with
  | T_i32, PInt z | T_func, PInt z | T_extern, PInt z => - 2 ^ 31 <= z < 2 ^ 31 /\ low 32 v = z mod 2 ^ 32
  | T_i64, PInt z => - 2 ^ 63 <= z < 2 ^ 63 /\ low 64 v = z mod 2 ^ 64
  | T_f32, PFloat x => 0 <= x < 2 ^ 64 /\ promoted (single v) (b64_of_bits x)
  | T_f64, PFloat x => x = low 64 v
  | T_v128, PBytes b => length b = 16%nat /\ bytes b /\ le_of b = low 128 v
  | _, _ => False
  end.
(* what the caller may pass: values of the right kinds, floats being 64 bits *)
Definition double_ok (p : pyval) : Prop := match p with PFloat x => 0 <= x < 2 ^ 64 | _ => True end.
