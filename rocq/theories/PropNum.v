(* Integer instructions. Specification: SpecNum.v (the operators) and SpecMachine.v (where things are on the stacks). *)
From Coq Require Import ZArith List Bool Lia.
From Verif Require Import Py Arith Floatops Val Opcode Numeric Syntax Store Basic Machine SpecInt SpecNum SpecMachine NumFacts.
Import ListNotations.
Open Scope Z_scope.

(* C14: one step on an integer instruction replaces the operands by the result the specification assigns, or raises
   exactly where the specification traps; the store, the frames and the rest of the operands stay the same and the
   instruction pointer moves on. *)
Theorem C14_binary_instructions : forall F host m o args fr N f va vb V,
  about_to_run m (IOp o args) fr -> wasm_binop o = Some (N, f) -> o <> O_i64_div_u ->
  k_value m = vb :: va :: V -> val_wf va -> val_wf vb ->
  match f (low N va) (low N vb) with
  | Some r => step F host m = (Ok tt, moved_on m (num_val (int_type N) r :: V))
  | None => exists e, step F host m = (Err e, moved_on m V)
  end.
Proof. exact binop_step. Qed.
Print Assumptions C14_binary_instructions.

Theorem C14_unary_instructions : forall F host m o args fr N f va V,
  about_to_run m (IOp o args) fr -> wasm_unop o = Some (N, f) -> k_value m = va :: V -> val_wf va ->
  step F host m = (Ok tt, moved_on m (num_val (int_type N) (f (low N va)) :: V)).
Proof. exact unop_step. Qed.
Print Assumptions C14_unary_instructions.

Theorem C14_comparisons : forall F host m o args fr N f va vb V,
  about_to_run m (IOp o args) fr -> wasm_relop o = Some (N, f) ->
  k_value m = vb :: va :: V -> val_wf va -> val_wf vb ->
  step F host m = (Ok tt, moved_on m (num_val T_i32 (truth (f (low N va) (low N vb))) :: V)).
Proof. exact relop_step. Qed.
Print Assumptions C14_comparisons.

Theorem C14_tests : forall F host m o args fr N f va V,
  about_to_run m (IOp o args) fr -> wasm_testop o = Some (N, f) -> k_value m = va :: V -> val_wf va ->
  step F host m = (Ok tt, moved_on m (num_val T_i32 (truth (f (low N va))) :: V)).
Proof. exact testop_step. Qed.
Print Assumptions C14_tests.

(* a machine that is about to run one instruction on two operands; used by the examples *)
Definition one_inst (i : inst) (V : list val) : machine :=
  mkmach store_empty V [mklabel 0 0 0 KBlock [i] 0] [mkframe (MVal modinst_empty) [] 0 0 0].
Lemma one_inst_runs i V : about_to_run (one_inst i V) i (mkframe (MVal modinst_empty) [] 0 0 0).
Proof. split; [exists (mklabel 0 0 0 KBlock [i] 0), []; split; reflexivity|exists []; reflexivity]. Qed.

(* -7 / 2 = -3, and INT_MIN / -1 traps *)
Example C14_div_example F host :
  step F host (one_inst (IOp O_i32_div_s []) [num_val T_i32 2; num_val T_i32 (2 ^ 32 - 7)]) =
    (Ok tt, moved_on (one_inst (IOp O_i32_div_s []) []) [num_val T_i32 (2 ^ 32 - 3)]) /\
  wasm_binop O_i32_div_s = Some (32, idiv_s 32) /\ idiv_s 32 (2 ^ 32 - 7) 2 = Some (2 ^ 32 - 3) /\
  idiv_s 32 (2 ^ 31) (2 ^ 32 - 1) = None /\
  about_to_run (one_inst (IOp O_i32_div_s []) [num_val T_i32 2; num_val T_i32 (2 ^ 32 - 7)]) (IOp O_i32_div_s [])
    (mkframe (MVal modinst_empty) [] 0 0 0).
Proof. repeat split; try (vm_compute; reflexivity); apply one_inst_runs. Qed.
Example C14_clz_example F host :
  step F host (one_inst (IOp O_i64_clz []) [num_val T_i64 0x0f00]) =
    (Ok tt, moved_on (one_inst (IOp O_i64_clz []) []) [num_val T_i64 52]).
Proof. vm_compute. reflexivity. Qed.

(* C15 is false: 2^63 / 1 raises OverflowError, though the quotient is 2^63. *)
Theorem C15_i64_div_u_refuted : exists va vb,
  val_wf va /\ val_wf vb /\ low 64 vb <> 0 /\
  forall F host m args fr V,
    about_to_run m (IOp O_i64_div_u args) fr -> k_value m = vb :: va :: V ->
    step F host m = (Err EOverflow, moved_on m V).
Proof. exact div_u64_fails. Qed.
Print Assumptions C15_i64_div_u_refuted.

(* What holds: the instruction is right exactly when the divisor is not zero and the quotient is below 2^63. Missing for
   the full statement: quotients from 2^63 on, where the code raises OverflowError. *)
Theorem C15_i64_div_u_partial : forall F host m args fr va vb V,
  about_to_run m (IOp O_i64_div_u args) fr -> k_value m = vb :: va :: V -> val_wf va -> val_wf vb ->
  step F host m =
    if low 64 vb =? 0 then (Err EZeroDiv, moved_on m V)
    else if low 64 va / low 64 vb <? 2 ^ 63
      then (Ok tt, moved_on m (num_val T_i64 (low 64 va / low 64 vb) :: V))
      else (Err EOverflow, moved_on m V).
Proof. exact div_u64_step. Qed.
Print Assumptions C15_i64_div_u_partial.
Example C15_example F host :
  step F host (one_inst (IOp O_i64_div_u []) [num_val T_i64 3; num_val T_i64 (2 ^ 64 - 1)]) =
    (Ok tt, moved_on (one_inst (IOp O_i64_div_u []) []) [num_val T_i64 ((2 ^ 64 - 1) / 3)]).
Proof. vm_compute. reflexivity. Qed.

(* C16: conversions between the integer widths and reinterpretations, for operands of the source type (whose bytes
   beyond the operand's width are zero, as every instruction leaves them). *)
Theorem C16_integer_conversions : forall F host m o args fr N t f va V,
  about_to_run m (IOp o args) fr -> wasm_intcvt o = Some (N, t, f) -> k_value m = va :: V -> val_wf va ->
  le_of (v_data va) < 2 ^ N ->
  step F host m = (Ok tt, moved_on m (num_val t (f (low N va)) :: V)).
Proof. exact intcvt_step. Qed.
Print Assumptions C16_integer_conversions.
Example C16_example F host :
  step F host (one_inst (IOp O_i64_extend_i32_s []) [num_val T_i32 (2 ^ 32 - 5)]) =
    (Ok tt, moved_on (one_inst (IOp O_i64_extend_i32_s []) []) [num_val T_i64 (2 ^ 64 - 5)]) /\
  le_of (v_data (num_val T_i32 (2 ^ 32 - 5))) < 2 ^ 32.
Proof. vm_compute. split; reflexivity. Qed.
