(* The instructions for which the standard allows more than one result, and runs without such choices. *)
From Coq Require Import ZArith List Bool.
From Flocq Require Import Core IEEE754.BinarySingleNaN IEEE754.Binary IEEE754.Bits.
From Verif Require Import Py Floatops Val Opcode Numeric Syntax Store Machine SpecMachine SpecMem SpecIeee SpecSimd SpecVecFloat
  SpecControl SpecType SpecStandard SpecCode.
Import ListNotations.
Open Scope Z_scope.

Definition given {A} (x : option A) : bool := match x with Some _ => true | None => false end.
(* the arithmetic on floats of [N] bits, or on vectors of them: where it produces a NaN, any NaN will do *)
Definition arithmetic (o : opc) : option Z :=
  match o with
  | O_f32_sqrt | O_f32_demote_f64 | O_f32x4_sqrt | O_f32x4_demote_f64x2_zero => Some 32
  | O_f64_sqrt | O_f64_promote_f32 | O_f64x2_sqrt | O_f64x2_promote_low_f32x4 => Some 64
  | _ =>
    if given (ieee_binop32 o) || given (vec_binop32 o) then Some 32 else
    if given (ieee_binop64 o) || given (vec_binop64 o) then Some 64 else
    match extremum_op o, integral_op o, vec_extremum o, vec_integral o with
    | Some (N, _), _, _, _ | None, Some (N, _), _, _ | None, None, Some (N, _), _ | None, None, None, Some (N, _) => Some N
    | None, None, None, None => None
    end
  end.
(* some lane of [v] is a NaN (the bits beyond a single or a double are zero) *)
Definition nan_in (N : Z) (v : val) : bool := existsb (lane_nan N) (vlanes N v).
(* growing may always fail; SpecStandard.v leaves the bytes of other segments' shares open when one is dropped *)
Definition free (o : opc) : bool := match o with O_memory_grow | O_table_grow | O_data_drop => true | _ => false end.

(* the meaning of the standard where it makes no choice *)
Definition definite : meaning := fun mr o args s L V s' L' r =>
  does mr o args s L V s' L' r /\ free o = false /\
  forall N v V', arithmetic o = Some N -> r = Some (v :: V') -> nan_in N v = false.

(* the machine is about to run an instruction that makes a choice *)
Definition chooses (m : machine) : Prop := exists o args fr, about_to_run m (IOp o args) fr /\
  (free o = true \/ exists N s' L' v V', arithmetic o = Some N /\
     does (fr_module fr) o args (k_store m) (fr_locals fr) (k_value m) s' L' (Some (v :: V')) /\ nan_in N v = true).
Definition meets_choice (F : fops) (host : hostcode) (m : machine) : Prop := exists m1, gets_to F host m m1 /\ chooses m1.

(* code, and modules, without instructions that could make a choice or deviate *)
Definition certain (o : opc) : bool := negb (suspect o) && negb (free o) && negb (given (arithmetic o)).
Definition certain_code (code : list inst) : Prop := forall o args, within (IOp o args) code -> certain o = true.
Definition certain_module (md : moddesc) : Prop := Forall (fun d => certain_code (fd_expr d)) (md_func md).
