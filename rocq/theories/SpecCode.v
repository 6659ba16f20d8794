(* Which code is run, and code without the instructions that pywasm is known to execute differently from the standard. *)
From Coq Require Import ZArith List Bool.
From Verif Require Import Py Floatops Val Opcode Numeric Syntax Store Machine.
Import ListNotations.
Open Scope Z_scope.

(* [i] is one of the instructions of [code], or of a block inside it, at any depth *)
Inductive within (i : inst) : list inst -> Prop :=
| in_here code : In i code -> within i code
| in_block bt body code : In (IBlock bt body) code -> within i body -> within i code
| in_loop bt body code : In (ILoop bt body) code -> within i body -> within i code
| in_then bt th el code : In (IIf bt th el) code -> within i th -> within i code
| in_else bt th el code : In (IIf bt th el) code -> within i el -> within i code.
(* [i] is in the body of some function of the store *)
Definition in_function (s : store) (i : inst) : Prop :=
  exists t h code, In (FWasm t h code) (s_func s) /\ within i (fd_expr code).
(* Host functions that leave the code that is running alone and remove no function, however they end ... *)
Definition leaves_code (host : hostcode) : Prop :=
  forall hid args m r m', host hid args m = (r, m') -> k_label m' = k_label m /\ incl (s_func (k_store m)) (s_func (k_store m')).
(* ... and added none *)
Definition adds_no_code (host : hostcode) : Prop :=
  forall hid args m r m', host hid args m = (r, m') -> k_label m' = k_label m /\ s_func (k_store m') = s_func (k_store m).

(* The instructions that pywasm does not always execute by the standard ([amiss] in SpecStandard.v has the operands) *)
Definition suspect (o : opc) : bool :=
  match o with
  | O_i64_div_u | O_f32_convert_i64_s | O_f32_convert_i64_u
  | O_f32_min | O_f32_max | O_f64_min | O_f64_max | O_f32x4_min | O_f32x4_max | O_f64x2_min | O_f64x2_max
  | O_f32_ceil | O_f32_floor | O_f32_trunc | O_f32_nearest | O_f64_ceil | O_f64_floor | O_f64_trunc | O_f64_nearest
  | O_f32x4_ceil | O_f32x4_floor | O_f32x4_trunc | O_f32x4_nearest | O_f64x2_ceil | O_f64x2_floor | O_f64x2_trunc | O_f64x2_nearest
  | O_f32_copysign | O_f32x4_pmin | O_f32x4_pmax | O_f32x4_abs | O_f32x4_neg | O_data_drop => true
  | _ => false
  end.
Definition clean (code : list inst) : Prop := forall o args, within (IOp o args) code -> suspect o = false.
Definition clean_store (s : store) : Prop := forall t h code, In (FWasm t h code) (s_func s) -> clean (fd_expr code).

(* The runtime so far, if every module loaded into it is one of [D]: objects made by hand, modules loaded and
   instantiated, exported functions called, all of them ending in any way. *)
Inductive made_from (F : fops) (host : hostcode) (D : moddesc -> Prop) : machine -> Prop :=
| mf_new : made_from F host D machine_empty
| mf_host m t hid r m' : made_from F host D m -> rt_allocate_func_host t hid m = (r, m') -> made_from F host D m'
| mf_table m t r m' : made_from F host D m -> rt_allocate_table t m = (r, m') -> made_from F host D m'
| mf_memory m t r m' : made_from F host D m -> rt_allocate_memory t m = (r, m') -> made_from F host D m'
| mf_global m t v r m' : made_from F host D m -> rt_allocate_global t v m = (r, m') -> made_from F host D m'
| mf_load m md r m' : made_from F host D m -> load_module md m = (r, m') -> made_from F host D m'
| mf_instance m n L ext r m' : made_from F host D m -> D (l_desc L) -> instance F host n L ext m = (r, m') -> made_from F host D m'
| mf_call m n h nm args r m' : made_from F host D m -> rt_invocate F host n h nm args m = (r, m') -> made_from F host D m'.
(* modules without such instructions *)
Definition clean_module (md : moddesc) : Prop := Forall (fun d => clean (fd_expr d)) (md_func md).
