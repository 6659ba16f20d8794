(* Which functions a call can get to, and which instructions write which part of the store. *)
From Coq Require Import ZArith List Bool.
From Verif Require Import Py Floatops Val Opcode Numeric Syntax Store Machine SpecCode SpecStacks.
Import ListNotations.
Open Scope Z_scope.

(* [G] holds whatever its functions call: by [call] the function that the operand names, by [call_indirect] any function
   of the store with the type that the operand names. The branches of its functions stay inside them. *)
Definition call_closed (s : store) (G : funcinst -> Prop) : Prop := forall t h code, G (FWasm t h code) ->
  stays_inside 0 (fd_expr code) /\
  (forall args i addr f, within (IOp O_call args) (fd_expr code) -> arg_int args 0 = Ok i ->
     py_index (m_func (nth h (s_inst s) modinst_empty)) i = Ok addr -> py_index (s_func s) addr = Ok f -> G f) /\
  (forall args i ty f, within (IOp O_call_indirect args) (fd_expr code) -> arg_int args 0 = Ok i ->
     py_index (m_type (nth h (s_inst s) modinst_empty)) i = Ok ty -> In f (s_func s) -> fi_type f = ty -> G f).

(* The parts of a store that instructions can change, and the instructions of the standard that change them. *)
Inductive part := Memories | Tables | Globals | Elements | Data.
Definition same_part (p : part) (s s' : store) : Prop :=
  match p with
  | Memories => s_mems s' = s_mems s
  | Tables => s_tabl s' = s_tabl s
  | Globals => s_glob s' = s_glob s
  | Elements => s_elem s' = s_elem s
  | Data => s_data s' = s_data s /\ s_blob s' = s_blob s
  end.
Definition writes (p : part) (o : opc) : bool :=
  match p, o with
  | Memories, (O_i32_store | O_i64_store | O_f32_store | O_f64_store | O_i32_store8 | O_i32_store16 | O_i64_store8
      | O_i64_store16 | O_i64_store32 | O_v128_store | O_v128_store8_lane | O_v128_store16_lane | O_v128_store32_lane
      | O_v128_store64_lane | O_memory_grow | O_memory_fill | O_memory_copy | O_memory_init) => true
  | Tables, (O_table_set | O_table_grow | O_table_fill | O_table_copy | O_table_init) => true
  | Globals, O_global_set => true
  | Elements, O_elem_drop => true
  | Data, O_data_drop => true
  | _, _ => false
  end.
(* No function of [G] has an instruction that writes the part, and its host functions do not change it however they end. *)
Definition reads_only (host : hostcode) (p : part) (G : funcinst -> Prop) : Prop :=
  (forall t h code o args, G (FWasm t h code) -> within (IOp o args) (fd_expr code) -> writes p o = false) /\
  (forall t hid args m r m', G (FHost t hid) -> host hid args m = (r, m') -> same_part p (k_store m) (k_store m')).
