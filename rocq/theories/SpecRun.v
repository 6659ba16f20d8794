(* What may happen to a machine over any number of calls of the interpreter, and when one machine state counts as a later
   stage of another. *)
From Coq Require Import ZArith List Bool.
From Verif Require Import Py Floatops Val Opcode Numeric Syntax Store Basic Machine SpecMem.
Import ListNotations.
Open Scope Z_scope.

(* ---- things in order ---- *)

(* Instructions as a decoder produces them: byte strings hold bytes, offsets of memory accesses are not negative. *)
Definition accesses_memory (o : opc) : Prop :=
  wasm_load o <> None \/ wasm_store o <> None \/ wasm_load_lane o <> None \/ wasm_store_lane o <> None.
Definition op_ok (o : opc) (args : list arg) : Prop :=
  (forall b, In (ABytes b) args -> bytes b) /\
  (forall off, accesses_memory o -> nth_error args 1 = Some (AInt off) -> 0 <= off).
Inductive inst_ok : inst -> Prop :=
| ok_block bt l : Forall inst_ok l -> inst_ok (IBlock bt l)
| ok_loop bt l : Forall inst_ok l -> inst_ok (ILoop bt l)
| ok_if bt l k : Forall inst_ok l -> Forall inst_ok k -> inst_ok (IIf bt l k)
| ok_op o args : op_ok o args -> inst_ok (IOp o args).
Definition code_ok (l : list inst) : Prop := Forall inst_ok l.

(* A decoded module: its code is in order, sizes of tables are not negative, data are bytes. *)
Definition desc_ok (md : moddesc) : Prop :=
  Forall (fun f => code_ok (fd_expr f)) (md_func md) /\
  Forall (fun t => 0 <= l_n (tt_limits t)) (md_tabl md) /\
  Forall (fun g => code_ok (gd_init g)) (md_glob md) /\
  Forall (fun e => code_ok (ed_offset e) /\ Forall code_ok (ed_init e)) (md_elem md) /\
  Forall (fun d => code_ok (dd_offset d) /\ bytes (dd_init d)) (md_data md).

(* Every object of the store holds well-formed values and has the size it claims. *)
Definition table_ok (t : tableinst) : Prop := table_wf t /\ Forall val_wf (ti_elem t).
Definition func_ok (f : funcinst) : Prop := match f with FWasm _ _ code => code_ok (fd_expr code) | FHost _ _ => True end.
Record store_ok (s : store) : Prop := mk_store_ok {
  so_func : Forall func_ok (s_func s);
  so_tabl : Forall table_ok (s_tabl s);
  so_mems : Forall mem_wf (s_mems s);
  so_glob : Forall (fun g => val_wf (gi_data g)) (s_glob s);
  so_elem : Forall (fun e => Forall val_wf (li_data e)) (s_elem s);
  so_blob : Forall bytes (s_blob s)
}.
Record machine_ok (m : machine) : Prop := mk_machine_ok {
  mo_store : store_ok (k_store m);
  mo_value : Forall val_wf (k_value m);
  mo_frame : Forall (fun fr => Forall val_wf (fr_locals fr)) (k_frame m);
  mo_label : Forall (fun lb => code_ok (lb_instr lb)) (k_label m)
}.

(* ---- later stages of a store ---- *)

(* every item of [l] is still in the same place of [l'], possibly changed as [R] allows; [l'] may have more items *)
Definition kept {A} (R : A -> A -> Prop) (l l' : list A) : Prop :=
  forall a x, nth_error l a = Some x -> exists x', nth_error l' a = Some x' /\ R x x'.

Record later (s s' : store) : Prop := mk_later {
  (* functions, data segment handles and module instances never change *)
  lt_func : kept eq (s_func s) (s_func s');
  lt_data : kept eq (s_data s) (s_data s');
  lt_inst : kept eq (s_inst s) (s_inst s');
  (* memories and tables keep their type and do not shrink *)
  lt_mems : kept (fun x x' => mi_type x' = mi_type x /\ mi_size x <= mi_size x' /\ len (mi_data x) <= len (mi_data x'))
              (s_mems s) (s_mems s');
  lt_tabl : kept (fun x x' => ti_type x' = ti_type x /\ ti_size x <= ti_size x' /\ len (ti_elem x) <= len (ti_elem x'))
              (s_tabl s) (s_tabl s');
  (* globals keep their mutability, immutable ones their value *)
  lt_glob : kept (fun x x' => gi_mut x' = gi_mut x /\ (gi_mut x <> 1 -> x' = x)) (s_glob s) (s_glob s');
  (* segments are kept or dropped *)
  lt_elem : kept (fun x x' => x' = x \/ x' = mkelem (li_type x) []) (s_elem s) (s_elem s');
  lt_blob : kept (fun x x' => x' = x \/ x' = []) (s_blob s) (s_blob s')
}.

(* ---- the world outside ---- *)

Definition pyval_ok (p : pyval) : Prop := match p with PBytes b => bytes b | _ => True end.
(* A host function may do anything that leaves a machine in order and a later stage of what it was; in particular it may
   call the interpreter, write to memories and allocate objects. It returns or raises what it likes. *)
Definition well_behaved (host : hostcode) : Prop :=
  forall hid args m r m', machine_ok m -> host hid args m = (r, m') ->
    machine_ok m' /\ later (k_store m) (k_store m') /\ (forall l, r = Ok l -> Forall pyval_ok l).

(* One call into the interpreter, successful or not. [n] is the number of turns of the main loop after which evaluate
   gives up; as it ranges over all numbers, the stores in the middle of a run are included. *)
Inductive call (F : fops) (host : hostcode) : machine -> machine -> Prop :=
| call_load md m : desc_ok md -> call F host m (snd (load_module md m))
| call_instance n L ext m : desc_ok (l_desc L) -> call F host m (snd (instance F host n L ext m))
| call_invocate n addr args m : Forall val_wf args -> call F host m (snd (invocate F host n addr args m))
| call_rt_instance n imps L m : desc_ok (l_desc L) -> call F host m (snd (rt_instance F host n imps L m))
| call_rt_invocate n h nm args m : Forall pyval_ok args -> call F host m (snd (rt_invocate F host n h nm args m))
| call_evaluate n m : call F host m (snd (evaluate F host n m))
| call_func_host t hid m : call F host m (snd (rt_allocate_func_host t hid m))
| call_table t m : 0 <= l_n (tt_limits t) -> call F host m (snd (rt_allocate_table t m))
| call_memory t m : call F host m (snd (rt_allocate_memory t m))
| call_global t v m : val_wf v -> call F host m (snd (rt_allocate_global t v m))
| call_host hid args m : call F host m (snd (host hid args m)).

(* any number of calls, the runtime being kept after a failed one *)
Inductive session (F : fops) (host : hostcode) : machine -> machine -> Prop :=
| ses_nil m : session F host m m
| ses_call m m1 m2 : session F host m m1 -> call F host m1 m2 -> session F host m m2.
