(* Run-time objects: pywasm/core.py 855-1017 (memories, tables, globals), 1212-1269 (segments), 1397-1552
   (module and function instances, the store, labels, frames, the stack).

   The store here is the Python Store plus two heaps for objects that Python shares by reference:
   - [s_inst] holds the ModuleInst objects; a function instance refers to its module by a handle into it, because the
     module instance is still being filled in when its functions are allocated (core.py 1560-1602);
   - [s_blob] holds the bytearrays that a DataDesc and the DataInst made from it share (core.py 1239, 1590, 1267).
   No other object is both shared and modified after it became shared. *)
From Coq Require Import ZArith List Bool.
From Verif Require Import Py Arith Floatops Val Opcode Numeric Syntax.
Import ListNotations.
Open Scope Z_scope.

(* core.py 1075-1082: Extern; core.py 1124-1133: ExportInst *)
Record extern : Set := mkext { e_kind : Z; e_data : Z }.
Definition mk_extern (k d : Z) : res extern :=
  let? _ := py_assert ((k =? 0) || (k =? 1) || (k =? 2) || (k =? 3)) in Ok (mkext k d).
Record exportinst : Set := mkei { ei_name : name; ei_data : extern }.

(* core.py 855-872: MemInst *)
Record meminst : Set := mkmem { mi_type : memtype; mi_data : list Z; mi_size : Z }.
(* core.py 948-960: TableInst *)
Record tableinst : Set := mktab { ti_type : tabletype; ti_elem : list val; ti_size : Z }.
(* core.py 1005-1013: GlobalInst *)
Record globalinst : Set := mkglob { gi_data : val; gi_mut : Z }.
(* core.py 1212-1219: ElemInst *)
Record eleminst : Set := mkelem { li_type : valtype; li_data : list val }.

(* core.py 1397-1409: ModuleInst *)
Record modinst : Set := mkmi {
  m_type : list functype;
  m_func : list Z;
  m_tabl : list Z;
  m_mems : list Z;
  m_glob : list Z;
  m_elem : list Z;
  m_data : list Z;
  m_exps : list exportinst
}.
Definition modinst_empty : modinst := mkmi [] [] [] [] [] [] [] [].
Definition set_m_func (m : modinst) (x : list Z) : modinst :=
  mkmi (m_type m) x (m_tabl m) (m_mems m) (m_glob m) (m_elem m) (m_data m) (m_exps m).
Definition set_m_tabl (m : modinst) (x : list Z) : modinst :=
  mkmi (m_type m) (m_func m) x (m_mems m) (m_glob m) (m_elem m) (m_data m) (m_exps m).
Definition set_m_mems (m : modinst) (x : list Z) : modinst :=
  mkmi (m_type m) (m_func m) (m_tabl m) x (m_glob m) (m_elem m) (m_data m) (m_exps m).
Definition set_m_glob (m : modinst) (x : list Z) : modinst :=
  mkmi (m_type m) (m_func m) (m_tabl m) (m_mems m) x (m_elem m) (m_data m) (m_exps m).
Definition set_m_elem (m : modinst) (x : list Z) : modinst :=
  mkmi (m_type m) (m_func m) (m_tabl m) (m_mems m) (m_glob m) x (m_data m) (m_exps m).
Definition set_m_data (m : modinst) (x : list Z) : modinst :=
  mkmi (m_type m) (m_func m) (m_tabl m) (m_mems m) (m_glob m) (m_elem m) x (m_exps m).
Definition set_m_exps (m : modinst) (x : list exportinst) : modinst :=
  mkmi (m_type m) (m_func m) (m_tabl m) (m_mems m) (m_glob m) (m_elem m) (m_data m) x.

(* core.py 1412-1437: FuncInst and FuncHost; a host function is known by a number *)
Inductive funcinst : Set :=
| FWasm (t : functype) (module : nat) (code : funcdesc)
| FHost (t : functype) (hid : nat).
Definition fi_type (f : funcinst) : functype := match f with FWasm t _ _ => t | FHost t _ => t end.

(* core.py 1440-1451: Store. [s_data]: a DataInst is the number of its bytearray in [s_blob]. *)
Record store : Set := mkstore {
  s_func : list funcinst;
  s_tabl : list tableinst;
  s_mems : list meminst;
  s_glob : list globalinst;
  s_elem : list eleminst;
  s_data : list nat;
  s_inst : list modinst;
  s_blob : list (list Z)
}.
Definition store_empty : store := mkstore [] [] [] [] [] [] [] [].
Definition set_s_func (s : store) x := mkstore x (s_tabl s) (s_mems s) (s_glob s) (s_elem s) (s_data s) (s_inst s) (s_blob s).
Definition set_s_tabl (s : store) x := mkstore (s_func s) x (s_mems s) (s_glob s) (s_elem s) (s_data s) (s_inst s) (s_blob s).
Definition set_s_mems (s : store) x := mkstore (s_func s) (s_tabl s) x (s_glob s) (s_elem s) (s_data s) (s_inst s) (s_blob s).
Definition set_s_glob (s : store) x := mkstore (s_func s) (s_tabl s) (s_mems s) x (s_elem s) (s_data s) (s_inst s) (s_blob s).
Definition set_s_elem (s : store) x := mkstore (s_func s) (s_tabl s) (s_mems s) (s_glob s) x (s_data s) (s_inst s) (s_blob s).
Definition set_s_data (s : store) x := mkstore (s_func s) (s_tabl s) (s_mems s) (s_glob s) (s_elem s) x (s_inst s) (s_blob s).
Definition set_s_inst (s : store) x := mkstore (s_func s) (s_tabl s) (s_mems s) (s_glob s) (s_elem s) (s_data s) x (s_blob s).
Definition set_s_blob (s : store) x := mkstore (s_func s) (s_tabl s) (s_mems s) (s_glob s) (s_elem s) (s_data s) (s_inst s) x.

(* A frame refers to a finished module instance by handle; the two throw-away ModuleInst objects of core.py 1626 and
   1706 are carried directly. *)
Inductive modref : Set :=
| MVal (m : modinst)
| MRef (h : nat).
Definition mod_of (s : store) (r : modref) : modinst :=
  match r with MVal m => m | MRef h => nth h (s_inst s) modinst_empty end.

(* core.py 1496-1507: Label. carry 0, 1, 3 are [KLoop], [KBlock], [KFunc]. *)
Inductive carry : Set := KLoop | KBlock | KFunc.
Record label : Set := mklabel {
  lb_arity : nat; lb_frame : nat; lb_value : nat; lb_carry : carry; lb_instr : list inst; lb_index : nat
}.
(* core.py 1513-1524: Frame *)
Record frame : Set := mkframe {
  fr_module : modref; fr_locals : list val; fr_arity : nat; fr_label : nat; fr_value : nat
}.

(* core.py 1530-1552: Stack and Machine. The three stacks are kept with their top at the head of the list. *)
Record machine : Set := mkmach { k_store : store; k_value : list val; k_label : list label; k_frame : list frame }.
Definition machine_empty : machine := mkmach store_empty [] [] [].

(* Computations that read and change a state and may raise; the state at the time of the exception is kept. *)
Definition ST (S A : Type) : Type := S -> res A * S.
Definition ret {S A} (a : A) : ST S A := fun s => (Ok a, s).
Definition fail {S A} (e : exn) : ST S A := fun s => (Err e, s).
Definition bind {S A B} (m : ST S A) (f : A -> ST S B) : ST S B :=
  fun s => match m s with (Ok a, s') => f a s' | (Err e, s') => (Err e, s') end.
Definition lift {S A} (r : res A) : ST S A := fun s => (r, s).
Declare Scope st_scope.
Notation "'let!' x ':=' e 'in' f" := (bind e (fun x => f))
  (at level 200, x pattern, e at level 200, f at level 200, right associativity) : st_scope.
Notation "e1 ;; e2" := (bind e1 (fun _ => e2)) (at level 199, right associativity) : st_scope.
Open Scope st_scope.
(* `assert b` *)
Definition assert {S} (b : bool) : ST S unit := lift (py_assert b).
(* `for e in l: f(e)` *)
Fixpoint forl {S A} (f : A -> ST S unit) (l : list A) : ST S unit :=
  match l with [] => ret tt | x :: l' => f x ;; forl f l' end.
(* `[f(e) for e in l]` *)
Fixpoint mapl {S A B} (f : A -> ST S B) (l : list A) : ST S (list B) :=
  match l with
  | [] => ret []
  | x :: l' => let! y := f x in let! ys := mapl f l' in ret (y :: ys)
  end.

(* core.py 876-895, 904-923: MemInst.get_* and put_*. put and put_uN are slice assignments. *)
Definition mem_get (m : meminst) (addr size : Z) : list Z := py_slice (mi_data m) addr (addr + size).
Definition mem_get_i (w : Z) (m : meminst) (addr : Z) : res Z := unpack_s w (py_slice (mi_data m) addr (addr + w)).
Definition mem_get_u8 (m : meminst) (addr : Z) : res Z := py_index (mi_data m) addr.
Definition mem_get_u (w : Z) (m : meminst) (addr : Z) : res Z := unpack_u w (py_slice (mi_data m) addr (addr + w)).
Definition set_mi_data (m : meminst) (d : list Z) : meminst := mkmem (mi_type m) d (mi_size m).
Definition mem_put (m : meminst) (addr : Z) (d : list Z) : meminst :=
  set_mi_data m (py_slice_set (mi_data m) addr (addr + len d) d).
Definition mem_put_i (w : Z) (m : meminst) (addr d : Z) : res meminst :=
  let? b := pack_s w d in Ok (set_mi_data m (py_slice_set (mi_data m) addr (addr + w) b)).
Definition mem_put_u (w : Z) (m : meminst) (addr d : Z) : res meminst :=
  let? b := pack_u w d in Ok (set_mi_data m (py_slice_set (mi_data m) addr (addr + w) b)).
(* `self.data[addr] = data`: ValueError unless the value is a byte *)
Definition mem_put_u8 (m : meminst) (addr d : Z) : res meminst :=
  let? _ := (if (0 <=? d) && (d <? 256) then Ok tt else Err EValue) in
  let? l := py_setitem (mi_data m) addr d in Ok (set_mi_data m l).

(* core.py 897-902: MemInst.grow; `bytearray(k)` is a ValueError for a negative k *)
Definition mem_grow (m : meminst) (n : Z) : res meminst :=
  let? _ := (if l_m (mi_type m) =? 0 then Ok tt else py_assert (mi_size m + n <=? l_m (mi_type m))) in
  let? _ := py_assert (mi_size m + n <=? 65536) in
  let? _ := (if n <? 0 then Err EValue else Ok tt) in
  Ok (mkmem (mi_type m) (mi_data m ++ zeros (n * 64 * 1024)) (mi_size m + n)).
(* core.py 870-874 *)
Definition mem_new (t : memtype) : res meminst := mem_grow (mkmem t [] 0) (l_n t).
(* core.py 925-926 *)
Definition mem_suit (m : meminst) (l : limits) : bool := limits_suit (mklim (mi_size m) (l_m (mi_type m))) l.

(* core.py 964-969: TableInst.grow *)
Definition tab_grow (t : tableinst) (n : Z) (v : val) : res tableinst :=
  let? _ := (if l_m (tt_limits (ti_type t)) =? 0 then Ok tt
             else py_assert (ti_size t + n <=? l_m (tt_limits (ti_type t)))) in
  let? _ := py_assert (vt_eqb (v_type v) (tt_type (ti_type t))) in
  Ok (mktab (ti_type t) (ti_elem t ++ repeat v (Z.to_nat n)) (ti_size t + n)).
(* core.py 958-962 *)
Definition tab_new (t : tabletype) : res tableinst := tab_grow (mktab t [] 0) (l_n (tt_limits t)) (val_zero (tt_type t)).
(* core.py 971-972 *)
Definition tab_suit (t : tableinst) (l : limits) : bool := limits_suit (mklim (ti_size t) (l_m (tt_limits (ti_type t)))) l.

(* core.py 1453-1493: the Store.allocate_* methods; each returns the new address *)
Definition alloc_func_wasm (h : nat) (f : funcdesc) (s : store) : res Z * store :=
  match py_index (m_type (mod_of s (MRef h))) (fd_type f) with
  | Err e => (Err e, s)
  | Ok t => (Ok (len (s_func s)), set_s_func s (s_func s ++ [FWasm t h f]))
  end.
Definition alloc_func_host (t : functype) (hid : nat) (s : store) : res Z * store :=
  (Ok (len (s_func s)), set_s_func s (s_func s ++ [FHost t hid])).
Definition alloc_table (t : tabletype) (s : store) : res Z * store :=
  match tab_new t with
  | Err e => (Err e, s)
  | Ok i => (Ok (len (s_tabl s)), set_s_tabl s (s_tabl s ++ [i]))
  end.
Definition alloc_memory (t : memtype) (s : store) : res Z * store :=
  match mem_new t with
  | Err e => (Err e, s)
  | Ok i => (Ok (len (s_mems s)), set_s_mems s (s_mems s ++ [i]))
  end.
(* GlobalInst asserts that mut is 0 or 1 (core.py 1009) *)
Definition alloc_global (t : globaltype) (d : val) (s : store) : res Z * store :=
  if (gt_mut t =? 0) || (gt_mut t =? 1)
  then (Ok (len (s_glob s)), set_s_glob s (s_glob s ++ [mkglob d (gt_mut t)]))
  else (Err EAssert, s).
(* ElemInst asserts that the type is a reference type (core.py 1217) *)
Definition alloc_elem (t : valtype) (d : list val) (s : store) : res Z * store :=
  if is_ref t then (Ok (len (s_elem s)), set_s_elem s (s_elem s ++ [mkelem t d])) else (Err EAssert, s).
Definition alloc_data (b : nat) (s : store) : res Z * store :=
  (Ok (len (s_data s)), set_s_data s (s_data s ++ [b])).
