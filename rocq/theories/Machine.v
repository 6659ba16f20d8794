(* pywasm/core.py 1553-1893: Machine.allocate, instance, invocate, evaluate and the helpers for control transfer.
   Not modelled: the debug log, and the MemoryError / RecursionError a real Python process may raise. *)
From Coq Require Import ZArith List Bool.
From Verif Require Import Py Arith Floatops Val Opcode Numeric Syntax Store Basic.
Import ListNotations.
Open Scope Z_scope.

Definition M (A : Type) : Type := ST machine A.

(* A host function (core.py 1426-1437) is called with the machine and the unwrapped arguments; it may do anything to the
   machine, raise, or return a list. A host function that returns something that is not iterable (None, say) makes the
   `zip` at 1775 raise TypeError; here that is a host function raising TypeError. *)
Definition hostcode : Type := nat -> list pyval -> machine -> res (list pyval) * machine.

Definition set_value (m : machine) x := mkmach (k_store m) x (k_label m) (k_frame m).
Definition set_label (m : machine) x := mkmach (k_store m) (k_value m) x (k_frame m).
Definition set_frame (m : machine) x := mkmach (k_store m) (k_value m) (k_label m) x.
Definition set_store (m : machine) x := mkmach x (k_value m) (k_label m) (k_frame m).

(* `l[:n]` of a Python stack whose top is at the head here *)
Definition keep {A} (n : nat) (l : list A) : list A := skipn (length l - n) l.

Definition mget : M machine := fun m => (Ok m, m).
Definition mput (m : machine) : M unit := fun _ => (Ok tt, m).
Definition on_store {A} (f : store -> res A * store) : M A :=
  fun m => let (r, s) := f (k_store m) in (r, set_store m s).
Definition popv : M val := fun m =>
  match k_value m with [] => (Err EPop, m) | v :: vs => (Ok v, set_value m vs) end.
(* `[self.stack.value.pop() for _ in range(n)][::-1]` *)
Fixpoint popn (n : nat) : M (list val) :=
  match n with O => ret [] | S n' => let! v := popv in let! vs := popn n' in ret (vs ++ [v]) end.
(* `self.stack.value.extend(l)` *)
Definition extend (l : list val) : M unit := fun m => (Ok tt, set_value m (rev l ++ k_value m)).
Definition push_label (l : label) : M unit := fun m => (Ok tt, set_label m (l :: k_label m)).
Definition push_frame (f : frame) : M unit := fun m => (Ok tt, set_frame m (f :: k_frame m)).
(* `self.stack.frame.pop()` *)
Definition pop_frame : M unit := fun m =>
  match k_frame m with [] => (Err EPop, m) | _ :: fs => (Ok tt, set_frame m fs) end.
(* `self.stack.frame[-1]` *)
Definition top_frame : M frame := fun m =>
  match k_frame m with [] => (Err EIndex, m) | f :: _ => (Ok f, m) end.

(* run a basic instruction in the current frame *)
Definition on_basic {A} (f : modref -> B A) : M A := fun m =>
  match k_frame m with
  | [] => (Err EIndex, m)
  | fr :: fs =>
    let (r, b) := f (fr_module fr) (mkb (k_store m) (fr_locals fr) (k_value m)) in
    (r, mkmach (b_store b) (b_value b) (k_label m)
          (mkframe (fr_module fr) (b_locals b) (fr_arity fr) (fr_label fr) (fr_value fr) :: fs))
  end.

(* core.py 1738-1745: evaluate_bype *)
Definition evaluate_bype (bt : bype) : M functype :=
  match bt with
  | BT_empty => ret (mkft [] [])
  | BT_val t => ret (mkft [] [t])
  | BT_idx i =>
    let! f := top_frame in
    let! m := mget in
    lift (py_index (m_type (mod_of (k_store m) (fr_module f))) i)
  end.

(* core.py 1723-1736: evaluate_br. A branch depth is an index read from the module and is never negative. *)
Definition evaluate_br (l : Z) : M unit :=
  let! m := mget in
  assert (len (k_label m) >=? l + 1) ;;
  match nth_error (k_label m) (Z.to_nat l) with
  | None => fail EIndex
  | Some lb =>
    assert (Nat.leb (lb_value lb + lb_arity lb) (length (k_value m))) ;;
    let! rets := popn (lb_arity lb) in
    let! m := mget in
    let labels :=
      match lb_carry lb with
      | KLoop => (* label.index = 0 on the label object that stays on the stack *)
        mklabel (lb_arity lb) (lb_frame lb) (lb_value lb) (lb_carry lb) (lb_instr lb) 0
          :: skipn (S (Z.to_nat l)) (k_label m)
      | _ => skipn (S (Z.to_nat l)) (k_label m)
      end in
    mput (mkmach (k_store m) (rev rets ++ keep (lb_value lb) (k_value m)) labels (keep (lb_frame lb) (k_frame m)))
  end.

(* core.py 1757-1759: the arguments followed by zeroes of the declared locals *)
Definition zero_locals (d : list (Z * valtype)) : list val :=
  concat (map (fun '(n, t) => repeat (val_zero t) (Z.to_nat n)) d).

(* `[ValInst.from_all(a, b) for a, b in zip(types, values)]` *)
Definition from_alls (F : fops) (ts : list valtype) (vs : list pyval) : res (list val) :=
  rmapl (fun '(t, v) => from_all F t v) (combine ts vs).

(* core.py 1747-1778: evaluate_call *)
Definition evaluate_call (F : fops) (host : hostcode) (addr : Z) : M unit :=
  let! m := mget in
  let! func := lift (py_index (s_func (k_store m)) addr) in
  let! args := popn (length (ft_args (fi_type func))) in
  let nret := length (ft_rets (fi_type func)) in
  match func with
  | FWasm t h code =>
    let! m := mget in
    assert (Nat.ltb (length (k_frame m)) 1024) ;;
    push_frame (mkframe (MRef h) (args ++ zero_locals (fd_locals code)) nret
                  (length (k_label m)) (length (k_value m))) ;;
    let! m := mget in
    push_label (mklabel nret (length (k_frame m)) (length (k_value m)) KFunc (fd_expr code) 0)
  | FHost t hid =>
    let! pargs := lift (rmapl (into_all F) args) in
    let! rets := (fun m => host hid pargs m) in
    let! rets := lift (from_alls F (ft_rets t) rets) in
    extend rets
  end.

(* core.py 1815-1849: block, loop, if. [lb] is the label of the enclosing sequence. *)
Definition enter (lb : label) (k : carry) (bt : functype) (body : list inst) : M unit :=
  let! m := mget in
  let na := length (ft_args bt) in
  assert (Nat.leb (lb_value lb + na) (length (k_value m))) ;;
  push_label (mklabel (match k with KLoop => na | _ => length (ft_rets bt) end)
                (length (k_frame m)) (length (k_value m) - na) k body 0).

(* One instruction. [lb] is the current label, [fr] the current frame. *)
Definition exec (F : fops) (host : hostcode) (lb : label) (fr : frame) (i : inst) : M unit :=
  match i with
  | IBlock bt body => (* 1815-1825 *)
    let! t := evaluate_bype bt in enter lb KBlock t body
  | ILoop bt body => (* 1826-1836 *)
    let! t := evaluate_bype bt in enter lb KLoop t body
  | IIf bt th el => (* 1837-1849 *)
    let! t := evaluate_bype bt in
    let! v := popv in
    let! c := lift (into_i32 v) in
    enter lb KBlock t (if c =? 0 then el else th)
  | IOp o args =>
    match o with
    (* 1854-1855 *)
    | O_br => let! l := lift (arg_int args 0) in evaluate_br l
    (* 1856-1858 *)
    | O_br_if =>
      let! v := popv in
      let! c := lift (into_i32 v) in
      if c =? 0 then ret tt else (let! l := lift (arg_int args 0) in evaluate_br l)
    (* 1859-1864 *)
    | O_br_table =>
      let! v := popv in
      let! a := lift (into_u32 v) in
      let! b := lift (arg_int args 1) in
      let! ls := lift (arg_list args 0) in
      let! l := (if a <? len ls then lift (py_index ls a) else ret b) in
      evaluate_br l
    (* 1865-1871 *)
    | O_return_call =>
      let! m := mget in
      assert (Nat.leb (fr_value fr + fr_arity fr) (length (k_value m))) ;;
      let! rets := popn (fr_arity fr) in
      pop_frame ;;
      let! m := mget in
      mput (mkmach (k_store m) (rev rets ++ keep (fr_value fr) (k_value m)) (keep (fr_label fr) (k_label m)) (k_frame m))
    (* 1872-1874 *)
    | O_call =>
      let! i := lift (arg_int args 0) in
      let! m := mget in
      let! addr := lift (py_index (m_func (mod_of (k_store m) (fr_module fr))) i) in
      evaluate_call F host addr
    (* 1875-1880 *)
    | O_call_indirect =>
      let! m := mget in
      let! j := lift (arg_int args 1) in
      let! ta := lift (py_index (m_tabl (mod_of (k_store m) (fr_module fr))) j) in
      let! tabl := lift (py_index (s_tabl (k_store m)) ta) in
      let! i := lift (arg_int args 0) in
      let! type := lift (py_index (m_type (mod_of (k_store m) (fr_module fr))) i) in
      let! v := popv in
      let! k := lift (into_u32 v) in
      let! r := lift (py_index (ti_elem tabl) k) in
      let! addr := lift (into_ref r) in
      let! func := lift (py_index (s_func (k_store m)) addr) in
      assert (ft_eqb (fi_type func) type) ;;
      evaluate_call F host addr
    (* the structured instructions always carry their bodies *)
    | O_block | O_loop | O_if_then => fail EAttr
    | _ => on_basic (fun mr => exec_basic F mr o args)
    end
  end.

(* core.py 1797-1809: one turn of the loop, with a label on the stack *)
Definition step (F : fops) (host : hostcode) : M unit :=
  let! m := mget in
  match k_label m with
  | [] => fail EIndex
  | lb :: ls =>
    let! fr := top_frame in
    if Nat.eqb (lb_index lb) (length (lb_instr lb)) then
      let! m := mget in
      mput (set_label m ls) ;;
      match lb_carry lb with
      | KFunc =>
        let! m := mget in
        assert (Nat.eqb (length (k_value m)) (fr_value fr + fr_arity fr)) ;;
        pop_frame
      | _ => ret tt
      end
    else
      match nth_error (lb_instr lb) (lb_index lb) with
      | None => fail EIndex
      | Some i =>
        let lb' := mklabel (lb_arity lb) (lb_frame lb) (lb_value lb) (lb_carry lb) (lb_instr lb) (S (lb_index lb)) in
        let! m := mget in
        mput (set_label m (lb' :: ls)) ;;
        exec F host lb' fr i
      end
  end.

(* core.py 1795-1807: at most [n] turns; Python's n is 2^32, after which evaluate returns as if it were done *)
Fixpoint evaluate (F : fops) (host : hostcode) (n : nat) : M unit :=
  match n with
  | O => ret tt
  | S n' => fun m =>
    match k_label m with
    | [] => (Ok tt, m)
    | _ => (step F host ;; evaluate F host n') m
    end
  end.

(* core.py 1701-1721: invocate *)
Definition types_agree (ts : list valtype) (vs : list val) : bool :=
  forallb (fun '(t, v) => vt_eqb t (v_type v)) (combine ts vs).
Definition invocate (F : fops) (host : hostcode) (n : nat) (addr : Z) (args : list val) : M (list val) :=
  let! m := mget in
  let! func := lift (py_index (s_func (k_store m)) addr) in
  match func with
  | FHost _ _ => fail EAssert
  | FWasm t h code =>
    assert (types_agree (ft_args t) args) ;;
    push_frame (mkframe (MVal modinst_empty) [] 0 0 0) ;;
    push_frame (mkframe (MRef h) (args ++ zero_locals (fd_locals code)) (length (ft_rets t)) 0 0) ;;
    push_label (mklabel (length (ft_rets t)) 1 0 KFunc (fd_expr code) 0) ;;
    evaluate F host n ;;
    let! rets := popn (length (ft_rets t)) in
    assert (types_agree (ft_rets t) rets) ;;
    pop_frame ;;
    let! m := mget in
    assert (Nat.eqb (length (k_frame m)) 0) ;;
    assert (Nat.eqb (length (k_label m)) 0) ;;
    assert (Nat.eqb (length (k_value m)) 0) ;;
    ret rets
  end.

(* A decoded module together with the bytearrays of its data segments (their numbers in [s_blob]). *)
Record loaded : Set := mkloaded { l_desc : moddesc; l_blob : list nat }.
(* ModuleDesc.from_reader creates the bytearrays (core.py 1247-1256) *)
Definition load_module (md : moddesc) : M loaded := fun m =>
  let s := k_store m in
  (Ok (mkloaded md (seq (length (s_blob s)) (length (md_data md)))),
   set_store m (set_s_blob s (s_blob s ++ map dd_init (md_data md)))).

(* update the module instance with handle [h] *)
Definition upd_inst (h : nat) (f : modinst -> modinst) : M unit := fun m =>
  let s := k_store m in
  (Ok tt, set_store m (set_s_inst s (upd (s_inst s) h (f (mod_of s (MRef h)))))).

(* core.py 1561-1570: the imports of one kind, in order *)
Definition ext_of_kind (k : Z) (ext : list extern) : list Z := map e_data (filter (fun e => e_kind e =? k) ext).

(* core.py 1553-1602: allocate; returns the handle of the new module instance *)
Definition allocate (L : loaded) (ext : list extern) (globin : list val) (elemin : list (list val)) : M nat :=
  let md := l_desc L in
  let! m := mget in
  let h := length (s_inst (k_store m)) in
  mput (set_store m (set_s_inst (k_store m) (s_inst (k_store m) ++
    [mkmi (md_type md) (ext_of_kind 0 ext) (ext_of_kind 1 ext) (ext_of_kind 2 ext) (ext_of_kind 3 ext) [] [] []]))) ;;
  forl (fun e => let! a := on_store (alloc_func_wasm h e) in
                 upd_inst h (fun i => set_m_func i (m_func i ++ [a]))) (md_func md) ;;
  forl (fun e => let! a := on_store (alloc_table e) in
                 upd_inst h (fun i => set_m_tabl i (m_tabl i ++ [a]))) (md_tabl md) ;;
  forl (fun e => let! a := on_store (alloc_memory e) in
                 upd_inst h (fun i => set_m_mems i (m_mems i ++ [a]))) (md_mems md) ;;
  forl (fun '(i, e) => let! v := lift (py_index globin i) in
                 let! a := on_store (alloc_global (gd_type e) v) in
                 upd_inst h (fun i => set_m_glob i (m_glob i ++ [a])))
    (combine (py_range (len (md_glob md))) (md_glob md)) ;;
  forl (fun '(i, e) => let! v := lift (py_index elemin i) in
                 let! a := on_store (alloc_elem (ed_type e) v) in
                 upd_inst h (fun i => set_m_elem i (m_elem i ++ [a])))
    (combine (py_range (len (md_elem md))) (md_elem md)) ;;
  forl (fun b => let! a := on_store (alloc_data b) in
                 upd_inst h (fun i => set_m_data i (m_data i ++ [a]))) (l_blob L) ;;
  forl (fun e =>
    let! m := mget in
    let mi := mod_of (k_store m) (MRef h) in
    let! a := lift (if ex_kind e =? 0 then py_index (m_func mi) (ex_desc e)
                    else if ex_kind e =? 1 then py_index (m_tabl mi) (ex_desc e)
                    else if ex_kind e =? 2 then py_index (m_mems mi) (ex_desc e)
                    else if ex_kind e =? 3 then py_index (m_glob mi) (ex_desc e)
                    else Err EAssert) in
    upd_inst h (fun i => set_m_exps i (m_exps i ++ [mkei (ex_name e) (mkext (ex_kind e) a)]))) (md_exps md) ;;
  ret h.

(* core.py 1605-1618: every import against the external value supplied for it *)
Definition check_import (s : store) (md : moddesc) (a : import) (b : extern) : res unit :=
  let? _ := py_assert (im_kind a =? e_kind b) in
  match im_desc a with
  | ImpFunc i =>
    let? f := py_index (s_func s) (e_data b) in
    let? t := py_index (md_type md) i in
    py_assert (ft_eqb (fi_type f) t)
  | ImpTable t =>
    let? x := py_index (s_tabl s) (e_data b) in
    let? _ := py_assert (vt_eqb (tt_type (ti_type x)) (tt_type t)) in
    py_assert (tab_suit x (tt_limits t))
  | ImpMem l =>
    let? x := py_index (s_mems s) (e_data b) in
    py_assert (mem_suit x l)
  | ImpGlobal t =>
    let? x := py_index (s_glob s) (e_data b) in
    let? _ := py_assert (vt_eqb (v_type (gi_data x)) (gt_type t)) in
    py_assert (gi_mut x =? gt_mut t)
  end.

(* evaluate an expression under a fresh label and check that the stacks are left as expected, core.py 1629-1634 and
   its copies *)
Definition run_expr (F : fops) (host : hostcode) (n : nat) (e : list inst) (nval : nat) : M unit :=
  push_label (mklabel 1 1 0 KBlock e 0) ;;
  evaluate F host n ;;
  let! m := mget in
  assert (Nat.eqb (length (k_frame m)) 1) ;;
  assert (Nat.eqb (length (k_label m)) 0) ;;
  assert (Nat.eqb (length (k_value m)) nval).
Definition const_expr (F : fops) (host : hostcode) (n : nat) (e : list inst) : M val :=
  run_expr F host n e 1 ;; popv.

(* the instructions made up by core.py 1653-1658, 1668, 1680-1685, 1693 *)
Definition elem_code (i : Z) (e : elemdesc) : list inst :=
  ed_offset e ++ [IOp O_i32_const [AInt 0]; IOp O_i32_const [AInt (len (ed_init e))];
                  IOp O_table_init [AInt i; AInt (ed_tidx e)]; IOp O_elem_drop [AInt i]].
Definition data_code (i : Z) (offset : expr) (size : Z) : list inst :=
  offset ++ [IOp O_i32_const [AInt 0]; IOp O_i32_const [AInt size];
             IOp O_memory_init [AInt i]; IOp O_data_drop [AInt i]].

Fixpoint Zs_eqb (a b : list Z) : bool :=
  match a, b with
  | [], [] => true
  | x :: a', y :: b' => (x =? y) && Zs_eqb a' b'
  | _, _ => false
  end.

(* core.py 1604-1699: instance *)
Definition instance (F : fops) (host : hostcode) (n : nat) (L : loaded) (ext : list extern) : M nat :=
  let md := l_desc L in
  assert (len (md_imps md) =? len ext) ;;
  forl (fun '(a, b) => let! m := mget in lift (check_import (k_store m) md a b)) (combine (md_imps md) ext) ;;
  let! m := mget in
  let auxfunc := ext_of_kind 0 ext ++ map (fun i => len (s_func (k_store m)) + i) (py_range (len (md_func md))) in
  let auxmod := mkmi [] auxfunc [] [] (ext_of_kind 3 ext) [] [] [] in
  push_frame (mkframe (MVal auxmod) [] 1 0 0) ;;
  let! globin := mapl (fun e => const_expr F host n (gd_init e)) (md_glob md) in
  let! elemin := mapl (fun e => mapl (fun f => const_expr F host n f) (ed_init e)) (md_elem md) in
  pop_frame ;;
  let! h := allocate L ext globin elemin in
  let! m := mget in
  assert (Zs_eqb (m_func (mod_of (k_store m) (MRef h))) auxfunc) ;;
  push_frame (mkframe (MRef h) [] 0 0 0) ;;
  let ielem := combine (py_range (len (md_elem md))) (md_elem md) in
  forl (fun '(i, e) => if negb (Z.land (ed_kind e) 1 =? 0) then ret tt
                       else run_expr F host n (elem_code i e) 0) ielem ;;
  forl (fun '(i, e) => if negb (Z.land (ed_kind e) 3 =? 3) then ret tt
                       else run_expr F host n [IOp O_elem_drop [AInt i]] 0) ielem ;;
  forl (fun '(i, (e, b)) => if negb (Z.land (dd_kind e) 1 =? 0) then ret tt
                       else let! m := mget in
                            run_expr F host n (data_code i (dd_offset e) (len (nth b (s_blob (k_store m)) []))) 0)
    (combine (py_range (len (md_data md))) (combine (md_data md) (l_blob L))) ;;
  (if md_star md >=? 0 then run_expr F host n [IOp O_call [AInt (md_star md)]] 0 else ret tt) ;;
  pop_frame ;;
  ret h.

(* core.py 4110-4177: Runtime. `self.imports` is a dict of dicts: association lists, first match. *)
Definition imports : Set := list (name * list (name * extern)).
Fixpoint dict_get {A} (d : list (name * A)) (k : name) : res A :=
  match d with
  | [] => Err EKey
  | (x, a) :: d' => if name_eqb x k then Ok a else dict_get d' k
  end.
(* `[e for e in module.exps if e.name == name][0].data` *)
Definition find_export (mi : modinst) (nm : name) : res extern :=
  match filter (fun e => name_eqb (ei_name e) nm) (m_exps mi) with
  | [] => Err EIndex
  | e :: _ => Ok (ei_data e)
  end.

(* 4117-4132 *)
Definition rt_allocate_func_host (t : functype) (hid : nat) : M extern :=
  let! a := on_store (alloc_func_host t hid) in ret (mkext 0 a).
Definition rt_allocate_table (t : tabletype) : M extern :=
  let! a := on_store (alloc_table t) in ret (mkext 1 a).
Definition rt_allocate_memory (t : memtype) : M extern :=
  let! a := on_store (alloc_memory t) in ret (mkext 2 a).
Definition rt_allocate_global (t : globaltype) (v : val) : M extern :=
  let! a := on_store (alloc_global t v) in ret (mkext 3 a).
(* 4134-4146 *)
Definition rt_exported_memory (h : nat) (nm : name) : M meminst :=
  let! m := mget in
  let! e := lift (find_export (mod_of (k_store m) (MRef h)) nm) in
  assert (e_kind e =? 2) ;;
  lift (py_index (s_mems (k_store m)) (e_data e)).
Definition rt_exported_global (h : nat) (nm : name) : M globalinst :=
  let! m := mget in
  let! e := lift (find_export (mod_of (k_store m) (MRef h)) nm) in
  assert (e_kind e =? 3) ;;
  lift (py_index (s_glob (k_store m)) (e_data e)).
(* 4148-4157 *)
Definition rt_instance (F : fops) (host : hostcode) (n : nat) (imps : imports) (L : loaded) : M nat :=
  let! ext := lift (rmapl (fun i => let? d := dict_get imps (im_module i) in dict_get d (im_name i))
                      (md_imps (l_desc L))) in
  instance F host n L ext.
(* 4164-4177 *)
Definition rt_invocate (F : fops) (host : hostcode) (n : nat) (h : nat) (nm : name) (args : list pyval)
  : M (list pyval) :=
  let! m := mget in
  let! e := lift (find_export (mod_of (k_store m) (MRef h)) nm) in
  let! func := lift (py_index (s_func (k_store m)) (e_data e)) in
  assert (len (ft_args (fi_type func)) =? len args) ;;
  let! vs := lift (from_alls F (ft_args (fi_type func)) args) in
  let! rets := invocate F host n (e_data e) vs in
  lift (rmapl (into_all F) rets).
