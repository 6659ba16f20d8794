(* The instructions of Machine.evaluate that do not transfer control (core.py 1881-2001 and 2645-4105), written over the
   part of the machine they can touch: the store, the locals of the current frame and the operand stack. *)
From Coq Require Import ZArith List Bool.
From Verif Require Import Py Arith Floatops Val Opcode Numeric Syntax Store.
Import ListNotations.
Open Scope Z_scope.

Record bstate : Set := mkb { b_store : store; b_locals : list val; b_value : list val }.
Definition B (A : Type) : Type := ST bstate A.

(* `self.stack.value.pop()`, `.append(v)`, `[-1]` *)
Definition pop : B val := fun s =>
  match b_value s with
  | [] => (Err EPop, s)
  | v :: vs => (Ok v, mkb (b_store s) (b_locals s) vs)
  end.
Definition push (v : val) : B unit := fun s => (Ok tt, mkb (b_store s) (b_locals s) (v :: b_value s)).
Definition top : B val := fun s => match b_value s with [] => (Err EPop, s) | v :: _ => (Ok v, s) end.
Definition pop_u32 : B Z := let! v := pop in lift (into_u32 v).
Definition pushr (r : res val) : B unit := let! v := lift r in push v.

Definition get_store : B store := fun s => (Ok (b_store s), s).
Definition put_store (x : store) : B unit := fun s => (Ok tt, mkb x (b_locals s) (b_value s)).
Definition get_locals : B (list val) := fun s => (Ok (b_locals s), s).
Definition put_locals (x : list val) : B unit := fun s => (Ok tt, mkb (b_store s) x (b_value s)).

(* `frame.module.<field>[i]`, then the object at that address of the store *)
Definition mod_addr (mr : modref) (field : modinst -> list Z) (i : Z) : B Z :=
  let! s := get_store in lift (py_index (field (mod_of s mr)) i).
Definition get_mem (a : Z) : B meminst := let! s := get_store in lift (py_index (s_mems s) a).
Definition get_tab (a : Z) : B tableinst := let! s := get_store in lift (py_index (s_tabl s) a).
Definition get_glob (a : Z) : B globalinst := let! s := get_store in lift (py_index (s_glob s) a).
Definition get_elem (a : Z) : B eleminst := let! s := get_store in lift (py_index (s_elem s) a).
(* a DataInst and the bytearray it shares *)
Definition get_data (a : Z) : B nat := let! s := get_store in lift (py_index (s_data s) a).
Definition get_blob (b : nat) : B (list Z) := let! s := get_store in ret (nth b (s_blob s) []).
(* updates of an object reached by its address *)
Definition put_mem (a : Z) (m : meminst) : B unit :=
  let! s := get_store in let! l := lift (py_setitem (s_mems s) a m) in put_store (set_s_mems s l).
Definition put_tab (a : Z) (t : tableinst) : B unit :=
  let! s := get_store in let! l := lift (py_setitem (s_tabl s) a t) in put_store (set_s_tabl s l).
Definition put_glob (a : Z) (g : globalinst) : B unit :=
  let! s := get_store in let! l := lift (py_setitem (s_glob s) a g) in put_store (set_s_glob s l).
Definition put_elem (a : Z) (e : eleminst) : B unit :=
  let! s := get_store in let! l := lift (py_setitem (s_elem s) a e) in put_store (set_s_elem s l).
Definition put_blob (b : nat) (d : list Z) : B unit :=
  let! s := get_store in put_store (set_s_blob s (upd (s_blob s) b d)).

(* core.py 1780-1785: evaluate_mem_load *)
Definition mem_load (mr : modref) (offset size : Z) : B (list Z) :=
  let! a := mod_addr mr m_mems 0 in
  let! mems := get_mem a in
  let! addr := pop_u32 in
  let addr := addr + offset in
  assert (addr + size <=? len (mi_data mems)) ;;
  ret (py_slice (mi_data mems) addr (addr + size)).

(* core.py 1787-1793: evaluate_mem_save *)
Definition mem_save (mr : modref) (offset size : Z) : B unit :=
  let! a := mod_addr mr m_mems 0 in
  let! mems := get_mem a in
  let! v := pop in
  let! addr := pop_u32 in
  let addr := addr + offset in
  assert (addr + size <=? len (mi_data mems)) ;;
  put_mem a (set_mi_data mems (py_slice_set (mi_data mems) addr (addr + size) (py_slice (v_data v) 0 size))).

(* a widening vector load: each chunk of [w] bytes, sign extended when [sign], to [2w] bytes *)
Definition load_widen (w n : Z) (sign : bool) (a : list Z) : res val :=
  let? bs := rmapl (fun i =>
    let? x := (if w =? 1 then py_index a i else Ok (le_of (py_slice a (i * w) (i * w + w)))) in
    if sign then to_bytes_s (2 * w) (x - Z.shiftl (Z.land x (2 ^ (8 * w - 1))) 1) else to_bytes_u (2 * w) x)
    (py_range n) in
  from_v128 (concat bs).

(* The loads: number of bytes and what becomes of them. The offset is args[1]. *)
Definition load_op (o : opc) : option (Z * (list Z -> res val)) :=
  match o with
  (* 1924-1935 *)
  | O_i32_load => Some (4, fun d => mk_val T_i32 (d ++ zeros (blen - 4)))
  | O_i64_load => Some (8, fun d => mk_val T_i64 (d ++ zeros (blen - 8)))
  | O_f32_load => Some (4, fun d => mk_val T_f32 (d ++ zeros (blen - 4)))
  | O_f64_load => Some (8, fun d => mk_val T_f64 (d ++ zeros (blen - 8)))
  (* 1936-1947 *)
  | O_i32_load8_s => Some (1, fun d => let? x := unpack_s 1 d in from_i32 x)
  | O_i32_load8_u => Some (1, fun d => let? x := unpack_u 1 d in from_i32 x)
  | O_i32_load16_s => Some (2, fun d => let? x := unpack_s 2 d in from_i32 x)
  | O_i32_load16_u => Some (2, fun d => let? x := unpack_u 2 d in from_i32 x)
  (* 1948-1965 *)
  | O_i64_load8_s => Some (1, fun d => let? x := unpack_s 1 d in from_i64 x)
  | O_i64_load8_u => Some (1, fun d => let? x := unpack_u 1 d in from_i64 x)
  | O_i64_load16_s => Some (2, fun d => let? x := unpack_s 2 d in from_i64 x)
  | O_i64_load16_u => Some (2, fun d => let? x := unpack_u 2 d in from_i64 x)
  | O_i64_load32_s => Some (4, fun d => let? x := unpack_s 4 d in from_i64 x)
  | O_i64_load32_u => Some (4, fun d => let? x := unpack_u 4 d in from_i64 x)
  (* 2794-2796 *)
  | O_v128_load => Some (16, from_v128)
  (* 2797-2841 *)
  | O_v128_load8x8_s => Some (8, load_widen 1 8 true)
  | O_v128_load8x8_u => Some (8, load_widen 1 8 false)
  | O_v128_load16x4_s => Some (8, load_widen 2 4 true)
  | O_v128_load16x4_u => Some (8, load_widen 2 4 false)
  | O_v128_load32x2_s => Some (8, load_widen 4 2 true)
  | O_v128_load32x2_u => Some (8, load_widen 4 2 false)
  (* 2842-2853 *)
  | O_v128_load8_splat => Some (1, fun d => from_v128 (concat (repeat d (Z.to_nat 16))))
  | O_v128_load16_splat => Some (2, fun d => from_v128 (concat (repeat d (Z.to_nat 8))))
  | O_v128_load32_splat => Some (4, fun d => from_v128 (concat (repeat d (Z.to_nat 4))))
  | O_v128_load64_splat => Some (8, fun d => from_v128 (concat (repeat d (Z.to_nat 2))))
  (* 3307-3316 *)
  | O_v128_load32_zero => Some (4, fun d => from_v128 (d ++ zeros (blen - 4)))
  | O_v128_load64_zero => Some (8, fun d => from_v128 (d ++ zeros (blen - 8)))
  | _ => None
  end.

(* The stores: number of bytes of the operand that are written *)
Definition store_op (o : opc) : option Z :=
  match o with
  (* 1966-1983 *)
  | O_i32_store => Some 4 | O_i64_store => Some 8 | O_f32_store => Some 4 | O_f64_store => Some 8
  | O_i32_store8 => Some 1 | O_i32_store16 => Some 2
  | O_i64_store8 => Some 1 | O_i64_store16 => Some 2 | O_i64_store32 => Some 4
  (* 2854-2855 *)
  | O_v128_store => Some 16
  | _ => None
  end.

(* 3255-3282: load one lane of w bytes; 3283-3306: store one lane *)
Definition load_lane (mr : modref) (w : Z) (args : list arg) : B unit :=
  let! v := pop in
  let! a := lift (into_v128 v) in
  let! off := lift (arg_int args 1) in
  let! b := mem_load mr off w in
  let! c := lift (arg_int args 2) in
  pushr (mk_val T_v128 (py_slice_set a (w * c) (w * c + w) b ++ zeros (blen - 16))).
Definition store_lane (mr : modref) (w : Z) (args : list arg) : B unit :=
  let! v := pop in
  let! a := lift (into_v128 v) in
  let! b := lift (arg_int args 2) in
  pushr (from_v128 (py_slice_set a 0 w (py_slice a (w * b) (w * b + w)))) ;;
  let! off := lift (arg_int args 1) in
  mem_save mr off w.

(* The `for i in range(n): l[d+i] = s` of memory.fill and table.fill *)
Definition fill_loop {A} (l : list A) (d n : Z) (s : A) : res (list A) :=
  fold_left (fun r i => let? l := r in py_setitem l (d + i) s) (py_range n) (Ok l).

(* pop operands for a value instruction and push its result *)
Definition exec_num (n : numop) (args : list arg) : B unit :=
  match n with
  | N0 f => pushr (f args)
  | N1 f => let! a := pop in pushr (f args a)
  | N2 f => let! b := pop in let! a := pop in pushr (f args a b)
  | N3 f => let! c := pop in let! b := pop in let! a := pop in pushr (f args a b c)
  end.

(* The remaining instructions *)
Definition exec_misc (mr : modref) (o : opc) (args : list arg) : B unit :=
  match o with
  (* 1813-1814 *)
  | O_nop => ret tt
  (* 1881-1882 *)
  | O_drop => let! _ := pop in ret tt
  (* 1897-1899 *)
  | O_local_get =>
    let! i := lift (arg_int args 0) in
    let! l := get_locals in
    pushr (py_index l i)
  (* 1900-1902 *)
  | O_local_set =>
    let! a := pop in
    let! i := lift (arg_int args 0) in
    let! l := get_locals in
    let! l := lift (py_setitem l i a) in
    put_locals l
  (* 1903-1905 *)
  | O_local_tee =>
    let! a := top in
    let! i := lift (arg_int args 0) in
    let! l := get_locals in
    let! l := lift (py_setitem l i a) in
    put_locals l
  (* 1906-1908 *)
  | O_global_get =>
    let! i := lift (arg_int args 0) in
    let! a := mod_addr mr m_glob i in
    let! g := get_glob a in
    push (gi_data g)
  (* 1909-1912 *)
  | O_global_set =>
    let! i := lift (arg_int args 0) in
    let! a := mod_addr mr m_glob i in
    let! g := get_glob a in
    assert (gi_mut g =? 1) ;;
    let! v := pop in
    put_glob a (mkglob v (gi_mut g))
  (* 1913-1917 *)
  | O_table_get =>
    let! i := lift (arg_int args 0) in
    let! a := mod_addr mr m_tabl i in
    let! t := get_tab a in
    let! k := pop_u32 in
    pushr (py_index (ti_elem t) k)
  (* 1918-1923 *)
  | O_table_set =>
    let! i := lift (arg_int args 0) in
    let! a := mod_addr mr m_tabl i in
    let! t := get_tab a in
    let! v := pop in
    assert (vt_eqb (v_type v) (tt_type (ti_type t))) ;;
    let! k := pop_u32 in
    let! l := lift (py_setitem (ti_elem t) k v) in
    put_tab a (mktab (ti_type t) l (ti_size t))
  (* 1984-1987 *)
  | O_memory_size =>
    let! a := mod_addr mr m_mems 0 in
    let! m := get_mem a in
    pushr (from_i32 (mi_size m))
  (* 1988-1999 *)
  | O_memory_grow =>
    let! a := mod_addr mr m_mems 0 in
    let! m := get_mem a in
    let! incr := pop_u32 in
    let cnda := mi_size m + incr <=? 1024 in
    let cndb := (l_m (mi_type m) =? 0) || (mi_size m + incr <=? l_m (mi_type m)) in
    if cnda && cndb then
      let! m' := lift (mem_grow m incr) in
      put_mem a m' ;;
      pushr (from_i32 (mi_size m))
    else pushr (from_i32 (-1))
  (* 2658-2661 *)
  | O_ref_func =>
    let! i := lift (arg_int args 0) in
    let! a := mod_addr mr m_func i in
    pushr (from_ref T_func a)
  (* 2718-2726 *)
  | O_memory_init =>
    let! a := mod_addr mr m_mems 0 in
    let! m := get_mem a in
    let! i := lift (arg_int args 0) in
    let! da := mod_addr mr m_data i in
    let! b := get_data da in
    let! d := get_blob b in
    let! n := pop_u32 in
    let! src := pop_u32 in
    let! dst := pop_u32 in
    assert (src + n <=? len d) ;;
    assert (dst + n <=? len (mi_data m)) ;;
    put_mem a (set_mi_data m (py_slice_set (mi_data m) dst (dst + n) (py_slice d src (src + n))))
  (* 2727-2729 *)
  | O_data_drop =>
    let! i := lift (arg_int args 0) in
    let! da := mod_addr mr m_data i in
    let! b := get_data da in
    put_blob b []
  (* 2730-2737 *)
  | O_memory_copy =>
    let! a := mod_addr mr m_mems 0 in
    let! m := get_mem a in
    let! n := pop_u32 in
    let! src := pop_u32 in
    let! dst := pop_u32 in
    assert (src + n <=? len (mi_data m)) ;;
    assert (dst + n <=? len (mi_data m)) ;;
    put_mem a (set_mi_data m (py_slice_set (mi_data m) dst (dst + n) (py_slice (mi_data m) src (src + n))))
  (* 2738-2745 *)
  | O_memory_fill =>
    let! a := mod_addr mr m_mems 0 in
    let! m := get_mem a in
    let! n := pop_u32 in
    let! v := pop in
    let! x := lift (py_index (v_data v) 0) in
    let! dst := pop_u32 in
    assert (dst + n <=? len (mi_data m)) ;;
    let! l := lift (fill_loop (mi_data m) dst n x) in
    put_mem a (set_mi_data m l)
  (* 2746-2754 *)
  | O_table_init =>
    let! j := lift (arg_int args 1) in
    let! a := mod_addr mr m_tabl j in
    let! t := get_tab a in
    let! i := lift (arg_int args 0) in
    let! ea := mod_addr mr m_elem i in
    let! e := get_elem ea in
    let! n := pop_u32 in
    let! src := pop_u32 in
    let! dst := pop_u32 in
    assert (src + n <=? len (li_data e)) ;;
    assert (dst + n <=? len (ti_elem t)) ;;
    put_tab a (mktab (ti_type t) (py_slice_set (ti_elem t) dst (dst + n) (py_slice (li_data e) src (src + n)))
                 (ti_size t))
  (* 2755-2760 *)
  | O_elem_drop =>
    let! i := lift (arg_int args 0) in
    let! ea := mod_addr mr m_elem i in
    let! e := get_elem ea in
    put_elem ea (mkelem (li_type e) [])
  (* 2761-2769 *)
  | O_table_copy =>
    let! i := lift (arg_int args 0) in
    let! ax := mod_addr mr m_tabl i in
    let! tx := get_tab ax in
    let! j := lift (arg_int args 1) in
    let! ay := mod_addr mr m_tabl j in
    let! ty := get_tab ay in
    let! n := pop_u32 in
    let! src := pop_u32 in
    let! dst := pop_u32 in
    assert (src + n <=? len (ti_elem ty)) ;;
    assert (dst + n <=? len (ti_elem tx)) ;;
    put_tab ax (mktab (ti_type tx) (py_slice_set (ti_elem tx) dst (dst + n) (py_slice (ti_elem ty) src (src + n)))
                  (ti_size tx))
  (* 2770-2781 *)
  | O_table_grow =>
    let! i := lift (arg_int args 0) in
    let! a := mod_addr mr m_tabl i in
    let! t := get_tab a in
    let! incr := pop_u32 in
    let! init := pop in
    let cnda := ti_size t + incr <=? 1024 in
    let cndb := (l_m (tt_limits (ti_type t)) =? 0) || (ti_size t + incr <=? l_m (tt_limits (ti_type t))) in
    if cnda && cndb then
      let! t' := lift (tab_grow t incr init) in
      put_tab a t' ;;
      pushr (from_i32 (ti_size t))
    else pushr (from_i32 (-1))
  (* 2782-2785 *)
  | O_table_size =>
    let! i := lift (arg_int args 0) in
    let! a := mod_addr mr m_tabl i in
    let! t := get_tab a in
    pushr (from_i32 (ti_size t))
  (* 2786-2793 *)
  | O_table_fill =>
    let! i := lift (arg_int args 0) in
    let! a := mod_addr mr m_tabl i in
    let! t := get_tab a in
    let! n := pop_u32 in
    let! v := pop in
    let! dst := pop_u32 in
    assert (dst + n <=? len (ti_elem t)) ;;
    let! l := lift (fill_loop (ti_elem t) dst n v) in
    put_tab a (mktab (ti_type t) l (ti_size t))
  (* 3255-3306 *)
  | O_v128_load8_lane => load_lane mr 1 args
  | O_v128_load16_lane => load_lane mr 2 args
  | O_v128_load32_lane => load_lane mr 4 args
  | O_v128_load64_lane => load_lane mr 8 args
  | O_v128_store8_lane => store_lane mr 1 args
  | O_v128_store16_lane => store_lane mr 2 args
  | O_v128_store32_lane => store_lane mr 4 args
  | O_v128_store64_lane => store_lane mr 8 args
  (* 1811-1812 unreachable, 1850-1853 else and end, 4106-4107 everything that is not implemented: `assert 0` *)
  | _ => fail EAssert
  end.

(* one instruction that does not transfer control *)
Definition exec_basic (F : fops) (mr : modref) (o : opc) (args : list arg) : B unit :=
  match num_op F o with
  | Some n => exec_num n args
  | None =>
    match load_op o with
    | Some (size, conv) =>
      let! off := lift (arg_int args 1) in
      let! d := mem_load mr off size in
      pushr (conv d)
    | None =>
      match store_op o with
      | Some size => let! off := lift (arg_int args 1) in mem_save mr off size
      | None => exec_misc mr o args
      end
    end
  end.
