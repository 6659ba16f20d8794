(* The binary format reader: every from_reader of pywasm/core.py, 325-333 and 364-1394.
   A reader is a function of the unread bytes. The `for _ in range(1 << 32)` loops of 376-403 and 728 are taken to be
   unbounded: to reach the bound the input needs more than 2^32 bytes. Not modelled: the debug log (1335-1392, and the
   disassembly at 1383, which only formats text), RecursionError at deep nesting, MemoryError. *)
From Coq Require Import ZArith List Bool.
From Verif Require Import Py Leb128 Val Opcode Numeric Syntax Store Utf8.
Import ListNotations.
Open Scope Z_scope.

Definition R (A : Type) : Type := ST (list Z) A.

(* `ord(r.read(1))` *)
Definition rd_ord : R Z := fun r => match r with [] => (Err EType, []) | b :: r' => (Ok b, r') end.
(* `pywasm.leb128.u.decode_reader(r)[0]` and `pywasm.leb128.i.decode_reader(r)[0]`; they fail only by reading to the end *)
Definition rd_u : R Z := fun r => match u_decode_reader r with Ok (z, _, r') => (Ok z, r') | Err e => (Err e, []) end.
Definition rd_i : R Z := fun r => match i_decode_reader r with Ok (z, _, r') => (Ok z, r') | Err e => (Err e, []) end.
(* `r.read(n)` with n >= 0: as many bytes as there are, up to n; OverflowError if n does not fit a C ssize_t *)
Definition rd_bytes (n : Z) : R (list Z) := fun r =>
  if n >=? 2 ^ 63 then (Err EOverflow, r)
  else let k := Z.to_nat (Z.min n (len r)) in (Ok (firstn k r), skipn k r).
(* `r.read(n).decode()` *)
Definition rd_name (n : Z) : R name := let! b := rd_bytes n in lift (utf8_decode b).

(* `[p(r) for _ in range(n)]`. Every [p] it is used with takes at least one byte or raises, so that one more turn than
   there are bytes left is enough (DecodeFacts.v shows that EStop never comes out). *)
Fixpoint times {A} (f : nat) (n : Z) (p : R A) : R (list A) :=
  match f with
  | O => fail EStop
  | S f' => if n <=? 0 then ret [] else let! x := p in let! xs := times f' (n - 1) p in ret (x :: xs)
  end.
Definition rd_times {A} (n : Z) (p : R A) : R (list A) := fun r => times (S (length r)) n p r.
(* `[p(r) for _ in range(pywasm.leb128.u.decode_reader(r)[0])]`: the count is read first *)
Definition rd_vec {A} (p : R A) : R (list A) := let! n := rd_u in rd_times n p.

(* core.py 64-66: ValType.from_reader *)
Definition rd_valtype : R valtype := let! b := rd_ord in lift (vt_of_code b).

(* core.py 325-333: Bype.from_reader; `r.seek(-1, 1)` puts the byte back *)
Definition rd_bype : R bype := fun r =>
  match r with
  | [] => (Err EType, [])
  | n :: r' =>
    if n =? 0x40 then (Ok BT_empty, r')
    else match vt_of_code n with
         | Ok t => (Ok (BT_val t), r')
         | Err _ => (let! i := rd_i in ret (BT_idx i)) r
         end
  end.

(* core.py 365-370: the opcode; a prefix byte is followed by a LEB128 number, and the two together name the instruction *)
Definition rd_opc : R opc :=
  let! b := rd_ord in
  let! b := (if b >=? 0xfc then let! k := rd_u in let! e := lift (u_encode k) in ret (be_of (b :: e)) else ret b) in
  match opc_of_code b with Some o => ret o | None => fail EAssert end.

(* core.py 404-707: the immediates of the instructions that have no body. *)
Definition rd_args (o : opc) : R (list arg) :=
  match o with
  | O_br | O_br_if | O_call | O_local_get | O_local_set | O_local_tee | O_global_get | O_global_set | O_table_get
  | O_table_set | O_ref_func | O_data_drop | O_elem_drop | O_table_grow | O_table_size | O_table_fill =>
    let! a := rd_u in ret [AInt a]
  | O_br_table =>
    let! a := rd_vec rd_u in let! b := rd_u in ret [AList a; AInt b]
  | O_call_indirect | O_table_init | O_table_copy | O_v128_load32_zero | O_v128_load64_zero =>
    let! a := rd_u in let! b := rd_u in ret [AInt a; AInt b]
  | O_select_type =>
    let! a := rd_vec rd_u in ret [AList a]
  | O_i32_load | O_f32_load | O_i64_load32_s | O_i64_load32_u | O_i32_store | O_f32_store | O_i64_store32
  | O_v128_load32_splat =>
    let! a := rd_u in let! b := rd_u in assert (a <? 3) ;; ret [AInt a; AInt b]
  | O_i64_load | O_f64_load | O_i64_store | O_f64_store | O_v128_load8x8_s | O_v128_load8x8_u | O_v128_load16x4_s
  | O_v128_load16x4_u | O_v128_load32x2_s | O_v128_load32x2_u | O_v128_load64_splat =>
    let! a := rd_u in let! b := rd_u in assert (a <? 4) ;; ret [AInt a; AInt b]
  | O_i32_load8_s | O_i32_load8_u | O_i64_load8_s | O_i64_load8_u | O_i32_store8 | O_i64_store8 | O_v128_load8_splat =>
    let! a := rd_u in let! b := rd_u in assert (a <? 1) ;; ret [AInt a; AInt b]
  | O_i32_load16_s | O_i32_load16_u | O_i64_load16_s | O_i64_load16_u | O_i32_store16 | O_i64_store16
  | O_v128_load16_splat =>
    let! a := rd_u in let! b := rd_u in assert (a <? 2) ;; ret [AInt a; AInt b]
  | O_memory_size | O_memory_grow | O_ref_null =>
    let! a := rd_ord in ret [AInt a]
  | O_i32_const | O_i64_const =>
    let! a := rd_i in ret [AInt a]
  | O_f32_const =>
    let! b := rd_bytes 4 in let! a := lift (unpack_s 4 b) in ret [AInt a]
  | O_f64_const =>
    let! b := rd_bytes 8 in let! a := lift (unpack_s 8 b) in ret [AInt a]
  | O_memory_init =>
    let! a := rd_u in let! z := rd_ord in assert (z =? 0) ;; ret [AInt a]
  | O_memory_copy =>
    let! z := rd_ord in assert (z =? 0) ;; let! z := rd_ord in assert (z =? 0) ;; ret []
  | O_memory_fill =>
    let! z := rd_ord in assert (z =? 0) ;; ret []
  | O_v128_load | O_v128_store =>
    let! a := rd_u in let! b := rd_u in assert (a <? 5) ;; ret [AInt a; AInt b]
  | O_v128_const =>
    let! b := rd_bytes 16 in ret [ABytes b]
  | O_i8x16_shuffle =>
    let! l := rd_times 16 rd_u in forl (fun e => assert (e <? 32)) l ;; ret (map AInt l)
  | O_i8x16_extract_lane_s | O_i8x16_extract_lane_u | O_i8x16_replace_lane =>
    let! a := rd_u in assert (a <? 16) ;; ret [AInt a]
  | O_i16x8_extract_lane_s | O_i16x8_extract_lane_u | O_i16x8_replace_lane =>
    let! a := rd_u in assert (a <? 8) ;; ret [AInt a]
  | O_i32x4_extract_lane | O_i32x4_replace_lane | O_f32x4_extract_lane | O_f32x4_replace_lane =>
    let! a := rd_u in assert (a <? 4) ;; ret [AInt a]
  | O_i64x2_extract_lane | O_i64x2_replace_lane | O_f64x2_extract_lane | O_f64x2_replace_lane =>
    let! a := rd_u in assert (a <? 2) ;; ret [AInt a]
  | O_v128_load8_lane | O_v128_store8_lane =>
    let! a := rd_u in let! b := rd_u in let! c := rd_u in assert (c <? 16) ;; ret [AInt a; AInt b; AInt c]
  | O_v128_load16_lane | O_v128_store16_lane =>
    let! a := rd_u in let! b := rd_u in let! c := rd_u in assert (c <? 8) ;; ret [AInt a; AInt b; AInt c]
  | O_v128_load32_lane | O_v128_store32_lane =>
    let! a := rd_u in let! b := rd_u in let! c := rd_u in assert (c <? 4) ;; ret [AInt a; AInt b; AInt c]
  | O_v128_load64_lane | O_v128_store64_lane =>
    let! a := rd_u in let! b := rd_u in let! c := rd_u in assert (c <? 2) ;; ret [AInt a; AInt b; AInt c]
  | _ => ret []
  end.

(* `i.opcode == pywasm.opcode.end` and `... .else_fi` *)
Definition inst_is (c : opc) (i : inst) : bool := match i with IOp o _ => opc_code o =? opc_code c | _ => false end.
(* core.py 375-379 and 383-387 and 728-732: instructions up to an `end` *)
Fixpoint until (f : nat) (p : R inst) : R (list inst) :=
  match f with
  | O => fail EStop
  | S f' => let! i := p in if inst_is O_end i then ret [] else let! l := until f' p in ret (i :: l)
  end.
(* core.py 392-400: as above, collecting into args[1] and, after an `else`, into args[2]; [second] is argidx == 2 *)
Fixpoint until_if (f : nat) (p : R inst) (second : bool) : R (list inst * list inst) :=
  match f with
  | O => fail EStop
  | S f' =>
    let! i := p in
    if inst_is O_end i then ret ([], [])
    else if inst_is O_else_fi i then until_if f' p true
    else let! (l, k) := until_if f' p second in ret (if second then (l, i :: k) else (i :: l, k))
  end.

(* core.py 364-708: Inst.from_reader. [f] bounds nesting and length; S (number of bytes left) is always enough. *)
Fixpoint rd_inst_f (f : nat) : R inst :=
  match f with
  | O => fail EStop
  | S f' =>
    let! o := rd_opc in
    match o with
    | O_block => let! t := rd_bype in let! l := until f' (rd_inst_f f') in ret (IBlock t l)
    | O_loop => let! t := rd_bype in let! l := until f' (rd_inst_f f') in ret (ILoop t l)
    | O_if_then => let! t := rd_bype in let! (l, k) := until_if f' (rd_inst_f f') false in ret (IIf t l k)
    | _ => let! a := rd_args o in ret (IOp o a)
    end
  end.
Definition rd_inst : R inst := fun r => rd_inst_f (S (length r)) r.

(* core.py 725-733: Expr.from_reader *)
Definition rd_expr : R expr := fun r => until (S (length r)) rd_inst r.

(* core.py 747-749: LocalsDesc.from_reader *)
Definition rd_locals : R (Z * valtype) := let! n := rd_u in let! t := rd_valtype in ret (n, t).

(* core.py 778-785: FuncType.from_reader *)
Definition rd_functype : R functype :=
  let! b := rd_ord in assert (b =? 0x60) ;;
  let! args := rd_vec rd_valtype in let! rets := rd_vec rd_valtype in ret (mkft args rets).

(* core.py 808-810: FuncDesc.from_reader_type; 812-814: FuncDesc.from_reader_code *)
Definition rd_func_type : R funcdesc := let! t := rd_u in ret (mkfd t [] []).
Definition rd_func_code : R funcdesc :=
  let! l := rd_vec rd_locals in let! e := rd_expr in ret (mkfd 0 l e).

(* core.py 834-837: Limits.from_reader *)
Definition rd_limits : R limits :=
  let! flag := rd_ord in let! n := rd_u in
  let! m := (if negb (flag =? 0) then rd_u else ret 0) in ret (mklim n m).

(* core.py 850-852: MemType.from_reader *)
Definition rd_memtype : R memtype := rd_limits.

(* core.py 944-946: TableType.from_reader *)
Definition rd_tabletype : R tabletype :=
  let! t := rd_valtype in let! l := rd_limits in lift (mk_tabletype t l).

(* core.py 987-989: GlobalType.from_reader; 1002-1004: GlobalDesc.from_reader *)
Definition rd_globaltype : R globaltype :=
  let! t := rd_valtype in let! m := rd_ord in lift (mk_globaltype t m).
Definition rd_global : R globaldesc := let! t := rd_globaltype in let! e := rd_expr in ret (mkgd t e).

(* core.py 1030-1033: Custom.from_reader; the data are the rest *)
Definition rd_custom : R (name * list Z) :=
  let! n := rd_u in let! nm := rd_name n in fun r => (Ok (nm, r), []).

(* core.py 1059-1075: Import.from_reader; other kinds are a KeyError *)
Definition rd_import : R import :=
  let! n := rd_u in let! md := rd_name n in
  let! n := rd_u in let! nm := rd_name n in
  let! k := rd_ord in
  let! d := (if k =? 0 then let! i := rd_u in ret (ImpFunc i)
             else if k =? 1 then let! t := rd_tabletype in ret (ImpTable t)
             else if k =? 2 then let! t := rd_memtype in ret (ImpMem t)
             else if k =? 3 then let! t := rd_globaltype in ret (ImpGlobal t)
             else fail EKey) in
  ret (mkimp md nm d).

(* core.py 1117-1121: ExportDesc.from_reader, with the constructor's assertion *)
Definition rd_export : R exportdesc :=
  let! n := rd_u in let! nm := rd_name n in let! k := rd_ord in let! d := rd_u in
  assert ((k =? 0) || (k =? 1) || (k =? 2) || (k =? 3)) ;; ret (mkexp nm k d).

(* core.py 1153-1209: ElemDesc.from_reader, with the constructor's assertions (1142-1143) *)
Definition rd_funcidx : R expr := let! i := rd_u in ret [IOp O_ref_func [AInt i]].
Definition rd_elemkind : R unit := let! b := rd_ord in assert (b =? 0).
Definition rd_elem : R elemdesc :=
  let! k := rd_u in
  if k =? 0 then let! e := rd_expr in let! i := rd_vec rd_funcidx in ret (mked 0 T_func 0 e i)
  else if k =? 1 then rd_elemkind ;; let! i := rd_vec rd_funcidx in ret (mked 1 T_func 0 [] i)
  else if k =? 2 then
    let! t := rd_u in let! e := rd_expr in rd_elemkind ;; let! i := rd_vec rd_funcidx in ret (mked 2 T_func t e i)
  else if k =? 3 then rd_elemkind ;; let! i := rd_vec rd_funcidx in ret (mked 3 T_func 0 [] i)
  else if k =? 4 then let! e := rd_expr in let! i := rd_vec rd_expr in ret (mked 4 T_func 0 e i)
  else if k =? 5 then let! y := rd_valtype in let! i := rd_vec rd_expr in ret (mked 5 y 0 [] i)
  else if k =? 6 then
    let! t := rd_u in let! e := rd_expr in let! y := rd_valtype in let! i := rd_vec rd_expr in ret (mked 6 y t e i)
  else if k =? 7 then let! y := rd_valtype in let! i := rd_vec rd_expr in ret (mked 7 y 0 [] i)
  else fail EAssert.

(* core.py 1245-1261: DataDesc.from_reader; other kinds leave `midx` unbound; the constructor asserts midx == 0 *)
Definition rd_data : R datadesc :=
  let! k := rd_u in
  if k =? 0 then let! e := rd_expr in let! n := rd_u in let! b := rd_bytes n in ret (mkdd 0 0 e b)
  else if k =? 1 then let! n := rd_u in let! b := rd_bytes n in ret (mkdd 1 0 [] b)
  else if k =? 2 then
    let! m := rd_u in let! e := rd_expr in let! n := rd_u in let! b := rd_bytes n in
    assert (m =? 0) ;; ret (mkdd 2 m e b)
  else fail EName.

(* core.py 1377-1383: the code section; entry i fills in func[i]. A body is read from its own `io.BytesIO`. *)
Definition on_bytes {A} (p : R A) (b : list Z) : res A := fst (p b).
Fixpoint rd_codes (f : nat) (n i : Z) (fs : list funcdesc) : R (list funcdesc) :=
  match f with
  | O => fail EStop
  | S f' =>
    if n <=? 0 then ret fs else
    let! size := rd_u in
    let! b := rd_bytes size in
    let! d := lift (on_bytes rd_func_code b) in
    let! fd := lift (py_index fs i) in
    let! fs := lift (py_setitem fs i (mkfd (fd_type fd) (fd_locals d) (fd_expr d))) in
    rd_codes f' (n - 1) (i + 1) fs
  end.

(* core.py 1333-1392: one section's content, added to what has been collected *)
Definition rd_section (id : Z) (md : moddesc) : R moddesc :=
  let '(mkmd ty fn tb me gl el da st im ex) := md in
  if id =? 0 then let! _ := rd_custom in ret md
  else if id =? 1 then let! l := rd_vec rd_functype in ret (mkmd (ty ++ l) fn tb me gl el da st im ex)
  else if id =? 2 then let! l := rd_vec rd_import in ret (mkmd ty fn tb me gl el da st (im ++ l) ex)
  else if id =? 3 then let! l := rd_vec rd_func_type in ret (mkmd ty (fn ++ l) tb me gl el da st im ex)
  else if id =? 4 then let! l := rd_vec rd_tabletype in ret (mkmd ty fn (tb ++ l) me gl el da st im ex)
  else if id =? 5 then let! l := rd_vec rd_memtype in ret (mkmd ty fn tb (me ++ l) gl el da st im ex)
  else if id =? 6 then let! l := rd_vec rd_global in ret (mkmd ty fn tb me (gl ++ l) el da st im ex)
  else if id =? 7 then let! l := rd_vec rd_export in ret (mkmd ty fn tb me gl el da st im (ex ++ l))
  else if id =? 8 then let! i := rd_u in ret (mkmd ty fn tb me gl el da i im ex)
  else if id =? 9 then let! l := rd_vec rd_elem in ret (mkmd ty fn tb me gl (el ++ l) da st im ex)
  else if id =? 10 then
    let! n := rd_u in let! fs := (fun r => rd_codes (S (length r)) n 0 fn r) in ret (mkmd ty fs tb me gl el da st im ex)
  else if id =? 11 then let! l := rd_vec rd_data in ret (mkmd ty fn tb me gl el (da ++ l) st im ex)
  else if id =? 12 then let! _ := rd_u in ret md
  else ret md.

(* core.py 1323-1392: `for _ in range(32)` *)
Fixpoint rd_sections (turns : nat) (md : moddesc) : R moddesc := fun r =>
  match turns with
  | O => (Ok md, r)
  | S k =>
    match r with
    | [] => (Ok md, [])
    | id :: r' =>
      (let! n := rd_u in
       let! b := rd_bytes n in
       assert (len b =? n) ;;
       let! md := lift (on_bytes (rd_section id md) b) in
       rd_sections k md) r'
    end
  end.

(* core.py 1303-1394: ModuleDesc.from_reader *)
Definition md_empty : moddesc := mkmd [] [] [] [] [] [] [] (-1) [] [].
Fixpoint zs_eqb (a b : list Z) : bool :=
  match a, b with [], [] => true | x :: a, y :: b => (x =? y) && zs_eqb a b | _, _ => false end.
Definition rd_module : R moddesc :=
  let! b := rd_bytes 4 in assert (zs_eqb b [0x00; 0x61; 0x73; 0x6d]) ;;
  let! b := rd_bytes 4 in assert (zs_eqb b [0x01; 0x00; 0x00; 0x00]) ;;
  rd_sections 32 md_empty.
Definition module_from_reader (b : list Z) : res moddesc := on_bytes rd_module b.
