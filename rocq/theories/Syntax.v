(* The abstract syntax of a decoded module: pywasm/core.py 306-346 and 711-1301. *)
From Coq Require Import ZArith List Bool.
From Verif Require Import Py Val Opcode Numeric.
Import ListNotations.
Open Scope Z_scope.

(* core.py 306-313: Bype. [BT_val] holds the value type that `ValType(bype.data)` builds. *)
Inductive bype : Set :=
| BT_empty
| BT_val (t : valtype)
| BT_idx (i : Z).

(* core.py 336-346: Inst. The three structured instructions carry instruction lists in their arguments
   (block and loop: [bype, body]; if: [bype, then, else]); every other instruction has plain immediates. *)
Inductive inst : Set :=
| IBlock (bt : bype) (body : list inst)
| ILoop (bt : bype) (body : list inst)
| IIf (bt : bype) (th el : list inst)
| IOp (o : opc) (args : list arg).

(* core.py 711-716: Expr *)
Definition expr : Set := list inst.

(* A name is the list of the code points of a Python str. *)
Definition name : Set := list Z.
Fixpoint name_eqb (a b : name) : bool :=
  match a, b with
  | [], [] => true
  | x :: a', y :: b' => (x =? y) && name_eqb a' b'
  | _, _ => false
  end.

(* core.py 763-774: FuncType and its __eq__ *)
Record functype : Set := mkft { ft_args : list valtype; ft_rets : list valtype }.
Fixpoint vts_eqb (a b : list valtype) : bool :=
  match a, b with
  | [], [] => true
  | x :: a', y :: b' => vt_eqb x y && vts_eqb a' b'
  | _, _ => false
  end.
Definition ft_eqb (a b : functype) : bool := vts_eqb (ft_args a) (ft_args b) && vts_eqb (ft_rets a) (ft_rets b).

(* core.py 817-832: Limits; m = 0 stands for "no maximum" *)
Record limits : Set := mklim { l_n : Z; l_m : Z }.
Definition limits_suit (self value : limits) : bool :=
  let c1 := l_n self >=? l_n value in
  let c2 := l_m value =? 0 in
  let c3 := negb (l_m self =? 0) && negb (l_m value =? 0) && (l_m self <=? l_m value) in
  c1 && (c2 || c3).

(* core.py 929-938: TableType; the constructor's assertion on the type is in [mk_tabletype] *)
Record tabletype : Set := mktt { tt_type : valtype; tt_limits : limits }.
Definition mk_tabletype (t : valtype) (l : limits) : res tabletype :=
  let? _ := py_assert (is_ref t) in Ok (mktt t l).

(* core.py 840-846: MemType *)
Definition memtype : Set := limits.

(* core.py 975-981: GlobalType *)
Record globaltype : Set := mkgt { gt_type : valtype; gt_mut : Z }.
Definition mk_globaltype (t : valtype) (m : Z) : res globaltype :=
  let? _ := py_assert ((m =? 0) || (m =? 1)) in Ok (mkgt t m).

(* core.py 736-744, 788-803: LocalsDesc, FuncDesc *)
Record funcdesc : Set := mkfd { fd_type : Z; fd_locals : list (Z * valtype); fd_expr : expr }.

(* core.py 992-997: GlobalDesc *)
Record globaldesc : Set := mkgd { gd_type : globaltype; gd_init : expr }.

(* core.py 1136-1148: ElemDesc *)
Record elemdesc : Set := mked { ed_kind : Z; ed_type : valtype; ed_tidx : Z; ed_offset : expr; ed_init : list expr }.

(* core.py 1225-1239: DataDesc *)
Record datadesc : Set := mkdd { dd_kind : Z; dd_midx : Z; dd_offset : expr; dd_init : list Z }.

(* core.py 1035-1053: Import; desc is a type index, a TableType, a MemType or a GlobalType *)
Inductive impdesc : Set :=
| ImpFunc (tidx : Z)
| ImpTable (t : tabletype)
| ImpMem (t : memtype)
| ImpGlobal (t : globaltype).
Record import : Set := mkimp { im_module : name; im_name : name; im_desc : impdesc }.
Definition im_kind (i : import) : Z :=
  match im_desc i with ImpFunc _ => 0 | ImpTable _ => 1 | ImpMem _ => 2 | ImpGlobal _ => 3 end.

(* core.py 1094-1105: ExportDesc *)
Record exportdesc : Set := mkexp { ex_name : name; ex_kind : Z; ex_desc : Z }.

(* core.py 1272-1301: ModuleDesc; star is -1 when there is no start section *)
Record moddesc : Set := mkmd {
  md_type : list functype;
  md_func : list funcdesc;
  md_tabl : list tabletype;
  md_mems : list memtype;
  md_glob : list globaldesc;
  md_elem : list elemdesc;
  md_data : list datadesc;
  md_star : Z;
  md_imps : list import;
  md_exps : list exportdesc
}.
