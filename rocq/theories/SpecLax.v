(* What the loader accepts: the binary format of SpecFormat.v with every relaxation named. Whatever is not marked
   "relaxed" is as in the standard. *)
From Coq Require Import ZArith List Bool.
From Verif Require Import Py Val Opcode Numeric Syntax SpecLeb SpecMem SpecFormat.
Import ListNotations.
Open Scope Z_scope.

(* relaxed: a number may have any length, and any size (C05) *)
Definition number (n : Z) (b : list Z) : Prop := group b /\ base128 b = n.
Definition integer (n : Z) (b : list Z) : Prop := group b /\ base128_signed b = n.
Definition items {A} (item : A -> list Z -> Prop) (l : list A) (b : list Z) : Prop :=
  exists c bs, number (len l) c /\ Forall2 item l bs /\ b = c ++ concat bs.
Definition lax_name (s : name) (b : list Z) : Prop :=
  Forall scalar s /\ exists c, number (len (utf8 s)) c /\ b = c ++ utf8 s.
(* relaxed: fewer bytes than announced, where the input ends (C74) *)
Definition at_most (d : list Z) (b : list Z) : Prop := bytes d /\ exists n c, number n c /\ len d <= n /\ b = c ++ d.

Definition lax_functype (t : functype) (b : list Z) : Prop :=
  exists x y, items enc_valtype (ft_args t) x /\ items enc_valtype (ft_rets t) y /\ b = 0x60 :: x ++ y.
(* relaxed: any byte but 0 stands for 1, and a maximum of 0 is no maximum (C22) *)
Inductive lax_limits : limits -> list Z -> Prop :=
| ll_min n x : number n x -> lax_limits (mklim n 0) (0x00 :: x)
| ll_max k n m x y : byte k -> k <> 0 -> number n x -> number m y -> lax_limits (mklim n m) (k :: x ++ y).
Definition lax_tabletype (t : tabletype) (b : list Z) : Prop :=
  exists x y, enc_reftype (tt_type t) x /\ lax_limits (tt_limits t) y /\ b = x ++ y.

Inductive lax_opc : opc -> list Z -> Prop :=
| lo_one o n : In (o, n) one_byte -> lax_opc o [n]
| lo_fc o n b : In (o, n) after_fc -> number n b -> lax_opc o (0xfc :: b)
| lo_fd o n b : In (o, n) after_fd -> number n b -> lax_opc o (0xfd :: b).
Inductive lax_args (o : opc) : shape -> list arg -> list Z -> Prop :=
| la_none : lax_args o SNone [] []
| la_idx i x : number i x -> lax_args o SIdx [AInt i] x
| la_idx2 i j x y : number i x -> number j y -> lax_args o SIdx2 [AInt i; AInt j] (x ++ y)
| la_br_table l d x y : items number l x -> number d y -> lax_args o SBrTable [AList l; AInt d] (x ++ y)
(* relaxed: any numbers for the types of a select *)
| la_types l x : items number l x -> lax_args o STypes [AList l] x
(* relaxed: no bound on the alignment of two instructions, and of the loads and stores of one lane (C73) *)
| la_mem w a off x y : number a x -> number off y -> 2 ^ a <= w \/ o = O_v128_load32_zero \/ o = O_v128_load64_zero ->
    lax_args o (SMem w) [AInt a; AInt off] (x ++ y)
(* relaxed: a lane is a number instead of a byte *)
| la_mem_lane w a off k x y z : number a x -> number off y -> number k z -> k < 16 / w ->
    lax_args o (SMemLane w) [AInt a; AInt off; AInt k] (x ++ y ++ z)
| la_lane n k x : number k x -> k < n -> lax_args o (SLane n) [AInt k] x
| la_shuffle l bs : len l = 16 -> Forall2 number l bs -> Forall (fun k => k < 32) l -> lax_args o SShuffle (map AInt l) (concat bs)
| la_i32 z x : integer z x -> lax_args o SI32 [AInt z] x
| la_i64 z x : integer z x -> lax_args o SI64 [AInt z] x
| la_f32 z x : bits_of 4 z x -> lax_args o SF32 [AInt z] x
| la_f64 z x : bits_of 8 z x -> lax_args o SF64 [AInt z] x
| la_v128 x : bytes x -> len x = 16 -> lax_args o SV128 [ABytes x] x
(* relaxed: any byte for the type of ref.null *)
| la_ref x : byte x -> lax_args o SRef [AInt x] [x]
| la_idx_zero i x : number i x -> lax_args o SIdxZero [AInt i] (x ++ [0])
(* relaxed: any byte for the zero of memory.size and memory.grow *)
| la_zero_arg x : byte x -> lax_args o SZeroArg [AInt x] [x]
| la_zero n : lax_args o (SZero n) [] (repeat 0 n).
(* relaxed: a type index may be negative *)
Inductive lax_bype : bype -> list Z -> Prop :=
| lb_empty : lax_bype BT_empty [0x40]
| lb_val t x : enc_valtype t x -> lax_bype (BT_val t) x
| lb_idx i x : integer i x -> lax_bype (BT_idx i) x.

Inductive lax_inst : inst -> list Z -> Prop :=
| li_op o s args x y : shape_of o = Some s -> lax_opc o x -> lax_args o s args y -> lax_inst (IOp o args) (x ++ y)
| li_block t l x y : lax_bype t x -> lax_seq l y -> lax_inst (IBlock t l) (0x02 :: x ++ y)
| li_loop t l x y : lax_bype t x -> lax_seq l y -> lax_inst (ILoop t l) (0x03 :: x ++ y)
| li_if t l k x y : lax_bype t x -> lax_if false l k y -> lax_inst (IIf t l k) (0x04 :: x ++ y)
(* the instructions of a block or an expression with the final `end`; relaxed: with any number of `else` (C40) *)
with lax_seq : list inst -> list Z -> Prop :=
| ls_end : lax_seq [] [0x0b]
| ls_cons i l x y : lax_inst i x -> lax_seq l y -> lax_seq (i :: l) (x ++ y)
| ls_else l y : lax_seq l y -> lax_seq (IOp O_else_fi [] :: l) (0x05 :: y)
(* the two branches of an `if`, from the first branch on and from the second; relaxed: with any number of `else` *)
with lax_if : bool -> list inst -> list inst -> list Z -> Prop :=
| lf_end second : lax_if second [] [] [0x0b]
| lf_else second l k y : lax_if true l k y -> lax_if second l k (0x05 :: y)
| lf_first i l k x y : lax_inst i x -> lax_if false l k y -> lax_if false (i :: l) k (x ++ y)
| lf_second i l k x y : lax_inst i x -> lax_if true l k y -> lax_if true l (i :: k) (x ++ y).

Definition lax_import (i : import) (b : list Z) : Prop :=
  exists x y z, lax_name (im_module i) x /\ lax_name (im_name i) y /\ b = x ++ y ++ z /\
  match im_desc i with
  | ImpFunc t => exists w, number t w /\ z = 0x00 :: w
  | ImpTable t => exists w, lax_tabletype t w /\ z = 0x01 :: w
  | ImpMem t => exists w, lax_limits t w /\ z = 0x02 :: w
  | ImpGlobal t => exists w, enc_globaltype t w /\ z = 0x03 :: w
  end.
Definition lax_global (g : globaldesc) (b : list Z) : Prop :=
  exists x y, enc_globaltype (gd_type g) x /\ lax_seq (gd_init g) y /\ b = x ++ y.
Definition lax_export (e : exportdesc) (b : list Z) : Prop :=
  exists x y, lax_name (ex_name e) x /\ 0 <= ex_kind e <= 3 /\ number (ex_desc e) y /\ b = x ++ [ex_kind e] ++ y.
Definition lax_funcref (e : expr) (b : list Z) : Prop := exists f, e = [IOp O_ref_func [AInt f]] /\ number f b.
(* relaxed: an element segment may have a number type *)
Inductive lax_elem : elemdesc -> list Z -> Prop :=
| le_0 e i x y z : number 0 z -> lax_seq e x -> items lax_funcref i y -> lax_elem (mked 0 T_func 0 e i) (z ++ x ++ y)
| le_1 i y z : number 1 z -> items lax_funcref i y -> lax_elem (mked 1 T_func 0 [] i) (z ++ [0x00] ++ y)
| le_2 t e i w x y z : number 2 z -> number t w -> lax_seq e x -> items lax_funcref i y ->
    lax_elem (mked 2 T_func t e i) (z ++ w ++ x ++ [0x00] ++ y)
| le_3 i y z : number 3 z -> items lax_funcref i y -> lax_elem (mked 3 T_func 0 [] i) (z ++ [0x00] ++ y)
| le_4 e i x y z : number 4 z -> lax_seq e x -> items lax_seq i y -> lax_elem (mked 4 T_func 0 e i) (z ++ x ++ y)
| le_5 r i v y z : number 5 z -> enc_valtype r v -> items lax_seq i y -> lax_elem (mked 5 r 0 [] i) (z ++ v ++ y)
| le_6 t e r i w x v y z : number 6 z -> number t w -> lax_seq e x -> enc_valtype r v -> items lax_seq i y ->
    lax_elem (mked 6 r t e i) (z ++ w ++ x ++ v ++ y)
| le_7 r i v y z : number 7 z -> enc_valtype r v -> items lax_seq i y -> lax_elem (mked 7 r 0 [] i) (z ++ v ++ y).
Inductive lax_data : datadesc -> list Z -> Prop :=
| lda_0 e d x y z : number 0 z -> lax_seq e x -> at_most d y -> lax_data (mkdd 0 0 e d) (z ++ x ++ y)
| lda_1 d y z : number 1 z -> at_most d y -> lax_data (mkdd 1 0 [] d) (z ++ y)
| lda_2 e d w x y z : number 2 z -> number 0 w -> lax_seq e x -> at_most d y -> lax_data (mkdd 2 0 e d) (z ++ w ++ x ++ y).
Definition lax_locals (l : Z * valtype) (b : list Z) : Prop :=
  exists x y, number (fst l) x /\ enc_valtype (snd l) y /\ b = x ++ y.
(* locals and body of a function; relaxed: other bytes may follow the body, up to its announced size *)
Definition lax_code (c : list (Z * valtype) * expr) (b : list Z) : Prop :=
  exists p x y rest, at_most p b /\ items lax_locals (fst c) x /\ lax_seq (snd c) y /\ p = x ++ y ++ rest.
Definition lax_custom (b : list Z) : Prop :=
  exists s x rest, Forall scalar s /\ at_most (utf8 s) x /\ b = x ++ rest.

(* the functions with the bodies that the code section has for the first of them *)
Fixpoint with_code (fs : list funcdesc) (cs : list (list (Z * valtype) * expr)) : list funcdesc :=
  match fs, cs with
  | f :: fs, (l, e) :: cs => mkfd (fd_type f) l e :: with_code fs cs
  | _, _ => fs
  end.
(* What a section adds to a description. Relaxed: sections may come in any order and repeatedly; a section may have more
   bytes than its content (C74); sections with numbers above 12 are ignored; the code section may have fewer functions
   than the function section (C75). *)
Inductive lax_content : Z -> moddesc -> list Z -> moddesc -> Prop :=
| lc_custom md b : lax_custom b -> lax_content 0 md b md
| lc_type ty fn tb me gl el da st im ex l b : items lax_functype l b ->
    lax_content 1 (mkmd ty fn tb me gl el da st im ex) b (mkmd (ty ++ l) fn tb me gl el da st im ex)
| lc_import ty fn tb me gl el da st im ex l b : items lax_import l b ->
    lax_content 2 (mkmd ty fn tb me gl el da st im ex) b (mkmd ty fn tb me gl el da st (im ++ l) ex)
| lc_func ty fn tb me gl el da st im ex l b : items number l b ->
    lax_content 3 (mkmd ty fn tb me gl el da st im ex) b (mkmd ty (fn ++ map (fun t => mkfd t [] []) l) tb me gl el da st im ex)
| lc_table ty fn tb me gl el da st im ex l b : items lax_tabletype l b ->
    lax_content 4 (mkmd ty fn tb me gl el da st im ex) b (mkmd ty fn (tb ++ l) me gl el da st im ex)
| lc_mem ty fn tb me gl el da st im ex l b : items lax_limits l b ->
    lax_content 5 (mkmd ty fn tb me gl el da st im ex) b (mkmd ty fn tb (me ++ l) gl el da st im ex)
| lc_global ty fn tb me gl el da st im ex l b : items lax_global l b ->
    lax_content 6 (mkmd ty fn tb me gl el da st im ex) b (mkmd ty fn tb me (gl ++ l) el da st im ex)
| lc_export ty fn tb me gl el da st im ex l b : items lax_export l b ->
    lax_content 7 (mkmd ty fn tb me gl el da st im ex) b (mkmd ty fn tb me gl el da st im (ex ++ l))
| lc_start ty fn tb me gl el da st im ex i b : number i b ->
    lax_content 8 (mkmd ty fn tb me gl el da st im ex) b (mkmd ty fn tb me gl el da i im ex)
| lc_elem ty fn tb me gl el da st im ex l b : items lax_elem l b ->
    lax_content 9 (mkmd ty fn tb me gl el da st im ex) b (mkmd ty fn tb me gl (el ++ l) da st im ex)
| lc_code ty fn tb me gl el da st im ex l b : items lax_code l b -> (length l <= length fn)%nat ->
    lax_content 10 (mkmd ty fn tb me gl el da st im ex) b (mkmd ty (with_code fn l) tb me gl el da st im ex)
| lc_data ty fn tb me gl el da st im ex l b : items lax_data l b ->
    lax_content 11 (mkmd ty fn tb me gl el da st im ex) b (mkmd ty fn tb me gl el (da ++ l) st im ex)
| lc_count md n b : number n b -> lax_content 12 md b md
| lc_other id md : 12 < id -> lax_content id md [] md.
(* [lax_sections all md b md']: the bytes [b] are the sections [all], which turn the description [md] into [md'] *)
Inductive lax_sections : list section -> moddesc -> list Z -> moddesc -> Prop :=
| lx_nil md : lax_sections [] md [] md
| lx_cons id x rest all c b md md1 md2 : lax_content id md x md1 -> number (len (x ++ rest)) c -> byte id ->
    lax_sections all md1 b md2 -> lax_sections ((id, x ++ rest) :: all) md (id :: c ++ (x ++ rest) ++ b) md2.
Definition no_parts : moddesc := mkmd [] [] [] [] [] [] [] (-1) [] [].
(* relaxed: anything may follow 32 sections (C39) *)
Definition lax_module (md : moddesc) (b : list Z) : Prop :=
  exists all x rest, lax_sections all no_parts x md /\ (rest = [] \/ length all = 32%nat) /\
  b = [0x00; 0x61; 0x73; 0x6d; 0x01; 0x00; 0x00; 0x00] ++ x ++ rest.
