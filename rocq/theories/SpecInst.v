(* What instantiating a module should do, in terms of imports, index spaces, exports and data segments. *)
From Coq Require Import ZArith List Bool.
From Verif Require Import Py Val Opcode Numeric Syntax Store Machine SpecNum SpecMachine SpecMem.
Import ListNotations.
Open Scope Z_scope.

(* item number [z] of [l] *)
Definition item {A} (l : list A) (z : Z) (x : A) : Prop := 0 <= z /\ nth_error l (Z.to_nat z) = Some x.

(* an object of [size] units with maximum [max] (0: none) is within the limits of an import *)
Definition within (size max : Z) (l : limits) : Prop := l_n l <= size /\ (l_m l <> 0 -> max <> 0 /\ max <= l_m l).
(* the external value [b] is what import [a] of module [md] asks for *)
Definition fits (s : store) (md : moddesc) (a : import) (b : extern) : Prop :=
  match im_desc a with
  | ImpFunc i => e_kind b = 0 /\ exists f, item (s_func s) (e_data b) f /\ item (md_type md) i (fi_type f)
  | ImpTable t => e_kind b = 1 /\ exists x, item (s_tabl s) (e_data b) x /\ tt_type (ti_type x) = tt_type t /\
                    within (ti_size x) (l_m (tt_limits (ti_type x))) (tt_limits t)
  | ImpMem l => e_kind b = 2 /\ exists x, item (s_mems s) (e_data b) x /\ within (mi_size x) (l_m (mi_type x)) l
  | ImpGlobal t => e_kind b = 3 /\ exists x, item (s_glob s) (e_data b) x /\ v_type (gi_data x) = gt_type t /\ gi_mut x = gt_mut t
  end.

(* the addresses of the imports of one kind (0 functions, 1 tables, 2 memories, 3 globals), in order *)
Fixpoint imported (k : Z) (ext : list extern) : list Z :=
  match ext with [] => [] | e :: r => if e_kind e =? k then e_data e :: imported k r else imported k r end.
(* [n] addresses from [base] on *)
Definition fresh (base n : nat) : list Z := map Z.of_nat (seq base n).
(* the i-th of the objects [ds] is described by the i-th of the objects of [l] from [base] on *)
Definition placed {A X} (R : A -> X -> Prop) (ds : list A) (base : nat) (l : list X) : Prop :=
  forall i d, nth_error ds i = Some d -> exists x, nth_error l (base + i) = Some x /\ R d x.
(* the index space of one kind of object *)
Definition space (mi : modinst) (k : Z) : list Z :=
  if k =? 0 then m_func mi else if k =? 1 then m_tabl mi else if k =? 2 then m_mems mi else m_glob mi.

(* [mi], module instance number [h] of store [s'], is an instance of [L] with the imports [ext], made when the store was
   [s]: in every index space the imports come first, in order, then the module's own objects, under addresses that were
   not in use in [s]; what is at these addresses is what the module describes. *)
Record instance_of (L : loaded) (ext : list extern) (s s' : store) (h : nat) (mi : modinst) : Prop := mk_instance_of {
  io_inst : nth_error (s_inst s') h = Some mi /\ (length (s_inst s) <= h)%nat;
  io_type : m_type mi = md_type (l_desc L);
  io_func : m_func mi = imported 0 ext ++ fresh (length (s_func s)) (length (md_func (l_desc L))) /\
    placed (fun d f => exists t, (0 <= fd_type d -> item (md_type (l_desc L)) (fd_type d) t) /\ f = FWasm t h d)
      (md_func (l_desc L)) (length (s_func s)) (s_func s');
  io_tabl : exists b, (length (s_tabl s) <= b)%nat /\ m_tabl mi = imported 1 ext ++ fresh b (length (md_tabl (l_desc L))) /\
    placed (fun t x => ti_type x = t /\ l_n (tt_limits t) <= ti_size x) (md_tabl (l_desc L)) b (s_tabl s');
  io_mems : exists b, (length (s_mems s) <= b)%nat /\ m_mems mi = imported 2 ext ++ fresh b (length (md_mems (l_desc L))) /\
    placed (fun t x => mi_type x = t /\ l_n t <= mi_size x) (md_mems (l_desc L)) b (s_mems s');
  io_glob : exists b, (length (s_glob s) <= b)%nat /\ m_glob mi = imported 3 ext ++ fresh b (length (md_glob (l_desc L))) /\
    placed (fun d x => gi_mut x = gt_mut (gd_type d)) (md_glob (l_desc L)) b (s_glob s');
  io_elem : exists b, (length (s_elem s) <= b)%nat /\ m_elem mi = fresh b (length (md_elem (l_desc L))) /\
    placed (fun d x => li_type x = ed_type d) (md_elem (l_desc L)) b (s_elem s');
  io_data : exists b, (length (s_data s) <= b)%nat /\ m_data mi = fresh b (length (l_blob L)) /\
    placed eq (l_blob L) b (s_data s')
}.

(* the store only got more objects *)
Definition longer {A} (l l' : list A) : Prop := exists x, l' = l ++ x.
Record extends (s s' : store) : Prop := mk_extends {
  xt_func : longer (s_func s) (s_func s');
  xt_tabl : longer (s_tabl s) (s_tabl s');
  xt_mems : longer (s_mems s) (s_mems s');
  xt_glob : longer (s_glob s) (s_glob s');
  xt_elem : longer (s_elem s) (s_elem s');
  xt_data : longer (s_data s) (s_data s');
  xt_inst : longer (s_inst s) (s_inst s');
  xt_blob : s_blob s' = s_blob s
}.

(* the constant expressions of WebAssembly: a single instruction *)
Definition constant (e : list inst) : Prop :=
  exists o args, e = [IOp o args] /\
    In o [O_i32_const; O_i64_const; O_f32_const; O_f64_const; O_v128_const; O_ref_null; O_ref_func; O_global_get].
(* the value of an offset expression, [globs] being the values of the globals *)
Definition offset_of (globs : Z -> option val) (e : list inst) : option Z :=
  match e with
  | [IOp O_i32_const [AInt c]] => if (- 2 ^ 31 <=? c) && (c <? 2 ^ 31) then Some (c mod 2 ^ 32) else None
  | [IOp O_global_get [AInt j]] => if 0 <=? j then match globs j with Some v => Some (low 32 v) | None => None end else None
  | _ => None
  end.
(* global number [j] of a module instance *)
Definition global_value (s : store) (mi : modinst) (j : Z) : option val :=
  match nth_error (m_glob mi) (Z.to_nat j) with
  | Some a => if 0 <=? a then option_map gi_data (nth_error (s_glob s) (Z.to_nat a)) else None
  | None => None
  end.

(* the segments [segs] (offset and bytes) written one after the other; [None] as soon as one does not fit *)
Fixpoint write_all (segs : list (Z * list Z)) (mem : list Z) : option (list Z) :=
  match segs with
  | [] => Some mem
  | (c, d) :: r =>
    if c + len d <=? len mem then write_all r (firstn (Z.to_nat c) mem ++ d ++ skipn (Z.to_nat (c + len d)) mem) else None
  end.
(* the active segments (kinds 0 and 2): offset and bytes *)
Definition active (d : datadesc) : bool := Z.even (dd_kind d).
Definition segments (globs : Z -> option val) (blobs : list (list Z)) (l : list (datadesc * nat)) : list (Z * list Z) :=
  flat_map (fun '(e, b) => if active e
                           then match offset_of globs (dd_offset e) with Some c => [(c, nth b blobs [])] | None => [] end
                           else []) l.
(* the bytearrays of the active segments are emptied, the others stay *)
Definition emptied (l : list (datadesc * nat)) (blobs blobs' : list (list Z)) : Prop :=
  forall b, nth_error blobs' b =
    if existsb (fun '(e, b') => active e && Nat.eqb b b') l then option_map (fun _ => []) (nth_error blobs b) else nth_error blobs b.
(* a memory as it is made: zeros *)
Definition new_memory (t : memtype) : meminst := mkmem t (repeat 0 (Z.to_nat (65536 * l_n t))) (l_n t).
(* one bytearray for every data segment, all of them different and below 2 GiB *)
Definition blobs_ok (s : store) (L : loaded) : Prop :=
  length (l_blob L) = length (md_data (l_desc L)) /\ NoDup (l_blob L) /\
  Forall (fun b => exists d, nth_error (s_blob s) b = Some d /\ len d < 2 ^ 31) (l_blob L).
(* initial values and offsets of active segments are constant expressions *)
Definition constants (md : moddesc) : Prop :=
  Forall (fun g => constant (gd_init g)) (md_glob md) /\ Forall (fun e => Forall constant (ed_init e)) (md_elem md) /\
  Forall (fun e => Z.even (ed_kind e) = true -> constant (ed_offset e)) (md_elem md) /\
  Forall (fun d => active d = true -> constant (dd_offset d)) (md_data md).

(* global number [j] among the imports *)
Definition imported_value (s : store) (ext : list extern) (j : Z) : option val :=
  match nth_error (imported 3 ext) (Z.to_nat j) with
  | Some a => option_map gi_data (nth_error (s_glob s) (Z.to_nat a))
  | None => None
  end.
(* limits that can be met *)
Definition sound_limits (l : limits) : Prop := 0 <= l_n l /\ (l_m l = 0 \/ l_n l <= l_m l).
(* a module without globals and element segments whose types, limits and export indices are in order *)
Definition simple_module (md : moddesc) (ext : list extern) : Prop :=
  Forall (fun d => 0 <= fd_type d < len (md_type md)) (md_func md) /\
  Forall (fun t => sound_limits (tt_limits t)) (md_tabl md) /\
  Forall (fun t => sound_limits t /\ l_n t <= 65536) (md_mems md) /\
  md_glob md = [] /\ md_elem md = [] /\
  Forall (fun e => (ex_kind e = 0 /\ 0 <= ex_desc e < len (imported 0 ext) + len (md_func md)) \/
                   (ex_kind e = 1 /\ 0 <= ex_desc e < len (imported 1 ext) + len (md_tabl md)) \/
                   (ex_kind e = 2 /\ 0 <= ex_desc e < len (imported 2 ext) + len (md_mems md)) \/
                   (ex_kind e = 3 /\ 0 <= ex_desc e < len (imported 3 ext))) (md_exps md).
(* addresses and type indices as they come from Store and decoder: not negative *)
Definition plain_imports (md : moddesc) (ext : list extern) : Prop :=
  Forall (fun b => 0 <= e_data b) ext /\ Forall (fun a => forall i, im_desc a = ImpFunc i -> 0 <= i) (md_imps md).
(* the active segments of a module as written in it *)
Definition own_segments (md : moddesc) : list (Z * list Z) :=
  flat_map (fun e => if active e then match offset_of (fun _ => None) (dd_offset e) with Some c => [(c, dd_init e)] | None => [] end else [])
    (md_data md).
