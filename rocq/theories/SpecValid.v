(* Validation of modules, on top of the typing rules of SpecType.v, and what instantiating a validated module may do. *)
From Coq Require Import ZArith List Bool.
From Verif Require Import Py Floatops Val Opcode Numeric Syntax Store Basic Machine SpecMachine SpecControl SpecRun SpecInst SpecType.
Import ListNotations.
Open Scope Z_scope.

(* type number [i] of a module, as a list of length at most one *)
Definition type_no (md : moddesc) (i : Z) : list functype :=
  match nth_error (md_type md) (Z.to_nat i) with Some t => [t] | None => [] end.
(* what a module imports, by kind *)
Definition imp_funcs (md : moddesc) : list functype :=
  flat_map (fun a => match im_desc a with ImpFunc i => type_no md i | _ => [] end) (md_imps md).
Definition imp_tabls (md : moddesc) : list valtype :=
  flat_map (fun a => match im_desc a with ImpTable t => [tt_type t] | _ => [] end) (md_imps md).
Definition imp_mems (md : moddesc) : list limits :=
  flat_map (fun a => match im_desc a with ImpMem l => [l] | _ => [] end) (md_imps md).
Definition imp_globs (md : moddesc) : list (valtype * Z) :=
  flat_map (fun a => match im_desc a with ImpGlobal t => [(gt_type t, gt_mut t)] | _ => [] end) (md_imps md).
(* The context of a module: in every index space the imports come first. *)
Definition module_ctx (md : moddesc) (locals : list valtype) (ret : list valtype) : tctx :=
  mkctx (md_type md) (imp_funcs md ++ flat_map (fun d => type_no md (fd_type d)) (md_func md))
    (imp_tabls md ++ map tt_type (md_tabl md)) (length (imp_mems md) + length (md_mems md))
    (imp_globs md ++ map (fun g => (gt_type (gd_type g), gt_mut (gd_type g))) (md_glob md))
    (map ed_type (md_elem md)) (length (md_data md)) locals [] ret.
(* A constant expression of type [t]: a single instruction, which sees the imported globals only. *)
Definition const_ctx (md : moddesc) : tctx :=
  mkctx [] (c_funcs (module_ctx md [] [])) [] 0 (imp_globs md) [] 0 [] [] [].
Definition const_typed (md : moddesc) (e : list inst) (t : valtype) : Prop :=
  constant e /\ typed_seq (const_ctx md) e [] [t].

(* A validated module. *)
Record valid_module (md : moddesc) : Prop := mk_valid_module {
  (* imported functions have a type of the module *)
  vm_imps : Forall (fun a => forall i, im_desc a = ImpFunc i -> 0 <= i < len (md_type md)) (md_imps md);
  (* every body is typed with the parameters and declared locals of its function, and leaves its results *)
  vm_func : Forall (fun d => exists t, item (md_type md) (fd_type d) t /\
    typed_seq (module_ctx md (ft_args t ++ declared (fd_locals d)) (ft_rets t)) (fd_expr d) [] (rev (ft_rets t))) (md_func md);
  (* limits can be met; tables have fewer than 2^31 entries (see store_typed) *)
  vm_tabl : Forall (fun t => sound_limits (tt_limits t) /\ l_n (tt_limits t) < 2 ^ 31 /\ is_ref (tt_type t) = true) (md_tabl md);
  vm_mems : Forall (fun l => sound_limits l /\ l_n l <= 65536) (md_mems md);
  (* initial values have the type of the global *)
  vm_glob : Forall (fun g => (gt_mut (gd_type g) = 0 \/ gt_mut (gd_type g) = 1) /\ const_typed md (gd_init g) (gt_type (gd_type g))) (md_glob md);
  (* element segments hold references of their type; active ones go to a table of that type, at an i32 offset *)
  vm_elem : Forall (fun e => is_ref (ed_type e) = true /\ len (ed_init e) < 2 ^ 31 /\ Forall (fun c => const_typed md c (ed_type e)) (ed_init e) /\
    (Z.even (ed_kind e) = true -> const_typed md (ed_offset e) T_i32 /\
       item (imp_tabls md ++ map tt_type (md_tabl md)) (ed_tidx e) (ed_type e))) (md_elem md);
  (* active data segments go to a memory, at an i32 offset *)
  vm_data : Forall (fun d => len (dd_init d) < 2 ^ 31 /\
    (active d = true -> const_typed md (dd_offset d) T_i32 /\ (0 < length (imp_mems md) + length (md_mems md))%nat)) (md_data md);
  (* the start function takes and returns nothing *)
  vm_start : md_star md < 0 \/ item (c_funcs (module_ctx md [] [])) (md_star md) (mkft [] []);
  (* exports exist *)
  vm_exps : Forall (fun e => 0 <= ex_desc e /\
    (ex_kind e = 0 /\ ex_desc e < len (c_funcs (module_ctx md [] [])) \/
     ex_kind e = 1 /\ ex_desc e < len (c_tabls (module_ctx md [] [])) \/
     ex_kind e = 2 /\ ex_desc e < Z.of_nat (c_mems (module_ctx md [] [])) \/
     ex_kind e = 3 /\ ex_desc e < len (c_globs (module_ctx md [] [])))) (md_exps md);
  (* under different names *)
  vm_names : NoDup (map ex_name (md_exps md))
}.

(* The code that instantiation runs in the new instance (store [s]): element segment [i] copied to its table and dropped,
   a declared segment dropped, data segment [i] copied to the memory and dropped, the start function. *)
Inductive init_code (L : loaded) (s : store) : list inst -> Prop :=
| init_elem i e : nth_error (md_elem (l_desc L)) i = Some e -> Z.even (ed_kind e) = true ->
    init_code L s (ed_offset e ++ [IOp O_i32_const [AInt 0]; IOp O_i32_const [AInt (len (ed_init e))];
                                   IOp O_table_init [AInt (Z.of_nat i); AInt (ed_tidx e)]; IOp O_elem_drop [AInt (Z.of_nat i)]])
| init_drop i e : nth_error (md_elem (l_desc L)) i = Some e -> Z.even (ed_kind e) = false ->
    init_code L s [IOp O_elem_drop [AInt (Z.of_nat i)]]
| init_data i d b : nth_error (md_data (l_desc L)) i = Some d -> active d = true -> nth_error (l_blob L) i = Some b ->
    init_code L s (dd_offset d ++ [IOp O_i32_const [AInt 0]; IOp O_i32_const [AInt (len (nth b (s_blob s) []))];
                                   IOp O_memory_init [AInt (Z.of_nat i)]; IOp O_data_drop [AInt (Z.of_nat i)]])
| init_start : 0 <= md_star (l_desc L) -> init_code L s [IOp O_call [AInt (md_star (l_desc L))]].
(* the state in which such code starts, in instance [h] *)
Definition init_at (s : store) (h : nat) (code : list inst) : machine :=
  mkmach s [] [mklabel 1 1 0 KBlock code 0] [mkframe (MRef h) [] 0 0 0].

(* How initialisation may stop: at an instruction that may trap, or at the limit on turns. [s1] is the store when the
   code starts: later than [s], typed, and instance [h] has the types of the module. *)
Definition initialising (sg : nat -> functype) (L : loaded) (s : store) (h : nat) (s1 : store) : Prop :=
  later s s1 /\ store_typed sg s1 /\ same_types s s1 /\
  exists mi, nth_error (s_inst s1) h = Some mi /\ instance_typed s1 mi (module_ctx (l_desc L) [] []).
Inductive init_stops (F : fops) (host : hostcode) (sg : nat -> functype) (n : nat) (L : loaded) (s : store) : exn -> machine -> Prop :=
| stops_trap h s1 code m1 i fr e m' : initialising sg L s h s1 -> init_code L s1 code ->
    gets_to F host (init_at s1 h code) m1 -> about_to_run m1 i fr -> inst_may_trap i = true -> step F host m1 = (Err e, m') ->
    init_stops F host sg n L s e m'
| stops_limit h s1 code m1 : initialising sg L s h s1 -> init_code L s1 code ->
    evaluate F host n (init_at s1 h code) = (Ok tt, m1) -> k_label m1 <> [] ->
    init_stops F host sg n L s EAssert m1.

(* a Python value of the kind that parameters and results of type [t] have; whole numbers are signed *)
Definition of_kind (t : valtype) (p : pyval) : Prop :=
  match t, p with
  | T_i32, PInt z | T_func, PInt z | T_extern, PInt z => - 2 ^ 31 <= z < 2 ^ 31
  | T_i64, PInt z => - 2 ^ 63 <= z < 2 ^ 63
  | T_f32, PFloat _ | T_f64, PFloat _ => True
  | T_v128, PBytes b => len b = 16 /\ bytes b
  | _, _ => False
  end.

(* The runtime so far: host functions of the given types, tables, memories and globals made by hand, validated modules
   loaded and instantiated with imports that fit, calls of exported functions with any arguments; everything returned. *)
Inductive history (F : fops) (host : hostcode) (sg : nat -> functype) (m : machine) : machine -> Prop :=
| his_nil : history F host sg m m
| his_host m1 hid b m2 : history F host sg m m1 -> len (s_func (k_store m1)) < 2 ^ 31 - 1 ->
    rt_allocate_func_host (sg hid) hid m1 = (Ok b, m2) -> history F host sg m m2
| his_table m1 t b m2 : history F host sg m m1 -> 0 <= l_n (tt_limits t) < 2 ^ 31 ->
    rt_allocate_table t m1 = (Ok b, m2) -> history F host sg m m2
| his_memory m1 t b m2 : history F host sg m m1 -> rt_allocate_memory t m1 = (Ok b, m2) -> history F host sg m m2
| his_global m1 t v b m2 : history F host sg m m1 -> val_wf v -> rt_allocate_global t v m1 = (Ok b, m2) -> history F host sg m m2
| his_module m1 md L m2 n ext h m3 : history F host sg m m1 -> desc_ok md -> valid_module md ->
    len (s_func (k_store m1)) + len (md_func md) < 2 ^ 31 -> load_module md m1 = (Ok L, m2) ->
    Forall2 (fits (k_store m2) md) (md_imps md) ext -> (2 <= n)%nat -> instance F host n L ext m2 = (Ok h, m3) -> history F host sg m m3
| his_call m1 n h nm args rs m2 : history F host sg m m1 -> Forall pyval_ok args ->
    rt_invocate F host n h nm args m1 = (Ok rs, m2) -> history F host sg m m2.
(* a reference to nothing: the fifth byte of a reference is 1 if it refers to something *)
Definition is_null (v : val) : Prop := is_ref (v_type v) = true /\ nth 4 (v_data v) 0 <> 1.
(* export [x] of an instance is what the module says: the object with that number in the index space of its kind *)
Definition exported (mi : modinst) (e : exportdesc) (x : exportinst) : Prop :=
  ei_name x = ex_name e /\ e_kind (ei_data x) = ex_kind e /\ item (space mi (ex_kind e)) (ex_desc e) (Store.e_data (ei_data x)).
