(* pywasm/wasi.py 503-555 and 1021-1044: programs that run with the WASI functions bound.

   Machine.v takes the host functions as a function of their arguments and the machine. The methods of Preview1 also have
   a state of their own (the descriptor table and the world outside), so here the state of a run is the whole [world],
   which contains the machine. The parts of core.py that mention the host functions are repeated over that state:
   evaluate_call (1738-1766), one turn of evaluate (1797-1809), evaluate, invocate (1701-1721), instance (1604-1699),
   Runtime.instance (4148-4157) and Runtime.invocate (4164-4177); everything else is used as it is in Machine.v. WasiRunFacts.v proves that a turn here is a turn of
   Machine.v with the outcome of the method plugged in. *)
From Coq Require Import ZArith List Bool.
From Verif Require Import Py Floatops Val Opcode Numeric Syntax Store Basic Machine Utf8 Os Wasi.
Import ListNotations.
Open Scope Z_scope.

(* 503-552: name, type and method; host function number i is the i-th method *)
Definition wasi_methods : list (name * functype * wfun) := [
  ([97; 114; 103; 115; 95; 103; 101; 116], mkft [T_i32; T_i32] [T_i32], F_args_get);
  ([97; 114; 103; 115; 95; 115; 105; 122; 101; 115; 95; 103; 101; 116], mkft [T_i32; T_i32] [T_i32], F_args_sizes_get);
  ([99; 108; 111; 99; 107; 95; 114; 101; 115; 95; 103; 101; 116], mkft [T_i32; T_i32] [T_i32], F_clock_res_get);
  ([99; 108; 111; 99; 107; 95; 116; 105; 109; 101; 95; 103; 101; 116], mkft [T_i32; T_i64; T_i32] [T_i32], F_clock_time_get);
  ([101; 110; 118; 105; 114; 111; 110; 95; 103; 101; 116], mkft [T_i32; T_i32] [T_i32], F_environ_get);
  ([101; 110; 118; 105; 114; 111; 110; 95; 115; 105; 122; 101; 115; 95; 103; 101; 116], mkft [T_i32; T_i32] [T_i32], F_environ_sizes_get);
  ([102; 100; 95; 97; 100; 118; 105; 115; 101], mkft [T_i32; T_i64; T_i64; T_i32] [T_i32], F_fd_advise);
  ([102; 100; 95; 97; 108; 108; 111; 99; 97; 116; 101], mkft [T_i32; T_i64; T_i64] [T_i32], F_fd_allocate);
  ([102; 100; 95; 99; 108; 111; 115; 101], mkft [T_i32] [T_i32], F_fd_close);
  ([102; 100; 95; 100; 97; 116; 97; 115; 121; 110; 99], mkft [T_i32] [T_i32], F_fd_datasync);
  ([102; 100; 95; 102; 100; 115; 116; 97; 116; 95; 103; 101; 116], mkft [T_i32; T_i32] [T_i32], F_fd_fdstat_get);
  ([102; 100; 95; 102; 100; 115; 116; 97; 116; 95; 115; 101; 116; 95; 102; 108; 97; 103; 115], mkft [T_i32; T_i32] [T_i32], F_fd_fdstat_set_flags);
  ([102; 100; 95; 102; 100; 115; 116; 97; 116; 95; 115; 101; 116; 95; 114; 105; 103; 104; 116; 115], mkft [T_i32; T_i64; T_i64] [T_i32], F_fd_fdstat_set_rights);
  ([102; 100; 95; 102; 105; 108; 101; 115; 116; 97; 116; 95; 103; 101; 116], mkft [T_i32; T_i32] [T_i32], F_fd_filestat_get);
  ([102; 100; 95; 102; 105; 108; 101; 115; 116; 97; 116; 95; 115; 101; 116; 95; 115; 105; 122; 101], mkft [T_i32; T_i64] [T_i32], F_fd_filestat_set_size);
  ([102; 100; 95; 102; 105; 108; 101; 115; 116; 97; 116; 95; 115; 101; 116; 95; 116; 105; 109; 101; 115], mkft [T_i32; T_i64; T_i64; T_i32] [T_i32], F_fd_filestat_set_times);
  ([102; 100; 95; 112; 114; 101; 97; 100], mkft [T_i32; T_i32; T_i32; T_i64; T_i32] [T_i32], F_fd_pread);
  ([102; 100; 95; 112; 114; 101; 115; 116; 97; 116; 95; 100; 105; 114; 95; 110; 97; 109; 101], mkft [T_i32; T_i32; T_i32] [T_i32], F_fd_prestat_dir_name);
  ([102; 100; 95; 112; 114; 101; 115; 116; 97; 116; 95; 103; 101; 116], mkft [T_i32; T_i32] [T_i32], F_fd_prestat_get);
  ([102; 100; 95; 112; 119; 114; 105; 116; 101], mkft [T_i32; T_i32; T_i32; T_i64; T_i32] [T_i32], F_fd_pwrite);
  ([102; 100; 95; 114; 101; 97; 100], mkft [T_i32; T_i32; T_i32; T_i32] [T_i32], F_fd_read);
  ([102; 100; 95; 114; 101; 97; 100; 100; 105; 114], mkft [T_i32; T_i32; T_i32; T_i64; T_i32] [T_i32], F_fd_readdir);
  ([102; 100; 95; 114; 101; 110; 117; 109; 98; 101; 114], mkft [T_i32; T_i32] [T_i32], F_fd_renumber);
  ([102; 100; 95; 115; 101; 101; 107], mkft [T_i32; T_i64; T_i32; T_i32] [T_i32], F_fd_seek);
  ([102; 100; 95; 115; 121; 110; 99], mkft [T_i32] [T_i32], F_fd_sync);
  ([102; 100; 95; 116; 101; 108; 108], mkft [T_i32; T_i32] [T_i32], F_fd_tell);
  ([102; 100; 95; 119; 114; 105; 116; 101], mkft [T_i32; T_i32; T_i32; T_i32] [T_i32], F_fd_write);
  ([112; 97; 116; 104; 95; 99; 114; 101; 97; 116; 101; 95; 100; 105; 114; 101; 99; 116; 111; 114; 121], mkft [T_i32; T_i32; T_i32] [T_i32], F_path_create_directory);
  ([112; 97; 116; 104; 95; 102; 105; 108; 101; 115; 116; 97; 116; 95; 103; 101; 116], mkft [T_i32; T_i32; T_i32; T_i32; T_i32] [T_i32], F_path_filestat_get);
  ([112; 97; 116; 104; 95; 102; 105; 108; 101; 115; 116; 97; 116; 95; 115; 101; 116; 95; 116; 105; 109; 101; 115], mkft [T_i32; T_i32; T_i32; T_i32; T_i64; T_i64; T_i32] [T_i32], F_path_filestat_set_times);
  ([112; 97; 116; 104; 95; 108; 105; 110; 107], mkft [T_i32; T_i32; T_i32; T_i32; T_i32; T_i32; T_i32] [T_i32], F_path_link);
  ([112; 97; 116; 104; 95; 111; 112; 101; 110], mkft [T_i32; T_i32; T_i32; T_i32; T_i32; T_i64; T_i64; T_i32; T_i32] [T_i32], F_path_open);
  ([112; 97; 116; 104; 95; 114; 101; 97; 100; 108; 105; 110; 107], mkft [T_i32; T_i32; T_i32; T_i32; T_i32; T_i32] [T_i32], F_path_readlink);
  ([112; 97; 116; 104; 95; 114; 101; 109; 111; 118; 101; 95; 100; 105; 114; 101; 99; 116; 111; 114; 121], mkft [T_i32; T_i32; T_i32] [T_i32], F_path_remove_directory);
  ([112; 97; 116; 104; 95; 114; 101; 110; 97; 109; 101], mkft [T_i32; T_i32; T_i32; T_i32; T_i32; T_i32] [T_i32], F_path_rename);
  ([112; 97; 116; 104; 95; 115; 121; 109; 108; 105; 110; 107], mkft [T_i32; T_i32; T_i32; T_i32; T_i32] [T_i32], F_path_symlink);
  ([112; 97; 116; 104; 95; 117; 110; 108; 105; 110; 107; 95; 102; 105; 108; 101], mkft [T_i32; T_i32; T_i32] [T_i32], F_path_unlink_file);
  ([112; 111; 108; 108; 95; 111; 110; 101; 111; 102; 102], mkft [T_i32; T_i32; T_i32; T_i32] [T_i32], F_poll_oneoff);
  ([112; 114; 111; 99; 95; 101; 120; 105; 116], mkft [T_i32] [], F_proc_exit);
  ([112; 114; 111; 99; 95; 114; 97; 105; 115; 101], mkft [T_i32] [T_i32], F_proc_raise);
  ([114; 97; 110; 100; 111; 109; 95; 103; 101; 116], mkft [T_i32; T_i32] [T_i32], F_random_get);
  ([115; 99; 104; 101; 100; 95; 121; 105; 101; 108; 100], mkft [] [T_i32], F_sched_yield);
  ([115; 111; 99; 107; 95; 97; 99; 99; 101; 112; 116], mkft [T_i32; T_i32; T_i32] [T_i32], F_sock_accept);
  ([115; 111; 99; 107; 95; 114; 101; 99; 118], mkft [T_i32; T_i32; T_i32; T_i32; T_i32; T_i32] [T_i32], F_sock_recv);
  ([115; 111; 99; 107; 95; 115; 101; 110; 100], mkft [T_i32; T_i32; T_i32; T_i32; T_i32] [T_i32], F_sock_send);
  ([115; 111; 99; 107; 95; 115; 104; 117; 116; 100; 111; 119; 110], mkft [T_i32; T_i32] [T_i32], F_sock_shutdown)].
(* 553-555: bind. The dict `runtime.imports` loses what it had under the key. *)
Definition n_wasi : name :=
  [119; 97; 115; 105; 95; 115; 110; 97; 112; 115; 104; 111; 116; 95; 112; 114; 101; 118; 105; 101; 119; 49].
Fixpoint bind_all (i : nat) (l : list (name * functype * wfun)) : M (list (name * extern)) :=
  match l with
  | [] => ret []
  | (nm, t, _) :: l' =>
    let! e := rt_allocate_func_host t i in
    let! es := bind_all (S i) l' in
    ret ((nm, e) :: es)
  end.
Definition wasi_bind (imps : imports) : M imports :=
  let! es := bind_all 0 wasi_methods in
  ret ((n_wasi, es) :: imps).

(* a part of the interpreter that calls no host function *)
Definition with_mach (w : world) (m : machine) : world := mkworld (w_self w) (w_log w) (w_pipes w) m.
Definition mach {A} (e : M A) : W A := fun w => let '(r, m) := e (w_mach w) in (r, with_mach w m).

(* what core.py 1867-1880 does up to the call of evaluate_call: the address of the function that `call` and
   `call_indirect` are about to call *)
Definition callee (fr : frame) (o : opc) (args : list arg) : M Z :=
  match o with
  | O_call =>
    let! i := lift (arg_int args 0) in
    let! m := mget in
    lift (py_index (m_func (mod_of (k_store m) (fr_module fr))) i)
  | O_call_indirect =>
    let! m := mget in
    let! j := lift (arg_int args 1) in
    let! ta := lift (py_index (m_tabl (mod_of (k_store m) (fr_module fr))) j) in
    let! tabl := lift (py_index (s_tabl (k_store m)) ta) in
    let! i := lift (arg_int args 0) in
    let! type := lift (py_index (m_type (mod_of (k_store m) (fr_module fr))) i) in
    let! v := popv in
    let! k := lift (into_u32 v) in
    let! r := lift (py_index (ti_elem tabl) k) in
    let! addr := lift (into_ref r) in
    let! func := lift (py_index (s_func (k_store m)) addr) in
    assert (ft_eqb (fi_type func) type) ;;
    ret addr
  | _ => fail EAttr
  end.
(* the call of a host function that the next turn makes: its number, arguments and type, and the machine at that point *)
Definition host_turn (F : fops) (m : machine) : option (nat * list pyval * functype * machine) :=
  match k_label m, k_frame m with
  | lb :: ls, fr :: _ =>
    if Nat.eqb (lb_index lb) (length (lb_instr lb)) then None
    else
      match nth_error (lb_instr lb) (lb_index lb) with
      | Some (IOp o args) =>
        let lb' := mklabel (lb_arity lb) (lb_frame lb) (lb_value lb) (lb_carry lb) (lb_instr lb) (S (lb_index lb)) in
        match callee fr o args (set_label m (lb' :: ls)) with
        | (Ok addr, m1) =>
          match py_index (s_func (k_store m1)) addr with
          | Ok (FHost t hid) =>
            match popn (length (ft_args t)) m1 with
            | (Ok vs, m2) => match rmapl (into_all F) vs with Ok ps => Some (hid, ps, t, m2) | Err _ => None end
            | _ => None
            end
          | _ => None
          end
        | _ => None
        end
      | _ => None
      end
  | _, _ => None
  end.

Section WithOs.
Variables (F : fops) (Os : os).

(* `func.hostcode(self, args)` of a bound method. There are no other host functions in these runs. *)
Definition as_int (p : pyval) : res Z := match p with PInt z => Ok z | _ => Err EType end.
Definition wasi_host (hid : nat) (args : list pyval) : W (list pyval) :=
  match nth_error wasi_methods hid with
  | None => fail EIndex
  | Some (_, _, f) =>
    let! zs := lift (rmapl as_int args) in
    let! rs := wasi_call Os f zs in
    ret (map PInt rs)
  end.
(* core.py 1797-1809 with 1738-1766 *)
Definition wturn : W unit := fun w =>
  match host_turn F (w_mach w) with
  | Some (hid, ps, t, m) =>
    (let! rets := wasi_host hid ps in
     let! rets := lift (from_alls F (ft_rets t) rets) in
     mach (extend rets)) (with_mach w m)
  | None => mach (step F (fun _ _ m => (Err (EHost 0), m))) w
  end.
Fixpoint wevaluate (n : nat) : W unit :=
  match n with
  | O => ret tt
  | S n' => fun w =>
    match k_label (w_mach w) with
    | [] => (Ok tt, w)
    | _ => (wturn ;; wevaluate n') w
    end
  end.
(* core.py 1701-1721 *)
Definition winvocate (n : nat) (addr : Z) (args : list val) : W (list val) :=
  let! func := mach (let! m := mget in lift (py_index (s_func (k_store m)) addr)) in
  match func with
  | FHost _ _ => fail EAssert
  | FWasm t h code =>
    mach (assert (types_agree (ft_args t) args) ;;
          push_frame (mkframe (MVal modinst_empty) [] 0 0 0) ;;
          push_frame (mkframe (MRef h) (args ++ zero_locals (fd_locals code)) (length (ft_rets t)) 0 0) ;;
          push_label (mklabel (length (ft_rets t)) 1 0 KFunc (fd_expr code) 0)) ;;
    wevaluate n ;;
    mach (let! rets := popn (length (ft_rets t)) in
          assert (types_agree (ft_rets t) rets) ;;
          pop_frame ;;
          let! m := mget in
          assert (Nat.eqb (length (k_frame m)) 0) ;;
          assert (Nat.eqb (length (k_label m)) 0) ;;
          assert (Nat.eqb (length (k_value m)) 0) ;;
          ret rets)
  end.
(* core.py 4164-4177 *)
Definition wrt_invocate (n : nat) (h : nat) (nm : name) (args : list pyval) : W (list pyval) :=
  let! (func, addr) := mach (let! m := mget in
                             let! e := lift (find_export (mod_of (k_store m) (MRef h)) nm) in
                             let! func := lift (py_index (s_func (k_store m)) (e_data e)) in
                             ret (func, e_data e)) in
  mach (assert (len (ft_args (fi_type func)) =? len args)) ;;
  let! vs := lift (from_alls F (ft_args (fi_type func)) args) in
  let! rets := winvocate n addr vs in
  lift (rmapl (into_all F) rets).

(* core.py 1604-1699: instance, and the expressions it runs (1629-1634 and its copies) *)
Definition wrun_expr (n : nat) (e : list inst) (nval : nat) : W unit :=
  mach (push_label (mklabel 1 1 0 KBlock e 0)) ;;
  wevaluate n ;;
  mach (let! m := mget in
        assert (Nat.eqb (length (k_frame m)) 1) ;;
        assert (Nat.eqb (length (k_label m)) 0) ;;
        assert (Nat.eqb (length (k_value m)) nval)).
Definition wconst_expr (n : nat) (e : list inst) : W val := wrun_expr n e 1 ;; mach popv.
Definition winstance (n : nat) (L : loaded) (ext : list extern) : W nat :=
  let md := l_desc L in
  mach (assert (len (md_imps md) =? len ext)) ;;
  mach (forl (fun '(a, b) => let! m := mget in lift (check_import (k_store m) md a b)) (combine (md_imps md) ext)) ;;
  let! m := mach mget in
  let auxfunc := ext_of_kind 0 ext ++ map (fun i => len (s_func (k_store m)) + i) (py_range (len (md_func md))) in
  let auxmod := mkmi [] auxfunc [] [] (ext_of_kind 3 ext) [] [] [] in
  mach (push_frame (mkframe (MVal auxmod) [] 1 0 0)) ;;
  let! globin := mapl (fun e => wconst_expr n (gd_init e)) (md_glob md) in
  let! elemin := mapl (fun e => mapl (fun f => wconst_expr n f) (ed_init e)) (md_elem md) in
  mach pop_frame ;;
  let! h := mach (allocate L ext globin elemin) in
  let! m := mach mget in
  mach (assert (Zs_eqb (m_func (mod_of (k_store m) (MRef h))) auxfunc)) ;;
  mach (push_frame (mkframe (MRef h) [] 0 0 0)) ;;
  let ielem := combine (py_range (len (md_elem md))) (md_elem md) in
  forl (fun '(i, e) => if negb (Z.land (ed_kind e) 1 =? 0) then ret tt else wrun_expr n (elem_code i e) 0) ielem ;;
  forl (fun '(i, e) => if negb (Z.land (ed_kind e) 3 =? 3) then ret tt
                       else wrun_expr n [IOp O_elem_drop [AInt i]] 0) ielem ;;
  forl (fun '(i, (e, b)) => if negb (Z.land (dd_kind e) 1 =? 0) then ret tt
                       else let! m := mach mget in
                            wrun_expr n (data_code i (dd_offset e) (len (nth b (s_blob (k_store m)) []))) 0)
    (combine (py_range (len (md_data md))) (combine (md_data md) (l_blob L))) ;;
  (if md_star md >=? 0 then wrun_expr n [IOp O_call [AInt (md_star md)]] 0 else ret tt) ;;
  mach pop_frame ;;
  ret h.
(* core.py 4148-4157 *)
Definition wrt_instance (n : nat) (imps : imports) (L : loaded) : W nat :=
  let! ext := lift (rmapl (fun i => let? d := dict_get imps (im_module i) in dict_get d (im_name i))
                      (md_imps (l_desc L))) in
  winstance n L ext.

(* 1021-1044: main. The first part is what happens before `finally`; an exception in `finally` replaces the outcome. *)
Definition main_try (n h : nat) : W Z := fun w =>
  let '(r, w1) := wrt_invocate n h n_start [] w in
  let '(r', m) := main_outcome (r, w_mach w1) in
  (r', with_mach w1 m).
Definition run_main (n h : nat) : W Z := fun w =>
  let '(r, w1) := main_try n h w in
  match main_finally Os w1 with
  | (Ok _, w2) => (r, w2)
  | (Err e, w2) => (Err e, w2)
  end.

(* __main__.py 29-33 without the reading of the command line and of the file: a new Preview1 object, bind,
   Runtime.instance_from_file (core.py 4148-4162) of a decoded module, main *)
Definition wasi_program (cwd : name) (std : Z * name * (Z * name) * (Z * name)) (args : list name)
    (dirs envs : list (name * name)) (n : nat) (md : moddesc) : W Z :=
  new_preview1 Os cwd std args dirs envs ;;
  let! imps := mach (wasi_bind []) in
  let! L := mach (load_module md) in
  let! h := wrt_instance n imps L in
  run_main n h.
End WithOs.
