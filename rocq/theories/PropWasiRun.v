(* Programs run with the WASI functions bound.
   Specification: SpecWasiRun.v, SpecWasi.v, SpecMachine.v and SpecControl.v. *)
From Coq Require Import String.
From Coq Require Import ZArith List Bool Lia.
From Verif Require Import Py Arith Floatops Val Opcode Numeric Syntax Store Basic Machine Utf8 Os Wasi WasiRun SpecInt SpecNum SpecMachine SpecMem
  SpecControl SpecType SpecFormat SpecWasi SpecWasiRun PyFacts WasiTableFacts WasiIoFacts WasiCallFacts WasiRunFacts PropWasi.
Import ListNotations.
Open Scope Z_scope.

(* ---- the programs of the examples ---- *)
(* Functions 0 to 3 are imported: proc_exit, random_get, path_open and clock_time_get. The memory has [p] pages and
   the data [ds]. Function 4 is exported as _start. *)
Definition ex_types : list functype :=
  [mkft [T_i32] []; mkft [T_i32; T_i32] [T_i32]; mkft [T_i32; T_i32; T_i32; T_i32; T_i32; T_i64; T_i64; T_i32; T_i32] [T_i32];
   mkft [T_i32; T_i64; T_i32] [T_i32]; mkft [] []].
Definition ex_imports : list import :=
  [mkimp n_wasi (nm "proc_exit") (ImpFunc 0); mkimp n_wasi (nm "random_get") (ImpFunc 1); mkimp n_wasi (nm "path_open") (ImpFunc 2);
   mkimp n_wasi (nm "clock_time_get") (ImpFunc 3)].
Definition ex_prog (p : Z) (ds : list datadesc) (code : list inst) : moddesc :=
  mkmd ex_types [mkfd 4 [] code] [] [mklim p 0] [] [] ds (-1) ex_imports [mkexp n_start 0 4].
Definition konst (z : Z) : inst := IOp O_i32_const [AInt z].
Definition konst64 (z : Z) : inst := IOp O_i64_const [AInt z].
(* asks for four random bytes, opens "f" below the first directory and exits with 7 *)
Definition ex_random : list inst := [konst 64; konst 4; IOp O_call [AInt 1]; IOp O_drop []].
Definition ex_opens : list inst :=
  [konst 3; konst 0; konst 0; konst 1; konst 0; konst64 0x46; konst64 0; konst 0; konst 32; IOp O_call [AInt 2]; IOp O_drop []].
Definition ex_exit (z : Z) : list inst := [konst z; IOp O_call [AInt 0]].
Definition ex4 : os := fun log c => match c with OsRandom n => RBytes (repeat 9 (Z.to_nat n)) | OsTime _ => RInt 5 | _ => ex_os log c end.
Lemma ex4_sane : sane [0; 1; 2] ex4.
Proof. intros log c. pose proof (ex_sane log c) as S. destruct c; exact S || exact I. Qed.
Definition ex_off : world := mkworld (mkpre [] 0 [] [] true) [] [] machine_empty.
Definition ex_f : datadesc := mkdd 0 0 [konst 0] [102].
Definition ex_run F (n : nat) (code : list inst) : res Z * world :=
  wasi_program F ex4 (nm "/") ex_std [] [(nm "/d", nm "/tmp/a")] [] n (ex_prog 1 [ex_f] code) ex_off.
(* the instantiated program, with an empty memory *)
Definition ex_loaded F (code : list inst) : world :=
  let w := snd (new_preview1 ex4 (nm "/") ex_std [] [(nm "/d", nm "/tmp/a")] [] ex_off) in
  snd ((let! imps := mach (wasi_bind []) in let! L := mach (load_module (ex_prog 0 [] code)) in wrt_instance F ex4 10 imps L) w).
(* ... and after [n] turns of _start *)
Definition ex_turns F (n : nat) (code : list inst) : world :=
  let w := ex_loaded F code in
  let m := snd ((push_frame (mkframe (MVal modinst_empty) [] 0 0 0) ;; push_frame (mkframe (MRef 0) [] 0 0 0) ;; push_label (mklabel 0 1 0 KFunc code 0)) (w_mach w)) in
  snd (wevaluate F ex4 n (with_mach w m)).

(* C117. A turn at a call of a WASI function is that call: the method gets the arguments as the interpreter converts
   them and the machine behind the call, and its error number is the result; if it raises, so does the turn. *)
Theorem C117_call : forall F Os w hid nm t f A m', calls_host (w_mach w) hid t A m' -> nth_error wasi_methods hid = Some (nm, t, f) ->
  Forall val_wf (k_value (w_mach w)) -> has_types A (ft_args t) ->
  match wasi_call Os f (map as_number A) (with_mach w m') with
  | (Ok rs, w1) => exists e, rs = [e] /\ 0 <= e <= 76 /\ wturn F Os w = (Ok tt, pushed w1 (num_val T_i32 e))
  | (Err e, w1) => wturn F Os w = (Err e, w1)
  end.
Proof. exact call_turn. Qed.
Print Assumptions C117_call.
(* A turn whose outcome does not depend on the host functions is a turn of the interpreter: it asks nothing of the
   operating system and leaves the descriptor table and the streams alone. *)
Theorem C117_other_turn : forall F Os host w, (forall h h', step F h (w_mach w) = step F h' (w_mach w)) ->
  wturn F Os w = (fst (step F host (w_mach w)), with_mach w (snd (step F host (w_mach w)))).
Proof. intros F Os host w H. rewrite (other_turn F Os host w H). unfold mach. now destruct (step F host (w_mach w)). Qed.
Print Assumptions C117_other_turn.
(* Whatever the state, a turn makes at most one call of a WASI function, and only at a call instruction. *)
Theorem C117_turn : forall F Os w,
  (exists r m, wturn F Os w = (r, with_mach w m)) \/
  (exists o args fr f zs m r m', about_to_run (w_mach w) (IOp o args) fr /\ (o = O_call \/ o = O_call_indirect) /\
     wturn F Os w = (r, with_mach (snd (wasi_call Os f zs (with_mach w m))) m')).
Proof. exact turn_cases. Qed.
Print Assumptions C117_turn.
(* So every run, of a function of any module or of an instantiation, is a history of WASI calls. *)
Theorem C117_history : forall F Os n w,
  (exists h, snd (wevaluate F Os n w) = history Os w h) /\
  (forall addr args, exists h, snd (winvocate F Os n addr args w) = history Os w h) /\
  (forall i nm args, exists h, snd (wrt_invocate F Os n i nm args w) = history Os w h) /\
  (forall imps L, exists h, snd (wrt_instance F Os n imps L w) = history Os w h) /\
  (forall i, exists h, snd (main_try F Os n i w) = history Os w h /\ snd (run_main F Os n i w) = snd (main_finally Os (history Os w h))).
Proof.
  intros F Os n w. split; [apply hist_evaluate|]. split; [intros; apply hist_invocate|]. split; [intros; apply hist_rt_invocate|].
  split; [intros; apply hist_rt_instance|]. intros. apply main_end.
Qed.
Print Assumptions C117_history.
Theorem C117_program : forall F Os cwd std args dirs envs n md w,
  let w1 := snd (new_preview1 Os cwd std args dirs envs w) in
  let w' := snd (wasi_program F Os cwd std args dirs envs n md w) in
  exists h, w' = history Os w1 h \/ w' = snd (main_finally Os (history Os w1 h)).
Proof. exact program_end. Qed.
Print Assumptions C117_program.
(* No socket is ever used, and the operating system is only asked to work on host descriptors that are open. *)
Theorem C117_no_sockets : forall F Os cwd std args dirs envs n md w, w_log w = [] ->
  Forall (fun ev => ~ socket_request (fst ev)) (w_log (snd (wasi_program F Os cwd std args dirs envs n md w))).
Proof. exact program_calm. Qed.
Print Assumptions C117_no_sockets.
Theorem C117_only_live : forall F init Os cwd h0 n0 h1 n1 h2 n2 args dirs envs n md w,
  sane init Os -> In h0 init -> In h1 init -> In h2 init -> h0 <> h1 -> h0 <> h2 -> h1 <> h2 -> w_log w = [] ->
  only_live init (w_log (snd (wasi_program F Os cwd (h0, n0, (h1, n1), (h2, n2)) args dirs envs n md w))).
Proof. exact program_live. Qed.
Print Assumptions C117_only_live.
(* the third turn calls random_get *)
Example C117_ex_call F : let w := ex_turns F 2 ex_random in exists m',
  calls_host (w_mach w) 40 (mkft [T_i32; T_i32] [T_i32]) [num_val T_i32 64; num_val T_i32 4] m' /\
  nth_error wasi_methods 40 = Some (nm "random_get", mkft [T_i32; T_i32] [T_i32], F_random_get) /\
  Forall val_wf (k_value (w_mach w)) /\ has_types [num_val T_i32 64; num_val T_i32 4] [T_i32; T_i32] /\
  map as_number [num_val T_i32 64; num_val T_i32 4] = [64; 4] /\
  (forall h h', step F h (w_mach (ex_turns F 1 ex_random)) = step F h' (w_mach (ex_turns F 1 ex_random))).
Proof.
  intros w. eexists. split.
  { eapply calls_direct with (fr := mkframe (MRef 0) [] 0 0 0) (k := 1%nat) (a := 40%nat); [|vm_compute; reflexivity|vm_compute; reflexivity|vm_compute; reflexivity].
    split; [eexists _, _; split; vm_compute; reflexivity|eexists; vm_compute; reflexivity]. }
  split; [vm_compute; reflexivity|]. split; [repeat constructor; vm_compute; intuition congruence|]. split; [reflexivity|].
  split; [vm_compute; reflexivity|]. intros h h'. vm_compute. reflexivity.
Qed.
(* a whole run: what it asks of the operating system (the newest request first), and its result *)
Example C117_ex F : fst (ex_run F 100 (ex_random ++ ex_opens ++ ex_exit 7)) = Ok 7 /\
  map fst (w_log (snd (ex_run F 100 (ex_random ++ ex_opens ++ ex_exit 7)))) =
    [OsClose 11; OsClose 10; OsStatFd 11; OsIsfile 11; OsIsdir 11; OsOpen (nm "f") 131074 420 (Some 10); OsRandom 4; OsOpen (nm "/tmp/a") 65536 511 None] /\
  sane [0; 1; 2] ex4.
Proof. split; [vm_compute; reflexivity|]. split; [vm_compute; reflexivity|exact ex4_sane]. Qed.
