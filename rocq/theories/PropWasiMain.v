(* The end of a program run by Preview1.main, and the Preview1 object afterwards.
   Specification: SpecWasiRun.v and SpecWasi.v. *)
From Coq Require Import String.
From Coq Require Import ZArith List Bool Lia.
From Verif Require Import Py Arith Floatops Val Opcode Numeric Syntax Store Basic Machine Utf8 Os Wasi WasiRun SpecInt SpecNum SpecMachine SpecMem
  SpecControl SpecType SpecFormat SpecWasi SpecWasiRun PyFacts WasiTableFacts WasiRunFacts WasiEndFacts WasiOutcomeFacts WasiNamedFacts WasiAfterFacts PropWasi PropWasiRun.
Import ListNotations.
Open Scope Z_scope.

(* ---- the programs of the examples ---- *)
(* as ex_prog, with fd_renumber in place of random_get *)
Definition ex_prog_move (code : list inst) : moddesc :=
  mkmd ex_types [mkfd 4 [] code] [] [mklim 1 0] [] [] [ex_f] (-1)
    [mkimp n_wasi (nm "proc_exit") (ImpFunc 0); mkimp n_wasi (nm "fd_renumber") (ImpFunc 1); mkimp n_wasi (nm "path_open") (ImpFunc 2)] [mkexp n_start 0 3].
Definition ex_renumber (a b : Z) : list inst := [konst a; konst b; IOp O_call [AInt 1]; IOp O_drop []].
(* every file that path_open opens is a character device *)
Definition ex_devices : os := fun log c => match c with OsStatFd h => RStat (mkstat 0x21ed 7 1 10 0 0 0) | _ => ex4 log c end.
(* the kind of a file cannot be found out *)
Definition ex_nostat : os := fun log c => match c with OsStatFd h => RFail (OEother EOS) | _ => ex4 log c end.
Lemma ex_devices_sane : sane [0; 1; 2] ex_devices.
Proof. intros log c. pose proof (ex4_sane log c) as S. destruct c; exact S || exact I. Qed.
Lemma ex_nostat_sane : sane [0; 1; 2] ex_nostat.
Proof. intros log c. pose proof (ex4_sane log c) as S. destruct c; exact S || exact I. Qed.

(* C119: false. A program opens a character device (the program then exits with 7): its host descriptor, 11, is still
   open after main. *)
Theorem C119_devices_refuted : forall F, exists Os md, sane [0; 1; 2] Os /\
  let go := wasi_program F Os (nm "/") ex_std [] [(nm "/d", nm "/tmp/a")] [] 100 md ex_off in
  fst go = Ok 7 /\ live [0; 1; 2] (w_log (snd go)) 11.
Proof.
  intros F. exists ex_devices, (ex_prog 1 [ex_f] (ex_opens ++ ex_exit 7)). split; [exact ex_devices_sane|]. split; [vm_compute; reflexivity|].
  vm_compute. intuition congruence.
Qed.
Print Assumptions C119_devices_refuted.
(* The same for a file that is renumbered to standard output. *)
Theorem C119_renumber_refuted : forall F, exists Os md, sane [0; 1; 2] Os /\ plain_files Os /\
  let go := wasi_program F Os (nm "/") ex_std [] [(nm "/d", nm "/tmp/a")] [] 100 md ex_off in
  fst go = Ok 7 /\ live [0; 1; 2] (w_log (snd go)) 11.
Proof.
  intros F. exists ex4, (ex_prog_move (ex_opens ++ ex_renumber 4 1 ++ ex_exit 7)). split; [exact ex4_sane|].
  split; [intros log h; eexists; split; [reflexivity|]; cbn; destruct (h =? 10); vm_compute; discriminate|]. split; [vm_compute; reflexivity|].
  vm_compute. intuition congruence.
Qed.
Print Assumptions C119_renumber_refuted.
(* And for a file that could be opened but whose kind could not be found out: path_open raises and the descriptor is
   lost. *)
Theorem C119_lost_refuted : forall F, exists Os md, sane [0; 1; 2] Os /\
  let go := wasi_program F Os (nm "/") ex_std [] [(nm "/d", nm "/tmp/a")] [] 100 md ex_off in
  fst go = Err EOS /\ live [0; 1; 2] (w_log (snd go)) 11.
Proof.
  intros F. exists ex_nostat, (ex_prog 1 [ex_f] (ex_opens ++ ex_exit 7)). split; [exact ex_nostat_sane|]. split; [vm_compute; reflexivity|].
  vm_compute. intuition congruence.
Qed.
Print Assumptions C119_lost_refuted.
(* With return_on_exit switched off, proc_exit leaves the stacks as they are (the interpreter process is about to end,
   unless the host program catches SystemExit). *)
Theorem C119_stacks_refuted : forall F, exists n h w, reached ex4 (mkworld (mkpre (p_args (w_self w)) (p_dirs (w_self w)) (p_envs (w_self w)) (p_fd (w_self w)) true) (w_log w) (w_pipes w) (w_mach w)) /\
  fst (run_main F ex4 n h w) = Err (EExit 7) /\ ~ no_stacks (snd (run_main F ex4 n h w)).
Proof.
  intros F. set (w := ex_loaded F (ex_exit 7)).
  exists 10%nat, 0%nat, (mkworld (mkpre (p_args (w_self w)) (p_dirs (w_self w)) (p_envs (w_self w)) (p_fd (w_self w)) false) (w_log w) (w_pipes w) (w_mach w)).
  split; [|split; [vm_compute; reflexivity|]].
  - exists (nm "/"), ex_std, [], [(nm "/d", nm "/tmp/a")], [], ex_off, [Elsewhere (w_mach w) []]. split; [reflexivity|]. vm_compute. reflexivity.
  - intros (_ & _ & H). vm_compute in H. discriminate H.
Qed.
Print Assumptions C119_stacks_refuted.
(* What holds. If the descriptors can be closed, main returns c exactly if _start returns (and c is 0) or the program
   calls proc_exit with c; it raises exactly what _start raises otherwise; and all stacks are empty afterwards. *)
Theorem C119_outcome_partial : forall F Os n h w w', never_exits Os -> p_return_on_exit (w_self w) = true ->
  main_finally Os (snd (main_try F Os n h w)) = (Ok tt, w') ->
  (forall c, fst (run_main F Os n h w) = Ok c <-> (c = 0 /\ exists rs, fst (wrt_invocate F Os n h n_start [] w) = Ok rs) \/ exits F Os n h w c) /\
  (forall e, fst (run_main F Os n h w) = Err e <-> fst (wrt_invocate F Os n h n_start [] w) = Err e /\ forall c, ~ exits F Os n h w c).
Proof.
  intros F Os n h w w' NE R C. destruct (main_cases F Os NE n h w R) as (A & B & _). unfold run_main. destruct (main_try F Os n h w) as [r w1]. cbn [snd fst] in *.
  rewrite C. cbn [fst]. now split.
Qed.
Print Assumptions C119_outcome_partial.
Theorem C119_stacks_partial : forall F Os n h w, never_exits Os -> p_return_on_exit (w_self w) = true -> no_stacks (snd (run_main F Os n h w)).
Proof.
  intros F Os n h w NE R. destruct (main_cases F Os NE n h w R) as (_ & _ & S). unfold run_main. destruct (main_try F Os n h w) as [r w1]. cbn [snd] in S.
  pose proof (finally_mach Os w1) as E. unfold no_stacks in *. destruct (main_finally Os w1) as [[u|e] w2]; cbn [snd] in *; now rewrite E.
Qed.
Print Assumptions C119_stacks_partial.
(* Files that are no character devices and whose kind can be found out have all been closed after main, unless a
   descriptor was renumbered to a standard stream: nothing is open then that was not open at the beginning. (By
   C117_only_live nothing is closed twice.) *)
Theorem C119_closed_partial : forall F init Os cwd h0 n0 h1 n1 h2 n2 args dirs envs w0 before n h w',
  sane init Os -> In h0 init -> In h1 init -> In h2 init -> h0 <> h1 -> h0 <> h2 -> h1 <> h2 -> w_log w0 = [] -> plain_files Os ->
  let w := history Os (snd (new_preview1 Os cwd (h0, n0, (h1, n1), (h2, n2)) args dirs envs w0)) before in
  Forall not_to_std before -> main_finally Os (snd (main_try F Os n h w)) = (Ok tt, w') ->
  exists during, snd (main_try F Os n h w) = history Os w during /\ snd (run_main F Os n h w) = w' /\
    (Forall not_to_std during -> forall d, live init (w_log w') d -> In d init).
Proof.
  intros F init Os cwd h0 n0 h1 n1 h2 n2 args dirs envs w0 before n h w' SN I0 I1 I2 N1 N2 N3 L PF w NB C.
  destruct (main_end F Os n h w) as (l & E1 & E2). exists l. split; [exact E1|]. rewrite E1 in C. rewrite E2, C. split; [reflexivity|].
  intros ND. apply (all_closed init Os cwd h0 n0 h1 n1 h2 n2 args dirs envs w0 (before ++ l) w'); try assumption; [now apply Forall_app|].
  rewrite history_app. exact C.
Qed.
Print Assumptions C119_closed_partial.
Lemma ex4_plain : plain_files ex4.
Proof. intros log h. eexists. split; [reflexivity|]. cbn. destruct (h =? 10); vm_compute; discriminate. Qed.
Lemma ex4_never : never_exits ex4.
Proof. intros log c e. destruct c; cbn; intros H; try discriminate H; now injection H as <-. Qed.
(* the program of C117_ex *)
Definition ex_ready F : world :=
  let w := snd (new_preview1 ex4 (nm "/") ex_std [] [(nm "/d", nm "/tmp/a")] [] ex_off) in
  snd ((let! imps := mach (wasi_bind []) in let! L := mach (load_module (ex_prog 1 [ex_f] (ex_random ++ ex_opens ++ ex_exit 7))) in wrt_instance F ex4 10 imps L) w).
Lemma ex_ready_history F : exists h, ex_ready F = history ex4 (snd (new_preview1 ex4 (nm "/") ex_std [] [(nm "/d", nm "/tmp/a")] [] ex_off)) h.
Proof.
  unfold ex_ready. cbv zeta. match goal with |- exists h, snd (?e _) = _ => assert (hist ex4 e) as H; [|apply H] end.
  apply hist_bind; [apply hist_mach|]. intros imps. apply hist_bind; [apply hist_mach|]. intros L. apply hist_rt_instance.
Qed.
Example C119_ex F : never_exits ex4 /\ plain_files ex4 /\ p_return_on_exit (w_self (ex_ready F)) = true /\
  fst (main_finally ex4 (snd (main_try F ex4 100 0 (ex_ready F)))) = Ok tt /\ fst (run_main F ex4 100 0 (ex_ready F)) = Ok 7.
Proof. split; [exact ex4_never|]. split; [exact ex4_plain|]. split; [vm_compute; reflexivity|]. split; vm_compute; reflexivity. Qed.

(* C120: false. A second run of main with the same object (and module) opens a file below the directory whose host
   descriptor, 10, the first run closed. *)
Theorem C120_refuted : forall F, exists h w, let w1 := snd (run_main F ex4 100 h w) in fst (run_main F ex4 100 h w) = Ok 7 /\
  only_live [0; 1; 2] (w_log w1) /\ ~ live [0; 1; 2] (w_log w1) 10 /\
  ~ only_live [0; 1; 2] (w_log (snd (run_main F ex4 100 h w1))) /\
  In (OsOpen (nm "f") 131074 420 (Some 10)) (map fst (firstn (length (w_log (snd (run_main F ex4 100 h w1))) - length (w_log w1)) (w_log (snd (run_main F ex4 100 h w1))))).
Proof.
  intros F. exists 0%nat, (ex_ready F). cbv zeta. split; [vm_compute; reflexivity|].
  split; [|split; [vm_compute; intuition congruence|split; [|vm_compute; tauto]]].
  - destruct (ex_ready_history F) as (h0 & E0). destruct (main_end F ex4 100 0 (ex_ready F)) as (l & _ & E). rewrite E, E0, <- history_app.
    
    refine (C59_only_live [0; 1; 2] ex4 (nm "/") 0 (nm "in") 1 (nm "out") 2 (nm "err") [] [(nm "/d", nm "/tmp/a")] [] ex_off (h0 ++ l) ex4_sane _ _ _ _ _ _ eq_refl);
      (cbn; lia).
  - set (log := w_log (snd (run_main F ex4 100 0 (snd (run_main F ex4 100 0 (ex_ready F)))))). intros H.
    rewrite <- (firstn_skipn 4 log) in H. replace (skipn 4 log) with ((OsOpen (nm "f") 131074 420 (Some 10), RInt 12) :: skipn 5 log) in H by (vm_compute; reflexivity).
    apply live_at in H. cbn [uses] in H. apply Forall_inv in H. vm_compute in H. intuition congruence.
Qed.
Print Assumptions C120_refuted.
(* What holds. main changes nothing in the table but that entries from 3 on get their host side marked closed: every
   descriptor that was open for the guest stays so. *)
Theorem C120_table_partial : forall F Os n h w, exists during, snd (main_try F Os n h w) = history Os w during /\
  let w1 := history Os w during in let w2 := snd (run_main F Os n h w) in
  forall fd f, entry w1 fd f -> entry w2 fd f \/ (3 <= fd /\ entry w2 fd (set_host_open f false)).
Proof.
  intros F Os n h w. destruct (main_end F Os n h w) as (l & E1 & E2). exists l. split; [exact E1|]. cbv zeta. intros fd f (P & N). rewrite E2.
  destruct (finally_shut Os (history Os w l)) as (_ & S). destruct (S _ _ N) as [A|(A & B)]; [left; now split|]. right. split; [lia|]. now split.
Qed.
Print Assumptions C120_table_partial.
(* And calls that are given no descriptors but the standard streams, and that leave the table as it is, work on live
   host descriptors after main too, in any number. *)
Theorem C120_streams_partial : forall F init Os cwd h0 n0 h1 n1 h2 n2 args dirs envs w0 before n h after,
  sane init Os -> In h0 init -> In h1 init -> In h2 init -> h0 <> h1 -> h0 <> h2 -> h1 <> h2 -> w_log w0 = [] -> Forall only_std after ->
  let w := history Os (snd (new_preview1 Os cwd (h0, n0, (h1, n1), (h2, n2)) args dirs envs w0)) before in
  only_live init (w_log (history Os (snd (run_main F Os n h w)) after)).
Proof.
  intros F init Os cwd h0 n0 h1 n1 h2 n2 args dirs envs w0 before n h after SN I0 I1 I2 N1 N2 N3 L S w.
  destruct (main_end F Os n h w) as (l & _ & E). rewrite E. unfold w. rewrite <- history_app.
  destruct (new_ok init Os cwd h0 n0 h1 n1 h2 n2 args dirs envs w0 SN I0 I1 I2 N1 N2 N3 L) as (T & O).
  destruct (inv_history init Os (before ++ l) SN _ T O) as (T' & O'). apply std_history; [exact S|]. now apply finally_streams.
Qed.
Print Assumptions C120_streams_partial.
(* a call that writes to standard output after main: the request is made *)
Example C120_ex F : let after := [Elsewhere (w_mach (ex_open [])) []; Call F_fd_write [1; 0; 1; 40]] in
  let w := snd (run_main F ex4 100 0 (ex_ready F)) in
  Forall only_std after /\ map fst (firstn 1 (w_log (history ex4 w after))) = [OsWrite 1 []] /\
  length (w_log (history ex4 w after)) = S (length (w_log w)).
Proof. split; [repeat constructor|]. split; vm_compute; reflexivity. Qed.

(* C121: every request that a call makes works on host descriptors behind open descriptors that the call is given, or
   (path_open) on one that an earlier request of the same call opened. *)
Theorem C121_only_named : forall Os w f args, f <> F_poll_oneoff ->
  exists evs, w_log (snd (wasi_call Os f args w)) = evs ++ w_log w /\ own (named w f args) evs.
Proof. exact only_named. Qed.
Print Assumptions C121_only_named.
(* path_open on descriptor 3 makes four requests: one on the directory's host descriptor, 10, the others on the new one, 12 *)
Example C121_ex : let w := ex_open (nm "f") in
  map (fun e => uses (fst e)) (firstn 4 (w_log (snd (wasi_call ex_os F_path_open [3; 0; 0; 1; 0; 0; 0; 0; 8] w)))) = [[12]; [12]; [12]; [10]] /\
  named w F_path_open [3; 0; 0; 1; 0; 0; 0; 0; 8] 10 /\ ~ named w F_path_open [3; 0; 0; 1; 0; 0; 0; 0; 8] 11.
Proof.
  split; [vm_compute; reflexivity|]. split.
  - exists 3. eexists. split; [left; reflexivity|]. split; [split; [split; [lia|vm_compute; reflexivity]|reflexivity]|reflexivity].
  - intros (fd & e & [<-|[]] & ((_ & E) & _) & H). vm_compute in E. injection E as <-. discriminate H.
Qed.
