(* The command `python -m pywasm`: its options and its exit status. Specification: SpecCommand.v. *)
From Coq Require Import String.
From Coq Require Import ZArith List Bool Lia.
From Verif Require Import Py Floatops Val Opcode Numeric Syntax Store Basic Machine Decode Os Wasi WasiRun CommandLine
  SpecValid SpecWasi SpecWasiRun SpecCommand CommandFacts PropWasi PropWasiRun PropWasiMain.
Import ListNotations.
Open Scope Z_scope.

(* C122: however the run ends, the arguments are the file name and those given, and the environment has exactly the last
   setting of every name. *)
Theorem C122_environment : forall F Os cwd std n o file w, all_settings 58 (o_dirs o) -> all_settings 61 (o_envs o) ->
  let p := w_self (snd (main_wasi F Os cwd std n o file w)) in
  p_args p = o_file o :: o_args o /\ NoDup (p_envs p) /\
  (forall s, In s (p_envs p) <-> exists k v, s = setting 61 k v /\ last_setting 61 (o_envs o) k v).
Proof. exact environment. Qed.
Print Assumptions C122_environment.
(* No call changes them: they are the same during the whole run. *)
Theorem C122_throughout : forall Os w h, p_args (w_self (history Os w h)) = p_args (w_self w) /\ p_envs (w_self (history Os w h)) = p_envs (w_self w).
Proof. intros Os w h. pose proof (kp_history Os w h) as K. unfold given in K. now injection K. Qed.
Print Assumptions C122_throughout.
(* A setting without a separator: nothing happens but the exception. *)
Theorem C122_malformed : forall F Os cwd std n o file w, ~ (all_settings 58 (o_dirs o) /\ all_settings 61 (o_envs o)) ->
  main_wasi F Os cwd std n o file w = (Err EIndex, w).
Proof. exact malformed. Qed.
Print Assumptions C122_malformed.
Definition ex_options (envs dirs : list name) : options := mkopt n_start [] envs dirs [nm "-x"; nm "y"] true (nm "a.wasm").
Example C122_ex F : let o := ex_options [nm "A=1=2"; nm "B="; nm "A=3"; nm "=z"] [] in
  p_envs (w_self (snd (main_wasi F ex_os (nm "/") ex_std 10 o (Ok []) ex_off))) = [nm "=z"; nm "A=3"; nm "B="] /\
  last_setting 61 (o_envs o) (nm "A") (nm "3") /\ ~ all_settings 61 [nm "A=1"; nm "B"].
Proof.
  split; [vm_compute; reflexivity|]. split.
  - split; [vm_compute; intuition discriminate|]. exists [nm "A=1=2"; nm "B="], [nm "=z"]. split; [reflexivity|]. intros v'. vm_compute. intuition discriminate.
  - intros H. inversion H as [|? ? _ K]. inversion K as [|? ? K1 _]. vm_compute in K1. intuition discriminate.
Qed.

(* C123: descriptors from 3 on are the directories given *)
Theorem C123_directories : forall Os cwd std args l ds envs w w', pairs_of 58 l = Ok ds ->
  (forall k v, last_setting 58 l k v -> normpath k = k /\ normpath v = v /\ starts_with v [c_slash] = true) ->
  new_preview1 Os cwd std args ds envs w = (Ok tt, w') ->
  (forall k v, last_setting 58 l k v <-> exists fd e, 3 <= fd /\ is_open w' fd e /\ wasm_name e = k /\ host_name e = v) /\
  (forall fd fd' e e', 3 <= fd -> 3 <= fd' -> is_open w' fd e -> is_open w' fd' e' -> wasm_name e = wasm_name e' -> fd = fd').
Proof. exact directories. Qed.
Print Assumptions C123_directories.
Example C123_ex : let l := [nm "/d:/tmp/a"; nm "/e:/tmp/x:y"; nm "/d:/tmp/b"] in
  exists ds, pairs_of 58 l = Ok ds /\ ds = [(nm "/d", nm "/tmp/b"); (nm "/e", nm "/tmp/x:y")] /\
    Forall (fun kv => normpath (fst kv) = fst kv /\ normpath (snd kv) = snd kv /\ starts_with (snd kv) [c_slash] = true) ds /\
    fst (new_preview1 ex_os (nm "/") ex_std [] ds [] ex_off) = Ok tt /\
    map (fun f => (wasm_name f, host_name f)) (skipn 3 (p_fd (w_self (snd (new_preview1 ex_os (nm "/") ex_std [] ds [] ex_off))))) = ds.
Proof. eexists. split; [vm_compute; reflexivity|]. split; [reflexivity|]. split; [repeat constructor|]. split; vm_compute; reflexivity. Qed.

(* C124: arguments that stand for values: the function is called with these. *)
Theorem C124_call : forall F fl n o b m h f m' ps, found F n o b m h f m' -> all_written fl (ft_args (fi_type f)) (o_func_args o) ps ->
  main_wasm F fl n o (Ok b) m = rt_invocate F no_host n h (o_func o) ps m'.
Proof. exact call_made. Qed.
Print Assumptions C124_call.
(* A wrong number of arguments, an argument that is not even loosely a value in the range of its parameter, a parameter
   that is a reference: the command raises where the module has just been instantiated. *)
Theorem C124_refused : forall F fl n o b m h f m', found F n o b m h f m' -> unsuitable fl (ft_args (fi_type f)) (o_func_args o) ->
  exists e, main_wasm F fl n o (Ok b) m = (Err e, m').
Proof. exact refused. Qed.
Print Assumptions C124_refused.
(* Claim C124 says that vectors are written with 0x in front. Any two characters will do: a vector written without 0x
   loses its first byte. *)
Theorem C124_prefix_refuted : exists fl s b, length b = 16%nat /\ firstn 2 s <> nm "0x" /\ s = nm "ff" ++ hex b /\ argument fl T_v128 s = Ok (PBytes b).
Proof. exists (fun _ => Err EValue), (nm "ff" ++ hex (repeat 7 16)), (repeat 7 16). split; [reflexivity|]. split; [vm_compute; discriminate|]. split; [reflexivity|]. vm_compute. reflexivity. Qed.
Print Assumptions C124_prefix_refuted.
(* (i32, v128) -> i32: the first; exported as "f" *)
Definition ex_first : list Z :=
  [0; 0x61; 0x73; 0x6d; 1; 0; 0; 0; 1; 7; 1; 0x60; 2; 0x7f; 0x7b; 1; 0x7f; 3; 2; 1; 0; 7; 5; 1; 1; 0x66; 0; 0; 10; 6; 1; 4; 0; 0x20; 0; 0x0b].
Definition ex_call (args : list name) : options := mkopt (nm "f") args [] [] [] false (nm "a.wasm").
Lemma ex_numeral : numeral (nm "-12") (-12).
Proof. exists [45], [1; 2]. split; [reflexivity|]. split; [repeat constructor; lia|]. split; [cbn; lia|]. right. right. now split. Qed.
Example C124_ex F fl : fst (command F ex_os fl (nm "/") ex_std 10 (ex_call [nm "-12"; nm "0x" ++ hex (repeat 7 16)]) (Ok ex_first) ex_off) = Printed [PInt (-12)] /\
  all_written fl [T_i32; T_v128] [nm "-12"; nm "0x" ++ hex (repeat 7 16)] [PInt (-12); PBytes (repeat 7 16)] /\
  (exists h f m', found F 10 (ex_call []) ex_first machine_empty h f m' /\ ft_args (fi_type f) = [T_i32; T_v128]) /\
  unsuitable fl [T_i32; T_v128] [nm "1.5"; nm "0x"].
Proof.
  split; [vm_compute; reflexivity|]. split; [|split].
  - constructor; [constructor; exact ex_numeral|]. constructor; [|constructor]. apply (written_v128 fl (repeat 7 16)). repeat constructor; lia.
  - do 3 eexists. split; [do 4 eexists; split; [vm_compute; reflexivity|]; split; [reflexivity|]; split; [vm_compute; reflexivity|]; split; reflexivity|reflexivity].
  - right. exists 1%nat, T_v128, (nm "0x"). split; [reflexivity|]. split; [reflexivity|]. intros p R K. inversion R as [| | | |c d s b E]; subst. destruct b; [destruct K as [K _]; discriminate K|discriminate E].
Qed.

(* C125: once the module has been instantiated, and if the files can be closed at the end, the exit status is what the
   claim says. *)
Theorem C125_status_partial : forall F Os fl cwd std n o b w h w' w'', never_exits Os -> o_wasi o = true -> set_up F Os cwd std n o b w h w' ->
  main_finally Os (snd (main_try F Os n h w')) = (Ok tt, w'') ->
  let x := fst (command F Os fl cwd std n o (Ok b) w) in
  (forall c, exits F Os n h w' c -> status x = c mod 256) /\
  (forall rs, fst (wrt_invocate F Os n h n_start [] w') = Ok rs -> status x = 0) /\
  (forall e, fst (wrt_invocate F Os n h n_start [] w') = Err e -> (forall c, ~ exits F Os n h w' c) -> status x = 1).
Proof. exact statuses. Qed.
Print Assumptions C125_status_partial.
(* imports proc_exit; its function calls it with 7; [s]: the section that makes the function the start function, or
   exports it as _start *)
Definition ex_leaves (s : list Z) : list Z :=
  [0; 0x61; 0x73; 0x6d; 1; 0; 0; 0; 1; 8; 2; 0x60; 1; 0x7f; 0; 0x60; 0; 0; 2; 36; 1; 22] ++ nm "wasi_snapshot_preview1" ++ [9] ++ nm "proc_exit" ++ [0; 0; 3; 2; 1; 1] ++
  s ++ [10; 8; 1; 6; 0; 0x41; 7; 0x10; 0; 0x0b].
Definition ex_starts : list Z := ex_leaves [8; 1; 1].
Definition ex_exported : list Z := ex_leaves ([7; 10; 1; 6] ++ nm "_start" ++ [0; 1]).
(* A program whose start function calls proc_exit with 7 ends with status 1. *)
Theorem C125_refuted : exists md, module_from_reader ex_starts = Ok md /\ md_star md = 1 /\
  map fd_expr (md_func md) = [[IOp O_i32_const [AInt 7]; IOp O_call [AInt 0]]] /\ map im_name (md_imps md) = [nm "proc_exit"] /\
  forall F fl, fst (command F ex_os fl (nm "/") ex_std 10 (ex_options [] []) (Ok ex_starts) ex_off) = Raised (ESystemExit 7) /\ status (Raised (ESystemExit 7)) = 1.
Proof. eexists. split; [vm_compute; reflexivity|]. split; [reflexivity|]. split; [reflexivity|]. split; [reflexivity|]. intros F fl. split; [vm_compute; reflexivity|reflexivity]. Qed.
Print Assumptions C125_refuted.
Example C125_ex F fl : let o := ex_options [] [] in let x := fst (command F ex4 fl (nm "/") ex_std 10 o (Ok ex_exported) ex_off) in
  x = Exited 7 /\ status x = 7 /\ never_exits ex4 /\
  exists h w', set_up F ex4 (nm "/") ex_std 10 o ex_exported ex_off h w' /\ fst (main_finally ex4 (snd (main_try F ex4 10 h w'))) = Ok tt /\ exits F ex4 10 h w' 7.
Proof.
  cbv zeta. split; [vm_compute; reflexivity|]. split; [vm_compute; reflexivity|]. split; [exact ex4_never|].
  assert (exists h w', set_up F ex4 (nm "/") ex_std 10 (ex_options [] []) ex_exported ex_off h w' /\ fst (main_finally ex4 (snd (main_try F ex4 10 h w'))) = Ok tt /\
    p_return_on_exit (w_self w') = true /\ fst (run_main F ex4 10 h w') = Ok 7) as (h & w' & S & E & R & X).
  { do 2 eexists. split; [do 8 eexists; (split; [vm_compute; reflexivity|]); (split; [vm_compute; reflexivity|]); (split; [vm_compute; reflexivity|]); (split; [vm_compute; reflexivity|]);
      (split; [vm_compute; reflexivity|]); (split; [vm_compute; reflexivity|]); vm_compute; reflexivity|]. split; [vm_compute; reflexivity|]. split; vm_compute; reflexivity. }
  exists h, w'. split; [exact S|]. split; [exact E|]. destruct (main_finally ex4 (snd (main_try F ex4 10 h w'))) as [[[]|] w''] eqn:EF; [|discriminate].
  destruct (C119_outcome_partial F ex4 10 h w' w'' ex4_never R EF) as [A _]. apply A in X. destruct X as [[X _]|X]; [discriminate|exact X].
Qed.
