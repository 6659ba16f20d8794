(* C140: a WASI function that reports success has had its work done by the operating system. *)
From Coq Require Import ZArith List Bool Lia.
From Verif Require Import Py Floatops Val Syntax Store Machine Os Wasi SpecWasi SpecWasiAsk SpecWasiEarn WasiAskFacts WasiEarnFacts.
From Verif Require PropWasi.
Import ListNotations.
Open Scope Z_scope.

(* Which holds, in any world, with any arguments and any operating system, of all of them but two. *)
Theorem C140_earned_partial : forall Os f args w w', works_for f -> f <> F_fd_datasync -> f <> F_clock_time_get ->
  wasi_call Os f args w = (Ok [E_SUCCESS], w') -> granted (the_work (w_self w) f args) w w'.
Proof. intros Os f args w w' HW N1 N2. exact (call_earns Os (w_self w) f args HW N1 N2 w w' eq_refl). Qed.
Print Assumptions C140_earned_partial.
(* fd_datasync never asks for anything: the bytes written are not flushed, whatever it reports. *)
Theorem C140_datasync : forall Os args w, w_log (snd (wasi_call Os F_fd_datasync args w)) = w_log w.
Proof.
  intros Os args w. destruct (call_asks Os F_fd_datasync args w) as (evs & E & K). destruct evs as [|ev evs]; [exact E|]. inversion K as [|? ? K1]. discriminate K1.
Qed.
Print Assumptions C140_datasync.
(* clock_time_get has the time of the four clocks from the operating system; of any other it asks nothing. *)
Theorem C140_clock : forall Os id p t w, let e := wasi_call Os F_clock_time_get [id; p; t] in
  (0 <= id <= 3 -> forall w', e w = (Ok [E_SUCCESS], w') -> granted (the_work (w_self w) F_clock_time_get [id; p; t]) w w') /\ (~ 0 <= id <= 3 -> w_log (snd (e w)) = w_log w).
Proof. intros Os id p t w. split; [intros H w'; exact (clock_known Os (w_self w) id p t H w w' eq_refl)|exact (clock_unknown Os id p t w)]. Qed.
Print Assumptions C140_clock.
(* The program opens a file to write on and flushes it, and asks for a clock that there is not: both are reported as done. *)
Definition ex_file : world := history PropWasi.ex_os (PropWasi.ex_dir ([102])) [Call F_path_open [3; 0; 0; 1; 0; 0x57; 0; 0; 32]].
Theorem C140_refuted : ~ (forall Os f args w w', reached Os w -> works_for f -> wasi_call Os f args w = (Ok [E_SUCCESS], w') -> granted (the_work (w_self w) f args) w w').
Proof.
  intros H. assert (HR : reached PropWasi.ex_os ex_file) by apply PropWasi.ex_reached.
  destruct (H PropWasi.ex_os F_fd_datasync [4] ex_file (snd (wasi_call PropWasi.ex_os F_fd_datasync [4] ex_file)) HR) as (evs & c & r & E & HI & _).
  - cbn. tauto.
  - vm_compute. reflexivity.
  - rewrite C140_datasync in E. destruct evs as [|ev evs]; [exact HI|]. apply (f_equal (@length _)) in E. rewrite app_length in E. cbn in E. lia.
Qed.
Print Assumptions C140_refuted.
(* Clock 9, asked for in the same world: the answer is success, and time 0. *)
Example C140_ex_clock : let w' := snd (wasi_call PropWasi.ex_os F_clock_time_get [9; 0; 40] ex_file) in
  fst (wasi_call PropWasi.ex_os F_clock_time_get [9; 0; 40] ex_file) = Ok [E_SUCCESS] /\ ~ granted (the_work (w_self ex_file) F_clock_time_get [9; 0; 40]) ex_file w'.
Proof.
  cbv zeta. split; [vm_compute; reflexivity|]. intros (evs & c & r & E & HI & _). rewrite (proj2 (C140_clock PropWasi.ex_os 9 0 40 ex_file)) in E by lia.
  destruct evs as [|ev evs]; [exact HI|]. apply (f_equal (@length _)) in E. rewrite app_length in E. cbn in E. lia.
Qed.
(* Where the operating system grants it, fd_sync flushes file 11 and reports success; where it refuses, it does not report success. *)
Definition ex_grant : os := fun log c => match c with OsFsync _ => RUnit | _ => PropWasi.ex_os log c end.
Example C140_ex : fst (wasi_call ex_grant F_fd_sync [4] ex_file) = Ok [E_SUCCESS] /\
  w_log (snd (wasi_call ex_grant F_fd_sync [4] ex_file)) = (OsFsync 11, RUnit) :: w_log ex_file /\
  fst (wasi_call PropWasi.ex_os F_fd_sync [4] ex_file) <> Ok [E_SUCCESS].
Proof. split; [|split]; [vm_compute; reflexivity..|vm_compute; discriminate]. Qed.
