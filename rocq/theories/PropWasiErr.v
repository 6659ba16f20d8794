(* C141: a WASI function that fails has changed nothing of the program. *)
From Coq Require Import ZArith List Bool Lia.
From Verif Require Import Py Floatops Val Syntax Store Machine Os Wasi SpecWasi SpecWasiLeave SpecWasiErr WasiErrFacts WasiRaiseFacts.
From Verif Require PropWasi.
Import ListNotations.
Open Scope Z_scope.

(* In any world, with any arguments and any operating system: where an error number is returned, memory, descriptors and streams are as they were. *)
Theorem C141_errno_partial : forall Os f args w v w', wasi_call Os f args w = (Ok v, w') -> v <> [E_SUCCESS] -> unmoved w w'.
Proof. intros Os f args. exact (call_spares Os f args). Qed.
Print Assumptions C141_errno_partial.
(* The functions that hand nothing back through memory, but fd_fdstat_set_flags, also leave them as they were when they raise. *)
Theorem C141_raised_partial : forall Os f args w r w', fills_memory f = false -> f <> F_fd_fdstat_set_flags ->
  wasi_call Os f args w = (r, w') -> r <> Ok [E_SUCCESS] -> unmoved w w'.
Proof. exact raise_unmoved. Qed.
Print Assumptions C141_raised_partial.
(* Of fd_fdstat_set_flags this is not so: it notes the new flags first, and then asks the operating system, which refuses them. *)
Definition ex_flags : world := history PropWasi.ex_os (PropWasi.ex_dir [102]) [Call F_path_open [3; 0; 0; 1; 0; 0x5f; 0; 0; 32]].
Theorem C141_refuted : ~ (forall Os f args w w' r, reached Os w -> wasi_call Os f args w = (r, w') -> r <> Ok [E_SUCCESS] -> unmoved w w').
Proof.
  intros H. assert (HR : reached PropWasi.ex_os ex_flags) by apply PropWasi.ex_reached.
  destruct (H PropWasi.ex_os F_fd_fdstat_set_flags [4; 1] ex_flags _ _ HR (surjective_pairing _)) as (_ & E & _).
  - vm_compute. discriminate.
  - apply (f_equal (fun p => map wasm_flag (p_fd p))) in E. vm_compute in E. discriminate E.
Qed.
Print Assumptions C141_refuted.
(* The flags of descriptor 4 before and after: the operating system was asked, and refused. *)
Example C141_ex_flags : let w' := snd (wasi_call PropWasi.ex_os F_fd_fdstat_set_flags [4; 1] ex_flags) in
  map wasm_flag (p_fd (w_self ex_flags)) = [0; 0; 0; 0; 0] /\ map wasm_flag (p_fd (w_self w')) = [0; 0; 0; 0; 1] /\
  (exists fl e, w_log w' = (OsSetfl 11 fl, RFail e) :: w_log ex_flags) /\ exists x, fst (wasi_call PropWasi.ex_os F_fd_fdstat_set_flags [4; 1] ex_flags) = Err x.
Proof. cbv zeta. split; [vm_compute; reflexivity|]. split; [vm_compute; reflexivity|]. split; eexists; [eexists|]; vm_compute; reflexivity. Qed.
(* An error number: opening a name with a zero byte in it. *)
Example C141_ex : fst (wasi_call PropWasi.ex_os F_path_open [3; 0; 0; 2; 0; 0x5f; 0; 0; 32] ex_flags) = Ok [E_ILSEQ].
Proof. vm_compute. reflexivity. Qed.
(* An exception: the operating system refuses to close file 11, and descriptor 4 stays open. *)
Definition ex_refuse : os := fun log c => match c with OsClose _ => RFail (OEother EOS) | _ => PropWasi.ex_os log c end.
Example C141_ex_close : (exists x, fst (wasi_call ex_refuse F_fd_close [4] ex_flags) = Err x) /\
  map wasm_open (p_fd (w_self (snd (wasi_call ex_refuse F_fd_close [4] ex_flags)))) = [true; true; true; true; true] /\
  map wasm_open (p_fd (w_self (snd (wasi_call PropWasi.ex_os F_fd_close [4] ex_flags)))) = [true; true; true; true; false].
Proof. split; [eexists; vm_compute; reflexivity|]. split; vm_compute; reflexivity. Qed.
