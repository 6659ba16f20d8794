(* C131: modules that fail validation. *)
From Coq Require Import ZArith List Bool Lia.
From Verif Require Import Py Arith Floatops Val Opcode Numeric Syntax Store Leb128 Utf8 Decode Basic Machine SpecMachine SpecControl SpecRun SpecInst SpecType.
From Verif Require Import Float SpecValid InvalidFacts PropIsolate.
Import ListNotations.
Open Scope Z_scope.

(* A function () -> i32 that gives the f32 1.0. *)
Definition ex_wrong_result : list Z := ex_file [(1, [1; 0x60; 0; 1; 0x7f]); (3, [1; 0]); (7, [1; 1; 0x66; 0; 0]); (10, [1; 7; 0; 0x43; 0; 0; 0x80; 0x3f; 0x0b])].
(* A function without parameters and locals that reads local 5. *)
Definition ex_no_local : list Z := ex_file [(1, [1; 0x60; 0; 1; 0x7f]); (3, [1; 0]); (7, [1; 1; 0x66; 0; 0]); (10, [1; 4; 0; 0x20; 5; 0x0b])].
(* An i32 global that starts with the f32 1.0. *)
Definition ex_wrong_global : list Z := ex_file [(6, [1; 0x7f; 0; 0x43; 0; 0; 0x80; 0x3f; 0x0b])].
(* A global that starts with a sum, which is not a constant expression. *)
Definition ex_computed_global : list Z := ex_file [(6, [1; 0x7f; 0; 0x41; 1; 0x41; 2; 0x6a; 0x0b])].
(* Two functions exported under one name. *)
Definition ex_same_name : list Z :=
  ex_file [(1, [1; 0x60; 0; 1; 0x7f]); (3, [2; 0; 0]); (7, [2; 1; 0x66; 0; 0; 1; 0x66; 0; 1]); (10, [2; 4; 0; 0x41; 1; 0x0b; 4; 0; 0x41; 2; 0x0b])].
(* and ex_forger: an element segment of function references whose entry is a number *)

(* Each of these files is read and instantiated, and breaks a rule of validation: the body of a function, the initial
   values of globals, the entries of element segments, the names of exports. *)
Theorem C131_refuted :
  Forall (fun '(b, broken) => exists md L m1 h m2, module_from_reader b = Ok md /\ load_module md machine_empty = (Ok L, m1) /\
      instance ieee ex_nohost 100 L [] m1 = (Ok h, m2) /\ broken md /\ ~ valid_module md)
    [(ex_wrong_result, fun md => exists d t, md_func md = [d] /\ item (md_type md) (fd_type d) t /\
        ~ typed_seq (module_ctx md (ft_args t ++ declared (fd_locals d)) (ft_rets t)) (fd_expr d) [] (rev (ft_rets t)));
     (ex_no_local, fun md => exists d t, md_func md = [d] /\ item (md_type md) (fd_type d) t /\
        ~ typed_seq (module_ctx md (ft_args t ++ declared (fd_locals d)) (ft_rets t)) (fd_expr d) [] (rev (ft_rets t)));
     (ex_wrong_global, fun md => exists d, md_glob md = [d] /\ constant (gd_init d) /\ ~ const_typed md (gd_init d) (gt_type (gd_type d)));
     (ex_computed_global, fun md => exists d, md_glob md = [d] /\ ~ constant (gd_init d));
     (ex_same_name, fun md => ~ NoDup (map ex_name (md_exps md)));
     (ex_forger, fun md => exists d c, md_elem md = [d] /\ ed_init d = [c] /\ constant c /\ ~ const_typed md c (ed_type d))].
Proof.
  assert (W : forall b (broken : moddesc -> Prop) md L m1 h m2, module_from_reader b = Ok md -> load_module md machine_empty = (Ok L, m1) ->
    instance ieee ex_nohost 100 L [] m1 = (Ok h, m2) -> broken md -> (broken md -> ~ valid_module md) ->
    exists md L m1 h m2, module_from_reader b = Ok md /\ load_module md machine_empty = (Ok L, m1) /\ instance ieee ex_nohost 100 L [] m1 = (Ok h, m2) /\ broken md /\ ~ valid_module md)
    by (intros b broken md L m1 h m2 H1 H2 H3 H4 H5; exists md, L, m1, h, m2; auto 10).
  assert (WF : forall md, (exists d t, md_func md = [d] /\ item (md_type md) (fd_type d) t /\
        ~ typed_seq (module_ctx md (ft_args t ++ declared (fd_locals d)) (ft_rets t)) (fd_expr d) [] (rev (ft_rets t))) -> ~ valid_module md).
  { intros md (d & t & H1 & [_ H2] & H3) V. pose proof (vm_func _ V) as X. rewrite H1 in X. apply Forall_inv in X. destruct X as (t' & [_ X1] & X2).
    rewrite H2 in X1. injection X1 as <-. exact (H3 X2). }
  repeat apply Forall_cons; try apply Forall_nil.
  - eapply W; [vm_compute; reflexivity|vm_compute; reflexivity|vm_compute; reflexivity| |apply WF].
    eexists _, _. split; [reflexivity|]. split; [split; [cbn; lia|reflexivity]|]. cbn. intros X. apply single in X.
    inversion X; subst; try match goal with H : _ = Some _ |- _ => discriminate H end.
  - eapply W; [vm_compute; reflexivity|vm_compute; reflexivity|vm_compute; reflexivity| |apply WF].
    eexists _, _. split; [reflexivity|]. split; [split; [cbn; lia|reflexivity]|]. cbn. intros X. apply single in X.
    inversion X; subst; try match goal with H : _ = Some _ |- _ => discriminate H end. match goal with H : Z.of_nat ?k = 5 |- _ => replace k with 5%nat in * by lia end. match goal with H : nth_error _ _ = Some _ |- _ => discriminate H end.
  - eapply W; [vm_compute; reflexivity|vm_compute; reflexivity|vm_compute; reflexivity| |].
    + eexists. split; [reflexivity|]. split; [eexists _, _; split; [reflexivity|cbn; tauto]|]. intros [_ X]. cbn in X. apply single in X.
      inversion X; subst; try match goal with H : _ = Some _ |- _ => discriminate H end.
    + intros (d & H1 & _ & H2) V. pose proof (vm_glob _ V) as X. rewrite H1 in X. apply Forall_inv in X. exact (H2 (proj2 X)).
  - eapply W; [vm_compute; reflexivity|vm_compute; reflexivity|vm_compute; reflexivity| |].
    + eexists. split; [reflexivity|]. intros (o & args & X & _). discriminate.
    + intros (d & H1 & H2) V. pose proof (vm_glob _ V) as X. rewrite H1 in X. apply Forall_inv in X. exact (H2 (proj1 (proj2 X))).
  - eapply W; [vm_compute; reflexivity|vm_compute; reflexivity|vm_compute; reflexivity| |].
    + cbn. intros X. inversion X as [|x l H1 H2]; subst. apply H1. left. reflexivity.
    + intros H V. exact (H (vm_names _ V)).
  - eapply W; [vm_compute; reflexivity|vm_compute; reflexivity|vm_compute; reflexivity| |].
    + eexists _, _. split; [reflexivity|]. split; [reflexivity|]. split; [eexists _, _; split; [reflexivity|cbn; tauto]|]. intros [_ X]. cbn in X. apply single in X.
      inversion X; subst; try match goal with H : _ = Some _ |- _ => discriminate H end.
    + intros (d & c & H1 & H2 & _ & H3) V. pose proof (vm_elem _ V) as X. rewrite H1 in X. apply Forall_inv in X. destruct X as (_ & _ & X & _). rewrite H2 in X. exact (H3 (Forall_inv X)).
Qed.
Print Assumptions C131_refuted.

(* What instantiation has checked, whatever the module, the store and the imports. *)
Theorem C131_checked_partial F host n L ext m h m' : instance F host n L ext m = (Ok h, m') -> let md := l_desc L in
  length (md_imps md) = length ext /\
  Forall (fun d => fd_type d < len (md_type md)) (md_func md) /\
  Forall (fun t => l_m (tt_limits t) = 0 \/ l_n (tt_limits t) <= l_m (tt_limits t)) (md_tabl md) /\
  Forall (fun t => sound_limits t /\ l_n t <= 65536) (md_mems md) /\
  Forall (fun d => gt_mut (gd_type d) = 0 \/ gt_mut (gd_type d) = 1) (md_glob md) /\
  Forall (fun d => is_ref (ed_type d) = true) (md_elem md) /\
  Forall (fun e => ex_kind e = 0 /\ ex_desc e < len (imported 0 ext) + len (md_func md) \/
    ex_kind e = 1 /\ ex_desc e < len (imported 1 ext) + len (md_tabl md) \/
    ex_kind e = 2 /\ ex_desc e < len (imported 2 ext) + len (md_mems md) \/
    ex_kind e = 3 /\ ex_desc e < len (imported 3 ext) + len (md_glob md)) (md_exps md).
Proof. exact (instance_checks F host n L ext m h m'). Qed.
Print Assumptions C131_checked_partial.
(* The counter of C130, which has a function, a global and an export; and the forger, which has a table and a segment. *)
Example ex_C131_checked : instance ieee ex_nohost 100 (mkloaded ex_counter []) [] machine_empty = (Ok 0%nat, ex_one) /\
  exists md L m1 h m2, module_from_reader ex_forger = Ok md /\ load_module md machine_empty = (Ok L, m1) /\ instance ieee ex_nohost 100 L [] m1 = (Ok h, m2) /\
    length (md_tabl md) = 1%nat /\ length (md_elem md) = 1%nat.
Proof. split; [exact ex_made_one|]. eexists _, _, _, _, _. split; [vm_compute; reflexivity|]. split; [vm_compute; reflexivity|]. split; [vm_compute; reflexivity|]. split; reflexivity. Qed.
