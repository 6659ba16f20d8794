(* C28-C31, C33-C35: blocks, branches, calls and invocations. *)
From Coq Require Import ZArith List Bool.
From Verif Require Import Py Arith Floatops Val Opcode Numeric Syntax Store Basic Machine
  SpecInt SpecNum SpecMachine SpecControl ControlFacts CallFacts.
Import ListNotations.
Open Scope Z_scope.

(* C28. Code that has a structured meaning runs that way on the flat stacks, whatever lies below on the value stack [W],
   the label stack [LS] and the frame stack [FS]. *)
Theorem C28_code_is_structured F hs d mr s L V is s' L' o W lb LS fr FS :
  run F hs d mr s L V is s' L' o ->
  at_code lb is -> (lb_value lb <= length W)%nat -> fr_module fr = mr -> fr_locals fr = L -> S (length FS) = d ->
  ends F (plain_host hs) (mkmach s (V ++ W) (lb :: LS) (fr :: FS)) W lb (length (lb_instr lb)) LS fr FS s' L' o.
Proof. intros H. exact (proj1 (simulation F hs) d mr s L V is s' L' o H W lb LS fr FS). Qed.
Print Assumptions C28_code_is_structured.

(* A whole invocation gives the results and the store of the structured meaning, given enough turns. *)
Theorem C28_invocation F hs s a t h code args s' L' o R :
  nth_error (s_func s) a = Some (FWasm t h code) -> map v_type args = ft_args t ->
  run F hs 2 (MRef h) s (args ++ default_locals (fd_locals code)) [] (fd_expr code) s' L' o ->
  result (length (ft_rets t)) o (Some R) -> map v_type R = ft_rets t ->
  exists n0, forall n, (n0 <= n)%nat ->
    invocate F (plain_host hs) n (Z.of_nat a) args (mkmach s [] [] []) = (Ok R, mkmach s' [] [] []).
Proof. exact (invocation_ok F hs s a t h code args s' L' o R). Qed.
Print Assumptions C28_invocation.
Theorem C28_trap F hs s a t h code args s' L' o :
  nth_error (s_func s) a = Some (FWasm t h code) -> map v_type args = ft_args t ->
  run F hs 2 (MRef h) s (args ++ default_locals (fd_locals code)) [] (fd_expr code) s' L' o ->
  result (length (ft_rets t)) o None ->
  exists n0 e m', k_store m' = s' /\ forall n, (n0 <= n)%nat ->
    invocate F (plain_host hs) n (Z.of_nat a) args (mkmach s [] [] []) = (Err e, m').
Proof. exact (invocation_trap F hs s a t h code args s' L' o). Qed.
Print Assumptions C28_trap.

(* x => 2x, and (n, r) => while n <> 0 do r := double(r) + 1; n := n - 1 *)
Definition ex_double : funcdesc := mkfd 0 [] [IOp O_local_get [AInt 0]; IOp O_local_get [AInt 0]; IOp O_i32_add []; IOp O_return_call []].
Definition ex_loop : list inst :=
  [IOp O_local_get [AInt 0]; IOp O_i32_eqz []; IOp O_br_if [AInt 1];
   IOp O_local_get [AInt 1]; IOp O_call [AInt 0]; IOp O_i32_const [AInt 1]; IOp O_i32_add []; IOp O_local_set [AInt 1];
   IOp O_local_get [AInt 0]; IOp O_i32_const [AInt 1]; IOp O_i32_sub []; IOp O_local_set [AInt 0]; IOp O_br [AInt 0]].
Definition ex_main : funcdesc := mkfd 0 [(1, T_i32)] [IBlock BT_empty [ILoop BT_empty ex_loop]; IOp O_local_get [AInt 1]].
Definition ex_store : store :=
  let t := mkft [T_i32] [T_i32] in
  mkstore [FWasm t 0 ex_double; FWasm t 0 ex_main] [] [] [] [] [] [mkmi [t] [0; 1] [] [] [] [] [] []] [].
Ltac op := eapply one_op; [reflexivity|]; cbv beta iota delta [by_model]; lazymatch goal with |- ?x = _ => let y := eval vm_compute in x in exact (eq_refl y) end.
Ltac is_wf := unfold val_wf; vm_compute; split; [reflexivity|repeat constructor; discriminate].
Lemma ex_doubles F hs d L (x : val) y V : (d < 1024)%nat ->
  exec_basic F (MRef 0) O_i32_add [] (mkb ex_store [x] [x; x]) = (Ok tt, mkb ex_store [x] [y]) ->
  one F hs d (MRef 0) ex_store L (x :: V) (IOp O_call [AInt 0]) ex_store L (Done (y :: V)).
Proof.
  intros Hd E. eapply (one_call _ F hs d (MRef 0) ex_store L (x :: V) 0 0); [reflexivity|].
  eapply (call_wasm (by_model F) F hs d ex_store L [x] V 0 (mkft [T_i32] [T_i32]) 0 ex_double _ _ (Back [y]) _ eq_refl eq_refl Hd).
  2:{ exact (rt_back 1 V [y] (le_n _)). }
  eapply run_cons; [eapply (one_op _ _ _ _ _ _ _ _ _ _ _ _ [x]); [reflexivity|cbv beta iota delta [by_model]; reflexivity]|].
  eapply run_cons; [eapply (one_op _ _ _ _ _ _ _ _ _ _ _ _ [x; x]); [reflexivity|cbv beta iota delta [by_model]; reflexivity]|].
  eapply run_cons; [eapply one_op; [reflexivity|exact E]|]. eapply run_stop; [apply one_return|reflexivity].
Qed.
Ltac turn := eapply run_cons; [op|]; eapply run_cons; [op|]; eapply run_cons; [exact (one_br_if _ _ _ _ _ _ _ (num_val T_i32 0) _ 1 ltac:(is_wf))|];
  eapply run_cons; [op|]; eapply run_cons; [apply ex_doubles; [repeat constructor|lazymatch goal with |- ?x = _ => let y := eval vm_compute in x in exact (eq_refl y) end]|];
  do 7 (eapply run_cons; [op|]); eapply run_stop; [exact (one_br _ _ _ _ _ _ _ _ 0)|reflexivity].
Lemma ex_runs F hs : run F hs 2 (MRef 0) ex_store [num_val T_i32 2; num_val T_i32 0] [] (fd_expr ex_main) ex_store
  [num_val T_i32 0; num_val T_i32 3] (Done [num_val T_i32 3]).
Proof.
  eapply run_cons.
  { eapply (one_block _ _ _ _ _ _ _ [] [] BT_empty (mkft [] [])); [reflexivity|reflexivity| |eapply (lv_here 0 [] []); apply le_n].
    eapply run_stop; [|reflexivity].
    eapply (one_loop _ _ _ _ _ _ _ [] [] BT_empty (mkft [] [])); [reflexivity|reflexivity| |eapply (lv_outer 0 [] 0 [])].
    eapply loop_again; [turn|apply le_n|]. eapply loop_again; [turn|apply le_n|]. eapply loop_end; [|intros R; discriminate].
    eapply run_cons; [op|]; eapply run_cons; [op|]; eapply run_stop; [exact (one_br_if _ _ _ _ _ _ _ (num_val T_i32 1) _ 1 ltac:(is_wf))|reflexivity]. }
  eapply run_cons; [op|]. apply run_nil.
Qed.
Example C28_example F hs : exists n0, forall n, (n0 <= n)%nat ->
  invocate F (plain_host hs) n 1 [num_val T_i32 2] (mkmach ex_store [] [] []) = (Ok [num_val T_i32 3], mkmach ex_store [] [] []).
Proof.
  exact (C28_invocation F hs ex_store 1 (mkft [T_i32] [T_i32]) 0 ex_main [num_val T_i32 2] _ _ _ [num_val T_i32 3]
    eq_refl eq_refl (ex_runs F hs) (rs_done 1 [num_val T_i32 3] eq_refl) eq_refl).
Qed.
(* the same value under an operand that the code cannot see *)
Example C28_example_below F hs :
  let lb := mklabel 1 2 1 KFunc (fd_expr ex_main) 0 in
  let fr := mkframe (MRef 0) [num_val T_i32 2; num_val T_i32 0] 1 0 1 in
  reach F (plain_host hs) (mkmach ex_store [num_val T_i64 77] [lb] [fr; dummy])
    (mkmach ex_store [num_val T_i32 3; num_val T_i64 77] [goto lb 2] [relocal fr [num_val T_i32 0; num_val T_i32 3]; dummy]).
Proof.
  exact (C28_code_is_structured F hs _ _ _ _ [] _ _ _ _ [num_val T_i64 77] (mklabel 1 2 1 KFunc (fd_expr ex_main) 0) [] (mkframe (MRef 0) [num_val T_i32 2; num_val T_i32 0] 1 0 1) [dummy]
    (ex_runs F hs) (conj eq_refl (PeanoNat.Nat.le_0_l _)) (le_n _) eq_refl eq_refl eq_refl).
Qed.

(* ---- small modules for the findings: functions of type [] -> [i32] or [] -> [] ---- *)
Definition nil_nil : functype := mkft [] [].
Definition nil_i32 : functype := mkft [] [T_i32].
(* the functions [fs], exported under their index as a one-letter name *)
Definition ex_module (imps : list import) (fs : list funcdesc) : moddesc :=
  mkmd [nil_nil; nil_i32] fs [] [] [] [] [] (-1) imps
    (map (fun k => mkexp [Z.of_nat k] 0 (Z.of_nat k)) (seq 0 (length imps + length fs))).
Definition ex_fresh (F : fops) (host : hostcode) (md : moddesc) (ext : list extern) (m : machine) : machine :=
  snd (instance F host 100 (mkloaded md []) ext m).
Definition no_host : hostcode := fun _ _ m => (Err (EHost 0), m).

(* C29 does not hold: [caller i] sets its local to 42, calls a function whose only instruction is [i], and gives the
   local back. With `return` it gives 42, with `br 0`, which should do the same, the caller goes on with the callee's
   frame: it finds no local 0. *)
Definition caller (i : inst) : moddesc :=
  ex_module [] [mkfd 1 [(1, T_i32)] [IOp O_i32_const [AInt 42]; IOp O_local_set [AInt 0]; IOp O_call [AInt 1]; IOp O_local_get [AInt 0]];
                mkfd 0 [] [i]].
Theorem C29_function_label_refuted F :
  let start i := ex_fresh F no_host (caller i) [] machine_empty in
  fst (rt_invocate F no_host 100 0 [0] [] (start (IOp O_return_call []))) = Ok [PInt 42] /\
  fst (rt_invocate F no_host 100 0 [0] [] (start (IOp O_br [AInt 0]))) = Err EIndex.
Proof. vm_compute. split; reflexivity. Qed.
Print Assumptions C29_function_label_refuted.
(* Where it does hold: in the function that was invoked from outside, a branch to the function's label, however many
   blocks [LS] it leaves, ends the function with its results, exactly as return does. *)
Theorem C29_function_label_partial F host m fr s V LS t code x :
  about_to_run m (IOp O_br [AInt (Z.of_nat (length LS))]) fr ->
  k_store m = s -> k_value m = V -> k_label m = LS ++ [mklabel (length (ft_rets t)) 1 0 KFunc (fd_expr code) x] ->
  k_frame m = [fr; dummy] -> (length (ft_rets t) <= length V)%nat ->
  step F host m = (Ok tt, mkmach s (firstn (length (ft_rets t)) V) [] [dummy]).
Proof. exact (br_out F host m fr s V LS t code x). Qed.
Print Assumptions C29_function_label_partial.
Example C29_example F :
  fst (rt_invocate F no_host 100 0 [0] []
    (ex_fresh F no_host (ex_module [] [mkfd 1 [] [IBlock BT_empty [IOp O_i32_const [AInt 5]; IOp O_i32_const [AInt 7]; IOp O_br [AInt 1]]; IOp O_unreachable []]])
       [] machine_empty)) = Ok [PInt 7].
Proof. vm_compute. reflexivity. Qed.

(* C30. From at most D frames, D >= 1024, no run has more, however many turns it takes and whatever it ends with, unless a
   host function itself raises the depth. An invocation pushes two frames. *)
Theorem C30_depth F host D : (1024 <= D)%nat ->
  (forall hid args m, (length (k_frame m) <= D)%nat -> (length (k_frame (snd (host hid args m))) <= D)%nat) ->
  forall n m, (length (k_frame m) <= D)%nat -> (length (k_frame (snd (evaluate F host n m))) <= D)%nat.
Proof. intros H1 H2 n m. exact (st_evaluate F host D H1 H2 n m). Qed.
Print Assumptions C30_depth.
Theorem C30_invocation F host : 
  (forall hid args m, (length (k_frame m) <= 1024)%nat -> (length (k_frame (snd (host hid args m))) <= 1024)%nat) ->
  forall n addr args m, (length (k_frame m) <= 1022)%nat -> (length (k_frame (snd (invocate F host n addr args m))) <= 1024)%nat.
Proof. exact (invocate_depth F host). Qed.
Print Assumptions C30_invocation.
Theorem C30_call_at_limit F host m j fr a t h code V A :
  about_to_run m (IOp O_call [AInt (Z.of_nat j)]) fr ->
  nth_error (m_func (mod_of (k_store m) (fr_module fr))) j = Some (Z.of_nat a) ->
  nth_error (s_func (k_store m)) a = Some (FWasm t h code) -> k_value m = rev A ++ V -> length A = length (ft_args t) ->
  (1024 <= length (k_frame m))%nat ->
  step F host m = (Err EAssert, moved_on m V).
Proof. exact (call_at_limit F host m j fr a t h code V A). Qed.
Print Assumptions C30_call_at_limit.
(* a function that calls itself for ever: trapped, with all 1024 frames there *)
Example C30_example F : let (r, m) := rt_invocate F no_host 1100 0 [0] []
    (ex_fresh F no_host (ex_module [] [mkfd 0 [] [IOp O_call [AInt 0]]]) [] machine_empty) in
  r = Err EAssert /\ length (k_frame m) = 1024%nat.
Proof. vm_compute. split; reflexivity. Qed.

(* C31. call_indirect with type number [i] on table number [j]. *)
Theorem C31_traps F host m i j fr ta tab ty c V :
  about_to_run m (IOp O_call_indirect [AInt (Z.of_nat i); AInt (Z.of_nat j)]) fr ->
  nth_error (m_tabl (mod_of (k_store m) (fr_module fr))) j = Some (Z.of_nat ta) -> nth_error (s_tabl (k_store m)) ta = Some tab ->
  nth_error (m_type (mod_of (k_store m) (fr_module fr))) i = Some ty -> k_value m = c :: V -> val_wf c ->
  (len (ti_elem tab) <= low 32 c \/
   (exists u, nth_error (ti_elem tab) (Z.to_nat (low 32 c)) = Some (null_ref u)) \/
   (exists u a f, nth_error (ti_elem tab) (Z.to_nat (low 32 c)) = Some (ref_to u a) /\ Z.of_nat a < 2 ^ 31 /\
      nth_error (s_func (k_store m)) a = Some f /\ fi_type f <> ty)) ->
  exists e, step F host m = (Err e, moved_on m V).
Proof. exact (indirect_traps F host m i j fr ta tab ty c V). Qed.
Print Assumptions C31_traps.
Theorem C31_enters F host m i j fr ta tab ty c A V u a h code :
  about_to_run m (IOp O_call_indirect [AInt (Z.of_nat i); AInt (Z.of_nat j)]) fr ->
  nth_error (m_tabl (mod_of (k_store m) (fr_module fr))) j = Some (Z.of_nat ta) -> nth_error (s_tabl (k_store m)) ta = Some tab ->
  nth_error (m_type (mod_of (k_store m) (fr_module fr))) i = Some ty -> k_value m = c :: rev A ++ V -> val_wf c ->
  nth_error (ti_elem tab) (Z.to_nat (low 32 c)) = Some (ref_to u a) -> Z.of_nat a < 2 ^ 31 ->
  nth_error (s_func (k_store m)) a = Some (FWasm ty h code) -> length A = length (ft_args ty) -> (length (k_frame m) < 1024)%nat ->
  let m1 := moved_on m V in let n := length (ft_rets ty) in
  step F host m = (Ok tt, mkmach (k_store m) V
    (mklabel n (S (length (k_frame m))) (length V) KFunc (fd_expr code) 0 :: k_label m1)
    (mkframe (MRef h) (A ++ default_locals (fd_locals code)) n (length (k_label m)) (length V) :: k_frame m)).
Proof. exact (indirect_enters F host m i j fr ta tab ty c A V u a h code). Qed.
Print Assumptions C31_enters.
(* Whatever the table holds, the instruction only goes through with a function of the right type. *)
Theorem C31_only_matching F host m i j fr ta tab ty c V m' :
  about_to_run m (IOp O_call_indirect [AInt (Z.of_nat i); AInt (Z.of_nat j)]) fr ->
  nth_error (m_tabl (mod_of (k_store m) (fr_module fr))) j = Some (Z.of_nat ta) -> nth_error (s_tabl (k_store m)) ta = Some tab ->
  nth_error (m_type (mod_of (k_store m) (fr_module fr))) i = Some ty -> k_value m = c :: V -> val_wf c ->
  step F host m = (Ok tt, m') ->
  exists r addr f, nth_error (ti_elem tab) (Z.to_nat (low 32 c)) = Some r /\ into_ref r = Ok addr /\
    py_index (s_func (k_store m)) addr = Ok f /\ fi_type f = ty.
Proof. exact (indirect_only F host m i j fr ta tab ty c V m'). Qed.
Print Assumptions C31_only_matching.
(* a table [f; null; g] with f : i32 -> i32 and g : [] -> [] *)
Definition ex_indirect (k : Z) : machine :=
  let t := mkft [T_i32] [T_i32] in
  let s := mkstore [FWasm t 0 ex_double; FWasm nil_nil 0 (mkfd 1 [] [])]
    [mktab (mktt T_func (mklim 3 0)) [ref_to T_func 0; null_ref T_func; ref_to T_func 1] 3] [] [] [] []
    [mkmi [t; nil_nil] [0; 1] [0] [] [] [] [] []] [] in
  mkmach s [num_val T_i32 k; num_val T_i32 21] [mklabel 1 1 0 KFunc [IOp O_call_indirect [AInt 0; AInt 0]] 0]
    [mkframe (MRef 0) [] 1 0 0; dummy].
Example C31_example F : (exists e, step F no_host (ex_indirect 1) = (Err e, moved_on (ex_indirect 1) [num_val T_i32 21])) /\
  (exists e, step F no_host (ex_indirect 2) = (Err e, moved_on (ex_indirect 2) [num_val T_i32 21])) /\
  (exists e, step F no_host (ex_indirect 3) = (Err e, moved_on (ex_indirect 3) [num_val T_i32 21])) /\
  k_frame (snd (step F no_host (ex_indirect 0))) = mkframe (MRef 0) [num_val T_i32 21] 1 1 0 :: k_frame (ex_indirect 0).
Proof.
  assert (A : forall k, about_to_run (ex_indirect k) (IOp O_call_indirect [AInt 0; AInt 0]) (mkframe (MRef 0) [] 1 0 0)).
  { intros k. split; [eexists _, _; split; reflexivity|eexists; reflexivity]. }
  split; [|split; [|split]].
  - refine (C31_traps F no_host _ 0 0 _ 0 _ _ (num_val T_i32 1) _ (A 1) eq_refl eq_refl eq_refl eq_refl ltac:(is_wf) (or_intror (or_introl _))).
    exists T_func. reflexivity.
  - refine (C31_traps F no_host _ 0 0 _ 0 _ _ (num_val T_i32 2) _ (A 2) eq_refl eq_refl eq_refl eq_refl ltac:(is_wf) (or_intror (or_intror _))).
    exists T_func, 1%nat, (FWasm nil_nil 0 (mkfd 1 [] [])). repeat split. discriminate.
  - refine (C31_traps F no_host _ 0 0 _ 0 _ _ (num_val T_i32 3) _ (A 3) eq_refl eq_refl eq_refl eq_refl ltac:(is_wf) (or_introl _)). discriminate.
  - refine (f_equal (fun x => k_frame (snd x)) (C31_enters F no_host (ex_indirect 0) 0 0 _ 0 _ _ (num_val T_i32 0) [num_val T_i32 21] [] T_func 0 0 ex_double (A 0)
      eq_refl eq_refl eq_refl eq_refl ltac:(is_wf) eq_refl _ eq_refl eq_refl _)); [reflexivity|repeat constructor].
Qed.

(* C33. *)
Theorem C33_clean F host n addr args m rets m' : invocate F host n addr args m = (Ok rets, m') ->
  k_value m' = [] /\ k_label m' = [] /\ k_frame m' = [] /\
  exists t h code, py_index (s_func (k_store m)) addr = Ok (FWasm t h code) /\ map v_type rets = ft_rets t.
Proof. exact (invocate_clean F host n addr args m rets m'). Qed.
Print Assumptions C33_clean.
Example C33_example F : exists m', invocate F no_host 200 1 [num_val T_i32 5] (mkmach ex_store [] [] []) = (Ok [num_val T_i32 31], m').
Proof. eexists. vm_compute. reflexivity. Qed.

(* C34 does not hold: function 0 traps at once, function 1 gives 7; after the trap it no longer does. *)
Definition trapping : moddesc := ex_module [] [mkfd 0 [] [IOp O_unreachable []]; mkfd 1 [] [IOp O_i32_const [AInt 7]]].
Theorem C34_trap_poisons_refuted F :
  let m := ex_fresh F no_host trapping [] machine_empty in
  let m' := snd (rt_invocate F no_host 100 0 [0] [] m) in
  fst (rt_invocate F no_host 100 0 [1] [] m) = Ok [PInt 7] /\
  fst (rt_invocate F no_host 100 0 [0] [] m) = Err EAssert /\
  k_store m' = k_store m /\
  fst (rt_invocate F no_host 100 0 [1] [] m') = Err EAssert.
Proof. vm_compute. repeat split. Qed.
Print Assumptions C34_trap_poisons_refuted.
(* Where it does hold: an invocation refused for its name, its arguments or because the function is a host function leaves
   the machine as it was. *)
Theorem C34_refused_partial F host n h nm args m e :
  match find_export (mod_of (k_store m) (MRef h)) nm with
  | Err _ => True
  | Ok x => match py_index (s_func (k_store m)) (e_data x) with
            | Err _ => True
            | Ok f => length args <> length (ft_args (fi_type f)) \/ from_alls F (ft_args (fi_type f)) args = Err e \/
                      (exists t hid, f = FHost t hid)
            end
  end -> exists e', rt_invocate F host n h nm args m = (Err e', m).
Proof. exact (refused F host n h nm args m e). Qed.
Print Assumptions C34_refused_partial.
Example C34_example F : let m := ex_fresh F no_host trapping [] machine_empty in
  rt_invocate F no_host 100 0 [1] [PInt 3] m = (Err EAssert, m).
Proof. vm_compute. reflexivity. Qed.

(* C35 does not hold: the module imports a host function, number 0, and has functions 1, giving 7, and 2, which calls the
   host function and gives 1. The host function calls function 1 in the same runtime. That inner call runs function 2 on
   to its end and then fails. *)
Definition calling_back (F : fops) : hostcode := fun _ _ m =>
  match rt_invocate F no_host 100 0 [1] [] m with
  | (Ok _, m') => (Ok [], m')
  | (Err e, m') => (Err e, m')
  end.
Definition reentrant : moddesc := ex_module [mkimp [104] [102] (ImpFunc 0)]
  [mkfd 1 [] [IOp O_i32_const [AInt 7]]; mkfd 1 [] [IOp O_call [AInt 0]; IOp O_i32_const [AInt 1]]].
Theorem C35_reentrancy_refuted F :
  let m := ex_fresh F no_host reentrant [mkext 0 0] (snd (rt_allocate_func_host nil_nil 0 machine_empty)) in
  fst (rt_invocate F no_host 100 0 [1] [] m) = Ok [PInt 7] /\
  fst (rt_invocate F (calling_back F) 100 0 [2] [] m) = Err EAssert.
Proof. vm_compute. split; reflexivity. Qed.
Print Assumptions C35_reentrancy_refuted.
