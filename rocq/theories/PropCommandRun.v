(* C124: what the command prints. *)
From Coq Require Import ZArith List Bool Lia.
From Verif Require Import CommandLine SpecCommand CommandFacts Os Wasi WasiRun Leb128 Utf8 Decode SpecLeb SpecFormat LebFacts DecodeFacts PropDecode.
From Verif Require Import Py Arith Floatops Val Opcode Numeric Syntax Store Basic Machine
  SpecInt SpecNum SpecMachine SpecMem SpecRun SpecControl SpecType SpecConverse Float PyFacts StepFacts RunFacts TypeBasicFacts TypeFacts TypeIeeeFacts CallFacts ConverseFacts
  SpecInst SpecValid SpecRef HistoryFacts RefFacts RefHistoryFacts NumFacts SpecStandard StandardFacts StandardRunFacts SpecInstantiate SpecWhole WholeFacts PropWhole CommandRunFacts.
Import ListNotations.
Open Scope Z_scope.

(* C124. [b] are the bytes of the validated module [md], which imports nothing (C109 has the condition on its sections);
   it is instantiated as [h] in a new runtime. Its export [e] is function [j], [d], of type [t]. The strings given are
   those of values [ps] in the range of the parameters. Then the code of [d] is run by the standard on these values; what
   is printed stands for the results; the command raises if the run traps or a result is a null reference - or the call
   hits the limit of [n] turns or meets a known deviation (C107). *)
Theorem C124_results : forall Os fl cwd std n all b md L m1 m2 h e j d t o ps w,
  enc_module all md b -> bytes b -> Forall (fun s => fst s <> 0) all \/ (length all <= 32)%nat ->
  valid_module md -> md_imps md = [] -> len (md_func md) < 2 ^ 31 ->
  load_module md machine_empty = (Ok L, m1) -> (2 <= n)%nat -> instance ieee no_host n L [] m1 = (Ok h, m2) ->
  In e (md_exps md) -> ex_kind e = 0 -> ex_desc e = Z.of_nat j -> nth_error (md_func md) j = Some d -> item (md_type md) (fd_type d) t ->
  o_wasi o = false -> o_func o = ex_name e -> all_written fl (ft_args t) (o_func_args o) ps -> Forall2 of_kind (ft_args t) ps ->
  (forall s x, fl s = Ok x -> 0 <= x < 2 ^ 64) -> w_mach w = machine_empty ->
  let s := k_store m2 in
  exists vs, arguments (ft_args t) ps vs /\
    ((unfinished ieee no_host n (starts s t h d vs) /\ exists x, fst (command ieee Os fl cwd std n o (Ok b) w) = Raised x) \/
     meets_deviation ieee no_host (starts s t h d vs) \/
     exists s' L' out r,
       run_by does ieee (fun _ _ s => (Err EKey, s)) 2 (MRef h) s (vs ++ default_locals (fd_locals d)) [] (fd_expr d) s' L' out /\ result (length (ft_rets t)) out r /\
       match fst (command ieee Os fl cwd std n o (Ok b) w) with
       | Printed qs => exists R, r = Some R /\ Forall2 answer R qs
       | Raised _ => r = None \/ exists R v, r = Some R /\ In v R /\ is_null v
       | Exited _ => False
       end).
Proof. exact results. Qed.
Print Assumptions C124_results.
(* the unsigned quotient of C109's example, called with 7 and 2 *)
Definition ex_ask : options := mkopt [0x71] [[0x37]; [0x32]] [] [] [] false [].
Example C124_results_ex : (exists m2, instance ieee no_host 100 (mkloaded ex_q []) [] machine_empty = (Ok 0%nat, m2)) /\ load_module ex_q machine_empty = (Ok (mkloaded ex_q []), machine_empty) /\
  enc_module ex_q_all ex_q ex_q_bytes /\ bytes ex_q_bytes /\ valid_module ex_q /\ md_imps ex_q = [] /\
  all_written (fun _ => Err EValue) (ft_args ex_qt) (o_func_args ex_ask) [PInt 7; PInt 2] /\ Forall2 of_kind (ft_args ex_qt) [PInt 7; PInt 2] /\
  forall Os fl cwd std w, w_mach w = machine_empty -> fst (command ieee Os fl cwd std 100 ex_ask (Ok ex_q_bytes) w) = Printed [PInt 3].
Proof.
  split; [eexists; vm_compute; reflexivity|]. split; [reflexivity|]. split; [exact ex_q_enc|]. split; [repeat constructor; discriminate|]. split; [exact ex_q_valid|]. split; [reflexivity|]. split; [|split].
  - constructor; [|constructor; [|constructor]].
    + constructor. exists [], [7]. split; [reflexivity|]. split; [repeat constructor; lia|]. split; [cbn; lia|]. now left.
    + constructor. exists [], [2]. split; [reflexivity|]. split; [repeat constructor; lia|]. split; [cbn; lia|]. now left.
  - repeat constructor; cbn; lia.
  - intros Os fl cwd std w E. unfold command, mach. rewrite E. vm_compute. reflexivity.
Qed.
