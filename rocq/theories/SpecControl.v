(* The structured meaning of WebAssembly code, without labels, frames or a common operand stack: a big-step semantics in
   which every block and every function body has an operand stack of its own. *)
From Coq Require Import ZArith List Bool.
From Verif Require Import Py Floatops Val Opcode Numeric Syntax Store Basic Machine SpecMachine.
Import ListNotations.
Open Scope Z_scope.

(* A host function as a function of its arguments and the store. *)
Definition storehost : Type := nat -> list pyval -> store -> res (list pyval) * store.
Definition plain_host (hs : storehost) : hostcode := fun hid args m =>
  let (r, s) := hs hid args (k_store m) in (r, mkmach s (k_value m) (k_label m) (k_frame m)).

(* How a piece of code ends; operand stacks have their top at the head. *)
Inductive outcome : Set :=
| Done (V : list val)          (* at its end, with these operands *)
| Jump (k : nat) (V : list val) (* branching to the k-th enclosing label *)
| Back (V : list val)          (* returning from the function *)
| Trap.
Definition is_done (o : outcome) : bool := match o with Done _ => true | _ => false end.

(* the type of a block in module instance [mi] *)
Definition block_type (mi : modinst) (bt : bype) (t : functype) : Prop :=
  match bt with
  | BT_empty => t = mkft [] []
  | BT_val x => t = mkft [] [x]
  | BT_idx i => 0 <= i /\ nth_error (m_type mi) (Z.to_nat i) = Some t
  end.

(* what a block with [k] results and [V] below it makes of the outcome of its body *)
Inductive leaves (k : nat) (V : list val) : outcome -> outcome -> Prop :=
| lv_done R : length R = k -> leaves k V (Done R) (Done (R ++ V))
| lv_here R : (k <= length R)%nat -> leaves k V (Jump 0 R) (Done (firstn k R ++ V))
| lv_outer j R : leaves k V (Jump (S j) R) (Jump j R)
| lv_back R : leaves k V (Back R) (Back R)
| lv_trap : leaves k V Trap Trap.
(* what a call with [k] results and [V] below it makes of the outcome of the function's body. A branch to the function's
   own label has no place here; see C29. *)
Inductive returns (k : nat) (V : list val) : outcome -> outcome -> Prop :=
| rt_done R : length R = k -> returns k V (Done R) (Done (R ++ V))
| rt_back R : (k <= length R)%nat -> returns k V (Back R) (Done (firstn k R ++ V))
| rt_trap : returns k V Trap Trap.

(* the instructions that only touch operands, locals and the store *)
Definition straight (o : opc) : bool :=
  match o with
  | O_block | O_loop | O_if_then | O_br | O_br_if | O_br_table | O_return_call | O_call | O_call_indirect => false
  | _ => true
  end.

(* the reference to the function at address [a], and the null reference *)
Definition ref_to (t : valtype) (a : nat) : val := num_val t (Z.of_nat a + 2 ^ 32).
Definition null_ref (t : valtype) : val := num_val t 0.

(* the declared locals, all zero *)
Definition default_locals (l : list (Z * valtype)) : list val :=
  flat_map (fun '(n, t) => repeat (num_val t 0) (Z.to_nat n)) l.

(* What the straight-line instructions do. [basic mr o args s L V s' L' r]: instruction [o] in a function of module [mr],
   started with store [s], locals [L] and operands [V], ends with store [s'], locals [L'] and operands [r], or with a trap
   ([None]). The rules below are for any such meaning. *)
Definition meaning : Type :=
  modref -> opc -> list arg -> store -> list val -> list val -> store -> list val -> option (list val) -> Prop.
(* what the interpreter makes of them; running out of operands is not a trap but invalid code: a trap happens whatever
   operands [W] there are below *)
Definition by_model (F : fops) : meaning := fun mr o args s L V s' L' r =>
  match r with
  | Some V' => exec_basic F mr o args (mkb s L V) = (Ok tt, mkb s' L' V')
  | None => exists e V', exec_basic F mr o args (mkb s L V) = (Err e, mkb s' L' V') /\
      forall W, exists L2 V2, exec_basic F mr o args (mkb s L (V ++ W)) = (Err e, mkb s' L2 V2)
  end.

Section semantics.
Context (basic : meaning) (F : fops) (hs : storehost).

(* [run_by d mr s L V is s' L' o]: with [d] frames active, the code [is] of a function of module [mr], started with store
   [s], locals [L] and operands [V], ends with store [s'], locals [L'] and outcome [o]. *)
Inductive run_by : nat -> modref -> store -> list val -> list val -> list inst -> store -> list val -> outcome -> Prop :=
| run_nil d mr s L V : run_by d mr s L V [] s L (Done V)
| run_cons d mr s L V i is s1 L1 V1 s2 L2 o :
    one_by d mr s L V i s1 L1 (Done V1) -> run_by d mr s1 L1 V1 is s2 L2 o -> run_by d mr s L V (i :: is) s2 L2 o
| run_stop d mr s L V i is s1 L1 o :
    one_by d mr s L V i s1 L1 o -> is_done o = false -> run_by d mr s L V (i :: is) s1 L1 o
with one_by : nat -> modref -> store -> list val -> list val -> inst -> store -> list val -> outcome -> Prop :=
(* straight-line code *)
| one_op d mr s L V o args s' L' V' :
    straight o = true -> basic mr o args s L V s' L' (Some V') -> one_by d mr s L V (IOp o args) s' L' (Done V')
| one_op_trap d mr s L V o args s' L' :
    straight o = true -> basic mr o args s L V s' L' None -> one_by d mr s L V (IOp o args) s' L' Trap
(* block, loop, if: the body runs on the block's arguments [A] only *)
| one_block d mr s L A V bt t body s' L' o o' :
    block_type (mod_of s mr) bt t -> length A = length (ft_args t) ->
    run_by d mr s L A body s' L' o -> leaves (length (ft_rets t)) V o o' ->
    one_by d mr s L (A ++ V) (IBlock bt body) s' L' o'
| one_loop d mr s L A V bt t body s' L' o o' :
    block_type (mod_of s mr) bt t -> length A = length (ft_args t) ->
    loops_by d mr (length (ft_args t)) s L A body s' L' o -> leaves (length (ft_rets t)) V o o' ->
    one_by d mr s L (A ++ V) (ILoop bt body) s' L' o'
| one_if d mr s L c A V bt t th el s' L' o o' :
    val_wf c -> block_type (mod_of s mr) bt t -> length A = length (ft_args t) ->
    run_by d mr s L A (if low 32 c =? 0 then el else th) s' L' o -> leaves (length (ft_rets t)) V o o' ->
    one_by d mr s L (c :: A ++ V) (IIf bt th el) s' L' o'
(* branches *)
| one_br d mr s L V k : one_by d mr s L V (IOp O_br [AInt (Z.of_nat k)]) s L (Jump k V)
| one_br_if d mr s L c V k : val_wf c ->
    one_by d mr s L (c :: V) (IOp O_br_if [AInt (Z.of_nat k)]) s L (if low 32 c =? 0 then Done V else Jump k V)
| one_br_table d mr s L c V ks k : val_wf c ->
    one_by d mr s L (c :: V) (IOp O_br_table [AList (map Z.of_nat ks); AInt (Z.of_nat k)]) s L (Jump (nth (Z.to_nat (low 32 c)) ks k) V)
| one_return d mr s L V args : one_by d mr s L V (IOp O_return_call args) s L (Back V)
(* calls *)
| one_call d mr s L V j a s' L' o :
    nth_error (m_func (mod_of s mr)) j = Some (Z.of_nat a) -> called_by d s L V a s' L' o ->
    one_by d mr s L V (IOp O_call [AInt (Z.of_nat j)]) s' L' o
| one_indirect d mr s L c V i j ta tab ty u a f s' L' o :
    nth_error (m_tabl (mod_of s mr)) j = Some (Z.of_nat ta) -> nth_error (s_tabl s) ta = Some tab ->
    nth_error (m_type (mod_of s mr)) i = Some ty -> val_wf c ->
    nth_error (ti_elem tab) (Z.to_nat (low 32 c)) = Some (ref_to u a) -> Z.of_nat a < 2 ^ 31 ->
    nth_error (s_func s) a = Some f -> fi_type f = ty -> called_by d s L V a s' L' o ->
    one_by d mr s L (c :: V) (IOp O_call_indirect [AInt (Z.of_nat i); AInt (Z.of_nat j)]) s' L' o
| one_indirect_trap d mr s L c V i j ta tab ty :
    nth_error (m_tabl (mod_of s mr)) j = Some (Z.of_nat ta) -> nth_error (s_tabl s) ta = Some tab ->
    nth_error (m_type (mod_of s mr)) i = Some ty -> val_wf c ->
    (nth_error (ti_elem tab) (Z.to_nat (low 32 c)) = None \/
     (exists u, nth_error (ti_elem tab) (Z.to_nat (low 32 c)) = Some (null_ref u)) \/
     (exists u a f, nth_error (ti_elem tab) (Z.to_nat (low 32 c)) = Some (ref_to u a) /\ Z.of_nat a < 2 ^ 31 /\
        nth_error (s_func s) a = Some f /\ fi_type f <> ty)) ->
    one_by d mr s L (c :: V) (IOp O_call_indirect [AInt (Z.of_nat i); AInt (Z.of_nat j)]) s L Trap
(* a loop with [n] arguments: the body once, and again for every branch to it *)
with loops_by : nat -> modref -> nat -> store -> list val -> list val -> list inst -> store -> list val -> outcome -> Prop :=
| loop_end d mr n s L A body s' L' o :
    run_by d mr s L A body s' L' o -> (forall R, o <> Jump 0 R) -> loops_by d mr n s L A body s' L' o
| loop_again d mr n s L A body s1 L1 R s' L' o :
    run_by d mr s L A body s1 L1 (Jump 0 R) -> (n <= length R)%nat -> loops_by d mr n s1 L1 (firstn n R) body s' L' o ->
    loops_by d mr n s L A body s' L' o
(* calling the function at address [a]: arguments are taken from the caller's operands, last one on top; the caller's
   locals are as before afterwards *)
with called_by : nat -> store -> list val -> list val -> nat -> store -> list val -> outcome -> Prop :=
| call_wasm d s L A V a t h code s' L' o o' :
    nth_error (s_func s) a = Some (FWasm t h code) -> length A = length (ft_args t) -> (d < 1024)%nat ->
    run_by (S d) (MRef h) s (A ++ default_locals (fd_locals code)) [] (fd_expr code) s' L' o ->
    returns (length (ft_rets t)) V o o' ->
    called_by d s L (rev A ++ V) a s' L o'
| call_deep d s L A V a t h code :
    nth_error (s_func s) a = Some (FWasm t h code) -> length A = length (ft_args t) -> (1024 <= d)%nat ->
    called_by d s L (rev A ++ V) a s L Trap
| call_outside d s L A V a t hid pargs rets s' R :
    nth_error (s_func s) a = Some (FHost t hid) -> length A = length (ft_args t) ->
    rmapl (into_all F) A = Ok pargs -> hs hid pargs s = (Ok rets, s') ->
    length rets = length (ft_rets t) -> from_alls F (ft_rets t) rets = Ok R ->
    called_by d s L (rev A ++ V) a s' L (Done (rev R ++ V))
(* a host function that raises; arguments and results that have no counterpart on the other side, as a null reference *)
| call_outside_args d s L A V a t hid e :
    nth_error (s_func s) a = Some (FHost t hid) -> length A = length (ft_args t) ->
    rmapl (into_all F) A = Err e ->
    called_by d s L (rev A ++ V) a s L Trap
| call_outside_rets d s L A V a t hid pargs rets s' e :
    nth_error (s_func s) a = Some (FHost t hid) -> length A = length (ft_args t) ->
    rmapl (into_all F) A = Ok pargs -> hs hid pargs s = (Ok rets, s') ->
    from_alls F (ft_rets t) rets = Err e ->
    called_by d s L (rev A ++ V) a s' L Trap
| call_outside_trap d s L A V a t hid pargs e s' :
    nth_error (s_func s) a = Some (FHost t hid) -> length A = length (ft_args t) ->
    rmapl (into_all F) A = Ok pargs -> hs hid pargs s = (Err e, s') ->
    called_by d s L (rev A ++ V) a s' L Trap.

Scheme run_ind3 := Minimality for run_by Sort Prop
with one_ind3 := Minimality for one_by Sort Prop
with loops_ind3 := Minimality for loops_by Sort Prop
with called_ind3 := Minimality for called_by Sort Prop.
Combined Scheme structured_ind from run_ind3, one_ind3, loops_ind3, called_ind3.
End semantics.
Notation run F hs := (run_by (by_model F) F hs).
Notation one F hs := (one_by (by_model F) F hs).
Notation loops F hs := (loops_by (by_model F) F hs).
Notation called F hs := (called_by (by_model F) F hs).


(* ---- the flat machine running a piece of structured code ---- *)
Section flat.
Context (F : fops) (host : hostcode).
(* after some number of turns [m] has become [m'], with [reach1] after at least one, or [m] has stopped with an exception leaving store [s] *)
Definition reach (m m' : machine) : Prop := exists n, forall k, evaluate F host (n + k) m = evaluate F host k m'.
Definition reach1 (m m' : machine) : Prop := exists n, forall k, evaluate F host (S n + k) m = evaluate F host k m'.
Definition breaks (m : machine) (s : store) : Prop :=
  exists n e m', (forall k, evaluate F host (n + k) m = (Err e, m')) /\ k_store m' = s.
(* the current label, with [is] still to run *)
Definition at_code (lb : label) (is : list inst) : Prop :=
  skipn (lb_index lb) (lb_instr lb) = is /\ (lb_index lb <= length (lb_instr lb))%nat.
Definition goto (lb : label) (n : nat) : label := mklabel (lb_arity lb) (lb_frame lb) (lb_value lb) (lb_carry lb) (lb_instr lb) n.
Definition relocal (fr : frame) (L : list val) : frame := mkframe (fr_module fr) L (fr_arity fr) (fr_label fr) (fr_value fr).

(* where a machine ends up, by the outcome of the code it was running under label [lb] (which then stands at [n]) *)
Definition ends (m : machine) (W : list val) (lb : label) (n : nat) (LS : list label) (fr : frame) (FS : list frame)
    (s : store) (L : list val) (o : outcome) : Prop :=
  match o with
  | Done V => reach m (mkmach s (V ++ W) (goto lb n :: LS) (relocal fr L :: FS))
  | Jump k V => forall T, nth_error (lb :: LS) k = Some T -> (lb_value T <= length W)%nat -> (lb_arity T <= length V)%nat ->
      reach1 m (mkmach s (firstn (lb_arity T) V ++ keep (lb_value T) W)
                 (match lb_carry T with KLoop => goto T 0 :: skipn k LS | _ => skipn k LS end)
                 (keep (lb_frame T) (relocal fr L :: FS)))
  | Back V => (fr_value fr <= length W)%nat -> (fr_arity fr <= length V)%nat -> (fr_label fr <= length LS)%nat ->
      reach1 m (mkmach s (firstn (fr_arity fr) V ++ keep (fr_value fr) W) (keep (fr_label fr) LS) FS)
  | Trap => breaks m s
  end.
End flat.

(* the results of the outermost function with [k] results, or a trap *)
Inductive result (k : nat) : outcome -> option (list val) -> Prop :=
| rs_done R : length R = k -> result k (Done R) (Some (rev R))
| rs_back R : (k <= length R)%nat -> result k (Back R) (Some (rev (firstn k R)))
| rs_label R : (k <= length R)%nat -> result k (Jump 0 R) (Some (rev (firstn k R)))
| rs_trap : result k Trap None.

(* what Machine.invocate puts on the stacks: an empty outermost frame, and the frame and label of the function *)
Definition dummy : frame := mkframe (MVal modinst_empty) [] 0 0 0.
Definition first_frame (t : functype) (h : nat) (code : funcdesc) (args : list val) : frame :=
  mkframe (MRef h) (args ++ default_locals (fd_locals code)) (length (ft_rets t)) 0 0.
Definition first_label (t : functype) (code : funcdesc) : label := mklabel (length (ft_rets t)) 1 0 KFunc (fd_expr code) 0.
