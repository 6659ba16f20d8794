(* Memories, tables, segments, locals and globals. Specification: SpecMem.v and SpecMachine.v. *)
From Coq Require Import ZArith List Bool Lia.
From Verif Require Import Py Arith Floatops Val Opcode Numeric Syntax Store Basic Machine SpecInt SpecNum SpecMachine SpecMem
  ValFacts MemFacts BulkFacts.
Import ListNotations.
Open Scope Z_scope.

(* A machine about to run [i] on the operands [V] with one memory of bytes [d] (and one page of size, whatever its
   length), one table [t], one element segment [e], one data segment [b], a mutable and an immutable global and two
   locals. Used by the examples. *)
Definition ex_store (d : list Z) (t e : list val) (b : list Z) : store :=
  mkstore [] [mktab (mktt T_func (mklim 0 0)) t (len t)] [mkmem (mklim 0 0) d 1]
    [mkglob (num_val T_i32 5) 1; mkglob (num_val T_i32 6) 0] [mkelem T_func e] [0%nat]
    [mkmi [] [] [0] [0] [0; 1] [0] [0] []] [b].
Definition ex_frame : frame := mkframe (MRef 0) [num_val T_i32 10; num_val T_i32 11] 0 0 0.
Definition ex_mach (i : inst) (V : list val) d t e b : machine :=
  mkmach (ex_store d t e b) V [mklabel 0 0 0 KBlock [i] 0] [ex_frame].
Lemma ex_runs i V d t e b : about_to_run (ex_mach i V d t e b) i ex_frame.
Proof. split; [exists (mklabel 0 0 0 KBlock [i] 0), []; split; reflexivity|exists []; reflexivity]. Qed.
Lemma ex_memory i V d t e b : the_memory (ex_mach i V d t e b) ex_frame 0 (mkmem (mklim 0 0) d 1).
Proof. split; reflexivity. Qed.
Lemma ex_table i V d t e b : the_table (ex_mach i V d t e b) ex_frame 0 0 (mktab (mktt T_func (mklim 0 0)) t (len t)).
Proof. split; reflexivity. Qed.

(* C17: a load of [n] bytes at base + offset (as integers, no wrap-around). *)
Theorem C17_load : forall F host m o args fr off n t f a mem v V,
  about_to_run m (IOp o args) fr -> wasm_load o = Some (n, t, f) -> nth_error args 1 = Some (AInt off) -> 0 <= off ->
  the_memory m fr a mem -> bytes (mi_data mem) -> k_value m = v :: V -> val_wf v ->
  let ea := low 32 v + off in
  if ea + n <=? len (mi_data mem)
  then step F host m = (Ok tt, moved_on m (num_val t (f (le_of (range_of (mi_data mem) ea n))) :: V))
  else exists e, step F host m = (Err e, moved_on m V).
Proof. exact load_step. Qed.
Print Assumptions C17_load.
Theorem C17_load_lane : forall F host m o args fr off k w a mem v va V,
  about_to_run m (IOp o args) fr -> wasm_load_lane o = Some w ->
  nth_error args 1 = Some (AInt off) -> nth_error args 2 = Some (AInt k) -> 0 <= off -> 0 <= k -> w * k + w <= 16 ->
  the_memory m fr a mem -> bytes (mi_data mem) -> k_value m = v :: va :: V -> val_wf v -> val_wf va ->
  let ea := low 32 va + off in
  if ea + w <=? len (mi_data mem)
  then step F host m =
       (Ok tt, moved_on m (num_val T_v128 (set_lane w (low 128 v) k (le_of (range_of (mi_data mem) ea w))) :: V))
  else exists e, step F host m = (Err e, moved_on m V).
Proof. exact load_lane_step. Qed.
Print Assumptions C17_load_lane.
(* two bytes at 1 + 2, the last two: 0xfff0 sign extended; one byte further out of bounds *)
Example C17_example F host :
  step F host (ex_mach (IOp O_i32_load16_s [AInt 1; AInt 2]) [num_val T_i32 1] [1; 2; 3; 0xf0; 0xff] [] [] []) =
    (Ok tt, moved_on (ex_mach (IOp O_i32_load16_s [AInt 1; AInt 2]) [] [1; 2; 3; 0xf0; 0xff] [] [] [])
              [num_val T_i32 (2 ^ 32 - 16)]) /\
  (exists e m', step F host (ex_mach (IOp O_i32_load16_s [AInt 1; AInt 3]) [num_val T_i32 1] [1; 2; 3; 0xf0; 0xff] [] [] []) =
    (Err e, m')) /\
  wasm_load O_i32_load16_s = Some (2, T_i32, sx 16 32) /\ bytes [1; 2; 3; 0xf0; 0xff].
Proof.
  split; [vm_compute; reflexivity|]. split; [eexists; eexists; vm_compute; reflexivity|]. split; [reflexivity|].
  repeat constructor; discriminate.
Qed.

(* C18 *)
Theorem C18_store : forall F host m o args fr off n a mem v va V,
  about_to_run m (IOp o args) fr -> wasm_store o = Some n -> nth_error args 1 = Some (AInt off) -> 0 <= off ->
  the_memory m fr a mem -> k_value m = v :: va :: V -> val_wf v -> val_wf va ->
  let ea := low 32 va + off in
  if ea + n <=? len (mi_data mem)
  then exists d', overwritten (mi_data mem) d' ea (to_le (Z.to_nat n) (low (8 * n) v)) /\
       step F host m = (Ok tt, with_store (moved_on m V) (with_mem (k_store m) a (mkmem (mi_type mem) d' (mi_size mem))))
  else exists e, step F host m = (Err e, moved_on m V).
Proof. exact store_step. Qed.
Print Assumptions C18_store.
Theorem C18_store_lane : forall F host m o args fr off k w a mem v va V,
  about_to_run m (IOp o args) fr -> wasm_store_lane o = Some w ->
  nth_error args 1 = Some (AInt off) -> nth_error args 2 = Some (AInt k) -> 0 <= off -> 0 <= k -> w * k + w <= 16 ->
  the_memory m fr a mem -> k_value m = v :: va :: V -> val_wf v -> val_wf va ->
  let ea := low 32 va + off in
  if ea + w <=? len (mi_data mem)
  then exists d', overwritten (mi_data mem) d' ea (to_le (Z.to_nat w) (lane (8 * w) (low 128 v) k)) /\
       step F host m = (Ok tt, with_store (moved_on m V) (with_mem (k_store m) a (mkmem (mi_type mem) d' (mi_size mem))))
  else exists e, step F host m = (Err e, moved_on m V).
Proof. exact store_lane_step. Qed.
Print Assumptions C18_store_lane.
Example C18_example F host :
  step F host (ex_mach (IOp O_i64_store16 [AInt 1; AInt 2]) [num_val T_i64 0x12345678; num_val T_i32 1] [1; 2; 3; 4; 5; 6] [] [] []) =
    (Ok tt, moved_on (ex_mach (IOp O_i64_store16 [AInt 1; AInt 2]) [] [1; 2; 3; 0x78; 0x56; 6] [] [] []) []).
Proof. vm_compute. reflexivity. Qed.

(* C19: a store followed by a load, both in bounds. First conclusion: same address, same width. Second: disjoint. *)
Theorem C19_store_then_load : forall F host m fr o1 args1 off1 n o2 args2 off2 t f a mem v va va' V n2,
  about_to_run m (IOp o1 args1) fr -> next_is m (IOp o2 args2) ->
  wasm_store o1 = Some n -> nth_error args1 1 = Some (AInt off1) -> 0 <= off1 ->
  wasm_load o2 = Some (n2, t, f) -> nth_error args2 1 = Some (AInt off2) -> 0 <= off2 ->
  the_memory m fr a mem -> bytes (mi_data mem) ->
  k_value m = v :: va :: va' :: V -> val_wf v -> val_wf va -> val_wf va' ->
  low 32 va + off1 + n <= len (mi_data mem) -> low 32 va' + off2 + n2 <= len (mi_data mem) ->
  exists m1 m2, step F host m = (Ok tt, m1) /\ step F host m1 = (Ok tt, m2) /\
    (low 32 va + off1 = low 32 va' + off2 -> n2 = n -> k_value m2 = num_val t (f (low (8 * n) v)) :: V) /\
    (low 32 va' + off2 + n2 <= low 32 va + off1 \/ low 32 va + off1 + n <= low 32 va' + off2 ->
     k_value m2 = num_val t (f (le_of (range_of (mi_data mem) (low 32 va' + off2) n2))) :: V).
Proof. exact store_then_load. Qed.
Print Assumptions C19_store_then_load.
(* storing 16 of 32 bits and reading them back sign extended *)
Example C19_example F host :
  let m := mkmach (ex_store [0; 0; 0; 0; 0; 0] [] [] []) [num_val T_i32 0x1fffe; num_val T_i32 1; num_val T_i32 3]
             [mklabel 0 0 0 KBlock [IOp O_i32_store16 [AInt 1; AInt 2]; IOp O_i32_load16_s [AInt 1; AInt 0]] 0] [ex_frame] in
  exists m2, evaluate F host 2 m = (Ok tt, m2) /\ k_value m2 = [num_val T_i32 (2 ^ 32 - 2)] /\
    about_to_run m (IOp O_i32_store16 [AInt 1; AInt 2]) ex_frame /\ next_is m (IOp O_i32_load16_s [AInt 1; AInt 0]).
Proof.
  eexists. split; [vm_compute; reflexivity|]. split; [vm_compute; reflexivity|]. split.
  - split; [eexists; eexists; split; reflexivity|eexists; reflexivity].
  - eexists; eexists; split; reflexivity.
Qed.

(* C20 *)
Theorem C20_memory_size : forall F host m args fr a mem,
  about_to_run m (IOp O_memory_size args) fr -> the_memory m fr a mem -> mem_wf mem ->
  step F host m = (Ok tt, moved_on m (num_val T_i32 (mi_size mem) :: k_value m)).
Proof. exact size_step. Qed.
Print Assumptions C20_memory_size.
Theorem C20_memory_grow : forall F host m args fr a mem v V,
  about_to_run m (IOp O_memory_grow args) fr -> the_memory m fr a mem -> mem_wf mem ->
  k_value m = v :: V -> val_wf v ->
  let n := low 32 v in
  let max := l_m (mi_type mem) in
  if (mi_size mem + n <=? 1024) && ((max =? 0) || (mi_size mem + n <=? max))
  then step F host m = (Ok tt, with_store (moved_on m (num_val T_i32 (mi_size mem) :: V))
         (with_mem (k_store m) a (mkmem (mi_type mem) (mi_data mem ++ repeat 0 (Z.to_nat (65536 * n))) (mi_size mem + n))))
  else step F host m = (Ok tt, moved_on m (num_val T_i32 (2 ^ 32 - 1) :: V)).
Proof. exact grow_step. Qed.
Print Assumptions C20_memory_grow.
(* an empty memory with a maximum of 3 pages: growing by 4 fails, growing by 0 gives the old size *)
Example C20_example F host :
  let m v := mkmach (mkstore [] [] [mkmem (mklim 0 3) [] 0] [] [] [] [mkmi [] [] [] [0] [] [] [] []] []) [v]
               [mklabel 0 0 0 KBlock [IOp O_memory_grow [AInt 0]] 0] [ex_frame] in
  step F host (m (num_val T_i32 4)) = (Ok tt, moved_on (m (num_val T_i32 4)) [num_val T_i32 (2 ^ 32 - 1)]) /\
  step F host (m (num_val T_i32 0)) = (Ok tt, moved_on (m (num_val T_i32 0)) [num_val T_i32 0]) /\
  mem_wf (mkmem (mklim 0 3) [] 0).
Proof.
  split; [vm_compute; reflexivity|]. split; [vm_compute; reflexivity|].
  repeat split; try discriminate. constructor.
Qed.

(* C23 *)
Theorem C23_memory_fill : forall F host m args fr a mem vn vx vd V,
  about_to_run m (IOp O_memory_fill args) fr -> the_memory m fr a mem ->
  k_value m = vn :: vx :: vd :: V -> val_wf vn -> val_wf vx -> val_wf vd ->
  if low 32 vd + low 32 vn <=? len (mi_data mem)
  then exists d', overwritten (mi_data mem) d' (low 32 vd) (repeat (low 8 vx) (Z.to_nat (low 32 vn))) /\
       step F host m = (Ok tt, with_store (moved_on m V) (with_mem (k_store m) a (mkmem (mi_type mem) d' (mi_size mem))))
  else exists e, step F host m = (Err e, moved_on m V).
Proof. exact fill_step. Qed.
Print Assumptions C23_memory_fill.
Theorem C23_memory_copy : forall F host m args fr a mem vn vs vd V,
  about_to_run m (IOp O_memory_copy args) fr -> the_memory m fr a mem ->
  k_value m = vn :: vs :: vd :: V -> val_wf vn -> val_wf vs -> val_wf vd ->
  if (low 32 vs + low 32 vn <=? len (mi_data mem)) && (low 32 vd + low 32 vn <=? len (mi_data mem))
  then exists d', overwritten (mi_data mem) d' (low 32 vd) (range_of (mi_data mem) (low 32 vs) (low 32 vn)) /\
       step F host m = (Ok tt, with_store (moved_on m V) (with_mem (k_store m) a (mkmem (mi_type mem) d' (mi_size mem))))
  else exists e, step F host m = (Err e, moved_on m V).
Proof. exact copy_step. Qed.
Print Assumptions C23_memory_copy.
Theorem C23_memory_init : forall F host m args fr j a mem b d vn vs vd V,
  about_to_run m (IOp O_memory_init args) fr -> nth_error args 0 = Some (AInt (Z.of_nat j)) ->
  the_memory m fr a mem -> the_data m fr j b d ->
  k_value m = vn :: vs :: vd :: V -> val_wf vn -> val_wf vs -> val_wf vd ->
  if (low 32 vs + low 32 vn <=? len d) && (low 32 vd + low 32 vn <=? len (mi_data mem))
  then exists d', overwritten (mi_data mem) d' (low 32 vd) (range_of d (low 32 vs) (low 32 vn)) /\
       step F host m = (Ok tt, with_store (moved_on m V) (with_mem (k_store m) a (mkmem (mi_type mem) d' (mi_size mem))))
  else exists e, step F host m = (Err e, moved_on m V).
Proof. exact init_step. Qed.
Print Assumptions C23_memory_init.
(* an overlapping copy, and a fill that leaves the memory and therefore changes nothing *)
Example C23_example F host :
  step F host (ex_mach (IOp O_memory_copy [AInt 0; AInt 0]) [num_val T_i32 4; num_val T_i32 0; num_val T_i32 1] [1; 2; 3; 4; 5] [] [] []) =
    (Ok tt, moved_on (ex_mach (IOp O_memory_copy [AInt 0; AInt 0]) [] [1; 1; 2; 3; 4] [] [] []) []) /\
  step F host (ex_mach (IOp O_memory_fill [AInt 0]) [num_val T_i32 3; num_val T_i32 0x1ff; num_val T_i32 3] [1; 2; 3; 4; 5] [] [] []) =
    (Err EAssert, moved_on (ex_mach (IOp O_memory_fill [AInt 0]) [] [1; 2; 3; 4; 5] [] [] []) []) /\
  step F host (ex_mach (IOp O_memory_fill [AInt 0]) [num_val T_i32 2; num_val T_i32 0x1ff; num_val T_i32 3] [1; 2; 3; 4; 5] [] [] []) =
    (Ok tt, moved_on (ex_mach (IOp O_memory_fill [AInt 0]) [] [1; 2; 3; 0xff; 0xff] [] [] []) []) /\
  step F host (ex_mach (IOp O_memory_init [AInt 0; AInt 0]) [num_val T_i32 2; num_val T_i32 1; num_val T_i32 3] [1; 2; 3; 4; 5] [] [] [7; 8; 9]) =
    (Ok tt, moved_on (ex_mach (IOp O_memory_init [AInt 0; AInt 0]) [] [1; 2; 3; 8; 9] [] [] [7; 8; 9]) []).
Proof. repeat split; vm_compute; reflexivity. Qed.

(* C24 *)
Theorem C24_table_get : forall F host m args fr j a t v V,
  about_to_run m (IOp O_table_get args) fr -> nth_error args 0 = Some (AInt (Z.of_nat j)) -> the_table m fr j a t ->
  k_value m = v :: V -> val_wf v ->
  match nth_error (ti_elem t) (Z.to_nat (low 32 v)) with
  | Some r => step F host m = (Ok tt, moved_on m (r :: V))
  | None => exists e, step F host m = (Err e, moved_on m V)
  end.
Proof. exact table_get_step. Qed.
Print Assumptions C24_table_get.
Theorem C24_table_set : forall F host m args fr j a t r v V,
  about_to_run m (IOp O_table_set args) fr -> nth_error args 0 = Some (AInt (Z.of_nat j)) -> the_table m fr j a t ->
  k_value m = r :: v :: V -> val_wf v -> v_type r = tt_type (ti_type t) ->
  if low 32 v <? len (ti_elem t)
  then exists l', overwritten (ti_elem t) l' (low 32 v) [r] /\
       step F host m = (Ok tt, with_store (moved_on m V) (with_table (k_store m) a (mktab (ti_type t) l' (ti_size t))))
  else exists e, step F host m = (Err e, moved_on m V).
Proof. exact table_set_step. Qed.
Print Assumptions C24_table_set.
Theorem C24_table_size : forall F host m args fr j a t,
  about_to_run m (IOp O_table_size args) fr -> nth_error args 0 = Some (AInt (Z.of_nat j)) -> the_table m fr j a t ->
  0 <= ti_size t < 2 ^ 31 ->
  step F host m = (Ok tt, moved_on m (num_val T_i32 (ti_size t) :: k_value m)).
Proof. exact table_size_step. Qed.
Print Assumptions C24_table_size.
Theorem C24_table_grow : forall F host m args fr j a t v r V,
  about_to_run m (IOp O_table_grow args) fr -> nth_error args 0 = Some (AInt (Z.of_nat j)) -> the_table m fr j a t ->
  0 <= ti_size t < 2 ^ 31 -> k_value m = v :: r :: V -> val_wf v -> v_type r = tt_type (ti_type t) ->
  let n := low 32 v in
  let max := l_m (tt_limits (ti_type t)) in
  if (ti_size t + n <=? 1024) && ((max =? 0) || (ti_size t + n <=? max))
  then step F host m = (Ok tt, with_store (moved_on m (num_val T_i32 (ti_size t) :: V))
         (with_table (k_store m) a (mktab (ti_type t) (ti_elem t ++ repeat r (Z.to_nat n)) (ti_size t + n))))
  else step F host m = (Ok tt, moved_on m (num_val T_i32 (2 ^ 32 - 1) :: V)).
Proof. exact table_grow_step. Qed.
Print Assumptions C24_table_grow.
Theorem C24_table_fill : forall F host m args fr j a t vn r vd V,
  about_to_run m (IOp O_table_fill args) fr -> nth_error args 0 = Some (AInt (Z.of_nat j)) -> the_table m fr j a t ->
  k_value m = vn :: r :: vd :: V -> val_wf vn -> val_wf vd ->
  if low 32 vd + low 32 vn <=? len (ti_elem t)
  then exists l', overwritten (ti_elem t) l' (low 32 vd) (repeat r (Z.to_nat (low 32 vn))) /\
       step F host m = (Ok tt, with_store (moved_on m V) (with_table (k_store m) a (mktab (ti_type t) l' (ti_size t))))
  else exists e, step F host m = (Err e, moved_on m V).
Proof. exact table_fill_step. Qed.
Print Assumptions C24_table_fill.
(* the destination table number [i] and the source table number [j] may be the same *)
Theorem C24_table_copy : forall F host m args fr i j a b t u vn vs vd V,
  about_to_run m (IOp O_table_copy args) fr ->
  nth_error args 0 = Some (AInt (Z.of_nat i)) -> nth_error args 1 = Some (AInt (Z.of_nat j)) ->
  the_table m fr i a t -> the_table m fr j b u ->
  k_value m = vn :: vs :: vd :: V -> val_wf vn -> val_wf vs -> val_wf vd ->
  if (low 32 vs + low 32 vn <=? len (ti_elem u)) && (low 32 vd + low 32 vn <=? len (ti_elem t))
  then exists l', overwritten (ti_elem t) l' (low 32 vd) (range_of (ti_elem u) (low 32 vs) (low 32 vn)) /\
       step F host m = (Ok tt, with_store (moved_on m V) (with_table (k_store m) a (mktab (ti_type t) l' (ti_size t))))
  else exists e, step F host m = (Err e, moved_on m V).
Proof. exact table_copy_step. Qed.
Print Assumptions C24_table_copy.
Theorem C24_table_init : forall F host m args fr i j a b t e vn vs vd V,
  about_to_run m (IOp O_table_init args) fr ->
  nth_error args 0 = Some (AInt (Z.of_nat j)) -> nth_error args 1 = Some (AInt (Z.of_nat i)) ->
  the_table m fr i a t -> the_elem m fr j b e ->
  k_value m = vn :: vs :: vd :: V -> val_wf vn -> val_wf vs -> val_wf vd ->
  if (low 32 vs + low 32 vn <=? len (li_data e)) && (low 32 vd + low 32 vn <=? len (ti_elem t))
  then exists l', overwritten (ti_elem t) l' (low 32 vd) (range_of (li_data e) (low 32 vs) (low 32 vn)) /\
       step F host m = (Ok tt, with_store (moved_on m V) (with_table (k_store m) a (mktab (ti_type t) l' (ti_size t))))
  else exists x, step F host m = (Err x, moved_on m V).
Proof. exact table_init_step. Qed.
Print Assumptions C24_table_init.
Definition ex_ref (k : Z) : val := num_val T_func k.
Example C24_example F host :
  step F host (ex_mach (IOp O_table_get [AInt 0]) [num_val T_i32 1] [] [ex_ref 4; ex_ref 5] [] []) =
    (Ok tt, moved_on (ex_mach (IOp O_table_get [AInt 0]) [] [] [ex_ref 4; ex_ref 5] [] []) [ex_ref 5]) /\
  step F host (ex_mach (IOp O_table_set [AInt 0]) [ex_ref 9; num_val T_i32 1] [] [ex_ref 4; ex_ref 5] [] []) =
    (Ok tt, moved_on (ex_mach (IOp O_table_set [AInt 0]) [] [] [ex_ref 4; ex_ref 9] [] []) []) /\
  step F host (ex_mach (IOp O_table_fill [AInt 0]) [num_val T_i32 2; ex_ref 9; num_val T_i32 1] [] [ex_ref 4; ex_ref 5; ex_ref 6] [] []) =
    (Ok tt, moved_on (ex_mach (IOp O_table_fill [AInt 0]) [] [] [ex_ref 4; ex_ref 9; ex_ref 9] [] []) []) /\
  step F host (ex_mach (IOp O_table_copy [AInt 0; AInt 0]) [num_val T_i32 2; num_val T_i32 0; num_val T_i32 1] [] [ex_ref 4; ex_ref 5; ex_ref 6] [] []) =
    (Ok tt, moved_on (ex_mach (IOp O_table_copy [AInt 0; AInt 0]) [] [] [ex_ref 4; ex_ref 4; ex_ref 5] [] []) []) /\
  step F host (ex_mach (IOp O_table_init [AInt 0; AInt 0]) [num_val T_i32 1; num_val T_i32 1; num_val T_i32 0] [] [ex_ref 4; ex_ref 5] [ex_ref 7; ex_ref 8] []) =
    (Ok tt, moved_on (ex_mach (IOp O_table_init [AInt 0; AInt 0]) [] [] [ex_ref 8; ex_ref 5] [ex_ref 7; ex_ref 8] []) []) /\
  (exists m', step F host (ex_mach (IOp O_table_grow [AInt 0]) [num_val T_i32 2; ex_ref 9] [] [ex_ref 4] [] []) = (Ok tt, m') /\
     k_value m' = [num_val T_i32 1] /\ s_tabl (k_store m') = [mktab (mktt T_func (mklim 0 0)) [ex_ref 4; ex_ref 9; ex_ref 9] 3]).
Proof. repeat split; try (vm_compute; reflexivity). eexists. repeat split; vm_compute; reflexivity. Qed.

(* C25: elem.drop empties exactly one segment; table.init from an empty segment copies nothing or traps. That a dropped
   segment stays empty in every later state is C25_stays_dropped in PropRun.v. *)
Theorem C25_elem_drop : forall F host m args fr j a e,
  about_to_run m (IOp O_elem_drop args) fr -> nth_error args 0 = Some (AInt (Z.of_nat j)) -> the_elem m fr j a e ->
  exists E, step F host m = (Ok tt, with_store (moved_on m (k_value m)) (set_s_elem (k_store m) E)) /\
    nth_error E a = Some (mkelem (li_type e) []) /\
    forall b, b <> a -> nth_error E b = nth_error (s_elem (k_store m)) b.
Proof. exact elem_drop_all. Qed.
Print Assumptions C25_elem_drop.
Theorem C25_table_init_dropped : forall F host m args fr i j a b t e vn vs vd V,
  about_to_run m (IOp O_table_init args) fr ->
  nth_error args 0 = Some (AInt (Z.of_nat j)) -> nth_error args 1 = Some (AInt (Z.of_nat i)) ->
  the_table m fr i a t -> the_elem m fr j b e -> li_data e = [] ->
  k_value m = vn :: vs :: vd :: V -> val_wf vn -> val_wf vs -> val_wf vd ->
  (low 32 vs = 0 -> low 32 vn = 0 -> low 32 vd <= len (ti_elem t) -> step F host m = (Ok tt, moved_on m V)) /\
  (low 32 vs <> 0 \/ low 32 vn <> 0 -> exists x, step F host m = (Err x, moved_on m V)).
Proof. exact table_init_empty. Qed.
Print Assumptions C25_table_init_dropped.
(* data.drop empties one bytearray. Missing for the full statement: another segment made from the same segment of the
   same decoded module shares that bytearray and is emptied too (C46). *)
Theorem C25_data_drop_partial : forall F host m args fr j b d,
  about_to_run m (IOp O_data_drop args) fr -> nth_error args 0 = Some (AInt (Z.of_nat j)) -> the_data m fr j b d ->
  exists D, step F host m = (Ok tt, with_store (moved_on m (k_value m)) (set_s_blob (k_store m) D)) /\
    nth_error D b = Some [] /\
    forall c, c <> b -> nth_error D c = nth_error (s_blob (k_store m)) c.
Proof. exact data_drop_all. Qed.
Print Assumptions C25_data_drop_partial.
Theorem C25_memory_init_dropped : forall F host m args fr j a mem b vn vs vd V,
  about_to_run m (IOp O_memory_init args) fr -> nth_error args 0 = Some (AInt (Z.of_nat j)) ->
  the_memory m fr a mem -> the_data m fr j b [] ->
  k_value m = vn :: vs :: vd :: V -> val_wf vn -> val_wf vs -> val_wf vd ->
  (low 32 vs = 0 -> low 32 vn = 0 -> low 32 vd <= len (mi_data mem) -> step F host m = (Ok tt, moved_on m V)) /\
  (low 32 vs <> 0 \/ low 32 vn <> 0 -> exists x, step F host m = (Err x, moved_on m V)).
Proof. exact memory_init_empty. Qed.
Print Assumptions C25_memory_init_dropped.
Example C25_example F host :
  step F host (ex_mach (IOp O_elem_drop [AInt 0]) [] [] [] [ex_ref 7; ex_ref 8] []) =
    (Ok tt, moved_on (ex_mach (IOp O_elem_drop [AInt 0]) [] [] [] [] []) []) /\
  step F host (ex_mach (IOp O_data_drop [AInt 0]) [] [] [] [] [1; 2]) =
    (Ok tt, moved_on (ex_mach (IOp O_data_drop [AInt 0]) [] [] [] [] []) []) /\
  step F host (ex_mach (IOp O_memory_init [AInt 0; AInt 0]) [num_val T_i32 1; num_val T_i32 0; num_val T_i32 0] [1; 2] [] [] []) =
    (Err EAssert, moved_on (ex_mach (IOp O_memory_init [AInt 0; AInt 0]) [] [1; 2] [] [] []) []) /\
  step F host (ex_mach (IOp O_memory_init [AInt 0; AInt 0]) [num_val T_i32 0; num_val T_i32 0; num_val T_i32 2] [1; 2] [] [] []) =
    (Ok tt, moved_on (ex_mach (IOp O_memory_init [AInt 0; AInt 0]) [] [1; 2] [] [] []) []).
Proof. repeat split; vm_compute; reflexivity. Qed.

(* C27: what host functions do to memory through the methods of MemInst. In range: *)
Theorem C27_put_in_range_partial : forall m addr d,
  0 <= addr -> addr + len d <= len (mi_data m) ->
  exists d', mem_put m addr d = mkmem (mi_type m) d' (mi_size m) /\ overwritten (mi_data m) d' addr d.
Proof. exact put_in. Qed.
Print Assumptions C27_put_in_range_partial.
(* w is 1, 2, 4 or 8 in the code *)
Theorem C27_put_u_in_range_partial : forall w m addr z,
  1 <= w -> 0 <= addr -> addr + w <= len (mi_data m) -> urange (8 * w) z ->
  exists d', mem_put_u w m addr z = Ok (mkmem (mi_type m) d' (mi_size m)) /\
    overwritten (mi_data m) d' addr (to_le (Z.to_nat w) z).
Proof. exact put_u_in. Qed.
Print Assumptions C27_put_u_in_range_partial.
Theorem C27_put_i_in_range_partial : forall w m addr z,
  1 <= w -> 0 <= addr -> addr + w <= len (mi_data m) -> srange (8 * w) z ->
  exists d', mem_put_i w m addr z = Ok (mkmem (mi_type m) d' (mi_size m)) /\
    overwritten (mi_data m) d' addr (to_le (Z.to_nat w) z).
Proof. exact put_i_in. Qed.
Print Assumptions C27_put_i_in_range_partial.
Theorem C27_put_u8_in_range_partial : forall m addr z,
  0 <= addr < len (mi_data m) -> urange 8 z ->
  exists d', mem_put_u8 m addr z = Ok (mkmem (mi_type m) d' (mi_size m)) /\ overwritten (mi_data m) d' addr [z].
Proof. exact put_u8_in. Qed.
Print Assumptions C27_put_u8_in_range_partial.
(* Out of range: every memory is made longer by a write that starts at or behind its end, and no exception is raised. *)
Theorem C27_put_out_of_range_refuted :
  (forall m addr d, len (mi_data m) <= addr -> mi_data (mem_put m addr d) = mi_data m ++ d) /\
  (forall w m addr z, 1 <= w -> len (mi_data m) <= addr -> urange (8 * w) z ->
     exists m', mem_put_u w m addr z = Ok m' /\ len (mi_data m') = len (mi_data m) + w).
Proof. exact put_out. Qed.
Print Assumptions C27_put_out_of_range_refuted.
(* ... and a negative address counts from the end *)
Example C27_example :
  mi_data (mem_put (mkmem (mklim 0 0) [1; 2; 3; 4] 1) 1 [8; 9]) = [1; 8; 9; 4] /\
  mi_data (mem_put (mkmem (mklim 0 0) [1; 2; 3; 4] 1) 100 [8; 9]) = [1; 2; 3; 4; 8; 9] /\
  mi_data (mem_put (mkmem (mklim 0 0) [1; 2; 3; 4] 1) (-1) [8; 9]) = [1; 2; 3; 8; 9; 4].
Proof. repeat split; vm_compute; reflexivity. Qed.

(* C32 *)
Theorem C32_drop : forall F host m args fr v V,
  about_to_run m (IOp O_drop args) fr -> k_value m = v :: V -> step F host m = (Ok tt, moved_on m V).
Proof. exact drop_step. Qed.
Print Assumptions C32_drop.
Theorem C32_select : forall F host m args fr vc vb va V,
  about_to_run m (IOp O_select args) fr -> k_value m = vc :: vb :: va :: V -> val_wf vc ->
  step F host m = (Ok tt, moved_on m ((if low 32 vc =? 0 then vb else va) :: V)).
Proof. exact select_step. Qed.
Print Assumptions C32_select.
Theorem C32_select_type : forall F host m args fr t ts vc vb va V,
  about_to_run m (IOp O_select_type args) fr -> nth_error args 0 = Some (AList (vt_code t :: ts)) ->
  k_value m = vc :: vb :: va :: V -> val_wf vc -> v_type va = t -> v_type vb = t ->
  step F host m = (Ok tt, moved_on m ((if low 32 vc =? 0 then vb else va) :: V)).
Proof. exact select_type_step. Qed.
Print Assumptions C32_select_type.
Theorem C32_local_get : forall F host m args fr j v,
  about_to_run m (IOp O_local_get args) fr ->
  nth_error args 0 = Some (AInt (Z.of_nat j)) -> nth_error (fr_locals fr) j = Some v ->
  step F host m = (Ok tt, moved_on m (v :: k_value m)).
Proof. exact local_get_step. Qed.
Print Assumptions C32_local_get.
Theorem C32_local_set : forall F host m args fr j x v V,
  about_to_run m (IOp O_local_set args) fr ->
  nth_error args 0 = Some (AInt (Z.of_nat j)) -> nth_error (fr_locals fr) j = Some x -> k_value m = v :: V ->
  exists l', overwritten (fr_locals fr) l' (Z.of_nat j) [v] /\ step F host m = (Ok tt, with_locals (moved_on m V) l').
Proof. exact local_set_step. Qed.
Print Assumptions C32_local_set.
Theorem C32_local_tee : forall F host m args fr j x v V,
  about_to_run m (IOp O_local_tee args) fr ->
  nth_error args 0 = Some (AInt (Z.of_nat j)) -> nth_error (fr_locals fr) j = Some x -> k_value m = v :: V ->
  exists l', overwritten (fr_locals fr) l' (Z.of_nat j) [v] /\ step F host m = (Ok tt, with_locals (moved_on m (v :: V)) l').
Proof. exact local_tee_step. Qed.
Print Assumptions C32_local_tee.
Theorem C32_global_get : forall F host m args fr j a g,
  about_to_run m (IOp O_global_get args) fr ->
  nth_error args 0 = Some (AInt (Z.of_nat j)) -> the_global m fr j a g ->
  step F host m = (Ok tt, moved_on m (gi_data g :: k_value m)).
Proof. exact global_get_step. Qed.
Print Assumptions C32_global_get.
Theorem C32_global_set : forall F host m args fr j a g v V,
  about_to_run m (IOp O_global_set args) fr ->
  nth_error args 0 = Some (AInt (Z.of_nat j)) -> the_global m fr j a g -> k_value m = v :: V ->
  if gi_mut g =? 1
  then step F host m = (Ok tt, with_store (moved_on m V) (with_global (k_store m) a (mkglob v (gi_mut g))))
  else exists e, step F host m = (Err e, moved_on m (v :: V)).
Proof. exact global_set_step. Qed.
Print Assumptions C32_global_set.
Example C32_example F host :
  step F host (ex_mach (IOp O_select []) [num_val T_i32 (2 ^ 31); num_val T_i32 7; num_val T_i32 8] [] [] [] []) =
    (Ok tt, moved_on (ex_mach (IOp O_select []) [] [] [] [] []) [num_val T_i32 8]) /\
  step F host (ex_mach (IOp O_local_tee [AInt 1]) [num_val T_i64 7; num_val T_i32 8] [] [] [] []) =
    (Ok tt, with_locals (moved_on (ex_mach (IOp O_local_tee [AInt 1]) [] [] [] [] []) [num_val T_i64 7; num_val T_i32 8])
              [num_val T_i32 10; num_val T_i64 7]) /\
  (exists m', step F host (ex_mach (IOp O_global_set [AInt 0]) [num_val T_i32 7] [] [] [] []) = (Ok tt, m') /\
     s_glob (k_store m') = [mkglob (num_val T_i32 7) 1; mkglob (num_val T_i32 6) 0]) /\
  (exists e m', step F host (ex_mach (IOp O_global_set [AInt 1]) [num_val T_i32 7] [] [] [] []) = (Err e, m')).
Proof.
  split; [vm_compute; reflexivity|]. split; [vm_compute; reflexivity|]. split.
  - eexists. split; vm_compute; reflexivity.
  - eexists. eexists. vm_compute. reflexivity.
Qed.
