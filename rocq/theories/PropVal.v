(* Properties C12, C13: values. *)
From Coq Require Import ZArith List Bool Lia.
From Verif Require Import Py Arith SpecInt Floatops Val ValFacts.
Import ListNotations.
Open Scope Z_scope.

(* C12. [F] is the host's rounding arithmetic. Ints, byte strings and references come back unchanged; f64 arguments come
   back as the same double (an int argument as the double Python converts it to); f32 arguments come back rounded once to
   single precision. *)
Theorem C12_accepted_values : forall F t p v, from_all F t p = Ok v ->
  length (v_data v) = 16%nat /\ v_type v = t /\
  match t, p with
  | T_i32, PInt z => srange 32 z /\ into_all F v = Ok (PInt z)
  | T_i64, PInt z => srange 64 z /\ into_all F v = Ok (PInt z)
  | (T_func | T_extern), PInt z => srange 32 z /\ into_all F v = Ok (PInt z)
  | T_v128, PBytes b => length b = 16%nat /\ into_all F v = Ok (PBytes b)
  | T_f64, PFloat x => urange 64 x -> into_all F v = Ok (PFloat x)
  | T_f64, PInt n => forall x, f_of_int F n = Some x -> urange 64 x -> into_all F v = Ok (PFloat x)
  | T_f32, PFloat x => (forall y, f_to32 F (f_of32 F (f_to32 F y)) = f_to32 F y) -> urange 32 (f_to32 F x) ->
                       into_all F v = Ok (PFloat (f_of32 F (f_to32 F x)))
  | T_f32, PInt n => forall x, f_of_int F n = Some x ->
                       (forall y, f_to32 F (f_of32 F (f_to32 F y)) = f_to32 F y) -> urange 32 (f_to32 F x) ->
                       into_all F v = Ok (PFloat (f_of32 F (f_to32 F x)))
  | _, _ => False
  end.
Proof. exact from_all_accepted. Qed.
Print Assumptions C12_accepted_values.

Theorem C12_rejects_exactly_out_of_range : forall F z,
  ((exists v, from_all F T_i32 (PInt z) = Ok v) <-> srange 32 z) /\
  ((exists v, from_all F T_i64 (PInt z) = Ok v) <-> srange 64 z) /\
  ((exists v, from_all F T_func (PInt z) = Ok v) <-> srange 32 z) /\
  ((exists v, from_all F T_extern (PInt z) = Ok v) <-> srange 32 z).
Proof. exact from_all_rejects. Qed.
Print Assumptions C12_rejects_exactly_out_of_range.
Example C12_example : forall F,
  (exists v, from_all F T_i32 (PInt (-5)) = Ok v /\ into_all F v = Ok (PInt (-5))) /\
  from_all F T_i32 (PInt 0x80000000) = Err EOverflow /\
  (exists v, from_all F T_extern (PInt 7) = Ok v /\ into_all F v = Ok (PInt 7)) /\
  (exists v, from_all F T_v128 (PBytes [1;2;3;4;5;6;7;8;9;10;11;12;13;14;15;16]) = Ok v).
Proof. intros F. repeat split; try (eexists; split; vm_compute; reflexivity); try (eexists; vm_compute; reflexivity). Qed.

(* C13 *)
Theorem C13_views_agree : forall v, val_wf v ->
  exists s32 u32 s64 u64,
    into_i32 v = Ok s32 /\ into_u32 v = Ok u32 /\ into_i64 v = Ok s64 /\ into_u64 v = Ok u64 /\
    srange 32 s32 /\ urange 32 u32 /\ congr 32 s32 u32 /\
    srange 64 s64 /\ urange 64 u64 /\ congr 64 s64 u64 /\ congr 32 u64 u32.
Proof. exact views_agree. Qed.
Print Assumptions C13_views_agree.

Theorem C13_built_from_one_view_read_by_the_other : forall z v,
  (from_i32 z = Ok v -> into_i32 v = Ok z /\ into_u32 v = Ok (z mod 2 ^ 32)) /\
  (from_u32 z = Ok v -> into_u32 v = Ok z /\ exists s, into_i32 v = Ok s /\ wraps_s 32 z s) /\
  (from_i64 z = Ok v -> into_i64 v = Ok z /\ into_u64 v = Ok (z mod 2 ^ 64)) /\
  (from_u64 z = Ok v -> into_u64 v = Ok z /\ exists s, into_i64 v = Ok s /\ wraps_s 64 z s).
Proof. exact views_build. Qed.
Print Assumptions C13_built_from_one_view_read_by_the_other.
Example C13_example : exists v, from_u32 0xffffffff = Ok v /\ val_wf v /\ into_i32 v = Ok (-1) /\ into_u32 v = Ok 0xffffffff.
Proof.
  eexists. split; [vm_compute; reflexivity|]. split.
  - split; [reflexivity|]. repeat constructor; lia.
  - split; vm_compute; reflexivity.
Qed.
