(* Mathematical integers of a given bit width, independent of arith.py. *)
From Coq Require Import ZArith List Bool.
Import ListNotations.
Open Scope Z_scope.

(* the signed and the unsigned range of N bits *)
Definition srange (N z : Z) : Prop := - 2 ^ (N - 1) <= z < 2 ^ (N - 1).
Definition urange (N z : Z) : Prop := 0 <= z < 2 ^ N.

(* equality modulo 2^N *)
Definition congr (N a b : Z) : Prop := exists k, a = b + k * 2 ^ N.

(* r is the one number of the range that is congruent to z *)
Definition wraps_s (N z r : Z) : Prop := srange N r /\ congr N r z /\ forall r', srange N r' -> congr N r' z -> r' = r.
Definition wraps_u (N z r : Z) : Prop := urange N r /\ congr N r z /\ forall r', urange N r' -> congr N r' z -> r' = r.

(* r is the number of the range closest to z *)
Definition closest (range : Z -> Prop) (z r : Z) : Prop :=
  range r /\ forall r', range r' -> Z.abs (r - z) <= Z.abs (r' - z).

(* bit counting by bits *)
Definition is_clz (N a r : Z) : Prop :=
  0 <= r <= N /\ (forall i, N - r <= i < N -> Z.testbit a i = false) /\ (r < N -> Z.testbit a (N - 1 - r) = true).
Definition is_ctz (N a r : Z) : Prop :=
  0 <= r <= N /\ (forall i, 0 <= i < r -> Z.testbit a i = false) /\ (r < N -> Z.testbit a r = true).
Definition bitcount (N a : Z) : Z :=
  Z.of_nat (length (filter (fun i => Z.testbit a (Z.of_nat i)) (seq 0 (Z.to_nat N)))).
