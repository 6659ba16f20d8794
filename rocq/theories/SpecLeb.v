(* What a LEB128 byte string means, independently of leb128.py: base-128 digits, least significant first. *)
From Coq Require Import ZArith List.
Import ListNotations.
Open Scope Z_scope.

Fixpoint base128 (b : list Z) : Z :=
  match b with
  | [] => 0
  | e :: b' => e mod 128 + 128 * base128 b'
  end.

(* two's complement over 7 * length bits: negative iff the last digit is at least 64 *)
Definition base128_signed (b : list Z) : Z :=
  if 64 <=? last b 0 mod 128 then base128 b - 128 ^ Z.of_nat (length b) else base128 b.

(* one LEB128 group: continuation bytes, then a terminating byte *)
Definition group (b : list Z) : Prop :=
  exists pre l, b = pre ++ [l] /\ Forall (fun x => 128 <= x < 256) pre /\ 0 <= l < 128.
