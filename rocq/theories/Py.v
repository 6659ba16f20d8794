(* The Python built-ins that pywasm uses, with their own rules for negative indices, clamping slices and exceptions.
   Python ints are [Z]; a byte is a [Z] in 0..255; list, bytes and bytearray are Coq lists. *)
From Coq Require Import ZArith List Bool.
Import ListNotations.
Open Scope Z_scope.

(* The exceptions that can leave the modelled code. [EPop] is the IndexError of popping or
   looking at the top of an empty stack; it is kept apart
   from the other IndexErrors. [ESystemExit c] is the exception a host function uses to stop the program (wasi.py). *)
Inductive exn : Set :=
| EAssert        (* AssertionError *)
| EIndex         (* IndexError: index out of range *)
| EPop           (* IndexError: empty stack *)
| EOverflow      (* OverflowError *)
| EZeroDiv       (* ZeroDivisionError *)
| EType          (* TypeError *)
| EValue         (* ValueError *)
| EKey           (* KeyError *)
| EAttr          (* AttributeError *)
| EName          (* UnboundLocalError *)
| EStruct        (* struct.error *)
| EUnicode       (* UnicodeDecodeError *)
| EOS            (* OSError *)
| EStop          (* StopIteration *)
| ESystemExit (c : Z)
| EExit (c : Z)  (* the SystemExit of sys.exit, which is not an Exception *)
| EHost (n : Z). (* whatever else a host function raises *)

Inductive res (A : Type) : Type :=
| Ok (a : A)
| Err (e : exn).
Arguments Ok {A} a.
Arguments Err {A} e.

Definition rbind {A B} (r : res A) (f : A -> res B) : res B :=
  match r with Ok a => f a | Err e => Err e end.
Definition rmap {A B} (f : A -> B) (r : res A) : res B :=
  match r with Ok a => Ok (f a) | Err e => Err e end.

Declare Scope res_scope.
Delimit Scope res_scope with res.
Notation "'let?' x ':=' e 'in' f" := (rbind e (fun x => f))
  (at level 200, x pattern, e at level 200, f at level 200, right associativity) : res_scope.
Open Scope res_scope.

(* `assert b` *)
Definition py_assert (b : bool) : res unit := if b then Ok tt else Err EAssert.

(* [map] for a function that may raise: `[f(e) for e in l]` *)
Fixpoint rmapl {A B} (f : A -> res B) (l : list A) : res (list B) :=
  match l with
  | [] => Ok []
  | x :: l' => let? y := f x in let? ys := rmapl f l' in Ok (y :: ys)
  end.

Definition len {A} (l : list A) : Z := Z.of_nat (length l).

(* `l[i]`: negative indices count from the end *)
Definition py_index {A} (l : list A) (i : Z) : res A :=
  let j := if i <? 0 then i + len l else i in
  if j <? 0 then Err EIndex
  else match nth_error l (Z.to_nat j) with Some x => Ok x | None => Err EIndex end.

Fixpoint upd {A} (l : list A) (n : nat) (x : A) : list A :=
  match l, n with
  | [], _ => []
  | _ :: l', O => x :: l'
  | y :: l', S n' => y :: upd l' n' x
  end.

(* `l[i] = x` *)
Definition py_setitem {A} (l : list A) (i : Z) (x : A) : res (list A) :=
  let j := if i <? 0 then i + len l else i in
  if (j <? 0) || (len l <=? j) then Err EIndex else Ok (upd l (Z.to_nat j) x).

(* slice bounds: negative ones count from the end, then everything is clamped to 0..len *)
Definition py_bound (n i : Z) : Z :=
  if i <? 0 then Z.max 0 (i + n) else Z.min i n.

(* `l[a:b]` *)
Definition py_slice {A} (l : list A) (a b : Z) : list A :=
  let a' := py_bound (len l) a in
  let b' := py_bound (len l) b in
  firstn (Z.to_nat (b' - a')) (skipn (Z.to_nat a') l).

(* `l[a:b] = v`: the replaced range may have another length than v *)
Definition py_slice_set {A} (l : list A) (a b : Z) (v : list A) : list A :=
  let a' := py_bound (len l) a in
  let b' := Z.max a' (py_bound (len l) b) in
  firstn (Z.to_nat a') l ++ v ++ skipn (Z.to_nat b') l.

(* `range(n)` as a list of ints *)
Definition py_range (n : Z) : list Z := map Z.of_nat (seq 0 (Z.to_nat n)).

(* `bytearray(n)`, `[x] * n`, ... *)
Definition zeros (n : Z) : list Z := repeat 0 (Z.to_nat n).

(* little-endian number of a byte string: `int.from_bytes(b, 'little', signed=False)` *)
Fixpoint le_of (b : list Z) : Z :=
  match b with
  | [] => 0
  | x :: b' => x + 256 * le_of b'
  end.

(* the [n] low-order bytes of an integer in two's complement, low byte first *)
Fixpoint to_le (n : nat) (z : Z) : list Z :=
  match n with
  | O => []
  | S n' => z mod 256 :: to_le n' (z / 256)
  end.

(* two's complement reading of an N-bit number *)
Definition signed_of (bits z : Z) : Z := if z <? 2 ^ (bits - 1) then z else z - 2 ^ bits.

(* `int.from_bytes(b, 'little', signed=True)`; the empty string gives 0 *)
Definition le_of_s (b : list Z) : Z :=
  match b with [] => 0 | _ => signed_of (8 * len b) (le_of b) end.

(* `int.from_bytes(b)` (big-endian by default since Python 3.11) *)
Definition be_of (b : list Z) : Z := fold_left (fun a x => a * 256 + x) b 0.

(* `z.to_bytes(n, 'little', signed=False)` and `signed=True`, for n >= 1 *)
Definition to_bytes_u (n z : Z) : res (list Z) :=
  if (0 <=? z) && (z <? 2 ^ (8 * n)) then Ok (to_le (Z.to_nat n) z) else Err EOverflow.
Definition to_bytes_s (n z : Z) : res (list Z) :=
  if (- 2 ^ (8 * n - 1) <=? z) && (z <? 2 ^ (8 * n - 1)) then Ok (to_le (Z.to_nat n) z) else Err EOverflow.

(* `struct.unpack('<I', b)` and friends need exactly n bytes *)
Definition unpack_u (n : Z) (b : list Z) : res Z := if len b =? n then Ok (le_of b) else Err EStruct.
Definition unpack_s (n : Z) (b : list Z) : res Z := if len b =? n then Ok (le_of_s b) else Err EStruct.

(* `struct.pack('<i', z)` and friends raise struct.error out of range *)
Definition pack_s (n z : Z) : res (list Z) :=
  match to_bytes_s n z with Ok b => Ok b | Err _ => Err EStruct end.
Definition pack_u (n z : Z) : res (list Z) :=
  match to_bytes_u n z with Ok b => Ok b | Err _ => Err EStruct end.

(* `a // b`, `a % b` *)
Definition py_floordiv (a b : Z) : res Z := if b =? 0 then Err EZeroDiv else Ok (a / b).
Definition py_mod (a b : Z) : res Z := if b =? 0 then Err EZeroDiv else Ok (a mod b).

(* A binary stream is the list of its unread bytes. `ord(r.read(1))` raises TypeError at the end of the stream;
   `r.read(n)` returns fewer bytes there. *)
Definition read_ord (r : list Z) : res (Z * list Z) :=
  match r with [] => Err EType | b :: r' => Ok (b, r') end.
Definition read_n (n : Z) (r : list Z) : list Z * list Z :=
  (firstn (Z.to_nat n) r, skipn (Z.to_nat n) r).

(* well-formedness of bytes *)
Definition byte (b : Z) : Prop := 0 <= b < 256.
Definition bytes (l : list Z) : Prop := Forall byte l.
