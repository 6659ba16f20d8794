(* pywasm/leb128.py *)
From Coq Require Import ZArith List Bool.
From Verif Require Import Py.
Import ListNotations.
Open Scope Z_scope.

(* An upper bound for the number of rounds of the encoders' `while True`; LebFacts.v proves it is never reached. *)
Definition leb_fuel (i : Z) : nat := S (S (Z.to_nat (Z.log2 (Z.abs i)))).

(* leb128.py 10-16. The Python list r is built by appending; here the byte is put in front of the rest. *)
Fixpoint u_encode_loop (fuel : nat) (i : Z) : res (list Z) :=
  match fuel with
  | O => Err EStop
  | S f =>
    let byte := Z.land i 0x7f in
    let i' := Z.shiftr i 7 in
    if i' =? 0 then Ok [byte]
    else let? t := u_encode_loop f i' in Ok (Z.lor 0x80 byte :: t)
  end.

(* leb128.py 6-16 *)
Definition u_encode (i : Z) : res (list Z) :=
  let? _ := py_assert (0 <=? i) in u_encode_loop (leb_fuel i) i.

(* leb128.py 21-24: [i] is the index of the first byte of [b], [r] the accumulator *)
Fixpoint decode_loop (b : list Z) (i r : Z) : Z :=
  match b with
  | [] => r
  | e :: b' => decode_loop b' (i + 1) (r + Z.shiftl (Z.land e 0x7f) (i * 7))
  end.

(* leb128.py 19-24 *)
Definition u_decode (b : list Z) : Z := decode_loop b 0 0.

(* leb128.py 30-35 and 66-71: the bytes up to and including the first with a clear top bit *)
Fixpoint read_group (r : list Z) : res (list Z * list Z) :=
  match r with
  | [] => Err EType
  | b :: r' =>
    if Z.land b 0x80 =? 0 then Ok ([b], r')
    else let? (a, r'') := read_group r' in Ok (b :: a, r'')
  end.

(* leb128.py 27-36: number, count of bytes read, rest of the stream *)
Definition u_decode_reader (r : list Z) : res (Z * Z * list Z) :=
  let? (a, r') := read_group r in Ok (u_decode a, len a, r').

(* leb128.py 44-50 *)
Fixpoint i_encode_loop (fuel : nat) (i : Z) : res (list Z) :=
  match fuel with
  | O => Err EStop
  | S f =>
    let byte := Z.land i 0x7f in
    let i' := Z.shiftr i 7 in
    if ((i' =? 0) && (Z.land byte 0x40 =? 0)) || ((i' =? -1) && negb (Z.land byte 0x40 =? 0))
    then Ok [byte]
    else let? t := i_encode_loop f i' in Ok (Z.lor 0x80 byte :: t)
  end.

(* leb128.py 41-50 *)
Definition i_encode (i : Z) : res (list Z) := i_encode_loop (leb_fuel i) i.

(* leb128.py 53-60. After the loop `i` and `e` are the last index and byte; on an empty argument they are unbound. *)
Definition i_decode (b : list Z) : res Z :=
  match b with
  | [] => Err EName
  | _ =>
    let r := decode_loop b 0 0 in
    let i := len b - 1 in
    let e := last b 0 in
    if negb (Z.land e 0x40 =? 0) then Ok (Z.lor r (- Z.shiftl 1 (i * 7 + 7))) else Ok r
  end.

(* leb128.py 63-72 *)
Definition i_decode_reader (r : list Z) : res (Z * Z * list Z) :=
  let? (a, r') := read_group r in let? n := i_decode a in Ok (n, len a, r').
