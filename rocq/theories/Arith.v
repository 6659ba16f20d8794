(* pywasm/arith.py 6-144, classes I and U. [n] is the byte length given to the constructor. *)
From Coq Require Import ZArith List Bool.
From Verif Require Import Py.
Import ListNotations.
Open Scope Z_scope.

(* arith.py 7-13 and 64-70 *)
Definition bits (n : Z) : Z := n * 8.
Definition mask (n : Z) : Z := Z.shiftl 1 (bits n) - 1.
Definition mask_sign (n : Z) : Z := Z.shiftl 1 (bits n - 1).
Definition i_max (n : Z) : Z := Z.shiftl 1 (bits n - 1) - 1.
Definition i_min (n : Z) : Z := Z.shiftl (-1) (bits n - 1).
Definition u_max (n : Z) : Z := mask n.
Definition u_min (n : Z) : Z := 0.

(* arith.py 15-20 *)
Definition i_from_bytearray (n : Z) (data : list Z) : res Z :=
  let? _ := py_assert (len data =? n) in Ok (le_of_s data).
Definition i_into_bytearray (n : Z) (z : Z) : res (list Z) := to_bytes_s n z.

(* arith.py 22-25 *)
Definition i_fit (n z : Z) : Z :=
  let z := Z.land z (mask n) in
  z - Z.shiftl (Z.land z (mask_sign n)) 1.

(* arith.py 27-28 *)
Definition i_sat (n z : Z) : Z := Z.max (Z.min z (i_max n)) (i_min n).

(* arith.py 30-43 *)
Definition i_add (n a b : Z) : Z := i_fit n (a + b).
Definition i_add_sat (n a b : Z) : Z := i_sat n (a + b).
Definition i_sub (n a b : Z) : Z := i_fit n (a - b).
Definition i_sub_sat (n a b : Z) : Z := i_sat n (a - b).
Definition i_mul (n a b : Z) : Z := i_fit n (a * b).

(* arith.py 45-51 *)
Definition i_div (n a b : Z) : res Z :=
  let? _ := py_assert (negb (a =? i_min n) || negb (b =? -1)) in
  if a * b >? 0 then py_floordiv a b
  else let? m := py_mod (- a) b in py_floordiv (a + m) b.

(* arith.py 53-54 *)
Definition i_rem (n a b : Z) : res Z :=
  if a * b >? 0 then py_mod a b
  else let? m := py_mod (- a) b in Ok (- m).

(* arith.py 56-60 *)
Definition i_shl (n a b : Z) : Z := i_fit n (Z.shiftl a (Z.land b (bits n - 1))).
Definition i_shr (n a b : Z) : Z := i_fit n (Z.shiftr a (Z.land b (bits n - 1))).

(* arith.py 72-77 *)
Definition u_from_bytearray (n : Z) (data : list Z) : res Z :=
  let? _ := py_assert (len data =? n) in Ok (le_of data).
Definition u_into_bytearray (n : Z) (z : Z) : res (list Z) := to_bytes_u n z.

(* arith.py 79-98 *)
Definition u_fit (n z : Z) : Z := Z.land z (mask n).
Definition u_sat (n z : Z) : Z := Z.max (Z.min z (u_max n)) (u_min n).
Definition u_add (n a b : Z) : Z := u_fit n (a + b).
Definition u_add_sat (n a b : Z) : Z := u_sat n (a + b).
Definition u_sub (n a b : Z) : Z := u_fit n (a - b).
Definition u_sub_sat (n a b : Z) : Z := u_sat n (a - b).
Definition u_mul (n a b : Z) : Z := u_fit n (a * b).

(* arith.py 100-104 *)
Definition u_div (n a b : Z) : res Z := py_floordiv a b.
Definition u_rem (n a b : Z) : res Z := py_mod a b.

(* arith.py 106-110 *)
Definition u_shl (n a b : Z) : Z := u_fit n (Z.shiftl a (Z.land b (bits n - 1))).
Definition u_shr (n a b : Z) : Z := u_fit n (Z.shiftr a (Z.land b (bits n - 1))).

(* arith.py 112-118; the shift counts are never negative because `%` is not *)
Definition u_rotl (n a b : Z) : Z :=
  let b := b mod bits n in
  Z.lor (Z.land (Z.shiftl a b) (mask n)) (Z.shiftr a (bits n - b)).
Definition u_rotr (n a b : Z) : Z :=
  let b := b mod bits n in
  Z.lor (Z.shiftr a b) (Z.land (Z.shiftl a (bits n - b)) (mask n)).

(* arith.py 120-127: [k] rounds left, [b] counted so far *)
Fixpoint clz_loop (n : Z) (k : nat) (a b : Z) : Z :=
  match k with
  | O => b
  | S k' => if negb (Z.land a (mask_sign n) =? 0) then b else clz_loop n k' (Z.shiftl a 1) (b + 1)
  end.
Definition u_clz (n a : Z) : Z := clz_loop n (Z.to_nat (bits n)) a 0.

(* arith.py 129-136 *)
Fixpoint ctz_loop (k : nat) (a b : Z) : Z :=
  match k with
  | O => b
  | S k' => if negb (Z.land a 1 =? 0) then b else ctz_loop k' (Z.shiftr a 1) (b + 1)
  end.
Definition u_ctz (n a : Z) : Z := ctz_loop (Z.to_nat (bits n)) a 0.

(* arith.py 138-144 *)
Fixpoint popcnt_loop (k : nat) (a b : Z) : Z :=
  match k with
  | O => b
  | S k' => popcnt_loop k' (Z.shiftr a 1) (if negb (Z.land a 1 =? 0) then b + 1 else b)
  end.
Definition u_popcnt (n a : Z) : Z := popcnt_loop (Z.to_nat (bits n)) a 0.
