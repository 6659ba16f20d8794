(* Properties C01-C04: LEB128. *)
From Coq Require Import ZArith List Bool Lia.
From Verif Require Import Py Leb128 SpecLeb LebFacts.
Import ListNotations.
Open Scope Z_scope.

(* C01 *)
Theorem C01_unsigned_roundtrip : forall (i : Z) (rest : list Z), 0 <= i ->
  exists b, u_encode i = Ok b /\ u_decode_reader (b ++ rest) = Ok (i, len b, rest).
Proof. exact u_roundtrip. Qed.
Print Assumptions C01_unsigned_roundtrip.
Example C01_example : u_encode 624485 = Ok [0xe5; 0x8e; 0x26] /\
  u_decode_reader [0xe5; 0x8e; 0x26; 7] = Ok (624485, 3, [7]).
Proof. split; vm_compute; reflexivity. Qed.

Theorem C01_unsigned_rejects_negative : forall i : Z, i < 0 -> exists e, u_encode i = Err e.
Proof. exact u_negative. Qed.
Print Assumptions C01_unsigned_rejects_negative.
Example C01_negative_example : -1 < 0.
Proof. lia. Qed.

(* C02 *)
Theorem C02_signed_roundtrip : forall (i : Z) (rest : list Z),
  exists b, i_encode i = Ok b /\ i_decode_reader (b ++ rest) = Ok (i, len b, rest).
Proof. exact i_roundtrip. Qed.
Print Assumptions C02_signed_roundtrip.
Example C02_example : i_encode (-123456) = Ok [0xc0; 0xbb; 0x78] /\
  i_decode_reader [0xc0; 0xbb; 0x78; 255] = Ok (-123456, 3, [255]).
Proof. split; vm_compute; reflexivity. Qed.

(* C03: [group] is continuation bytes followed by one terminator (SpecLeb.v). *)
Theorem C03_unsigned_canonical : forall i b, u_encode i = Ok b ->
  group b /\
  forall c rest n, bytes c -> u_decode_reader (c ++ rest) = Ok (i, n, rest) -> len b <= len c.
Proof. exact u_canonical. Qed.
Print Assumptions C03_unsigned_canonical.
Theorem C03_signed_canonical : forall i b, i_encode i = Ok b ->
  group b /\
  forall c rest n, bytes c -> i_decode_reader (c ++ rest) = Ok (i, n, rest) -> len b <= len c.
Proof. exact i_canonical. Qed.
Print Assumptions C03_signed_canonical.
Example C03_example : u_encode 3 = Ok [3] /\ u_decode_reader ([0x83; 0x80; 0] ++ [9]) = Ok (3, 3, [9]) /\
  i_encode (-1) = Ok [0x7f] /\ i_decode_reader ([0xff; 0x7f] ++ [9]) = Ok (-1, 2, [9]).
Proof. repeat split; vm_compute; reflexivity. Qed.

(* C04: base128 and base128_signed are the meaning of a digit string (SpecLeb.v). *)
Theorem C04_unsigned_reader : forall r, bytes r ->
  (exists b rest, r = b ++ rest /\ group b /\ u_decode_reader r = Ok (base128 b, len b, rest)) \/
  (Forall (fun x => 128 <= x) r /\ exists e, u_decode_reader r = Err e).
Proof. exact u_reader_total. Qed.
Print Assumptions C04_unsigned_reader.
Theorem C04_signed_reader : forall r, bytes r ->
  (exists b rest, r = b ++ rest /\ group b /\ i_decode_reader r = Ok (base128_signed b, len b, rest)) \/
  (Forall (fun x => 128 <= x) r /\ exists e, i_decode_reader r = Err e).
Proof. exact i_reader_total. Qed.
Print Assumptions C04_signed_reader.
Example C04_example : bytes [0x80; 0x01; 5] /\ u_decode_reader [0x80; 0x01; 5] = Ok (128, 2, [5]) /\
  bytes [0x80; 0xff] /\ u_decode_reader [0x80; 0xff] = Err EType.
Proof. repeat split; try (vm_compute; reflexivity); repeat constructor; lia. Qed.
