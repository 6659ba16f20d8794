(* `bytes.decode()` and `str.encode()`: Python's strict UTF-8 codec. A str is the list of its code points. *)
From Coq Require Import ZArith List Bool.
From Verif Require Import Py.
Import ListNotations.
Open Scope Z_scope.

Definition in_range (lo hi b : Z) : bool := (lo <=? b) && (b <=? hi).
Definition cont (b : Z) : bool := in_range 0x80 0xbf b.

(* `b.decode()`, core.py 1033, 1059, 1061, 1118: the sequences of table 3-7 of the Unicode standard; anything else raises *)
Fixpoint utf8_decode (b : list Z) : res (list Z) :=
  match b with
  | [] => Ok []
  | b0 :: r =>
    if b0 <? 0x80 then let? s := utf8_decode r in Ok (b0 :: s)
    else if in_range 0xc2 0xdf b0 then
      match r with
      | b1 :: r =>
        if cont b1 then let? s := utf8_decode r in Ok ((b0 - 0xc0) * 64 + (b1 - 0x80) :: s) else Err EUnicode
      | _ => Err EUnicode
      end
    else if in_range 0xe0 0xef b0 then
      match r with
      | b1 :: b2 :: r =>
        if (if b0 =? 0xe0 then in_range 0xa0 0xbf b1 else if b0 =? 0xed then in_range 0x80 0x9f b1 else cont b1) && cont b2
        then let? s := utf8_decode r in Ok ((b0 - 0xe0) * 4096 + (b1 - 0x80) * 64 + (b2 - 0x80) :: s) else Err EUnicode
      | _ => Err EUnicode
      end
    else if in_range 0xf0 0xf4 b0 then
      match r with
      | b1 :: b2 :: b3 :: r =>
        if (if b0 =? 0xf0 then in_range 0x90 0xbf b1 else if b0 =? 0xf4 then in_range 0x80 0x8f b1 else cont b1)
          && cont b2 && cont b3
        then let? s := utf8_decode r in
          Ok ((b0 - 0xf0) * 262144 + (b1 - 0x80) * 4096 + (b2 - 0x80) * 64 + (b3 - 0x80) :: s) else Err EUnicode
      | _ => Err EUnicode
      end
    else Err EUnicode
  end.
