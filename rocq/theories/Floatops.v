(* Python floats. A Python float is represented by the 64-bit pattern of the C double it wraps (a Z in 0..2^64-1).
   Everything that is exact - classification, comparison, sign manipulation, conversion to an integer - is defined here
   directly on the bit pattern. The operations that round are a parameter, the record [fops]; Float.v gives the IEEE-754
   instance (with Flocq) and proves that the definitions below agree with it. *)
From Coq Require Import ZArith List Bool.
From Verif Require Import Py.
Import ListNotations.
Open Scope Z_scope.

(* The rounding primitives of the host's floating-point unit as CPython uses them: C casts float<->double, int -> double
   (OverflowError if too large: None), + - * / sqrt on doubles. *)
Record fops : Type := {
  f_of32 : Z -> Z;          (* (double) of a 32-bit pattern *)
  f_to32 : Z -> Z;          (* (float) of a 64-bit pattern, as a 32-bit pattern *)
  f_of_int : Z -> option Z; (* float(int) *)
  f_add : Z -> Z -> Z;
  f_sub : Z -> Z -> Z;
  f_mul : Z -> Z -> Z;
  f_div : Z -> Z -> Z;
  f_sqrt : Z -> Z
}.

Definition fl_sign (x : Z) : bool := Z.testbit x 63.
Definition fl_exp (x : Z) : Z := (x / 2 ^ 52) mod 2 ^ 11.
Definition fl_man (x : Z) : Z := x mod 2 ^ 52.

(* math.isnan, math.isinf *)
Definition fl_isnan (x : Z) : bool := (fl_exp x =? 2047) && negb (fl_man x =? 0).
Definition fl_isinf (x : Z) : bool := (fl_exp x =? 2047) && (fl_man x =? 0).

(* the value of a finite double times 2^1074, an integer; an infinity gets a number beyond every finite double *)
Definition fl_scaled (x : Z) : Z :=
  let m := if fl_exp x =? 0 then fl_man x else fl_man x + 2 ^ 52 in
  let a := m * 2 ^ (Z.max (fl_exp x) 1 - 1) in
  if fl_sign x then - a else a.
Definition fl_unit : Z := 2 ^ 1074.

(* a == b, a < b on floats: false if an operand is a NaN *)
Definition fl_eqb (a b : Z) : bool := negb (fl_isnan a) && negb (fl_isnan b) && (fl_scaled a =? fl_scaled b).
Definition fl_ltb (a b : Z) : bool := negb (fl_isnan a) && negb (fl_isnan b) && (fl_scaled a <? fl_scaled b).
Definition fl_leb (a b : Z) : bool := negb (fl_isnan a) && negb (fl_isnan b) && (fl_scaled a <=? fl_scaled b).

(* comparisons of a float with an int (exact in Python) *)
Definition fl_ltb_int (a : Z) (n : Z) : bool := negb (fl_isnan a) && (fl_scaled a <? n * fl_unit).
Definition fl_gtb_int (a : Z) (n : Z) : bool := negb (fl_isnan a) && (n * fl_unit <? fl_scaled a).
Definition fl_geb_int (a : Z) (n : Z) : bool := negb (fl_isnan a) && (n * fl_unit <=? fl_scaled a).

(* abs(a), -a, math.copysign(a, b) *)
Definition fl_abs (x : Z) : Z := x mod 2 ^ 63.
Definition fl_neg (x : Z) : Z := Z.lxor x (2 ^ 63).
Definition fl_copysign (a b : Z) : Z := fl_abs a + (if fl_sign b then 2 ^ 63 else 0).

Definition fl_zero : Z := 0.
Definition fl_inf : Z := 0x7ff0000000000000.
Definition fl_nan : Z := 0x7ff8000000000000.  (* math.nan *)

(* math.trunc / int(), math.floor, math.ceil, round() on a finite float *)
Definition fl_trunc (x : Z) : Z := Z.quot (fl_scaled x) fl_unit.
Definition fl_floor (x : Z) : Z := fl_scaled x / fl_unit.
Definition fl_ceil (x : Z) : Z := - ((- fl_scaled x) / fl_unit).
Definition fl_round (x : Z) : Z :=
  let q := fl_scaled x / fl_unit in
  let r := fl_scaled x mod fl_unit in
  if 2 * r <? fl_unit then q
  else if fl_unit <? 2 * r then q + 1
  else if Z.even q then q else q + 1.

(* int(x): ValueError for a NaN, OverflowError for an infinity *)
Definition fl_int (x : Z) : res Z :=
  if fl_isnan x then Err EValue else if fl_isinf x then Err EOverflow else Ok (fl_trunc x).

(* float(n) *)
Definition fl_of_int (F : fops) (n : Z) : res Z :=
  match f_of_int F n with Some x => Ok x | None => Err EOverflow end.

(* min(a, b), max(a, b) on floats: the first operand unless the second is smaller / larger *)
Definition fl_min (a b : Z) : Z := if fl_ltb b a then b else a.
Definition fl_max (a b : Z) : Z := if fl_ltb a b then b else a.

(* arith.py 147-168: class F32 *)
Definition f32_fit (F : fops) (x : Z) : Z := f_of32 F (f_to32 F x).
(* arith.py 171-210: class F64 *)
Definition f64_div (F : fops) (a b : Z) : Z :=
  if fl_eqb b fl_zero then
    let c := if Bool.eqb (fl_sign a) (fl_sign b) then fl_inf else fl_neg fl_inf in
    if fl_eqb a fl_zero || fl_isnan a
    then (if Bool.eqb (fl_sign a) (fl_sign b) then fl_nan else fl_neg fl_nan)
    else c
  else f_div F a b.
Definition f64_min (a b : Z) : Z :=
  let c := fl_min a b in
  let c := if fl_isnan a then a else c in
  if fl_isnan b then b else c.
Definition f64_max (a b : Z) : Z :=
  let c := fl_max a b in
  let c := if fl_isnan a then a else c in
  if fl_isnan b then b else c.
Definition f32_div (F : fops) (a b : Z) : Z := f32_fit F (f64_div F a b).
Definition f32_min (F : fops) (a b : Z) : Z := f32_fit F (f64_min a b).
Definition f32_max (F : fops) (a b : Z) : Z := f32_fit F (f64_max a b).

(* `e if math.isnan(e) or math.isinf(e) else float(g(e))`, core.py 2372-2391 and the lane versions *)
Definition fl_integral (F : fops) (g : Z -> Z) (x : Z) : res Z :=
  if fl_isnan x || fl_isinf x then Ok x else fl_of_int F (g x).

(* `math.sqrt(a) if a >= 0 else math.nan`, core.py 2392-2395 *)
Definition fl_sqrt (F : fops) (x : Z) : Z := if fl_geb_int x 0 then f_sqrt F x else fl_nan.

(* `int(max(lo, min(a, hi)))` with integer bounds and a float that is not a NaN, core.py 2662-2717: min returns its first
   argument unless the second is smaller, max likewise unless the second is larger; int of an int is itself. *)
Definition fl_sat_int (lo hi : Z) (a : Z) : res Z :=
  if fl_gtb_int a hi then (* min gave the int hi *) (if lo <? hi then Ok hi else Ok lo)
  else if fl_gtb_int a lo then fl_int a else Ok lo.
