(* The command `python -m pywasm`: what its options mean. *)
From Coq Require Import ZArith List Bool.
From Verif Require Import Py Floatops Val Syntax Store Machine Decode Os Wasi WasiRun SpecValid CommandLine.
Import ListNotations.
Open Scope Z_scope.

(* Settings are strings like key=value, with [c] in place of the equals sign; the first one separates. A later setting of
   the same key replaces an earlier one. *)
Definition setting (c : Z) (k v : name) : name := k ++ c :: v.
Definition last_setting (c : Z) (l : list name) (k v : name) : Prop :=
  ~ In c k /\ exists l1 l2, l = l1 ++ setting c k v :: l2 /\ forall v', ~ In (setting c k v') l2.
Definition all_settings (c : Z) (l : list name) : Prop := Forall (In c) l.

(* the number that decimal digits stand for *)
Fixpoint place_value (ds : list Z) : Z :=
  match ds with [] => 0 | d :: ds' => d * 10 ^ len ds' + place_value ds' end.
(* an optional sign and at least one and at most 4300 digits *)
Definition numeral (s : name) (z : Z) : Prop :=
  exists sign ds, s = sign ++ map (fun d => 48 + d) ds /\ Forall (fun d => 0 <= d <= 9) ds /\ 1 <= len ds <= 4300 /\
    (sign = [] /\ z = place_value ds \/ sign = [43] /\ z = place_value ds \/ sign = [45] /\ z = - place_value ds).
(* what may be left out of a numeral: spaces around it, underscores *)
Definition space (c : Z) : Prop := c = 32 \/ 9 <= c <= 13.
Definition without_underscores (s : name) : name := filter (fun c => negb (c =? 95)) s.

(* the two hexadecimal digits of a byte, as in "7f" *)
Definition hex_char (d : Z) : Z := if d <? 10 then 48 + d else 87 + d.
Definition hex (b : list Z) : name := flat_map (fun x => [hex_char (x / 16); hex_char (x mod 16)]) b.

(* the string that gives the value [p] for a parameter of type [t] *)
Inductive written (fl : name -> res Z) : valtype -> name -> pyval -> Prop :=
| written_i32 s z : numeral s z -> written fl T_i32 s (PInt z)
| written_i64 s z : numeral s z -> written fl T_i64 s (PInt z)
| written_f32 s x : fl s = Ok x -> written fl T_f32 s (PFloat x)
| written_f64 s x : fl s = Ok x -> written fl T_f64 s (PFloat x)
| written_v128 b : Forall (fun x => 0 <= x < 256) b -> written fl T_v128 (48 :: 120 :: hex b) (PBytes b).
Inductive all_written (fl : name -> res Z) : list valtype -> list name -> list pyval -> Prop :=
| written_none : all_written fl [] [] []
| written_next t ts s ss p ps : written fl t s p -> all_written fl ts ss ps -> all_written fl (t :: ts) (s :: ss) (p :: ps).

(* All that is read as the value [p] for a parameter of type [t], and more: spaces around numerals, underscores in them;
   any two characters before a vector, upper case and spaces in it *)
Definition lower (c : Z) : Z := if (65 <=? c) && (c <=? 70) then c + 32 else c.
Definition without_spaces (s : name) : name := filter (fun c => negb ((c =? 32) || ((9 <=? c) && (c <=? 13)))) s.
Inductive reads (fl : name -> res Z) : valtype -> name -> pyval -> Prop :=
| reads_i32 pre mid suf z : Forall space pre -> Forall space suf -> numeral (without_underscores mid) z ->
    reads fl T_i32 (pre ++ mid ++ suf) (PInt z)
| reads_i64 pre mid suf z : Forall space pre -> Forall space suf -> numeral (without_underscores mid) z ->
    reads fl T_i64 (pre ++ mid ++ suf) (PInt z)
| reads_f32 s x : fl s = Ok x -> reads fl T_f32 s (PFloat x)
| reads_f64 s x : fl s = Ok x -> reads fl T_f64 s (PFloat x)
| reads_v128 c d s b : map lower (without_spaces s) = hex b -> reads fl T_v128 (c :: d :: s) (PBytes b).
(* one of the strings, or their number, is not right for parameters of types [ts] *)
Definition unsuitable (fl : name -> res Z) (ts : list valtype) (ss : list name) : Prop :=
  length ts <> length ss \/
  exists i t s, nth_error ts i = Some t /\ nth_error ss i = Some s /\ forall p, reads fl t s p -> ~ of_kind t p.

(* The module in the bytes [b] has been instantiated as [h], without imports; [e] is what it exports by the name --func,
   [f] the function at that address. *)
Definition found (F : fops) (n : nat) (o : options) (b : list Z) (m : machine) (h : nat) (f : funcinst) (m' : machine) : Prop :=
  exists md L m1 e, module_from_reader b = Ok md /\ load_module md m = (Ok L, m1) /\ rt_instance F no_host n [] L m1 = (Ok h, m') /\
    find_export (mod_of (k_store m') (MRef h)) (o_func o) = Ok e /\ py_index (s_func (k_store m')) (Store.e_data e) = Ok f.
(* With --wasi: the module in the bytes [b] has been instantiated as [h], with the options and the WASI functions; [w'] is
   where Preview1.main starts. *)
Definition set_up (F : fops) (Os : os) (cwd : name) (std : Z * name * (Z * name) * (Z * name)) (n : nat) (o : options) (b : list Z)
  (w : world) (h : nat) (w' : world) : Prop :=
  exists ds es md imps L w1 w2 w3, pairs_of 58 (o_dirs o) = Ok ds /\ pairs_of 61 (o_envs o) = Ok es /\
    new_preview1 Os cwd std (o_file o :: o_args o) ds es w = (Ok tt, w1) /\ mach (wasi_bind []) w1 = (Ok imps, w2) /\
    module_from_reader b = Ok md /\ mach (load_module md) w2 = (Ok L, w3) /\ wrt_instance F Os n imps L w3 = (Ok h, w').

(* The exit status of the process on POSIX: the low byte of the argument of sys.exit; 1 after a traceback. *)
Definition status (x : ended) : Z :=
  match x with
  | Exited c => c mod 256
  | Printed _ => 0
  | Raised (EExit c) => c mod 256
  | Raised _ => 1
  end.
