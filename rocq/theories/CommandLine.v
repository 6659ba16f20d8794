(* pywasm/__main__.py: the command `python -m pywasm`. The options are taken as argparse delivers them (lines 6-15);
   that argparse delivers what was typed is not modelled, nor is the text that print (57) makes of the results. The
   process ends when an exception reaches the top level: see [ended]. *)
From Coq Require Import ZArith List Bool.
From Verif Require Import Py Floatops Val Opcode Numeric Syntax Store Basic Machine Decode Utf8 Os Wasi WasiRun.
Import ListNotations.
Open Scope Z_scope.

(* 6-15: the namespace. `--wasi` has one choice, preview1. *)
Record options : Set := mkopt {
  o_func : name; o_func_args : list name; o_envs : list name; o_dirs : list name; o_args : list name; o_wasi : bool; o_file : name }.
(* How the process ends: sys.exit (34), the results are printed and the end of the file is reached (57), or an exception *)
Inductive ended : Set := Exited (c : Z) | Printed (rets : list pyval) | Raised (e : exn).

(* 23 and 26: `e.split(c, 1)` gives one or two strings *)
Fixpoint split1 (c : Z) (s : name) : list name :=
  match s with
  | [] => [[]]
  | x :: s' => if x =? c then [[]; s'] else match split1 c s' with [] => [] | a :: l => (x :: a) :: l end
  end.
(* 24 and 27: `spes[0]` and `spes[1]`. The assignment to the dict is [dict_put]. *)
Definition pair_of (c : Z) (s : name) : res (name * name) :=
  let spes := split1 c s in
  let? v := py_index spes 1 in
  let? k := py_index spes 0 in
  Ok (k, v).
(* 22-24 and 25-27 *)
Definition pairs_of (c : Z) (l : list name) : res (list (name * name)) :=
  let? ps := rmapl (pair_of c) l in Ok (dict_of ps).

(* 47: `int(s)`: spaces around, a sign, decimal digits with single underscores between them; at most 4300 digits
   (sys.set_int_max_str_digits). Simplification: Python also takes spaces and decimal digits outside ASCII. *)
Definition is_space (c : Z) : bool := (c =? 32) || ((9 <=? c) && (c <=? 13)).
Fixpoint lstrip (s : name) : name := match s with c :: s' => if is_space c then lstrip s' else s | [] => [] end.
Definition strip (s : name) : name := rev (lstrip (rev (lstrip s))).
Definition digit (c : Z) : option Z := if (48 <=? c) && (c <=? 57) then Some (c - 48) else None.
(* the number of digits and their value; [n], [z]: those read so far; the next character must be a digit if [now] *)
Fixpoint digits_from (now : bool) (n z : Z) (s : name) : res (Z * Z) :=
  match s with
  | [] => if now then Err EValue else Ok (n, z)
  | c :: s' =>
    match digit c with
    | Some d => digits_from false (n + 1) (10 * z + d) s'
    | None => if (c =? 95) && negb now then digits_from true n z s' else Err EValue
    end
  end.
Definition py_int (s : name) : res Z :=
  let digits (s : name) := let? nz := digits_from true 0 0 s in if fst nz <=? 4300 then Ok (snd nz) else Err EValue in
  match strip s with
  | 45 :: s' => let? z := digits s' in Ok (- z)
  | 43 :: s' => digits s'
  | s' => digits s'
  end.
(* 53: `bytearray.fromhex(s)`: pairs of hexadecimal digits, ASCII spaces between them *)
Definition hexdigit (c : Z) : option Z :=
  if (48 <=? c) && (c <=? 57) then Some (c - 48)
  else if (65 <=? c) && (c <=? 70) then Some (c - 55)
  else if (97 <=? c) && (c <=? 102) then Some (c - 87) else None.
Fixpoint fromhex (s : name) : res (list Z) :=
  match s with
  | [] => Ok []
  | c :: s' =>
    if is_space c then fromhex s'
    else match hexdigit c, s' with
         | Some a, c' :: s'' => match hexdigit c' with Some b => let? l := fromhex s'' in Ok (16 * a + b :: l) | None => Err EValue end
         | _, _ => Err EValue
         end
  end.

Section WithOs.
(* [fl] is Python's `float` of a string (50): the bits of the double, or ValueError. *)
Variables (F : fops) (Os : os) (fl : name -> res Z).

(* 18-34. [file] is what opening and reading the file gives (core.py 4159-4162). *)
Definition main_wasi (cwd : name) (std : Z * name * (Z * name) * (Z * name)) (n : nat) (o : options) (file : res (list Z)) : W Z :=
  let! dirs := lift (pairs_of 58 (o_dirs o)) in
  let! envs := lift (pairs_of 61 (o_envs o)) in
  new_preview1 Os cwd std (o_file o :: o_args o) dirs envs ;;
  let! imps := mach (wasi_bind []) in
  let! b := lift file in
  let! md := lift (module_from_reader b) in
  let! L := mach (load_module md) in
  let! h := wrt_instance F Os n imps L in
  run_main F Os n h.

(* 44-55 *)
Definition argument (t : valtype) (s : name) : res pyval :=
  match t with
  | T_i32 | T_i64 => let? z := py_int s in Ok (PInt z)
  | T_f32 | T_f64 => let? x := fl s in Ok (PFloat x)
  | T_v128 => let? b := fromhex (skipn 2 s) in Ok (PBytes b)
  | T_func | T_extern => Err EAssert
  end.
(* There are no host functions: the runtime of main_wasm has no imports. (The machine is spelled out so that this is a
   [plain_host] of SpecControl.v by computation.) *)
Definition no_host : hostcode := fun _ _ m => (Err EKey, mkmach (k_store m) (k_value m) (k_label m) (k_frame m)).
(* 37-57, up to print *)
Definition main_wasm (n : nat) (o : options) (file : res (list Z)) : M (list pyval) :=
  let! b := lift file in
  let! md := lift (module_from_reader b) in
  let! L := load_module md in
  let! h := rt_instance F no_host n [] L in
  let! m := mget in
  let! e := lift (find_export (mod_of (k_store m) (MRef h)) (o_func o)) in
  let! func := lift (py_index (s_func (k_store m)) (e_data e)) in
  assert (len (ft_args (fi_type func)) =? len (o_func_args o)) ;;
  let! args := lift (rmapl (fun '(t, s) => argument t s) (combine (ft_args (fi_type func)) (o_func_args o))) in
  rt_invocate F no_host n h (o_func o) args.

(* 59-61. sys.exit (34) raises, so main_wasm does not follow main_wasi. *)
Definition command (cwd : name) (std : Z * name * (Z * name) * (Z * name)) (n : nat) (o : options) (file : res (list Z)) (w : world) : ended * world :=
  if o_wasi o then
    match main_wasi cwd std n o file w with (Ok c, w') => (Exited c, w') | (Err e, w') => (Raised e, w') end
  else
    match mach (main_wasm n o file) w with (Ok l, w') => (Printed l, w') | (Err e, w') => (Raised e, w') end.
End WithOs.
