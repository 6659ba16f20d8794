(* Whole programs with the WASI functions bound. *)
From Coq Require Import ZArith List Bool.
From Verif Require Import Py Floatops Val Opcode Numeric Syntax Store Basic Machine Os Wasi WasiRun
  SpecInt SpecNum SpecMachine SpecControl SpecRun SpecType SpecWasi.
Import ListNotations.
Open Scope Z_scope.

(* The machine is about to call host function number [hid], of type [t], with the values [A] as arguments (first one
   first); [m'] is the machine behind the call, without the results. *)
Inductive calls_host (m : machine) (hid : nat) (t : functype) (A : list val) : machine -> Prop :=
| calls_direct fr k a V : about_to_run m (IOp O_call [AInt (Z.of_nat k)]) fr ->
    nth_error (m_func (mod_of (k_store m) (fr_module fr))) k = Some (Z.of_nat a) ->
    nth_error (s_func (k_store m)) a = Some (FHost t hid) ->
    k_value m = rev A ++ V -> calls_host m hid t A (moved_on m V)
| calls_indirect fr i j c ta tab u a V :
    about_to_run m (IOp O_call_indirect [AInt (Z.of_nat i); AInt (Z.of_nat j)]) fr ->
    nth_error (m_tabl (mod_of (k_store m) (fr_module fr))) j = Some (Z.of_nat ta) ->
    nth_error (s_tabl (k_store m)) ta = Some tab ->
    nth_error (m_type (mod_of (k_store m) (fr_module fr))) i = Some t ->
    nth_error (ti_elem tab) (Z.to_nat (low 32 c)) = Some (ref_to u a) -> Z.of_nat a < 2 ^ 31 ->
    nth_error (s_func (k_store m)) a = Some (FHost t hid) ->
    k_value m = c :: rev A ++ V -> calls_host m hid t A (moved_on m V).
(* the numbers that a host function is given for values of type i32 and i64 *)
Definition as_number (v : val) : Z :=
  match v_type v with T_i64 => signed_of 64 (low 64 v) | _ => signed_of 32 (low 32 v) end.
(* the same world with another machine, and with one more value on the stack *)
Definition pushed (w : world) (v : val) : world :=
  with_mach w (mkmach (k_store (w_mach w)) (v :: k_value (w_mach w)) (k_label (w_mach w)) (k_frame (w_mach w))).

(* the requests on sockets *)
Definition socket_request (c : oscall) : Prop :=
  match c with OsAccept _ _ | OsRecv _ _ _ | OsSend _ _ | OsShutdown _ _ => True | _ => False end.

(* ---- the end of main ---- *)
(* the operating system can always say what kind of file an open descriptor belongs to, and it is never a character
   device (type 2 in the upper bits of the mode) *)
Definition plain_files (Os : os) : Prop :=
  forall log h, exists i, Os log (OsStatFd h) = RStat i /\ Z.land (st_mode i) 0xf000 <> 0x2000.
(* the action does not renumber a descriptor to one of the standard streams *)
Definition not_to_std (x : action) : Prop := forall a k, x = Call F_fd_renumber [a; k] -> 3 <= k.
(* the operating system never raises the exceptions that end a program *)
Definition no_exit (e : exn) : Prop := match e with ESystemExit _ | EExit _ => False | _ => True end.
Definition never_exits (Os : os) : Prop := forall log c e, Os log c = RFail (OEother e) -> no_exit e.
Definition no_stacks (w : world) : Prop := k_value (w_mach w) = [] /\ k_label (w_mach w) = [] /\ k_frame (w_mach w) = [].
(* The next turn of the machine calls the host function that is bound to proc_exit, with [c]: if that function raises,
   so does the turn. *)
Definition asks_exit (F : fops) (m : machine) (c : Z) : Prop :=
  exists hid nm t m0, nth_error wasi_methods hid = Some (nm, t, F_proc_exit) /\
    forall host e m', host hid [PInt c] m0 = (Err e, m') -> step F host m = (Err e, m').
(* [w0] is the world where the first instruction of the function that module [h] exports as _start is about to run *)
Inductive begins (w : world) (h : nat) : world -> Prop :=
| begins_at e t g code : find_export (mod_of (k_store (w_mach w)) (MRef h)) n_start = Ok e ->
    py_index (s_func (k_store (w_mach w))) (Store.e_data e) = Ok (FWasm t g code) -> ft_args t = [] ->
    let n := length (ft_rets t) in
    begins w h (with_mach w (mkmach (k_store (w_mach w)) (k_value (w_mach w)) (mklabel n 1 0 KFunc (fd_expr code) 0 :: k_label (w_mach w))
      (mkframe (MRef g) (zero_locals (fd_locals code)) n 0 0 :: mkframe (MVal modinst_empty) [] 0 0 0 :: k_frame (w_mach w)))).
(* the program calls proc_exit with [c] within [n] turns of _start *)
Definition exits (F : fops) (Os : os) (n h : nat) (w : world) (c : Z) : Prop :=
  exists w0 k w1, begins w h w0 /\ (k < n)%nat /\ wevaluate F Os k w0 = (Ok tt, w1) /\ k_label (w_mach w1) <> [] /\ asks_exit F (w_mach w1) c.

(* ---- which host descriptors a call works on ---- *)
(* [h] is the host descriptor behind an open descriptor that the call is given *)
Definition named (w : world) (f : wfun) (args : list Z) (h : Z) : Prop :=
  exists fd e, In fd (descriptors f args) /\ is_open w fd e /\ host_fd e = h.
(* every request (newest first) works on host descriptors in [H], or ones that an earlier one of them opened *)
Fixpoint own (H : Z -> Prop) (evs : list event) : Prop :=
  match evs with
  | [] => True
  | (c, _) :: evs' => Forall (fun h => H h \/ exists nm fl md d, In (OsOpen nm fl md d, RInt h) evs') (uses c) /\ own H evs'
  end.
(* The action leaves the table of descriptors as it is and is given no descriptors but standard input, output and
   error. *)
Definition only_std (x : action) : Prop :=
  match x with
  | Call f args =>
    match f with
    | F_poll_oneoff | F_path_open | F_fd_close | F_fd_renumber | F_fd_fdstat_set_flags | F_fd_fdstat_set_rights => False
    | _ => Forall (fun fd => fd < 3) (descriptors f args)
    end
  | Elsewhere _ _ => True
  end.

(* ---- validated code that calls WASI functions ---- *)
(* the types under which bind offers the functions *)
Definition wasi_sig (hid : nat) : functype := match nth_error wasi_methods hid with Some (_, t, _) => t | None => mkft [] [] end.
(* what the operating system delivers are bytes *)
Definition replies_bytes (Os : os) : Prop := forall log c d, Os log c = RBytes d -> bytes d.
Definition pipes_ok (w : world) : Prop := Forall (fun b => bytes (bio_data b)) (w_pipes w).
Definition data_lengths (m : machine) : list Z := map (fun x => len (mi_data x)) (s_mems (k_store m)).
(* the next turn calls a function and makes the data of a memory longer *)
Definition lengthens (F : fops) (Os : os) (w : world) : Prop :=
  data_lengths (w_mach (snd (wturn F Os w))) <> data_lengths (w_mach w) /\
  exists o args fr, about_to_run (w_mach w) (IOp o args) fr /\ (o = O_call \/ o = O_call_indirect).
(* a runtime none of whose host functions has been called: calling one raises *)
Definition none_called : hostcode := fun _ _ m => (Err (EHost 0), m).
(* nothing is running; everything in the store is in order and well typed *)
Definition at_rest (w : world) : Prop :=
  (exists s, w_mach w = mkmach s [] [] []) /\ store_ok (k_store (w_mach w)) /\ store_typed wasi_sig (k_store (w_mach w)) /\ pipes_ok w.
