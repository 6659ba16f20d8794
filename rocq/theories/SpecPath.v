(* Path strings seen as lists of components, and what it means to walk along one. *)
From Coq Require Import ZArith List Bool.
From Verif Require Import Py Syntax.
Import ListNotations.
Open Scope Z_scope.

Definition slash : Z := 47.
Definition dot : name := [46].
Definition dotdot : name := [46; 46].
Definition slash_free (c : name) : Prop := Forall (fun x => x <> slash) c.
(* a component that names a directory entry *)
Definition proper (c : name) : Prop := slash_free c /\ c <> [] /\ c <> dot /\ c <> dotdot.
(* the components one after the other with a slash before each; without the first slash; as an absolute path *)
Definition slashed (l : list name) : name := concat (map (cons slash) l).
Definition joined (l : list name) : name := match l with [] => [] | c :: l' => c ++ slashed l' end.
Definition rooted (l : list name) : name := match l with [] => [slash] | _ => slashed l end.
(* Every string is [joined l] for components without slashes. It is absolute if it starts with a slash. *)
Definition absolute (s : name) : Prop := exists t, s = slash :: t.
(* walking from the directory at [d]: an empty component or . stays, .. goes up (from the top: stays), others go down *)
Inductive walks : list name -> list name -> list name -> Prop :=
| walks_end d : walks d [] d
| walks_stay d l e : walks d l e -> walks d ([] :: l) e
| walks_dot d l e : walks d l e -> walks d (dot :: l) e
| walks_up d c l e : walks d l e -> walks (d ++ [c]) (dotdot :: l) e
| walks_top l e : walks [] l e -> walks [] (dotdot :: l) e
| walks_down d c l e : proper c -> walks (d ++ [c]) l e -> walks d (c :: l) e.
(* [e] is the directory [d] or below it *)
Definition below (d e : list name) : Prop := exists l, e = d ++ l.
(* the condition the code tests: what comes out may also lie beside the directory, under a longer name *)
Definition below_or_longer (d e : list name) : Prop :=
  d = [] \/ exists up c x l, d = up ++ [c] /\ e = up ++ (c ++ x) :: l.
