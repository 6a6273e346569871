(* Pathnames and symbolic links as POSIX has them. *)
From Verif Require Import Base.

(* a canonical path is the names from the root, innermost first; a pathname is names and .. *)
Definition path := list (list Z).
Inductive step := Name (n : list Z) | Up.
Record pathname := PN { absolute : bool; steps : list step }.
(* what a scheme says of a path *)
Inductive node := File (fd : Z) | Link (target : pathname) | Fail (e : Z) | Unreadable (e : Z).
Definition tree := path -> node.

(* a pathname seen from a directory *)
Fixpoint walk (dir : path) (l : list step) : path :=
  match l with [] => dir | Name n :: r => walk (n :: dir) r | Up :: r => walk (tl dir) r end.
Definition from (dir : path) (p : pathname) : path := walk (if absolute p then [] else dir) (steps p).
(* from p, n links on is q: a link's target is seen from the directory the link is in *)
Inductive links (t : tree) : path -> nat -> path -> Prop :=
| links_0 p : links t p 0 p
| links_S p l n q : t p = Link l -> steps l <> [] -> links t (from (tl p) l) n q -> links t p (S n) q.
Inductive answer := Opened (fd : Z) | Error (e : Z).
(* what opening a path that is not a link to follow gives *)
Definition final (t : tree) (p : path) (a : answer) : Prop :=
  match t p with File fd => a = Opened fd | Fail e => a = Error e | Unreadable e => a = Error e | Link _ => False end.
(* the first link, if there is one, is in dir, or its target is absolute *)
Definition first_ok (t : tree) (dir p : path) : Prop :=
  match t p with Link l => absolute l = true \/ tl p = dir | _ => True end.
