(* Specification for C91-C93 (C17 7.21.5.3; 'e' and 'x' after 'a': POSIX 2024).  A mode is
   r, w or a followed by any of b, +, x, e in any order; x not after r. *)
From Coq Require Import ZArith List Bool.
From Verif Require Import Base Fopen_model.
Import ListNotations.
Open Scope Z_scope.

Definition letter (c : Z) : Prop := c = 114 \/ c = 119 \/ c = 97.
Definition suffix (u : list Z) : Prop := Forall (fun c => c = 98 \/ c = 43 \/ c = 120 \/ c = 101) u.
Definition mode (c : Z) (u : list Z) : Prop := letter c /\ suffix u /\ (c = 114 -> ~ In 120 u).
(* the contents of the file after opening, from those before; fails: no stream *)
Inductive opens (c : Z) (u : list Z) : option (list Z) -> option (list Z) -> Prop :=
| o_read x : c = 114 -> opens c u (Some x) (Some x)
| o_none : c = 114 -> opens c u None None
| o_write x : c = 119 -> (In 120 u -> x = None) -> opens c u x (Some [])
| o_append x : c = 97 -> ~ In 120 u -> opens c u (Some x) (Some x)
| o_create : c = 97 -> opens c u None (Some [])
| o_exists x : c <> 114 -> In 120 u -> opens c u (Some x) None.
(* the descriptor of a stream opened so *)
Definition descriptor (c : Z) (u : list Z) (name : Z) (d : desc) : Prop :=
  d_file d = name /\ (d_rd d = true <-> c = 114 \/ In 43 u) /\ (d_wr d = true <-> c <> 114 \/ In 43 u) /\
  (d_app d = true <-> c = 97) /\ (d_cloexec d = true <-> In 101 u) /\ d_pos d = 0%nat.
(* a stream nothing has happened to *)
Definition fresh (c : Z) (u : list Z) (fd : Z) (f : file) : Prop :=
  f_fd f = fd /\ (f_nord f = false <-> c = 114 \/ In 43 u) /\ (f_nowr f = false <-> c <> 114 \/ In 43 u) /\
  f_eof f = false /\ f_err f = false /\ f_unget f = [] /\ f_rbuf f = [] /\ f_wbuf f = [] /\ f_orient f = 0.
(* k' is k but for the contents of one file and one descriptor *)
Definition only {A} (f f' : Z -> option A) (x : Z) (v : option A) : Prop := f' x = v /\ forall y, y <> x -> f' y = f y.
(* the next byte a stream delivers: pushed-back ones, buffered ones (C40), those of the file *)
Definition next_byte (k : kernel) (f : file) : option Z :=
  match f_unget f, f_rbuf f, fds k (f_fd f) with
  | c :: _, _, _ => Some c
  | [], c :: _, _ => Some c
  | [], [], Some d => if d_rd d then match files k (d_file d) with Some l => nth_error l (d_pos d) | None => None end else None
  | _, _, _ => None
  end.
(* what fopen makes of kernel and stream *)
Definition opened (c : Z) (u : list Z) (k : kernel) (nfd name : Z) (x : list Z) (k' : kernel) (f : file) : Prop :=
  only (files k) (files k') name (Some x) /\
  (exists d, only (fds k) (fds k') nfd (Some d) /\ descriptor c u name d) /\ fresh c u nfd f /\ f_perm f = false.
(* k1 is k after the pending output of f has been written *)
Definition flushed (k : kernel) (f : file) (k1 : kernel) : Prop :=
  match f_wbuf f with [] => k1 = k | l => k_write k (f_fd f) l = Some k1 end.
