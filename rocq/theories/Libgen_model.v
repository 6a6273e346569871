(* Model of src/header/libgen/mod.rs.  A result is a pointer, or one of the static string
   literals the functions return (c"." and c"/"), whose text stands for its address. *)
From Verif Require Import Base String_model.

Inductive rptr := Ptr (p : Z) | Lit (l : list Z).

(* The loops of both functions: while end >= lo && P(path[end]) { end -= 1 }. *)
Fixpoint back (fuel : nat) (m : mem) (path e lo : Z) (P : Z -> bool) : res Z :=
  match fuel with
  | O => OutOfFuel
  | S f =>
      if lo <=? e then
        b <- ld m (path + e) ;;
        if P b then back f m path (e - 1) lo P else Ok e
      else Ok e
  end.
Definition slash (b : Z) : bool := b =? 47.
Definition noslash (b : Z) : bool := negb (b =? 47).

(* libgen/mod.rs:14-33 *)
Definition basename (fuel : nat) (m : mem) (path : Z) : res (mem * rptr) :=
  if path =? NULL then Ok (m, Lit [46])
  else
    n <- strlen fuel m path ;;
    if n =? 0 then Ok (m, Lit [46])
    else
      e <- back fuel m path (n - 1) 0 slash ;;
      if e =? -1 then Ok (m, Lit [47])
      else
        b <- back fuel m path e 0 noslash ;;
        m <- st m (path + (e + 1)) 0 ;;
        Ok (m, Ptr (path + (b + 1))).

(* libgen/mod.rs:42-64 *)
Definition dirname (fuel : nat) (m : mem) (path : Z) : res (mem * rptr) :=
  if path =? NULL then Ok (m, Lit [46])
  else
    n <- strlen fuel m path ;;
    if n =? 0 then Ok (m, Lit [46])
    else
      e <- back fuel m path (n - 1) 1 slash ;;
      e <- back fuel m path e 0 noslash ;;
      e <- back fuel m path e 1 slash ;;
      if e =? -1 then Ok (m, Lit [46])
      else
        m <- st m (path + (e + 1)) 0 ;;
        Ok (m, Ptr path).
