(* Specification for C95: a directory is a list of entries; a stream has a place in it. *)
From Coq Require Import ZArith List Bool.
From Verif Require Import Base Dirent_model.
Import ListNotations.
Open Scope Z_scope.

(* the number of the place after the entries p *)
Fixpoint place (p : list ent) : Z := match p with [] => 0 | [e] => e_next e | _ :: r => place r end.
Definition positions (all : list ent) : Prop := Forall (fun e => 0 <= e_next e < 2 ^ 63 /\ 0 < e_len e) all.
(* A kernel that serves the directory: at the place between p and s it gives some entries
   of s that fit into the buffer, in order, at least one unless s is empty, or EINVAL if the
   first does not fit; possibly other errors. *)
Definition serves (errors : bool) (all : list ent) (gd : nat -> Z -> Z -> answer) : Prop :=
  forall n p s c, 0 < c -> all = p ++ s ->
    match gd n (place p) c with
    | GOk l => exists r, s = l ++ r /\ total l <= c /\ (l = [] -> s = [])
    | GErr e => e = EINVAL /\ (exists x r, s = x :: r /\ c < e_len x) \/ errors = true /\ e <> EINVAL
    end.
(* A stream at the place between p and s: what the operations return and where they lead.
   seekdir leads to the place p' whose number it is given. *)
Inductive does (all : list ent) : list ent -> list ent -> list op -> list out -> Prop :=
| d_nil p s : does all p s [] []
| d_entry p e s ops r : does all (p ++ [e]) s ops r -> does all p (e :: s) (Read :: ops) (ORead (GEntry e) :: r)
| d_end p ops r : does all p [] ops r -> does all p [] (Read :: ops) (ORead GEnd :: r)
| d_tell p s ops r : does all p s ops r -> does all p s (Tell :: ops) (OTell (place p) :: r)
| d_seek p s p' s' ops r : all = p' ++ s' -> does all p' s' ops r -> does all p s (Seek (place p') :: ops) (ONone :: r)
| d_rewind p s ops r : does all [] all ops r -> does all p s (Rewind :: ops) (ONone :: r).
