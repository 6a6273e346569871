(* Specification for C159: the directory a process is in. *)
From Verif Require Import Base Cwd_model.

(* its object *)
Definition here (s : state) : option obj := match cwd s with Some (_, d) => table s d | None => None end.
(* the object that a name stands for, seen from the working directory *)
Inductive resolves (k : outside) (s : state) : text -> obj -> Prop :=
| res_absolute path p o : parse k path = Some (Absolute p) -> open k None (canon k p) = inl o -> resolves k s path o
| res_relative path p c o : parse k path = Some (Relative p) -> here s = Some c -> open k (Some c) p = inl o -> resolves k s path o.
(* the name that getcwd will return *)
Inductive called (k : outside) (s : state) : text -> text -> Prop :=
| call_absolute path p : parse k path = Some (Absolute p) -> called k s path (canon k p)
| call_relative path p name d : parse k path = Some (Relative p) -> cwd s = Some (name, d) -> called k s path (canon_as_cwd k name p).
(* descriptors from next on are free; the working directory has one, which is not one of the program's *)
Definition wf (s : state) : Prop := (forall d, next s <= d -> table s d = None) /\ forall n d, cwd s = Some (n, d) -> table s d <> None.
Definition is_cwd (s : state) (d : Z) : Prop := exists n, cwd s = Some (n, d).
(* the program's descriptors are as before, and no others are open but the one of the working directory *)
Definition same_files (s s' : state) : Prop := forall d, ~ is_cwd s d -> ~ is_cwd s' d -> table s' d = table s d.
Definition kept (s s' : state) : Prop := cwd s' = cwd s /\ forall d, table s' d = table s d.
Definition only_own (s s' : state) : Prop := forall d, is_cwd s d -> ~ is_cwd s' d -> table s' d = None.
Inductive call := Chdir (p : text) | Fchdir (fd : Z).
Definition run1 (k : outside) (s : state) (c : call) : state * option Z := match c with Chdir p => chdir k s p | Fchdir fd => fchdir k s fd end.
(* calls one after the other, the world outside changing in between *)
Fixpoint run (s : state) (l : list (outside * call)) : state := match l with [] => s | (k, c) :: l => run (fst (run1 k s c)) l end.
