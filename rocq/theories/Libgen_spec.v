(* Specification for C49: the parts of a path name. *)
From Verif Require Import Base Libgen_model.

Definition slashes (s : list Z) : Prop := Forall (eq 47) s.
(* The path is [pre ++ base ++ tail]: base is the last component, tail the slashes after
   it, pre what comes before it. *)
Definition split_path (s pre base tail : list Z) : Prop :=
  s = pre ++ base ++ tail /\ base <> [] /\ ~ In 47 base /\ slashes tail /\ (pre = [] \/ exists q, pre = q ++ [47]).

Inductive basename_of : list Z -> list Z -> Prop :=
| b_empty : basename_of [] [46]
| b_root s : s <> [] -> slashes s -> basename_of s [47]
| b_base s pre base tail : split_path s pre base tail -> basename_of s base.
Inductive dirname_of : list Z -> list Z -> Prop :=
| d_empty : dirname_of [] [46]
| d_root s : s <> [] -> slashes s -> dirname_of s [47]
| d_none s base tail : split_path s [] base tail -> dirname_of s [46]
| d_top s pre base tail : split_path s pre base tail -> pre <> [] -> slashes pre -> dirname_of s [47]
| d_dir s dir mid base tail : split_path s (dir ++ mid) base tail -> dir <> [] -> last dir 0 <> 47 -> mid <> [] -> slashes mid ->
    dirname_of s dir.

(* The result of a call is the string x. *)
Definition result_is (m : mem) (r : rptr) (x : list Z) : Prop :=
  match r with Lit l => l = x | Ptr p => cstr m p x end.
(* The only change to memory is a NUL inside the n bytes at p. *)
Definition cut_inside (m m' : mem) (p n : Z) : Prop :=
  m' = m \/ exists i, 0 <= i < n /\ stored m m' (p + i) [0].
