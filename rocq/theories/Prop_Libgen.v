(* C49: basename and dirname. *)
From Coq Require Import String ZArith List Bool Lia.
From Verif Require Import Base Ctype_spec Libgen_model Libgen_spec Libgen_proofs.
Import ListNotations.
Open Scope string_scope.
Open Scope list_scope.
Open Scope Z_scope.

(* Every path has a base name and a directory name, and the two functions return them;
   at most one NUL is stored, inside the path. *)
Theorem C49_basename : forall fuel m p s, p <> NULL -> cstr m p s -> (length s < fuel)%nat ->
  (exists x, basename_of s x) /\
  forall x, basename_of s x ->
    exists m' r, basename fuel m p = Ok (m', r) /\ result_is m' r x /\ cut_inside m m' p (len s + 1).
Proof. intros. split; [apply basename_total|]. intros. apply basename_ok; assumption. Qed.
Print Assumptions C49_basename.

Theorem C49_dirname : forall fuel m p s, p <> NULL -> cstr m p s -> (length s < fuel)%nat ->
  (exists x, dirname_of s x) /\
  forall x, dirname_of s x ->
    exists m' r, dirname fuel m p = Ok (m', r) /\ result_is m' r x /\ cut_inside m m' p (len s + 1).
Proof. intros. split; [apply dirname_total|]. intros. apply dirname_ok; assumption. Qed.
Print Assumptions C49_dirname.

Theorem C49_null : forall fuel m,
  basename fuel m NULL = Ok (m, Lit [46]) /\ dirname fuel m NULL = Ok (m, Lit [46]).
Proof. intros. split; reflexivity. Qed.
Print Assumptions C49_null.

Definition path : mem := mem_of 1000 (codes "//usr///lib//" ++ [0]).
Example C49_case :
  cstr path 1000 (codes "//usr///lib//") /\
  basename_of (codes "//usr///lib//") (codes "lib") /\ dirname_of (codes "//usr///lib//") (codes "//usr") /\
  dirname_of (codes "//usr") (codes "/") /\ dirname_of (codes "usr/") (codes ".") /\
  (exists m, dirname 20 path 1000 = Ok (m, Ptr 1000) /\ m 1005 = Some 0) /\
  (exists m, basename 20 path 1000 = Ok (m, Ptr 1008) /\ m 1011 = Some 0).
Proof.
  repeat split.
  - repeat constructor.
  - apply b_base with (pre := codes "//usr///") (tail := codes "//").
    repeat split; [discriminate|cbn; lia|repeat constructor|right; exists (codes "//usr//"); reflexivity].
  - apply d_dir with (mid := codes "///") (base := codes "lib") (tail := codes "//"); [|discriminate|cbn; lia|discriminate|repeat constructor].
    repeat split; [discriminate|cbn; lia|repeat constructor|right; exists (codes "//usr//"); reflexivity].
  - apply d_top with (pre := codes "//") (base := codes "usr") (tail := []); [|discriminate|repeat constructor].
    repeat split; [discriminate|cbn; lia|constructor|right; exists (codes "/"); reflexivity].
  - apply d_none with (base := codes "usr") (tail := codes "/").
    repeat split; [discriminate|cbn; lia|repeat constructor|left; reflexivity].
  - eexists. vm_compute. split; reflexivity.
  - eexists. vm_compute. split; reflexivity.
Qed.
