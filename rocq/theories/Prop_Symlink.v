(* Property C129: opening follows symbolic links. *)
From Verif Require Import Base Symlink_spec Symlink_model Symlink_proofs.

(* C129, open: through at most SYMLOOP_MAX links the file at their end is opened, or its error
   given, each link's target being seen from the directory the link is in.
   Missing: a first link whose target is relative and which is not in the current directory. *)
Theorem C129_open_partial t cwd p n q a : steps p <> [] -> links t (from cwd p) n q -> final t q a -> (n <= 64)%nat ->
  first_ok t cwd (from cwd p) -> open t cwd p = a.
Proof. exact (open_ok t cwd p n q a). Qed.
Print Assumptions C129_open_partial.
(* in /d, b -> ../d/a -> /d/l -> f *)
Example C129_open_case : open eg_tree [[100]] (PN false [Name [98]]) = Opened 7.
Proof.
  apply (C129_open_partial _ _ _ 3 [[102]; [100]]); [discriminate| |reflexivity|lia|right; reflexivity].
  apply (links_S _ _ (PN false [Up; Name [100]; Name [97]])); [reflexivity|discriminate|].
  apply (links_S _ _ (PN true [Name [100]; Name [108]])); [reflexivity|discriminate|].
  apply (links_S _ _ (PN false [Name [102]])); [reflexivity|discriminate|]. constructor.
Qed.

(* C129, openat: likewise from the directory given.
   Missing: a first link whose target is relative and which is not in that directory. *)
Theorem C129_openat_partial t cwd dir p n q a : steps p <> [] -> links t (from dir p) n q -> final t q a -> (n <= 64)%nat ->
  first_ok t (if absolute p then cwd else dir) (from dir p) -> openat t cwd dir p = a.
Proof. exact (openat_ok t cwd dir p n q a). Qed.
Print Assumptions C129_openat_partial.
Example C129_openat_case : openat eg_tree [] [[100]] (PN false [Name [97]]) = Opened 7.
Proof.
  apply (C129_openat_partial _ _ _ _ 2 [[102]; [100]]); [discriminate| |reflexivity|lia|left; reflexivity].
  apply (links_S _ _ (PN true [Name [100]; Name [108]])); [reflexivity|discriminate|].
  apply (links_S _ _ (PN false [Name [102]])); [reflexivity|discriminate|]. constructor.
Qed.

(* C129, loops: more than SYMLOOP_MAX links give ELOOP *)
Theorem C129_loop_partial t cwd p q : steps p <> [] -> links t (from cwd p) 65 q -> first_ok t cwd (from cwd p) -> open t cwd p = Error 40.
Proof. exact (open_loop t cwd p q). Qed.
Print Assumptions C129_loop_partial.
Example C129_loop_case : open eg_tree [[100]] (PN true [Name [100]; Name [99]]) = Error 40.
Proof. apply (C129_loop_partial _ _ _ [[99]; [100]]); [discriminate|apply eg_cycle|right; reflexivity]. Qed.

(* C129, relative targets: /d/l -> f opened from / looks for /f, not /d/f *)
Theorem C129_relative_refuted : exists t cwd p q fd, steps p <> [] /\ links t (from cwd p) 1 q /\ final t q (Opened fd)
  /\ open t cwd p = Error 2 /\ openat t cwd cwd p = Error 2.
Proof.
  exists eg_tree, [], (PN false [Name [100]; Name [108]]), [[102]; [100]], 7. split; [discriminate|]. split.
  - apply (links_S _ _ (PN false [Name [102]])); [reflexivity|discriminate|]. constructor.
  - split; [reflexivity|]. split; reflexivity.
Qed.
Print Assumptions C129_relative_refuted.
