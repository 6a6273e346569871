(* File times as POSIX has them. *)
From Verif Require Import Base Filetimes_model.
Open Scope Z_scope.

(* a stamp is a time, the word for the current time, or the word for no change *)
Definition valid (t : stamp) : Prop := nsec t = UTIME_NOW \/ nsec t = UTIME_OMIT \/ 0 <= nsec t <= 999999999.
Definition wanted (now old t : stamp) : stamp := if Z.eq_dec (nsec t) UTIME_NOW then now else if Z.eq_dec (nsec t) UTIME_OMIT then old else t.
(* the two times of a file are as asked for, nothing else has changed and no descriptor has been left open *)
Definition touched (s : system) (w w' : world) (f : Z) (times : option (stamp * stamp)) : Prop :=
  match times with
  | None => atime w' f = now s /\ mtime w' f = now s
  | Some (a, m) => atime w' f = wanted (now s) (atime w f) a /\ mtime w' f = wanted (now s) (mtime w f) m
  end /\ (forall g, g <> f -> atime w' g = atime w g /\ mtime w' g = mtime w g) /\ forall fd, fds w' fd = fds w fd.
Definition same (w w' : world) : Prop := (forall g, atime w' g = atime w g /\ mtime w' g = mtime w g) /\ forall fd, fds w' fd = fds w fd.
Definition fails (w : world) (r : world * Z * option Z) (e : Z) : Prop := exists w', r = (w', -1, Some e) /\ same w w'.
(* what a call for the file f does *)
Definition outcome (s : system) (w : world) (f : Z) (times : option (stamp * stamp)) (r : world * Z * option Z) : Prop :=
  match refuses s f with
  | Some e => fails w r e
  | None => exists w', r = (w', 0, None) /\ touched s w w' f times
  end.
Definition on_file (s : system) (w : world) (found : Z + Z) (times : option (stamp * stamp)) (r : world * Z * option Z) : Prop :=
  match found with inl f => outcome s w f times r | inr e => fails w r e end.
Definition valid_times (times : option (stamp * stamp)) : Prop := match times with None => True | Some (a, m) => valid a /\ valid m end.
Definition int (n : Z) : Prop := -2147483648 <= n <= 2147483647.
(* new descriptors were free *)
Definition picks (s : system) (w : world) : Prop := 0 <= pick s (fds w) /\ fds w (pick s (fds w)) = None.
