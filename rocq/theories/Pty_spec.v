(* What a user of pseudo-terminals relies on (POSIX.1-2024 ptsname; openpty(3)). *)
From Coq Require Import String.
From Verif Require Import Base Numeral Ctype_spec Popen_model Popen_spec.
Open Scope string_scope. Open Scope list_scope. Open Scope Z_scope.

(* the name of the terminal n *)
Definition terminal (n : Z) (text : list Z) : Prop := exists ds, numeral 10 ds n /\ text = codes "/scheme/pty/" ++ map (Z.add 48) ds.
Definition same (t t' : tab) : Prop := forall k, t' k = t k.
(* t with fd being the file f *)
Definition with_file (t : tab) (fd f : Z) (t' : tab) : Prop := t' fd = Some (f, false) /\ forall k, k <> fd -> t' k = t k.
(* the three standard descriptors are the terminal, the others as in t *)
Definition on_terminal (t : tab) (f : Z) (t' : tab) : Prop :=
  t' 0 = Some (f, false) /\ t' 1 = Some (f, false) /\ t' 2 = Some (f, false) /\ forall k, k <> 0 -> k <> 1 -> k <> 2 -> t' k = t k.
