(* Specification for C97.  A pattern is a list of components, each matched against the names
   in a directory. *)
From Coq Require Import ZArith List Bool Sorted.
From Verif Require Import Base String_spec Fnmatch_spec.
Import ListNotations.
Open Scope Z_scope.

(* the path of a name in a directory *)
Inductive under : list Z -> list Z -> list Z -> Prop :=
| u_here n : under [] n n
| u_root n : under [47] n (47 :: n)
| u_sub cur n : cur <> [] -> cur <> [47] -> under cur n (cur ++ 47 :: n).
(* p is an existing pathname that the components match, starting in cur; d: a directory *)
Inductive walk (dir : list Z -> list (list Z * bool)) (cm : list Z -> list Z -> Prop) : list Z -> list (list Z) -> list Z -> bool -> Prop :=
| w_last cur c n d p : In (n, d) (dir cur) -> cm c n -> under cur n p -> walk dir cm cur [c] p d
| w_more cur c c2 cs n q p d : In (n, true) (dir cur) -> cm c n -> under cur n q ->
    walk dir cm q (c2 :: cs) p d -> walk dir cm cur (c :: c2 :: cs) p d.
(* the text of a relative and an absolute pattern *)
Fixpoint joined (cs : list (list Z)) : list Z := match cs with [] => [] | [c] => c | c :: r => c ++ 47 :: joined r end.
Definition pattern_text (absolute : bool) (cs : list (list Z)) : list Z := if absolute then 47 :: joined cs else joined cs.
(* a component that is not . or .., without slashes and escapes *)
Definition simple (c : list Z) : Prop :=
  c <> [] /\ c <> [46] /\ c <> [46; 46] /\ ~ In 47 c /\ ~ In 92 c.
Definition ordered (l : list (list Z)) : Prop := Sorted (fun p q => lex p q <> Gt) l.
(* l is the set of matching pathnames, directories marked if asked *)
Definition answer (dir : list Z -> list (list Z * bool)) (cm : list Z -> list Z -> Prop) (mark : bool)
    (cur : list Z) (cs : list (list Z)) (l : list (list Z)) : Prop :=
  NoDup l /\ forall p, In p l <-> exists q d, walk dir cm cur cs q d /\ p = q ++ (if mark && d then [47] else []).

(* what a component means: a pattern in the sense of fnmatch; a period at the start of a name
   is matched only by a period, unless GLOB_PERIOD is given *)
Definition means (period_ok : bool) (c n : list Z) : Prop :=
  exists es, Forall elem_ok es /\ Forall no_escape es /\ text es = c /\ pmatch false (negb period_ok) true es n.
(* a component that the theorem covers *)
Definition comp_ok (c : list Z) : Prop := simple c /\ exists es, Forall elem_ok es /\ Forall no_escape es /\ text es = c.
(* the names of a file system: not empty, distinct, without slashes; here also without
   leading period, and if GLOB_PERIOD is given without any *)
Definition name_ok (period : bool) (n : list Z) : Prop := Forall is_char n /\ hd 0 n <> 46 /\ (period = true -> ~ In 46 n).
Definition good (period : bool) (dir : list Z -> list (list Z * bool)) : Prop :=
  forall cur, NoDup (map fst (dir cur)) /\ forall n d, In (n, d) (dir cur) -> n <> [] /\ ~ In 47 n /\ name_ok period n.
