(* Patterns of POSIX XCU 2.14 and what they match. *)
From Verif Require Import Base.

Inductive sitem := SOne (c : Z) | SRange (a b : Z).
Inductive elem :=
| ELit (c : Z)                              (* an ordinary character *)
| EEsc (c : Z)                              (* backslash and a character *)
| EAny | EStar
| ESet (neg : bool) (l : list sitem).       (* a bracket expression *)

(* The text of a pattern. *)
Definition item_text (i : sitem) : list Z := match i with SOne c => [c] | SRange a b => [a; 45; b] end.
Definition elem_text (e : elem) : list Z :=
  match e with
  | ELit c => [c]
  | EEsc c => [92; c]
  | EAny => [63]
  | EStar => [42]
  | ESet neg l => 91 :: (if neg then [33] else []) ++ concat (map item_text l) ++ [93]
  end.
Definition text (es : list elem) : list Z := concat (map elem_text es).

Definition in_item (c : Z) (i : sitem) : Prop :=
  match i with SOne d => c = d | SRange a b => a <= c <= b end.
Definition in_set (c : Z) (neg : bool) (l : list sitem) : Prop :=
  if neg then ~ Exists (in_item c) l else Exists (in_item c) l.

(* What a wildcard may match at a position; lead: first character, or after a slash. *)
Definition wild (pathname period lead : bool) (c : Z) : Prop :=
  (pathname = true -> c <> 47) /\ (period = true -> lead = true -> c <> 46).
Definition next (pathname : bool) (c : Z) : bool := pathname && (c =? 47).

Inductive pmatch (pathname period : bool) : bool -> list elem -> list Z -> Prop :=
| pm_nil lead : pmatch pathname period lead [] []
| pm_lit lead c es s : pmatch pathname period (next pathname c) es s -> pmatch pathname period lead (ELit c :: es) (c :: s)
| pm_esc lead c es s : pmatch pathname period (next pathname c) es s -> pmatch pathname period lead (EEsc c :: es) (c :: s)
| pm_any lead c es s : wild pathname period lead c -> pmatch pathname period (next pathname c) es s ->
    pmatch pathname period lead (EAny :: es) (c :: s)
| pm_set lead neg l c es s : wild pathname period lead c -> in_set c neg l -> pmatch pathname period (next pathname c) es s ->
    pmatch pathname period lead (ESet neg l :: es) (c :: s)
| pm_star0 lead es s : pmatch pathname period lead es s -> pmatch pathname period lead (EStar :: es) s
| pm_star lead c es s : wild pathname period lead c -> pmatch pathname period (next pathname c) (EStar :: es) s ->
    pmatch pathname period lead (EStar :: es) (c :: s).

(* Characters that stand for themselves in a pattern and in a bracket expression. *)
Definition plain (c : Z) : Prop := 0 < c < 256 /\ c <> 42 /\ c <> 63 /\ c <> 91 /\ c <> 92.
Definition plain_in (c : Z) : Prop := 0 < c < 256 /\ c <> 33 /\ c <> 45 /\ c <> 91 /\ c <> 92 /\ c <> 93 /\ c <> 94.
Definition item_ok (i : sitem) : Prop :=
  match i with SOne c => plain_in c | SRange a b => plain_in a /\ plain_in b /\ a <= b end.
(* Patterns whose text can be read in one way only.  [esc]: backslash escapes. *)
Definition elem_ok (e : elem) : Prop :=
  match e with
  | ELit c => plain c
  | EEsc c => 0 < c < 256
  | EAny | EStar => True
  | ESet _ l => l <> [] /\ Forall item_ok l
  end.
Definition no_escape (e : elem) : Prop := match e with EEsc _ => False | _ => True end.
Definition no_neg (e : elem) : Prop := match e with ESet true _ => False | _ => True end.
(* Patterns without "*". *)
Definition no_star (e : elem) : Prop := match e with EStar => False | _ => True end.
