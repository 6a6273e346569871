(* Specification for C158: the first lines of a text. *)
From Verif Require Import Base Uname_model.

(* a line may end in a carriage return and a newline as well *)
Inductive line_end : list Z -> list Z -> Prop :=
| le_cr l : line_end (l ++ [13]) l
| le_lf l : (forall k, l <> k ++ [13]) -> line_end l l.
(* ls are the first lines of the text, all of them valid; the last need not have a newline *)
Inductive first_lines (valid : list Z -> bool) : list Z -> list (list Z) -> Prop :=
| fl_none c : first_lines valid c []
| fl_line raw l c ls : ~ In 10 raw -> valid (raw ++ [10]) = true -> line_end raw l -> first_lines valid c ls -> first_lines valid (raw ++ 10 :: c) (l :: ls)
| fl_last l : l <> [] -> ~ In 10 l -> valid l = true -> first_lines valid l [l].
(* the strings in the structure at u; domainname all zeros *)
Definition named (m : mem) (u : Z) (host a b c d : list Z) : Prop :=
  bytes_at m (sysname u) (a ++ [0]) /\ bytes_at m (nodename u) (firstn 64 host ++ [0]) /\ bytes_at m (release u) (b ++ [0]) /\ bytes_at m (machine u) (c ++ [0]) /\
  bytes_at m (version u) (d ++ [0]) /\ bytes_at m (domainname u) (repeat 0 65).
(* what the files say: the host name (of which 64 bytes are kept) and lines for sysname, release, machine and version, short enough *)
Definition known (s : system) (host a b c d : list Z) : Prop :=
  hostname s = Some host /\ (exists text, about s = Some text /\ first_lines (utf8 s) text [a; b; c; d]) /\ len a <= 64 /\ len b <= 64 /\ len c <= 64 /\ len d <= 64.
