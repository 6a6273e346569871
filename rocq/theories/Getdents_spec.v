(* A directory as records with the position after each. *)
From Verif Require Import Base.

Record ent := E { ino : Z; next : Z; kind : Z; ename : list Z }.
Fixpoint le (n : nat) (v : Z) : list Z := match n with O => [] | S n => v mod 256 :: le n (v / 256) end.
(* a record: inode, position after it, length, type, name, terminator *)
Definition encode (e : ent) : list Z :=
  le 8 (ino e) ++ le 8 (next e) ++ le 2 (20 + len (ename e)) ++ [kind e] ++ ename e ++ [0].
Definition good (e : ent) : Prop := 0 <= next e < 9223372036854775808 /\ len (ename e) < 65516.
Definition encoded (es : list ent) : list Z := concat (map encode es).
(* the directory has past before position p and rest after it *)
Definition position (past : list ent) (p : Z) : Prop := match rev past with [] => p = 0 | e :: _ => p = next e end.
