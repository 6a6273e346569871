(* Specification for C86: the ELF gABI on DT_RELR.  An even entry is the offset of a word;
   bit j+1 of an odd entry stands for the word j words after where the entry before ended;
   an odd entry covers 63 words. *)
From Coq Require Import ZArith List Bool.
From Verif Require Import Base.
Import ListNotations.
Open Scope Z_scope.

(* The offsets, relative to the base, that a list of entries stands for. *)
Fixpoint decode (where_ : Z) (l : list Z) : list Z :=
  match l with
  | [] => []
  | e :: l =>
      if Z.testbit e 0 then
        map (fun j => where_ + 8 * Z.of_nat j) (filter (fun j => Z.testbit e (Z.of_nat j + 1)) (seq 0 63)) ++ decode (where_ + 8 * 63) l
      else e :: decode (e + 8) l
  end.
Definition is_word (x : Z) : Prop := 0 <= x < 2 ^ 64.
Definition starts_even (l : list Z) : Prop := match l with [] => True | e :: _ => Z.testbit e 0 = false end.
