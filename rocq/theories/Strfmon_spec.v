(* What a user of strfmon relies on (POSIX.1-2024), with the locale of the code: the symbol "$" or "USD ", a comma every
   three digits from the right, a point, two fraction digits, "-" before a negative amount. *)
From Coq Require Import ZArith String List Bool.
From Verif Require Import Base Numeral Ctype_spec.
Import ListNotations.
Open Scope string_scope.
Open Scope list_scope.
Open Scope Z_scope.

(* the numeral of n, as text *)
Definition numeral_text (t : list Z) (n : Z) : Prop := exists ds, numeral 10 ds n /\ t = map (fun d => 48 + d) ds.

(* l with a comma before every third digit counted from the right *)
Inductive grouped : list Z -> list Z -> Prop :=
| g_small l : (1 <= length l <= 3)%nat -> grouped l l
| g_more l g a b c : grouped l g -> grouped (l ++ [a; b; c]) (g ++ [44; a; b; c]).

(* the text of an amount with integer part i and fraction fr in d digits *)
Definition money (neg nosym int_sym : bool) (i fr d : Z) (t : list Z) : Prop :=
  exists ti g tf, numeral_text ti i /\ grouped ti g /\
    (if 0 <? d then exists n z, numeral_text n fr /\ tf = codes "." ++ repeat 48 z ++ n /\ Z.of_nat z + len n = d else tf = []) /\
    t = (if neg then codes "-" else []) ++ (if nosym then [] else if int_sym then codes "USD " else codes "$") ++ g ++ tf.

(* t in a field of w characters, right-justified *)
Definition in_field (w : option Z) (t o : list Z) : Prop :=
  match w with
  | Some w => (w <= len t /\ o = t) \/ (exists k, Z.of_nat k + len t = w /\ o = repeat 32 k ++ t)
  | None => o = t
  end.

(* the parts of a format: a character, %%, a conversion %[+!][width][.precision]i or n *)
Inductive item := Char (c : Z) | Percent | Conv (fl w p : list Z) (c : Z).
Definition text_of (i : item) : list Z :=
  match i with
  | Char c => [c]
  | Percent => codes "%%"
  | Conv fl w p c => codes "%" ++ fl ++ w ++ p ++ [c]
  end.
(* digits, and the number they write *)
Definition number (l : list Z) (n : Z) : Prop :=
  l <> [] /\ Forall (fun c => 48 <= c <= 57) l /\ dvalue 10 (map (fun c => c - 48) l) = n /\ n < 2 ^ 64.
Definition opt_number (l : list Z) (n : option Z) : Prop :=
  match n with Some n => number l n | None => l = [] end.
