(** Specification for C14: the POSIX-locale character classes, written out as
    strings, and lexicographic order after case folding. *)
From Verif Require Import Base String_spec.
From Coq Require Import String Ascii.
Open Scope string_scope.

Fixpoint codes (s : string) : list Z :=
  match s with
  | EmptyString => []
  | String a s' => Z.of_nat (nat_of_ascii a) :: codes s'
  end.

Definition uppers := codes "ABCDEFGHIJKLMNOPQRSTUVWXYZ".
Definition lowers := codes "abcdefghijklmnopqrstuvwxyz".
Definition digits := codes "0123456789".
Definition xdigits := codes "0123456789ABCDEFabcdef".
Definition puncts := codes "!""#$%&'()*+,-./:;<=>?@[\]^_`{|}~".
(** HT LF VT FF CR SPACE *)
Definition spaces : list Z := [9; 10; 11; 12; 13; 32].
Definition blanks : list Z := [9; 32].

(** [f] accepts exactly the integers satisfying [P]. *)
Definition accepts (f : Z -> Z) (P : Z -> Prop) : Prop := forall c, f c <> 0 <-> P c.

(** The lower-case counterpart: the letter at the same place in the other list. *)
Definition case_pair (u l : Z) : Prop :=
  exists i, nth_error uppers i = Some u /\ nth_error lowers i = Some l.
