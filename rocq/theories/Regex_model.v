(* regex.h: /repo/src/header/regex/mod.rs 14-178.  The crate posix-regex (compiling a pattern, finding the matches of a
   compiled one) is a parameter, as are the addresses of pmatch: an array of pairs by index. *)
From Coq Require Import String.
From Verif Require Import Base Sort_model Ctype_spec.
Open Scope string_scope.
Open Scope list_scope.
Open Scope Z_scope.

Inductive compile_error := EmptyRepetition | IntegerOverflow | IllegalRange | UnclosedRepetition | LeadingRepetition | UnknownCollation | UnknownClass | OtherError.
(* compile pattern extended; matches tree icase newline no_start no_end input: the groups of the first match *)
Record engine := E { tree : Type; compile : list Z -> bool -> tree + compile_error; groups : tree -> Z;
  matches : tree -> bool -> bool -> bool -> bool -> list Z -> option (list (option (Z * Z))) }.

Definition REG_EXTENDED : Z := 1.
Definition REG_ICASE : Z := 2.
Definition REG_NOSUB : Z := 4.
Definition REG_NEWLINE : Z := 8.
Definition REG_NOTBOL : Z := 16.
Definition REG_NOTEOL : Z := 32.
Definition has (flags f : Z) : bool := Z.land flags f =? f.
Definition code (e : compile_error) : Z :=
  match e with
  | EmptyRepetition | IntegerOverflow | IllegalRange => 11
  | UnclosedRepetition => 10
  | LeadingRepetition => 14
  | UnknownCollation => 3
  | UnknownClass => 4
  | OtherError => 2
  end.
(* 21-26 *)
Record regex_t (e : engine) := R { ptr : tree e; cflags : Z; re_nsub : Z }.
Arguments R {e}. Arguments ptr {e}. Arguments cflags {e}. Arguments re_nsub {e}.
(* 55-85; the regex_t stored, or the error returned *)
Definition regcomp (e : engine) (pat : list Z) (cflags : Z) : regex_t e + Z :=
  match compile e pat (has cflags REG_EXTENDED) with
  | inl t => inl (R t cflags (groups e t))
  | inr err => inr (code err)
  end.
(* rm_so and rm_eo are size_t *)
Definition NONE : Z := 2 ^ 64 - 1.
Definition array := Z -> Z * Z.
(* for i in 0..nmatch *)
Fixpoint fill (pm : array) (i : Z) (n : nat) (first : list (option (Z * Z))) : array :=
  match n with
  | O => pm
  | S n => fill (fun j => if j =? i then match nth (Z.to_nat i) first None with Some p => p | None => (NONE, NONE) end else pm j) (i + 1) n first
  end.
(* 95-140; null: pmatch is null *)
Definition regexec {e : engine} (r : regex_t e) (input : list Z) (nmatch : Z) (null : bool) (pm : array) (eflags : Z) : array * Z :=
  let flags := Z.lor (cflags r) eflags in
  let found := matches e (ptr r) (has flags REG_ICASE) (has flags REG_NEWLINE) (has flags REG_NOTBOL) (has flags REG_NOTEOL) input in
  match found with
  | Some first => (if negb (has eflags REG_NOSUB) && negb null && (0 <? nmatch) then fill pm 0 (Z.to_nat nmatch) first else pm, 0)
  | None => (pm, 1)
  end.
(* 145-178 *)
Definition message (code : Z) : list Z :=
  codes match code with
        | 0 => "No error"
        | 1 => "No match"
        | 2 => "Invalid regexp"
        | 3 => "Unknown collating element"
        | 4 => "Unknown character class name"
        | 5 => "Trailing backslash"
        | 6 => "Invalid back reference"
        | 7 => "Missing ']'"
        | 8 => "Unsupported operation"
        | 9 => "Missing ')'"
        | 10 => "Missing '}'"
        | 11 => "Invalid contents of {}"
        | 12 => "Invalid character range"
        | 13 => "Out of memory"
        | 14 => "Repetition not preceded by valid expression"
        | _ => "Unknown error"
        end ++ [0].
Definition regerror (m : mem) (code out max : Z) : res (mem * Z) :=
  let string := message code in
  m <- st_bytes m out (firstn (Z.to_nat (Z.min (len string) max)) string) ;;
  Ok (m, len string).
