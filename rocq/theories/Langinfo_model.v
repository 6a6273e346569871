(* langinfo.h: nl_langinfo and nl_langinfo_l.  Results are the strings pointed to, without the NUL; that callers must not write to them is not modelled. *)
From Coq Require Import String.
From Verif Require Import Base Ctype_spec Time_model.
Open Scope string_scope.
Open Scope list_scope.
Open Scope Z_scope.

(* langinfo/mod.rs 19-103: STRING_TABLE; its first 45 entries, with which strftime works, are in Time_model *)
Definition STRING_TABLE : list (list Z) :=
  string_table ++ map codes [""; ""; ""; ""; ""; "."; ""; "^[yY]"; "^[nN]"; "yes"; "no"; ".";
   "January"; "February"; "March"; "April"; "May"; "June"; "July"; "August"; "September"; "October"; "November"; "December";
   "Jan"; "Feb"; "Mar"; "Apr"; "May"; "Jun"; "Jul"; "Aug"; "Sep"; "Oct"; "Nov"; "Dec"].

(* langinfo/mod.rs 105-193: the constants; DAY_n is [DAY n], likewise the others with a number *)
Definition CODESET : Z := 0.
Definition D_T_FMT : Z := 1.
Definition D_FMT : Z := 2.
Definition T_FMT : Z := 3.
Definition T_FMT_AMPM : Z := 4.
Definition AM_STR : Z := 5.
Definition PM_STR : Z := 6.
Definition DAY (n : Z) : Z := 6 + n.
Definition ABDAY (n : Z) : Z := 13 + n.
Definition MON (n : Z) : Z := 20 + n.
Definition ABMON (n : Z) : Z := 32 + n.
Definition ERA : Z := 45.
Definition ERA_D_FMT : Z := 46.
Definition ERA_D_T_FMT : Z := 47.
Definition ERA_T_FMT : Z := 48.
Definition ALT_DIGITS : Z := 49.
Definition RADIXCHAR : Z := 50.
Definition THOUSEP : Z := 51.
Definition YESEXPR : Z := 52.
Definition NOEXPR : Z := 53.
Definition CRNCYSTR : Z := 56.
Definition ALTMON (n : Z) : Z := 56 + n.
Definition ABALTMON (n : Z) : Z := 68 + n.

(* langinfo/mod.rs 203-214; item is a usize, and the [] of nth is the index out of bounds that cannot be *)
Definition nl_langinfo (item : Z) : list Z :=
  if item <? len STRING_TABLE then nth (Z.to_nat item) STRING_TABLE [] else codes "".
(* langinfo/mod.rs 225-227 *)
Definition nl_langinfo_l (item : Z) (loc : Z) : list Z := nl_langinfo item.
