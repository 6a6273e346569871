(* What nl_langinfo returns in the "C" locale (XBD 7.3 and langinfo.h), by the names of the items.  The names of days and months are those of Time_spec. *)
From Coq Require Import String.
From Verif Require Import Base Ctype_spec Writer_model Writer_proofs Time_model Time_spec Langinfo_model.
Open Scope string_scope.
Open Scope list_scope.
Open Scope Z_scope.

Definition nth_name (l : list (list Z)) (n : Z) : list Z := nth (Z.to_nat (n - 1)) l [].
(* item, value; CODESET, which is up to the implementation, and CRNCYSTR apart *)
Inductive c_value : Z -> list Z -> Prop :=
| v_d_t_fmt : c_value D_T_FMT (codes "%a %b %e %H:%M:%S %Y")
| v_d_fmt : c_value D_FMT (codes "%m/%d/%y")
| v_t_fmt : c_value T_FMT (codes "%H:%M:%S")
| v_t_fmt_ampm : c_value T_FMT_AMPM (codes "%I:%M:%S %p")
| v_am : c_value AM_STR (codes "AM")
| v_pm : c_value PM_STR (codes "PM")
| v_day n : 1 <= n <= 7 -> c_value (DAY n) (nth_name weekdays n)
| v_abday n : 1 <= n <= 7 -> c_value (ABDAY n) (abbrev (nth_name weekdays n))
| v_mon n : 1 <= n <= 12 -> c_value (MON n) (nth_name months n)
| v_abmon n : 1 <= n <= 12 -> c_value (ABMON n) (abbrev (nth_name months n))
| v_altmon n : 1 <= n <= 12 -> c_value (ALTMON n) (nth_name months n)
| v_abaltmon n : 1 <= n <= 12 -> c_value (ABALTMON n) (abbrev (nth_name months n))
| v_era : c_value ERA []
| v_era_d : c_value ERA_D_FMT []
| v_era_d_t : c_value ERA_D_T_FMT []
| v_era_t : c_value ERA_T_FMT []
| v_alt : c_value ALT_DIGITS []
| v_radix : c_value RADIXCHAR (codes ".")
| v_thousep : c_value THOUSEP []
| v_yes : c_value YESEXPR (codes "^[yY]")
| v_no : c_value NOEXPR (codes "^[nN]").
(* the item with the format that a conversion stands for *)
Inductive stands_for : Z -> Z -> Prop :=
| f_c : stands_for (ch "c") D_T_FMT
| f_x : stands_for (ch "x") D_FMT
| f_X : stands_for (ch "X") T_FMT
| f_r : stands_for (ch "r") T_FMT_AMPM.
(* strftime prints o, as in C27: with its NUL if there is room *)
Definition prints (mk : tm -> Z * tm) (fmt : list Z) (t : tm) (o : list Z) : Prop :=
  forall m s maxsize, 0 <= maxsize < 2 ^ 64 -> mapped m s maxsize ->
  exists m', strftime mk m s maxsize fmt t = Ok (m', t, if len o <? maxsize then len o else 0) /\
    (forall x, ~ s <= x < s + maxsize -> m' x = m x) /\ (0 < len o < maxsize -> stored m m' s (o ++ [0])).
