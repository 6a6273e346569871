(* Memory handed out at the break: from base on, up to a limit that is never reached. *)
From Verif Require Import Base.
Open Scope Z_scope.

Fixpoint grants (limit cur : Z) (incrs : list Z) : list (option Z) :=
  match incrs with
  | [] => []
  | i :: r => if (i =? 0) || (cur + i <? limit) then Some cur :: grants limit (cur + i) r else None :: grants limit cur r
  end.
