(* POSIX, Base Definitions 8.3: std offset[dst[offset][,rule]] *)
From Coq Require Import String.
From Verif Require Import Base Ctype_spec Numeral.
Open Scope string_scope.
Open Scope list_scope.
Open Scope Z_scope.

Definition letter (c : Z) : Prop := 65 <= c <= 90 \/ 97 <= c <= 122.
(** three or more letters (the form without < and >) *)
Definition zone_name (n : list Z) : Prop := Forall letter n /\ 3 <= len n.
(** [+|-]hh[:mm[:ss]]: the text, and the seconds to be added to local time to get UTC *)
Inductive sign := None_ | Plus | Minus.
Definition sign_text (s : sign) : list Z := match s with None_ => [] | Plus => [43] | Minus => [45] end.
Definition two (v : Z) : list Z := [48 + v / 10; 48 + v mod 10].
(** an hour may be written with one digit *)
Definition hour_text (h : Z) (t : list Z) : Prop := t = two h \/ h < 10 /\ t = [48 + h].
Inductive minsec := NoMin | MinOnly (m : Z) | MinSec (m s : Z).
Definition minsec_ok (x : minsec) : Prop :=
  match x with NoMin => True | MinOnly m => 0 <= m <= 59 | MinSec m s => 0 <= m <= 59 /\ 0 <= s <= 59 end.
Definition minsec_text (x : minsec) : list Z :=
  match x with NoMin => [] | MinOnly m => [58] ++ two m | MinSec m s => [58] ++ two m ++ [58] ++ two s end.
Definition minsec_value (x : minsec) : Z :=
  match x with NoMin => 0 | MinOnly m => m * 60 | MinSec m s => m * 60 + s end.
Inductive offset : sign -> Z -> list Z -> Z -> Prop :=
| Offset : forall sg h ht ms, 0 <= h <= 24 -> hour_text h ht -> minsec_ok ms -> h * 3600 + minsec_value ms <= 86400 ->
  offset sg h (sign_text sg ++ ht ++ minsec_text ms) ((match sg with Minus => -1 | _ => 1 end) * (h * 3600 + minsec_value ms)).
(** the part after the first offset: the name of daylight saving time, if any, and the text *)
Inductive rest : option (list Z) -> list Z -> Prop :=
| RNone : rest None []
| RDst : forall n o r, zone_name n -> (o = [] \/ exists sg h v, offset sg h o v) -> (r = [] \/ exists q, r = 44 :: q) ->
  rest (Some n) (n ++ o ++ r).
