(* Locales: what POSIX has in the categories and in locale C, and locale definition files. *)
From Coq Require Import String.
From Verif Require Import Base Ctype_spec Locale_model.
Open Scope string_scope.
Open Scope list_scope.
Open Scope Z_scope.

Definition numeric (f : field) : bool := match f with decimal_point | thousands_sep | grouping => true | _ => false end.
(* the fields of a category: 3 LC_MONETARY, 4 LC_NUMERIC, 6 LC_ALL; the other categories have none in lconv *)
Definition of_category (c : Z) (f : field) : bool := if c =? 6 then true else if c =? 4 then numeric f else if c =? 3 then negb (numeric f) else false.
(* C23 7.11.2.1: the values in the "C" locale *)
Definition c_locale (f : field) : list Z :=
  match f with
  | decimal_point => [46]
  | thousands_sep | grouping | int_curr_symbol | currency_symbol | mon_decimal_point | mon_thousands_sep | mon_grouping | positive_sign | negative_sign => []
  | _ => [127]
  end.
(* a definition file: entries "keyword value" with no blank in the value, which may go on on further lines after backslashes, entries with other keywords, and
   lines that are empty or comments *)
Inductive item := Entry (f : field) (parts : list text) (v : text) | Other (k : text) (parts : list text) (v : text) | Note (l : text).
Definition blank (l : text) : Prop := Forall (fun c => c = 32 \/ c = 9) l.
Definition word (v : text) : Prop := Forall (fun c => ~ In c [32; 9; 10; 12; 13]) v.
Definition value_ok (parts : list text) (v : text) : Prop := v <> [] /\ word v /\ last v 0 <> 92 /\ Forall word parts.
Definition item_ok (i : item) : Prop :=
  match i with
  | Entry _ parts v => value_ok parts v
  | Other k parts v => value_ok parts v /\ k <> [] /\ word k /\ hd 0 k <> 35 /\ forall f, k <> codes (key f)
  | Note l => blank l \/ exists c, l = 35 :: c
  end.
(* the lines of a keyword and value *)
Definition entry (k : text) (parts : list text) (v : text) : list text :=
  match parts with
  | [] => [k ++ [32] ++ v]
  | p :: ps => (k ++ [32] ++ p ++ [92]) :: map (fun p => p ++ [92]) ps ++ [v]
  end.
Definition lines (i : item) : list text := match i with Entry f parts v => entry (codes (key f)) parts v | Other k parts v => entry k parts v | Note l => [l] end.
Fixpoint last_value (f : field) (is : list item) (acc : option text) : option text :=
  match is with
  | [] => acc
  | Entry g parts v :: is => last_value f is (if field_eq_dec f g then Some (concat parts ++ v) else acc)
  | Other _ _ _ :: is | Note _ :: is => last_value f is acc
  end.
Definition wf (w : world) : Prop := 0 < next w /\ (forall h, next w <= h -> heap w h = None) /\ (forall h, h <= 0 -> heap w h = None) /\
  match global w with Some g => len (fst g) = 7 | None => True end.
