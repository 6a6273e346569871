(* What a user of fmtmsg relies on (POSIX.1-2024, fmtmsg and the variable MSGVERB). *)
From Coq Require Import ZArith String List Bool.
From Verif Require Import Base Ctype_spec.
Import ListNotations.
Open Scope string_scope.
Open Scope list_scope.
Open Scope Z_scope.

Definition keywords : list (list Z) := [codes "label"; codes "severity"; codes "text"; codes "action"; codes "tag"].
(* keywords joined by colons *)
Fixpoint joined (ks : list (list Z)) : list Z :=
  match ks with
  | [] => []
  | [k] => k
  | k :: ks => k ++ codes ":" ++ joined ks
  end.
(* a value in the format of MSGVERB: one or more keywords, joined by colons *)
Definition a_list (v : list Z) (ks : list (list Z)) : Prop := ks <> [] /\ Forall (fun k => In k keywords) ks /\ v = joined ks.
(* component k is selected: named in MSGVERB, or MSGVERB unset or not in the format *)
Definition selected (msgverb : option (list Z)) (k : list Z) : Prop :=
  match msgverb with
  | Some v => forall ks, a_list v ks -> In k ks
  | None => True
  end.

(* the message with the components that sel holds of *)
Definition severity_text (s : Z) : list Z :=
  match s with 1 => codes "HALT: " | 2 => codes "ERROR: " | 3 => codes "WARNING: " | 4 => codes "INFO: " | _ => [] end.
Definition the_message (sel : list Z -> bool) (label : option (list Z)) (severity : Z) (text action tag : option (list Z)) : list Z :=
  let c k (before : list Z) v (after : list Z) := if sel k then match v with Some s => before ++ s ++ after | None => [] end else [] in
  c (codes "label") [] label (codes ": ") ++
  (if sel (codes "severity") then severity_text severity else []) ++
  c (codes "text") [] text [] ++
  c (codes "action") (10 :: codes "TO FIX: ") action (codes " ") ++
  c (codes "tag") [] tag [] ++ [10].
(* the result: which of the places asked for the message did not reach *)
Definition the_result (con_failed err_failed : bool) : Z :=
  if con_failed then if err_failed then -1 else 4 else if err_failed then 1 else 0.
