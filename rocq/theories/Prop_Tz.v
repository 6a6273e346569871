(* C81: tzset with POSIX TZ strings. *)
From Coq Require Import String.
From Verif Require Import Base Ctype_spec Numeral Tz_model Tz_spec Tz_proofs.
Open Scope list_scope.
Open Scope Z_scope.

(* Missing from C81 (refuted below): offsets between -01:00 and 0, and names in angle brackets.  Not modelled: TZ
   values that are names of the time-zone database; the rules, which the code ignores. *)
Theorem C81_tzset_partial : forall std sg h ot v d r, zone_name std -> offset sg h ot v -> (sg = Minus -> h <> 0) -> rest d r ->
  tzset (std ++ ot ++ r) = (std, match d with Some n => n | None => std end, match d with Some _ => 1 | None => 0 end, v).
Proof. exact tz_front. Qed.
Print Assumptions C81_tzset_partial.

(* The sign is lost when the hour is 0. *)
Theorem C81_sign_refuted : offset Minus 0 (codes "-0:30") (-1800) /\ tzset (codes "AAA-0:30") = (codes "AAA", codes "AAA", 0, 1800).
Proof.
  split; [|reflexivity]. apply (Offset Minus 0 (codes "0") (MinOnly 30)); [lia| |cbn; lia|cbn; lia].
  right. split; [lia|reflexivity].
Qed.
Print Assumptions C81_sign_refuted.

(* Names in angle brackets are not understood. *)
Theorem C81_quoted_refuted : tzset (codes "<-03>3") = ([], [], 0, 0).
Proof. reflexivity. Qed.
Print Assumptions C81_quoted_refuted.

Example C81_case : zone_name (codes "NZST") /\ offset Minus 12 (codes "-12:00:00") (-43200) /\
  rest (Some (codes "NZDT")) (codes "NZDT-13,M10.1.0,M3.3.0") /\
  tzset (codes "NZST-12:00:00NZDT-13,M10.1.0,M3.3.0") = (codes "NZST", codes "NZDT", 1, -43200).
Proof.
  assert (N : forall c d, letter c -> letter d -> zone_name [78; 90; c; d]).
  { intros c d C D. split; [|cbv; discriminate]. repeat (apply Forall_cons; [first [exact C|exact D|left; lia]|]). constructor. }
  split; [apply (N 83 84); left; lia|]. split.
  - apply (Offset Minus 12 (codes "12") (MinSec 0 0)); [lia|left; reflexivity|cbn; lia|cbn; lia].
  - split; [|reflexivity]. apply (RDst (codes "NZDT") (codes "-13") (codes ",M10.1.0,M3.3.0")).
    + apply (N 68 84); left; lia.
    + right. exists Minus, 13, (-46800). apply (Offset Minus 13 (codes "13") NoMin); [lia|left; reflexivity|exact I|cbn; lia].
    + right. eexists. reflexivity.
Qed.
