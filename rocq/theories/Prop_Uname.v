(* C158: uname. *)
From Coq Require Import String.
From Verif Require Import Base Ctype_spec Uname_model Uname_spec Uname_proofs.
Open Scope string_scope.
Open Scope list_scope.
Open Scope Z_scope.

(* C158 full: uname stores in the structure, as strings with their NUL, the name of the system, of the node, its release, version and machine, and returns 0, or
   it returns -1 and sets errno; it changes nothing outside the structure, whatever the files say and in whatever pieces they are read.
   Missing, refuted: the name of the node is the text of /etc/hostname with its newline. *)
Theorem C158_uname : forall s m u h a b c d, mapped m u 390 -> (forall j, reads s j <> None) -> known s h a b c d ->
  exists m', uname s m u = Ok (m', 0, None) /\ named m' u h a b c d /\ forall x, ~ u <= x < u + 390 -> m' x = m x.
Proof.
  intros s m u h a b c d M R K. destruct (uname_ok s m u M) as (m' & r & e & E & O & [(-> & -> & h' & a' & b' & c' & d' & K' & N)|(_ & _ & F)]); [|destruct (F R h a b c d K)].
  exists m'. split; [exact E|]. split; [|exact O]. destruct K as (H1 & (t & T & L) & _), K' as (H1' & (t' & T' & L') & _).
  assert (h' = h) by congruence. assert (t' = t) by congruence. subst.
  apply next_spec in L, L'. destruct L as (r1 & N1 & L), L' as (r1' & N1' & L'). assert (a' = a /\ r1' = r1) as [-> ->] by (split; congruence).
  apply next_spec in L, L'. destruct L as (r2 & N2 & L), L' as (r2' & N2' & L'). assert (b' = b /\ r2' = r2) as [-> ->] by (split; congruence).
  apply next_spec in L, L'. destruct L as (r3 & N3 & L), L' as (r3' & N3' & L'). assert (c' = c /\ r3' = r3) as [-> ->] by (split; congruence).
  apply next_spec in L, L'. destruct L as (r4 & N4 & L), L' as (r4' & N4' & L'). assert (d' = d) as -> by congruence. exact N.
Qed.
Print Assumptions C158_uname.
(* reads of three bytes *)
Definition redox : system := System (Some (codes "redox")) (fun _ => Some 3) (Some (codes "Redox" ++ 10 :: codes "0.9.0" ++ 10 :: codes "x86_64" ++ [13] ++ 10 :: codes "c0ffee")) (fun _ => true).
Lemma redox_known : known redox (codes "redox") (codes "Redox") (codes "0.9.0") (codes "x86_64") (codes "c0ffee").
Proof.
  split; [reflexivity|]. split; [|vm_compute; repeat split; discriminate]. eexists. split; [reflexivity|].
  apply fl_line; [vm_compute; intuition discriminate|reflexivity|apply end_unique; reflexivity|].
  apply fl_line; [vm_compute; intuition discriminate|reflexivity|apply end_unique; reflexivity|].
  change (codes "x86_64" ++ [13] ++ 10 :: codes "c0ffee") with ((codes "x86_64" ++ [13]) ++ 10 :: codes "c0ffee").
  apply fl_line; [vm_compute; intuition discriminate|reflexivity|constructor|]. apply fl_last; [discriminate|vm_compute; intuition discriminate|reflexivity].
Qed.
Definition room : mem := mem_of 1000 (repeat 7 390).
Lemma room_mapped : mapped room 1000 390.
Proof. apply (bytes_at_mapped room 1000 (repeat 7 390)). apply mem_of_bytes. Qed.
Example C158_uname_case : exists m', uname redox room 1000 = Ok (m', 0, None) /\ bytes_at m' 1065 (codes "redox" ++ [0]) /\ bytes_at m' 1260 (codes "x86_64" ++ [0]).
Proof.
  destruct (C158_uname redox room 1000 _ _ _ _ _ room_mapped ltac:(discriminate) redox_known) as (m' & E & (_ & A & _ & B & _) & _). exists m'. split; [exact E|]. split; [exact A|exact B].
Qed.
(* otherwise *)
Theorem C158_errors : forall s m u, mapped m u 390 -> exists m' r e, uname s m u = Ok (m', r, e) /\ (forall x, ~ u <= x < u + 390 -> m' x = m x) /\
  ((r = 0 /\ exists h a b c d, known s h a b c d /\ named m' u h a b c d) \/ (r = -1 /\ e = Some EIO)).
Proof.
  intros s m u M. destruct (uname_ok s m u M) as (m' & r & e & E & O & [(-> & -> & K)|(-> & -> & _)]); exists m'; eexists; eexists; (split; [exact E|]); (split; [exact O|]).
  - left. split; [reflexivity|exact K].
  - right. split; reflexivity.
Qed.
Print Assumptions C158_errors.
(* a line of 65 bytes *)
Definition long : system := System (Some (codes "redox")) (fun _ => Some 3) (Some (repeat 65 65 ++ [10; 66; 10; 66; 10; 66; 10])) (fun _ => true).
Example C158_errors_case : exists m', uname long room 1000 = Ok (m', -1, Some EIO).
Proof.
  destruct (C158_errors long room 1000 room_mapped) as (m' & r & e & E & _ & [(_ & h & a & b & c & d & (_ & (t & T & F) & La & _) & _)|(-> & ->)]); [|exists m'; exact E].
  exfalso. assert (X : t = repeat 65 65 ++ [10; 66; 10; 66; 10; 66; 10]) by (cbn [about long] in T; congruence). subst t. apply next_spec in F. destruct F as (r1 & N & _).
  assert (Y : a = repeat 65 65) by (vm_compute in N; change a with (match Some a with Some x => x | None => [] end); assert (Q : Some a = Some (repeat 65 65)) by (vm_compute; congruence); rewrite Q; reflexivity).
  subst a. vm_compute in La. apply La. reflexivity.
Qed.
(* the newline of the file is part of the name *)
Theorem C158_newline_refuted : exists s m u m', first_lines (utf8 s) (match hostname s with Some h => h | None => [] end) [codes "redox"] /\ uname s m u = Ok (m', 0, None) /\
  bytes_at m' (nodename u) (codes "redox" ++ [10; 0]).
Proof.
  set (s := System (Some (codes "redox" ++ [10])) (fun _ => Some 80) (about redox) (fun _ => true)).
  assert (K : known s (codes "redox" ++ [10]) (codes "Redox") (codes "0.9.0") (codes "x86_64") (codes "c0ffee")).
  { destruct redox_known as (_ & K). split; [reflexivity|exact K]. }
  destruct (C158_uname s room 1000 _ _ _ _ _ room_mapped ltac:(discriminate) K) as (m' & E & (_ & A & _) & _). exists s, room, 1000, m'. split; [|split; [exact E|exact A]].
  apply (fl_line _ (codes "redox") (codes "redox") [] []); [vm_compute; intuition discriminate|reflexivity|apply end_unique; reflexivity|constructor].
Qed.
Print Assumptions C158_newline_refuted.
