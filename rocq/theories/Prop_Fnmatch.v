(* C50: fnmatch. *)
From Coq Require Import String ZArith List Bool Lia.
From Verif Require Import Base Ctype_spec Fnmatch_model Fnmatch_spec Fnmatch_proofs.
Import ListNotations.
Open Scope string_scope.
Open Scope list_scope.
Open Scope Z_scope.

(* The full statement drops the second, third and fourth hypotheses (a pattern with
   escapes when FNM_NOESCAPE is clear, negated brackets under FNM_PATHNAME, FNM_PERIOD on
   strings with a period), all of which are refuted below. *)
Theorem C50_fnmatch_partial : forall fuel m p es i s flags,
  Forall elem_ok es -> Forall no_escape es ->
  (flag flags FNM_PATHNAME = true -> Forall no_neg es) -> (flag flags FNM_PERIOD = true -> ~ In 46 s) ->
  bytes_at m p (text es ++ [0]) -> cstr m i s -> (length (text es) < fuel)%nat -> (length s < fuel)%nat ->
  exists r, fnmatch fuel m p i flags = Ok r /\
    (r = 0 <-> pmatch (flag flags FNM_PATHNAME) (flag flags FNM_PERIOD) true es s) /\ (r = 0 \/ r = FNM_NOMATCH).
Proof. exact fnmatch_ok. Qed.
Print Assumptions C50_fnmatch_partial.
(* With FNM_PERIOD and periods in the string: the patterns without "*" and without negated brackets. *)
Theorem C50_period_partial : forall fuel m p es i s flags,
  Forall elem_ok es -> Forall no_escape es -> Forall no_neg es -> Forall no_star es ->
  bytes_at m p (text es ++ [0]) -> cstr m i s -> (length (text es) < fuel)%nat -> (length s < fuel)%nat ->
  exists r, fnmatch fuel m p i flags = Ok r /\
    (r = 0 <-> pmatch (flag flags FNM_PATHNAME) (flag flags FNM_PERIOD) true es s) /\ (r = 0 \/ r = FNM_NOMATCH).
Proof. exact fnmatch_period. Qed.
Print Assumptions C50_period_partial.

Definition two (p s : list Z) : mem := mem_union (mem_of 100 (p ++ [0])) (mem_of 200 (s ++ [0])).
Definition run (p s : list Z) (flags : Z) : res Z := fnmatch 30 (two p s) 100 200 flags.

(* The backslash escapes only when FNM_NOESCAPE is set, and not when it is clear. *)
Theorem C50_escape_refuted :
  exists es s, Forall elem_ok es /\ pmatch false false true es s /\ run (text es) s 0 = Ok FNM_NOMATCH /\
               run (text es) s FNM_NOESCAPE = Ok 0.
Proof.
  exists [EEsc 42], [42]. split; [repeat constructor; lia|]. split; [repeat constructor|]. split; vm_compute; reflexivity.
Qed.
Print Assumptions C50_escape_refuted.

(* Under FNM_PATHNAME a negated bracket expression matches a slash. *)
Theorem C50_pathname_refuted :
  exists es s, Forall elem_ok es /\ Forall no_escape es /\ ~ pmatch true false true es s /\ run (text es) s FNM_PATHNAME = Ok 0.
Proof.
  exists [ESet true [SOne 97]], [47]. split.
  { constructor; [|constructor]. split; [discriminate|]. constructor; [|constructor]. unfold item_ok, plain_in. lia. }
  split; [repeat constructor|]. split; [|vm_compute; reflexivity].
  intros H. inversion H; subst. match goal with H : wild _ _ _ _ |- _ => destruct H as [H _]; apply H; reflexivity end.
Qed.
Print Assumptions C50_pathname_refuted.

(* Under FNM_PERIOD "*" does not match "a.b", and "*?" matches ".". *)
Theorem C50_period_refuted :
  (exists s, pmatch false true true [EStar] s /\ run (text [EStar]) s FNM_PERIOD = Ok FNM_NOMATCH) /\
  (exists s, ~ pmatch false true true [EStar; EAny] s /\ run (text [EStar; EAny]) s FNM_PERIOD = Ok 0).
Proof.
  split.
  - exists [97; 46; 98]. split; [|vm_compute; reflexivity].
    apply pm_star; [split; intros; lia|]. apply pm_star; [split; intros; try discriminate|].
    apply pm_star; [split; intros; try discriminate|]. apply pm_star0. apply pm_nil.
  - exists [46]. split; [|vm_compute; reflexivity]. intros H.
    inversion H as [ | | | | |? ? ? H0|? ? ? ? W H0]; subst.
    + inversion H0; subst. match goal with W : wild _ _ _ _ |- _ => destruct W as [_ W]; apply W; reflexivity end.
    + destruct W as [_ W]. apply W; reflexivity.
Qed.
Print Assumptions C50_period_refuted.

(* POSIX lets ']' come first in a bracket expression and '-' come last, both standing for
   themselves: "[]a]" should match "]", and "[a-]" both "a" and "-". *)
Theorem C50_bracket_refuted :
  run (codes "[]a]") (codes "]") 0 = Ok FNM_NOMATCH /\
  run (codes "[a-]") (codes "a") 0 = Ok FNM_NOMATCH /\ run (codes "[a-]") (codes "-") 0 = Ok FNM_NOMATCH.
Proof. vm_compute. auto. Qed.
Print Assumptions C50_bracket_refuted.

(* The pattern "[\" is read past its terminator: with nothing mapped there, a fault. *)
Theorem C50_overread_refuted :
  cstr (two [91; 92] [97]) 100 [91; 92] /\ cstr (two [91; 92] [97]) 200 [97] /\ run [91; 92] [97] 0 = Fault.
Proof. repeat split; try (repeat constructor; fail); vm_compute; reflexivity. Qed.
Print Assumptions C50_overread_refuted.

Example C50_case :
  let es := [EStar; ELit 47; ESet false [SRange 97 99; SOne 120]; EStar; EStar; EAny; ELit 46; ESet false [SOne 99; SOne 104]] in
  text es = codes "*/[a-cx]**?.[ch]" /\ Forall elem_ok es /\ Forall no_escape es /\ Forall no_neg es /\
  (exists m, m = two (text es) (codes "src/xyz.c") /\ bytes_at m 100 (text es ++ [0]) /\ cstr m 200 (codes "src/xyz.c")) /\
  run (text es) (codes "src/xyz.c") FNM_PATHNAME = Ok 0 /\
  run (text es) (codes "a/src/xyz.c") FNM_PATHNAME = Ok FNM_NOMATCH /\
  run (text es) (codes "a/src/xyz.c") 0 = Ok 0.
Proof.
  cbv zeta. split; [reflexivity|].
  split. { repeat constructor; cbn; unfold plain, plain_in; try lia; try discriminate. }
  split; [repeat constructor|]. split; [repeat constructor|].
  split. { eexists. split; [reflexivity|]. split; repeat (split; try reflexivity); repeat constructor. }
  vm_compute. auto.
Qed.

Example C50_period_case :
  let es := [EAny; ELit 47; EAny; ESet false [SOne 46; SOne 97]] in
  text es = codes "?/?[.a]" /\ Forall elem_ok es /\ Forall no_escape es /\ Forall no_neg es /\ Forall no_star es /\
  run (text es) (codes "x/..") FNM_PERIOD = Ok 0 /\ run (text es) (codes "x/..") (FNM_PERIOD + FNM_PATHNAME) = Ok FNM_NOMATCH /\
  run (text es) (codes "x/b.") (FNM_PERIOD + FNM_PATHNAME) = Ok 0.
Proof.
  cbv zeta. split; [reflexivity|].
  split. { repeat constructor; cbn; unfold plain, plain_in; try lia; try discriminate. }
  split; [repeat constructor|]. split; [repeat constructor|]. split; [repeat constructor|]. vm_compute. auto.
Qed.
