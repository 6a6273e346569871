(* C97: glob. *)
From Coq Require Import String ZArith List Bool Lia.
From Verif Require Import Base Ctype_spec String_spec Fnmatch_spec Glob_model Glob_spec Glob_proofs.
Import ListNotations.
Open Scope string_scope.
Open Scope list_scope.
Open Scope Z_scope.

(* glob finds exactly the pathnames that a pattern of one or more components matches, each
   once, in order.  Missing: GLOB_ERR and an error function, which the refuted theorems
   show to misbehave, names that begin with a period, components that are . or .. or
   empty, escapes (C50). *)
Theorem C97_glob_partial : forall dir ls fl (absolute : bool) cs fuel g,
  (forall cur, dir cur = match ls cur with Some l => l | None => [] end) -> good (g_period fl) dir -> g_err fl = false ->
  Forall comp_ok cs -> cs <> [] -> (length cs <= fuel)%nat ->
  exists l, answer dir (means (g_period fl)) (g_mark fl) (if absolute then [47] else @nil Z) cs l /\ (g_nosort fl = false -> ordered l) /\
    glob ls fnm_c (fun _ => false) fuel (pattern_text absolute cs) fl g =
      match l, g_nocheck fl with
      | [], false => Ok (GT (if g_append fl then gl_pathc g else 0) (gl_offs g) (before fl g), GLOB_NOMATCH)
      | [], true => Ok (GT (if g_append fl then gl_pathc g + 1 else 1) (gl_offs g) (before fl g ++ [Some (pattern_text absolute cs)]), 0)
      | _, _ => Ok (GT ((if g_append fl then gl_pathc g else 0) + len l) (gl_offs g) (before fl g ++ map Some l), 0)
      end.
Proof. exact glob_fnmatch. Qed.
Print Assumptions C97_glob_partial.

Definition no_flags := Fl false false false false false false false false.
Definition fresh := GT 0 0 [].
Definition run (ls : list Z -> option (list (list Z * bool))) (pattern : string) (fl : flags) : res (globt * Z) :=
  glob ls fnm_c (fun _ => false) 20 (codes pattern) fl fresh.
Definition tree (l : list (string * list (string * bool))) (cur : list Z) : option (list (list Z * bool)) :=
  option_map (fun x => map (fun e => (codes (fst e), snd e)) (snd x)) (find (fun x => eqb (codes (fst x)) cur) l).

(* A star matches a hidden file unless GLOB_PERIOD is given, which is the other way round. *)
Theorem C97_period_refuted :
  ~ walk (fun cur => match tree [("", [(".a", false)])] cur with Some l => l | None => [] end) (means false) [] [codes "*"] (codes ".a") false /\
  run (tree [("", [(".a", false)])]) "*" no_flags = Ok (GT 1 0 [Some (codes ".a")], 0) /\
  run (tree [("", [(".a", false)])]) "*" (Fl false false false false false false false true) = Ok (GT 0 0 [], GLOB_NOMATCH).
Proof.
  split; [|split; vm_compute; reflexivity]. intro W. inversion W as [? ? n ? ? I (es & E1 & E2 & E3 & M) U|]; subst.
  vm_compute in I. destruct I as [I|[]]. injection I as <-.
  destruct es as [|e es]; [discriminate|]. destruct e; cbn in E3; try discriminate.
  - injection E3 as -> E3. destruct (Forall_inv E1) as (_ & X & _). apply X. reflexivity.
  - injection E3 as E3. destruct es as [|e es]; [|destruct e; discriminate].
    inversion M as [| | | | |? ? ? M'|? ? ? ? W' M']; subst; [inversion M'|]. destruct W' as [_ W']. apply W'; reflexivity.
Qed.
Print Assumptions C97_period_refuted.

(* A pattern without special characters that names an existing file does not match if it
   has a component .. or is just . (or a slash). *)
Theorem C97_dots_refuted :
  let ls := tree [("", [("a", true); ("b", false)]); ("a", []); ("a/..", [("a", true); ("b", false)])] in
  run ls "a/../b" no_flags = Ok (GT 0 0 [], GLOB_NOMATCH) /\ run ls "." no_flags = Ok (GT 0 0 [], GLOB_NOMATCH) /\
  run (tree [("/", [("b", false)])]) "/" no_flags = Ok (GT 0 0 [], GLOB_NOMATCH).
Proof. split; [|split]; vm_compute; reflexivity. Qed.
Print Assumptions C97_dots_refuted.

(* A trailing slash does not keep out what is not a directory. *)
Theorem C97_slash_refuted :
  run (tree [("", [("d", true); ("f", false)])]) "*/" no_flags = Ok (GT 2 0 [Some (codes "d"); Some (codes "f")], 0).
Proof. vm_compute; reflexivity. Qed.
Print Assumptions C97_slash_refuted.

(* With GLOB_ERR glob is aborted although no directory failed to open. *)
Theorem C97_err_refuted :
  run (tree [("", [("d", true)])]) "x*/y" (Fl true false false false false false false false) = Ok (GT 0 0 [], GLOB_ABORTED).
Proof. vm_compute; reflexivity. Qed.
Print Assumptions C97_err_refuted.

Example C97_case :
  let ls := tree [("", [("src", true); ("doc", true); ("notes", false)]); ("src", [("b.c", false); ("a.c", false); ("old", true)]); ("doc", [("x.c", true)])] in
  good false (fun cur => match ls cur with Some l => l | None => [] end) /\ Forall comp_ok [codes "*"; codes "?.c"] /\
  pattern_text false [codes "*"; codes "?.c"] = codes "*/?.c" /\
  run ls "*/?.c" (Fl false true false false false false false false) = Ok (GT 3 0 [Some (codes "doc/x.c/"); Some (codes "src/a.c"); Some (codes "src/b.c")], 0).
Proof.
  split; [|split; [|split; vm_compute; reflexivity]].
  - intro cur. unfold tree, find. cbn -[eqb codes].
    repeat match goal with |- context [if eqb ?a ?b then _ else _] => destruct (eqb a b) end; cbn;
      (split; [repeat constructor; cbn; intuition discriminate|]); intros n d I; repeat destruct I as [I|I]; try contradiction; injection I as <- <-;
      (split; [discriminate|]; split; [cbn; intuition discriminate|]; split; [repeat (constructor; [vm_compute; auto|]); constructor|split; [discriminate|discriminate]]).
  - constructor; [|constructor; [|constructor]]; (split; [repeat split; try discriminate; vm_compute; intuition discriminate|]).
    + exists [EStar]. repeat split; repeat constructor.
    + exists [EAny; ELit 46; ELit 99]. repeat split; repeat constructor; lia.
Qed.
