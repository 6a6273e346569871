(* C98: the search of execlp and execvp.  C99: what execve executes. *)
From Coq Require Import String ZArith List Bool Lia.
From Verif Require Import Base Ctype_spec Exec_model Exec_spec Exec_proofs.
Import ListNotations.
Open Scope string_scope.
Open Scope list_scope.
Open Scope Z_scope.

(* Without a slash in the name, the first directory of PATH that has an executable file of
   that name wins; if there is none, errno is ENOENT or the error of one of the attempts, and
   ENOENT only if no other error occurred.  Names longer than PATH_MAX cannot be executed.
   Missing: empty prefixes, names with a colon on Redox, files of unknown format, all
   refuted below. *)
Theorem C98_search_partial : forall redox execv file ds,
  (forall p, len p > 4095 -> execv p <> None) ->
  ~ In 47 file -> (redox = true -> ~ In 58 file) -> ds <> [] -> Forall (fun d => ~ In 58 d) ds -> Forall (fun d => d <> []) ds ->
  match execvp redox execv file (Some (joined ds)) with
  | Runs p => finds execv file ds (Some p)
  | Fails e => finds execv file ds None /\
      (e = 2 \/ exists d, In d ds /\ execv (candidate d file) = Some e) /\
      (e = 2 -> forall d x, In d ds -> len (candidate d file) <= 4095 -> execv (candidate d file) = Some x -> x = 2)
  end.
Proof. exact execvp_search. Qed.
Print Assumptions C98_search_partial.

(* With a slash, the name is the pathname. *)
Theorem C98_slash : forall redox execv file path, In 47 file ->
  execvp redox execv file path = match execv file with None => Runs file | Some e => Fails e end.
Proof. exact execvp_slash. Qed.
Print Assumptions C98_slash.

(* execl, execle and execlp pass the arguments up to the null pointer (at most 4095). *)
Theorem C98_execl : forall arg0 l r, ~ In NULL l -> len l < 4095 -> with_argv arg0 (l ++ NULL :: r) = Some (arg0 :: l).
Proof. exact execl_args. Qed.
Print Assumptions C98_execl.

Definition only (names : list (string * Z)) (p : list Z) : option Z :=
  match find (fun x => if list_eq_dec Z.eq_dec (codes (fst x)) p then true else false) names with
  | Some (_, 0) => None
  | Some (_, e) => Some e
  | None => Some 2
  end.

(* An empty prefix means the root directory instead of the current directory. *)
Theorem C98_empty_refuted :
  let execv := only [("./a", 0); ("/a", 0)] in
  finds execv (codes "a") [[]; codes "/bin"] (Some (codes "./a")) /\
  execvp true execv (codes "a") (Some (joined [[]; codes "/bin"])) = Runs (codes "/a").
Proof. split; [apply F_here|]; vm_compute; reflexivity. Qed.
Print Assumptions C98_empty_refuted.

(* On Redox a name with a colon is not searched for. *)
Theorem C98_colon_refuted :
  let execv := only [("/bin/a:b", 0)] in
  finds execv (codes "a:b") [codes "/bin"] (Some (codes "/bin/a:b")) /\
  execvp true execv (codes "a:b") (Some (codes "/bin")) = Fails ENOENT.
Proof. split; [apply F_here|]; vm_compute; reflexivity. Qed.
Print Assumptions C98_colon_refuted.

(* A file that is no executable image and has no #! is not given to the shell. *)
Theorem C98_shell_refuted :
  execvp true (only [("/bin/a", 8); ("/bin/sh", 0)]) (codes "a") (Some (codes "/bin")) = Fails ENOEXEC.
Proof. vm_compute; reflexivity. Qed.
Print Assumptions C98_shell_refuted.

Example C98_case :
  execvp true (only [("/b/a", 13); ("/c/a", 0); ("/d/a", 0)]) (codes "a") (Some (codes "/b:/c:/d")) = Runs (codes "/c/a") /\
  execvp true (only [("/b/a", 13)]) (codes "a") (Some (codes "/b:/c:/d")) = Fails 13 /\
  joined [codes "/b"; codes "/c"; codes "/d"] = codes "/b:/c:/d" /\
  with_argv 1 [2; 3; NULL; 4] = Some [1; 2; 3].
Proof. repeat split; vm_compute; reflexivity. Qed.

(* execve executes the file with the given arguments, or the interpreter named in its first
   line with the arguments that are due, if the process may execute the file, and refuses
   otherwise.  Missing: supplementary groups, effective ids that differ from the real
   ones, tabs after the interpreter, lines longer than about PATH_MAX, files that end with
   the first line, error numbers. *)
Theorem C99_execve_partial : forall open uid gid groups path argv s contents,
  open path = inl (s, contents) -> ~ In (st_gid s) groups \/ gid = st_gid s \/ uid = st_uid s ->
  (permitted (st_mode s) (st_uid s) (st_gid s) uid gid groups ->
    (firstn 2 contents <> [35; 33] -> execve open uid gid path argv = Image path argv) /\
    (forall b interp sep text x, script contents b interp sep text -> hd 32 sep = 32 ->
       2 + len b + 2 * len interp + len sep + len text <= 4096 -> open interp = inl x ->
       execve open uid gid path argv = Image interp (script_args interp text path argv))) /\
  (~ permitted (st_mode s) (st_uid s) (st_gid s) uid gid groups -> exists e, execve open uid gid path argv = Refused e).
Proof. exact execve_ok. Qed.
Print Assumptions C99_execve_partial.

Definition nl := String (Ascii.ascii_of_nat 10) "".
Definition tab := String (Ascii.ascii_of_nat 9) "".

(* A tab does not separate the interpreter from its argument. *)
Theorem C99_tab_refuted :
  script (codes ("#!/bin/sh" ++ tab ++ "-e" ++ nl)) [] (codes "/bin/sh") (codes tab) (codes "-e") /\
  parse_interpreter (codes ("#!/bin/sh" ++ tab ++ "-e" ++ nl)) = Interp (codes ("/bin/sh" ++ tab ++ "-e")) None.
Proof.
  split; [|vm_compute; reflexivity].
  change (codes ("#!/bin/sh" ++ tab ++ "-e" ++ nl)) with ([35; 33] ++ [] ++ codes "/bin/sh" ++ codes tab ++ codes "-e" ++ 10 :: []).
  apply Script; [constructor|discriminate| |repeat constructor; right; reflexivity|discriminate| |].
  - repeat constructor; try discriminate; cbn; intuition discriminate.
  - intros c r E. vm_compute in E. injection E as <- _. intros [H|H]; discriminate.
  - repeat constructor; discriminate.
Qed.
Print Assumptions C99_tab_refuted.

(* An empty first line takes the interpreter from the next one. *)
Theorem C99_line_refuted :
  parse_interpreter (codes ("#!" ++ nl ++ "/bin/rm x" ++ nl)) = Interp (codes "/bin/rm") (Some (codes "x")).
Proof. vm_compute; reflexivity. Qed.
Print Assumptions C99_line_refuted.

(* At the end of the file, the argument is lost and the interpreter is not found. *)
Theorem C99_eof_refuted :
  parse_interpreter (codes "#!/usr/bin/env sh") = Interp (codes "/usr/bin/env") None /\
  parse_interpreter (codes "#!/bin/true") = Bad ENOEXEC.
Proof. split; vm_compute; reflexivity. Qed.
Print Assumptions C99_eof_refuted.

(* The real instead of the effective ids decide: with real user 1000 and effective user 0,
   a file of user 0 with mode 0700 is refused, and one of user 1000 is not. *)
Theorem C99_ids_refuted :
  let mode := 448 in
  let open := fun _ : list Z => inl (St mode 0 0, codes "x") : stat * list Z + Z in
  let open2 := fun _ : list Z => inl (St mode 1000 0, codes "x") : stat * list Z + Z in
  permitted mode 0 0 0 0 [] /\ execve open 1000 1000 (codes "p") [] = Refused EPERM /\
  ~ permitted mode 1000 0 0 0 [] /\ execve open2 1000 1000 (codes "p") [] = Image (codes "p") [].
Proof.
  cbv zeta. split; [left; split; reflexivity|]. split; [vm_compute; reflexivity|]. split; [|vm_compute; reflexivity].
  intros [(X & _)|[(_ & _ & X)|(_ & X & _)]]; [discriminate|discriminate|apply X; reflexivity].
Qed.
Print Assumptions C99_ids_refuted.

(* The error is EPERM where EACCES is due, and ENOENT whatever made open fail. *)
Theorem C99_errno_refuted :
  execve (fun _ => inl (St 384 0 0, codes "x")) 0 0 (codes "p") [] = Refused EPERM /\
  execve (fun _ => inr 13) 0 0 (codes "p") [] = Refused ENOENT.
Proof. split; vm_compute; reflexivity. Qed.
Print Assumptions C99_errno_refuted.

Example C99_case :
  let fs := fun p : list Z => if list_eq_dec Z.eq_dec p (codes "s") then inl (St 493 5 6, codes ("#! /bin/awk  -f" ++ nl ++ "{}"))
                  else if list_eq_dec Z.eq_dec p (codes "/bin/awk") then inl (St 493 0 0, codes "ELF") else inr 2 in
  execve fs 1 1 (codes "s") [codes "me"; codes "b"] = Image (codes "/bin/awk") [codes "/bin/awk"; codes "-f"; codes "s"; codes "b"] /\
  execve fs 1 1 (codes "/bin/awk") [codes "me"; codes "b"] = Image (codes "/bin/awk") [codes "me"; codes "b"].
Proof. split; vm_compute; reflexivity. Qed.
