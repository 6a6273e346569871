(* execvp: /repo/src/header/unistd/mod.rs 386-415 and unistd/path.rs;
   execve on Redox: /repo/src/platform/redox/exec.rs 78-268 (the permission check and the
   arguments passed on) and 281-429 (parse_interpreter). *)
From Coq Require Import ZArith List Bool.
From Verif Require Import Base.
Import ListNotations.
Open Scope Z_scope.

Definition ENOENT := 2. Definition ENOEXEC := 8. Definition E2BIG := 7. Definition EPERM := 1.
(* header/limits/mod.rs 21 *)
Definition PATH_MAX := 4096.

(* slice::split at PATH_SEPARATOR, path.rs 12-21 *)
Fixpoint split (l : list Z) : list (list Z) :=
  match l with
  | [] => [[]]
  | c :: r =>
      if c =? 58 then [] :: split r
      else match split r with p :: ps => (c :: p) :: ps | [] => [[c]] end
  end.
(* PathSearchIter::next, path.rs 28-43, all items in order, without the trailing NUL *)
Fixpoint programs (file : list Z) (ps : list (list Z)) : list (list Z) :=
  match ps with
  | [] => []
  | p :: r =>
      if len p + len file + 2 >? PATH_MAX then programs file r
      else (p ++ [47] ++ file) :: programs file r
  end.

Inductive outcome := Runs (path : list Z) | Fails (errno : Z).

(* execv, as the kernel and 78-268 decide it: None when the process image is replaced,
   otherwise errno *)
(* mod.rs 397-410 *)
Fixpoint attempts (execv : list Z -> option Z) (l : list (list Z)) (error : Z) : outcome :=
  match l with
  | [] => Fails error
  | p :: r =>
      match execv p with
      | None => Runs p
      | Some e => attempts execv r (if e =? ENOENT then error else e)
      end
  end.
(* redox: cfg!(target_os = "redox"); path: getenv("PATH") *)
Definition execvp (redox : bool) (execv : list Z -> option Z) (file : list Z) (path : option (list Z)) : outcome :=
  if existsb (Z.eqb 47) file || (redox && existsb (Z.eqb 58) file) then
    match execv file with None => Runs file | Some e => Fails e end
  else
    match path with
    | None => Fails ENOENT
    | Some env => attempts execv (programs file (split env)) ENOENT
    end.

(* u8::is_ascii_whitespace *)
Definition white (c : Z) : bool := (c =? 32) || (c =? 9) || (c =? 10) || (c =? 12) || (c =? 13).
(* Iterator::position(non-whitespace), 309-312 *)
Fixpoint skip_white (l : list Z) (i : Z) : option Z :=
  match l with
  | [] => None
  | c :: r => if white c then skip_white r (i + 1) else Some i
  end.
(* 324-347: interp_offset and args_offset, NonZeroUsize::new (0 gives None) *)
Definition nonzero (i : Z) : option Z := if i =? 0 then None else Some i.
Fixpoint scan_line (l : list Z) (i : Z) (io : option Z) : option Z * option Z :=
  match l with
  | [] => (io, None)
  | c :: r =>
      if c =? 10 then
        match io with
        | None => (nonzero i, None)
        | Some _ => (io, nonzero i)
        end
      else if c =? 32 then scan_line r (i + 1) (match io with None => nonzero i | Some _ => io end)
      else scan_line r (i + 1) io
  end.
(* 409-412 *)
Fixpoint skip_blanks (l : list Z) : list Z :=
  match l with
  | c :: r => if (c =? 32) || (c =? 9) then skip_blanks r else l
  | [] => []
  end.
Definition has_nul (l : list Z) : bool := existsb (Z.eqb 0) l.
Inductive parsed := NoShebang | Interp (path : list Z) (arg : option (list Z)) | Bad (errno : Z).
(* 281-429.  file: the whole contents; reads are taken to succeed and not to be short. *)
Definition parse_interpreter (file : list Z) : parsed :=
  match file with
  | 35 :: 33 :: rest =>
      match skip_white rest 0 with
      | None => Bad ENOEXEC
      | Some n =>
          let line := skipn (Z.to_nat n) rest in
          match scan_line line 0 None with
          | (None, _) => Bad ENOEXEC
          | (Some io, ao) =>
              if n + 2 + io + (match ao with Some a => a | None => 0 end) >? PATH_MAX then Bad E2BIG
              else
                let interp := firstn (Z.to_nat io) line in
                let arg :=
                  match ao with
                  | None => []
                  | Some a => skip_blanks (firstn (Z.to_nat (a - io)) (skipn (Z.to_nat io) line))
                  end in
                if has_nul arg || has_nul interp then Bad ENOEXEC
                else Interp interp (match arg with [] => None | _ => Some arg end)
          end
      end
  | _ => NoShebang
  end.

(* 113-123: st_mode, st_uid and st_gid of the file, real ids of the process *)
Record stat := St { st_mode : Z; st_uid : Z; st_gid : Z }.
Definition may_execute (s : stat) (ruid rgid : Z) : bool :=
  let mode :=
    if ruid =? st_uid s then Z.land (Z.shiftr (st_mode s) 6) 7
    else if rgid =? st_gid s then Z.land (Z.shiftr (st_mode s) 3) 7
    else Z.land (st_mode s) 7 in
  negb (Z.land mode 1 =? 0).

(* What the new process image is made from: the file and the arguments *)
Inductive image := Image (file : list Z) (args : list (list Z)) | Refused (errno : Z).
(* 78-268 with Executable::AtPath and ArgEnv::C; open gives stat and contents, or errno.  The environment, signals and descriptors are not modelled. *)
Definition execve (open : list Z -> stat * list Z + Z) (ruid rgid : Z) (path : list Z) (argv : list (list Z)) : image :=
  match open path with
  | inr _ => Refused ENOENT
  | inl (s, contents) =>
      if negb (may_execute s ruid rgid) then Refused EPERM
      else
        match parse_interpreter contents with
        | Bad e => Refused e
        | NoShebang => Image path argv
        | Interp interp arg =>
            match open interp with
            | inr _ => Refused ENOENT
            | inl _ =>
                Image interp ([interp] ++ match arg with Some a => [a] | None => [] end ++ [path] ++ tl argv)
            end
        end
  end.

(* with_argv, mod.rs 1412-1457: the argument vector of execl, execle, execlp; va: the
   variadic pointers, the first NULL ends them; None: E2BIG.  malloc is taken to succeed. *)
Fixpoint until_null (va : list Z) : list Z :=
  match va with [] => [] | p :: r => if p =? NULL then [] else p :: until_null r end.
Definition with_argv (arg0 : Z) (va : list Z) : option (list Z) :=
  let argc := 1 + len (until_null va) in
  if argc <? 4096 then Some (arg0 :: until_null va) else None.
