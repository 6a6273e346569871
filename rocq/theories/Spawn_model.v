(* posix_spawn on Redox: /repo/src/header/spawn/file_actions.rs, spawn_attr.rs, mod.rs, and
   /repo/src/platform/redox/mod.rs 1203-1500 (Sys::spawn).
   The child's descriptor table is the one the kernel keeps for it (the filetable handle);
   copying it, its Close and Dup2 verbs and sending a descriptor into it are taken to do
   what they are called.  Loading the image, the environment and the namespace are not
   modelled. *)
From Coq Require Import ZArith List Bool.
From Verif Require Import Base Exec_model.
Import ListNotations.
Open Scope Z_scope.

Definition EBADF := 9. Definition EINVAL := 22.

(* file_actions.rs 10-21.  A path is a CString: made from "" if the argument is null,
   otherwise CString::from_raw of the argument, that is the caller's own array, with the
   length it has at that time (152-156, 208-214). *)
Inductive cstring := Own (l : list Z) | Raw (a n : Z).
Inductive action :=
| Open (fd : Z) (path : cstring) (flag mode : Z)
| Close (fd : Z)
| Chdir (path : cstring)
| FChdir (fd : Z)
| Dup2 (old new : Z).
Fixpoint raw_len (fuel : nat) (m : mem) (path n : Z) : res Z :=
  match fuel with
  | O => OutOfFuel
  | S f => c <- ld m (path + n) ;; if c =? 0 then Ok n else raw_len f m path (n + 1)
  end.
Definition from_raw (fuel : nat) (m : mem) (path : Z) : res cstring :=
  if path =? NULL then Ok (Own [])
  else n <- raw_len fuel m path 0 ;; Ok (Raw path n).
(* 96, and add_action 35-40: Vec::push *)
Definition fa_init : list action := [].
(* 139-163: the actions and the result *)
Definition addopen (fuel : nat) (m : mem) (fa : list action) (fd path flag mode : Z) : res (list action * Z) :=
  if fd <? 0 then Ok (fa, EBADF) else p <- from_raw fuel m path ;; Ok (fa ++ [Open fd p flag mode], 0).
(* 176-186 *)
Definition addclose (fa : list action) (fd : Z) : list action * Z :=
  if fd <? 0 then (fa, EBADF) else (fa ++ [Close fd], 0).
(* 202-217 *)
Definition addchdir (fuel : nat) (m : mem) (fa : list action) (path : Z) : res (list action * Z) :=
  p <- from_raw fuel m path ;; Ok (fa ++ [Chdir p], 0).
(* 234-244 *)
Definition addfchdir (fa : list action) (fd : Z) : list action * Z :=
  if fd <? 0 then (fa, EBADF) else (fa ++ [FChdir fd], 0).
(* 262-273 *)
Definition adddup2 (fa : list action) (fd newfd : Z) : list action * Z :=
  if (fd <? 0) || (newfd <? 0) then (fa, EBADF) else (fa ++ [Dup2 fd newfd], 0).

(* the calls a program makes *)
Inductive call :=
| COpen (fd path flag mode : Z) | CClose (fd : Z) | CChdir (path : Z) | CFchdir (fd : Z) | CDup2 (fd newfd : Z).
Definition add (fuel : nat) (m : mem) (fa : list action) (c : call) : res (list action * Z) :=
  match c with
  | COpen fd path flag mode => addopen fuel m fa fd path flag mode
  | CClose fd => Ok (addclose fa fd)
  | CChdir path => addchdir fuel m fa path
  | CFchdir fd => Ok (addfchdir fa fd)
  | CDup2 fd newfd => Ok (adddup2 fa fd newfd)
  end.
(* each call with the memory at that time: the actions and the results *)
Fixpoint add_all (fuel : nat) (fa : list action) (l : list (mem * call)) : res (list action * list Z) :=
  match l with
  | [] => Ok (fa, [])
  | (m, c) :: r =>
      ' (fa1, e) <- add fuel m fa c ;;
      ' (fa2, es) <- add_all fuel fa1 r ;;
      Ok (fa2, e :: es)
  end.

(* the clone made by the iterator when the actions are performed, 50-60 *)
Fixpoint bytes (m : mem) (a : Z) (n : nat) : res (list Z) :=
  match n with
  | O => Ok []
  | S k => b <- ld m a ;; r <- bytes m (a + 1) k ;; Ok (b :: r)
  end.
Definition text (m : mem) (p : cstring) : res (list Z) :=
  match p with Own l => Ok l | Raw a n => bytes m a (Z.to_nat n) end.

(* a descriptor table: the open file and whether it is to be closed on exec *)
Definition table := Z -> option (Z * bool).
Definition put (t : table) (fd : Z) (x : option (Z * bool)) : table := fun k => if k =? fd then x else t k.

Section Spawn.
(* the parent's descriptors; opening a path relative to a directory; the path of a
   directory (fpath); whether a path can be opened as a directory *)
Variable parent : table.
Variable openat : list Z -> list Z -> Z -> Z -> Z + Z.
Variable fpath : Z -> Z + list Z.

(* RedoxPath::from_absolute for paths that begin with a slash, redox-rt/src/sys.rs 564-576 *)
Definition absolute (p : list Z) : bool := match p with c :: _ => c =? 47 | [] => false end.

Inductive done := Did (t : table) (cwd : list Z) | Error (errno : Z).

(* 1241-1305 *)
Fixpoint perform (m : mem) (fa : list action) (t : table) (cwd : list Z) : res done :=
  match fa with
  | [] => Ok (Did t cwd)
  | Open fd p flag mode :: r =>
      path <- text m p ;;
      match openat cwd path flag mode with
      | inr e => Ok (Error e)
      | inl f => perform m r (put t fd (Some (f, false))) cwd
      end
  | Close fd :: r =>
      match t fd with
      | None => Ok (Error EBADF)
      | Some _ => perform m r (put t fd None) cwd
      end
  | Chdir p :: r =>
      path <- text m p ;;
      if absolute path then perform m r t path else Ok (Error EINVAL)
  | FChdir fd :: r =>
      match parent fd with
      | None => Ok (Error EBADF)
      | Some (f, _) =>
          match fpath f with
          | inl e => Ok (Error e)
          | inr path => perform m r t path
          end
      end
  | Dup2 old new :: r =>
      match t old with
      | None => Ok (Error EBADF)
      | Some (f, _) => perform m r (put t new (Some (f, false))) cwd
      end
  end.

(* 1339-1369: the parent's descriptors that are to be closed on exec are closed in the
   child's table *)
Definition close_marked (t : table) : table :=
  fun fd => match parent fd with Some (_, true) => None | _ => t fd end.

(* the descriptors and directory of the new program *)
Definition spawn_files (m : mem) (fa : option (list action)) (cwd : list Z) : res done :=
  d <- perform m (match fa with Some l => l | None => [] end) parent cwd ;;
  match d with
  | Error e => Ok (Error e)
  | Did t c => Ok (Did (close_marked t) c)
  end.
End Spawn.

(* spawn_attr.rs 18-38: c_short constants *)
Definition RESETIDS := 1. Definition SETPGROUP := 2. Definition SETSIGDEF := 3.
Definition SETSIGMASK := 4. Definition SETSCHEDPARAM := 5. Definition SETSCHEDULER := 6. Definition SETSID := 7.
(* Flags::from_bits: all defined bits together are 7 *)
Definition from_bits (f : Z) : option Z := if Z.land f (Z.lnot 7) =? 0 then Some f else None.
Definition contains (f k : Z) : bool := Z.land f k =? k.

(* spawn_attr.rs 41-49; signal sets are bit masks *)
Record attr := At { a_flags : Z; a_pgroup : Z; a_sigdefault : Z; a_sigmask : Z; a_prio : Z }.
(* posix_spawnattr_setflags, 322-336 *)
Definition setflags (a : attr) (f : Z) : attr * Z :=
  match from_bits f with
  | Some v => (At v (a_pgroup a) (a_sigdefault a) (a_sigmask a) (a_prio a), 0)
  | None => (a, EINVAL)
  end.

(* the attributes of a process: signal mask, ignored signals, ids *)
Record proc := Pr { sigmask : Z; sigign : Z; ruid : Z; euid : Z; rgid : Z; egid : Z }.
(* S_ISUID and S_ISGID of the file *)
Definition S_ISUID := 2048. Definition S_ISGID := 1024.
Definition ESRCH := 3.
(* process groups and priorities, by process id *)
Record procs := Ps { group : Z -> option Z; prio : Z -> option Z }.
Definition set (f : Z -> option Z) (k v : Z) : Z -> option Z := fun x => if x =? k then Some v else f x.
(* redox-rt/src/sys.rs 529-537 and 115-130, src/platform/redox/mod.rs 1159-1162; a process
   that does not exist is ESRCH, permissions are not modelled *)
Definition setpgid (ps : procs) (pid pg : Z) : procs + Z :=
  match group ps pid with Some _ => inl (Ps (set (group ps) pid pg) (prio ps)) | None => inr ESRCH end.
Definition setpriority (ps : procs) (who n : Z) : procs + Z :=
  match prio ps who with Some _ => inl (Ps (group ps) (set (prio ps) who (Z.max (-20) (Z.min 19 n)))) | None => inr ESRCH end.

(* the child, and the ids getuid and so on answer in the caller afterwards
   (DYNAMIC_PROC_INFO) *)
Record spawned := Sp { sp_child : proc; sp_procs : procs; sp_euid : Z; sp_egid : Z }.

(* 1376-1462.  handle: the number of the child's process descriptor, which is passed where
   a process id is expected (1404, 1413, the latter as u32).  posix_setresugid on the child
   sets the ids of the child and DYNAMIC_PROC_INFO of the caller (sys.rs 424-472). *)
Definition spawn_attrs (handle : Z) (p : proc) (ps : procs) (fat : option attr) (s : stat) : res (spawned + Z) :=
  match fat with
  | None => Ok (inl (Sp p ps (euid p) (egid p)))
  | Some a =>
      match from_bits (a_flags a) with
      | None => Panic
      | Some f =>
          let mask := if contains f SETSIGMASK then a_sigmask a else sigmask p in
          match (if contains f SETPGROUP && negb (a_pgroup a =? 0) then
                   if a_pgroup a <? 0 then inr EINVAL else setpgid ps handle (a_pgroup a)
                 else inl ps) with
          | inr e => Ok (inr e)
          | inl ps1 =>
              match (if contains f SETSCHEDPARAM || contains f SETSCHEDULER then setpriority ps1 (handle mod 4294967296) (a_prio a) else inl ps1) with
              | inr e => Ok (inr e)
              | inl ps2 =>
                  (* set_scheduler is todo!() *)
                  if contains f SETSCHEDULER then Panic
                  else
                    let eu := if Z.land (st_mode s) S_ISUID =? S_ISUID then st_uid s
                              else if contains f RESETIDS then ruid p else euid p in
                    let eg := if Z.land (st_mode s) S_ISGID =? S_ISGID then st_gid s
                              else if contains f RESETIDS then rgid p else egid p in
                    Ok (inl (Sp (Pr mask (sigign p) (ruid p) eu (rgid p) eg) ps2 eu eg))
              end
          end
      end
  end.

(* 1224-1237: the arguments *)
Definition spawn_args (program : list Z) (argv : list (list Z)) : list (list Z) :=
  match argv with [] => [] | _ :: r => program :: r end.

(* posix_spawnp, spawn/mod.rs 108-143: the pathname given to posix_spawn *)
Fixpoint first_there (access : list Z -> bool) (l : list (list Z)) : option (list Z) :=
  match l with
  | [] => None
  | p :: r => if access p then Some p else first_there access r
  end.
Definition spawnp (access : list Z -> bool) (file : list Z) (path : option (list Z)) : option (list Z) :=
  if existsb (Z.eqb 47) file then Some file
  else match path with None => None | Some env => first_there access (programs file (split env)) end.
