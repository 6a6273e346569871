(* popen, pclose and system: /repo/src/header/stdio/mod.rs 1055-1078, 1104-1189, /repo/src/header/stdio/helpers.rs 52-95 (_fdopen),
   /repo/src/header/stdlib/mod.rs 1617-1656.  A descriptor table maps a number to an open file and the close-on-exec
   flag; pipe gives the numbers r and w the kernel chooses (C102: the lowest free), fork copies the table,
   dup2 of a descriptor onto itself changes nothing, exec closes what is marked.  Each end of a pipe
   is an open file of its own.  Locks of streams and the fork handlers (C75) are left out. *)
From Verif Require Import Base Waitpid_model.

Definition tab := Z -> option (Z * bool).
Definition put (t : tab) (fd : Z) (x : option (Z * bool)) : tab := fun k => if k =? fd then x else t k.
Definition close (t : tab) (fd : Z) : tab := put t fd None.
Definition dup2 (t : tab) (a b : Z) : option tab :=
  match t a with
  | None => None
  | Some (f, _) => Some (if a =? b then t else put t b (Some (f, false)))
  end.
Definition exec (t : tab) : tab := fun k => match t k with Some (f, false) => Some (f, false) | _ => None end.

(* 1111-1128: the mode; write and cloexec, or EINVAL *)
Fixpoint parse_mode (l : list Z) (write : option bool) (cloexec : bool) : option (bool * bool) :=
  match l with
  | [] => match write with Some w => Some (w, cloexec) | None => None end
  | b :: l =>
      if b =? 101 then parse_mode l write true
      else
        match write with
        | Some _ => None
        | None => if b =? 114 then parse_mode l (Some false) cloexec else if b =? 119 then parse_mode l (Some true) cloexec else None
        end
  end.
(* 1147-1164: the table the command gets, None being exit(127) *)
Definition child_table (write : bool) (t : tab) (r w : Z) : option tab :=
  match dup2 t (if write then r else w) (if write then 0 else 1) with
  | Some t => Some (exec (close (close t r) w))
  | None => None
  end.
(* a stream of popen: descriptor, child, writable *)
Record stream := Stream { fd : Z; child_pid : option Z; writable : bool }.
Inductive result :=
| Invalid                                   (* null, EINVAL *)
| PipeFails                                 (* null *)
| ForkFails (t : tab)                       (* null *)
| Opened (t : tab) (s : stream) (command : option tab).
(* pipe: the numbers and the files of the two ends *)
Definition popen (t : tab) (mode : list Z) (pipe : option (Z * Z * Z * Z)) (fork : option Z) : result :=
  match parse_mode mode None false with
  | None => Invalid
  | Some (write, cloexec) =>
      match pipe with
      | None => PipeFails
      | Some (r, w, fr, fw) =>
          let t := put (put t r (Some (fr, false))) w (Some (fw, false)) in
          match fork with
          | None => ForkFails t
          | Some pid =>
              let mine := if write then w else r in
              let t' := close t (if write then r else w) in
              (* _fdopen sets FD_CLOEXEC for mode e *)
              let t' := if cloexec then put t' mine (match t' mine with Some (f, _) => Some (f, true) | None => None end) else t' in
              Opened t' (Stream mine (Some pid) write) (child_table write t r w)
          end
      end
  end.

(* pclose: what is unwritten in the stream goes out first (fclose; C93); the children and what happens are those of
   Waitpid_model *)
Inductive closed :=
| NotOurs                                                       (* -1, ECHILD; the stream stays *)
| Closed (t : tab) (w : list child) (tr : list happening) (r : Z + Z)
| Waiting (t : tab)
| Fuel.
Definition pclose (fuel : nat) (own : Z) (t : tab) (s : stream) (w : list child) (tr : list happening) : closed :=
  match child_pid s with
  | None => NotOurs
  | Some pid =>
      let t := close t (fd s) in
      match waitpid fuel own false w tr pid 0 with
      | Ret w tr (inl _) status => Closed t w tr (inl status)
      | Ret w tr (inr e) _ => Closed t w tr (inr e)
      | Waits => Waiting t
      | NoFuel => Fuel
      end
  end.

(* system.  The child runs the shell or, if that fails, exit(127), which writes out what the caller's
   streams have unwritten (C93): unwritten is the list of descriptors and texts; out is what has been written
   to open files, in order. *)
Definition flush (t : tab) (unwritten : list (Z * list Z)) (out : list (Z * list Z)) : list (Z * list Z) :=
  out ++ flat_map (fun x => match t (fst x) with Some (f, _) => [(f, snd x)] | None => [] end) unwritten.
Definition child_fails (t : tab) (unwritten out : list (Z * list Z)) : list (Z * list Z) := flush t unwritten out.
(* command null (1622-1630) or not; what waitpid makes of the child pid *)
Definition system (fuel : nat) (own : Z) (fork : option Z) (w : list child) (tr : list happening) : outcome :=
  match fork with
  | None => Ret w tr (inr 11) 0
  | Some pid =>
      match waitpid fuel own false w tr pid 0 with
      | Ret w tr (inl _) status => Ret w tr (inl status) status
      | o => o
      end
  end.
Definition system_null (fuel : nat) (own : Z) (fork : option Z) (w : list child) (tr : list happening) : option Z :=
  match system fuel own fork w tr with
  | Ret _ _ (inl status) _ => Some (if status =? 0 then 1 else 0)
  | Ret _ _ (inr _) _ => Some 0
  | _ => None
  end.
