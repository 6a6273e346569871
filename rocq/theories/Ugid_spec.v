(* Specification for C160: what the calls that set ids ask for. *)
From Verif Require Import Base Ugid_model.

Inductive call :=
| Setresuid (r e v : Z) | Setreuid (r e : Z) | Seteuid (u : Z) | Setuid (u : Z)
| Setresgid (r e v : Z) | Setregid (r e : Z) | Setegid (g : Z) | Setgid (g : Z).
Definition perform (p : policy) (s : state) (c : call) : state * Z * option Z :=
  match c with
  | Setresuid r e v => setresuid p s r e v | Setreuid r e => setreuid p s r e | Seteuid u => seteuid p s u | Setuid u => setuid p s u
  | Setresgid r e v => setresgid p s r e v | Setregid r e => setregid p s r e | Setegid g => setegid p s g | Setgid g => setgid p s g
  end.
Fixpoint run (s : state) (l : list (policy * call)) : state := match l with [] => s | (p, c) :: l => run (fst (fst (perform p s c))) l end.
(* an argument of -1 leaves the id *)
Definition given (old new : Z) : Z := if new =? -1 then old else new.
Definition args (c : call) : list Z :=
  match c with Setresuid r e v | Setresgid r e v => [r; e; v] | Setreuid r e | Setregid r e => [r; e] | Seteuid u | Setuid u | Setegid u | Setgid u => [u] end.
Definition user (c : call) : bool := match c with Setresuid _ _ _ | Setreuid _ _ | Seteuid _ | Setuid _ => true | _ => false end.
Definition three (c : call) (i : ids) : Z * Z * Z := if user c then (ruid i, euid i, suid i) else (rgid i, egid i, sgid i).
Definition others (c : call) (i : ids) : Z * Z * Z := if user c then (rgid i, egid i, sgid i) else (ruid i, euid i, suid i).
(* real, effective, saved id afterwards; None: not said here *)
Definition becomes (c : call) (old : Z * Z * Z) : option Z * option Z * option Z :=
  let '(r0, e0, s0) := old in
  match c with
  | Setresuid r e v | Setresgid r e v => (Some (given r0 r), Some (given e0 e), Some (given s0 v))
  | Setreuid r e | Setregid r e => (Some (given r0 r), Some (given e0 e), None)
  | Seteuid u | Setegid u => (Some r0, Some u, Some s0)
  | Setuid u | Setgid u => (None, Some u, None)
  end.
Definition meets (o : option Z) (v : Z) : Prop := match o with Some w => v = w | None => True end.
Definition small (i : ids) : Prop := Forall (fun v => 0 <= v < 2 ^ 31) [ruid i; euid i; suid i; rgid i; egid i; sgid i].
Definition wf (s : state) : Prop := copy s = manager s /\ small (manager s).
(* ids are ints, -1 or not negative *)
Definition int (v : Z) : Prop := - 2 ^ 31 <= v < 2 ^ 31.
Definition ints (c : call) : Prop := Forall int (args c).
(* the numbers a call sends to the manager, 4294967295 for an id to be left; None: not said here *)
Definition num (v : Z) : Z := if v =? -1 then 4294967295 else v.
Definition six (u : bool) (r e v : Z) : list Z :=
  if u then [num r; num e; num v; num (-1); num (-1); num (-1)] else [num (-1); num (-1); num (-1); num r; num e; num v].
Definition request (c : call) : option (list Z) :=
  match c with
  | Setresuid r e v | Setresgid r e v => Some (six (user c) r e v)
  | Setreuid r e | Setregid r e => Some (six (user c) r e (-1))
  | Seteuid u | Setegid u => Some (six (user c) (-1) u (-1))
  | Setuid _ | Setgid _ => None
  end.
(* what a Unix kernel allows: user 0 everything, others the ids they have *)
Definition unix (i : ids) (l : list Z) : option Z :=
  match l with
  | [a; b; c; d; e; f] =>
      if (euid i =? 0) || (forallb (fun v => (v =? 4294967295) || (v =? ruid i) || (v =? euid i) || (v =? suid i)) [a; b; c] &&
                           forallb (fun v => (v =? 4294967295) || (v =? rgid i) || (v =? egid i) || (v =? sgid i)) [d; e; f]) then None else Some 1
  | _ => Some 22
  end.
