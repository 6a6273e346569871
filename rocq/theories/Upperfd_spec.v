(* What a user of relibc's own descriptors (the upper table) relies on, said with
   u, which gives the flags of every descriptor in use, and n, the number of descriptors in
   use in the whole process. *)
From Coq Require Import ZArith List Bool.
Import ListNotations.
Open Scope Z_scope.

(* UPPER_FDTBL_TAG, O_CLOEXEC and the error numbers of the redox_syscall crate *)
Definition TAG : Z := 4611686018427387904.
Definition CLOEXEC : Z := 16777216.
Definition MAXF : Z := 65536.
Definition EBADF : Z := 9.
Definition EEXIST : Z := 17.
Definition EINVAL : Z := 22.
Definition EMFILE : Z := 24.

Inductive op : Type :=
| Insert (flags : Z)                      (* any free descriptor *)
| Override (fd : Z)                       (* this one, whatever it was *)
| Bulk (fds : list Z) (flags : Z)         (* these, or any when the first is usize::MAX *)
| Remove (fd : Z)
| GetFlags (fd : Z)
| SetFlags (fd : Z) (raw : Z)
| OtherOpen | OtherClose.                 (* one more, one less, in the POSIX table *)
Inductive ans : Type := Fds (ds : list Z) | Flags (f : Z) | Unit | Err (e : Z).

(* a descriptor of the upper table, and its position *)
Definition upper (d : Z) : Prop := 0 <= d < 2 ^ 64 /\ Z.testbit d 62 = true.
Definition index (d : Z) : Z := d - TAG.
(* the descriptor a number names when the upper table is meant, tagged or not *)
Definition named (d : Z) : Z := if Z.testbit d 62 then d else d + TAG.

Definition view := Z -> option Z.
Definition put (u : view) (d : Z) (f : option Z) : view := fun x => if x =? d then f else u x.
Fixpoint put_all (u : view) (ds : list Z) (f : Z) : view :=
  match ds with [] => u | d :: r => put_all (put u d (Some f)) r f end.
Definition same (u v : view) : Prop := forall d, u d = v d.

(* n descriptors are in use *)
Definition counts (u : view) (n : Z) : Prop :=
  exists ds, NoDup ds /\ (forall d, In d ds <-> u d <> None) /\ n = Z.of_nat (length ds).

(* k is what the kernel answers a request to grow its table to a size: None for success, else
   the error; EINVAL says that the table has that size already *)
Definition kernel := Z -> option Z.
Definition refused (k : kernel) (e : Z) : Prop := (exists n, k n = Some e) /\ e <> EINVAL.
Definition cloexec (f : Z) : bool := Z.testbit f 24.

Definition size (l : list Z) : Z := Z.of_nat (length l).

Definition does (k : kernel) (o : op) (a : ans) (u : view) (n : Z) (u' : view) (n' : Z) : Prop :=
  match o with
  | Insert fl =>
      (exists d, a = Fds [d] /\ n < MAXF /\ upper d /\ u d = None
                 /\ same u' (put u d (Some (fl mod 2 ^ 32))) /\ n' = n + 1)
      \/ (exists e, a = Err e /\ same u' u /\ n' = n
                    /\ ((e = EMFILE /\ MAXF <= n) \/ (n < MAXF /\ refused k e)))
  | Override d =>
      (a = Fds [d] /\ same u' (put u d (Some 0)) /\ n' = match u d with None => n + 1 | Some _ => n end)
      \/ (exists e, a = Err e /\ refused k e /\ u d = None /\ same u' u /\ n' = n)
  | Bulk fds fl =>
      match fds with
      | [] => a = Fds [] /\ same u' u /\ n' = n
      | first :: _ =>
          if first =? 2 ^ 64 - 1 then
            (exists d ds, a = Fds ds /\ size ds = size fds /\ n + size fds <= MAXF
               /\ (forall i, 0 <= i < size fds -> nth_error ds (Z.to_nat i) = Some (d + i) /\ upper (d + i) /\ u (d + i) = None)
               /\ same u' (put_all u ds (fl mod 2 ^ 32)) /\ n' = n + size fds)
            \/ (exists e, a = Err e /\ same u' u /\ n' = n
                  /\ ((e = EMFILE /\ MAXF < n + size fds) \/ (n + size fds <= MAXF /\ refused k e)))
          else
            let ds := map named fds in
            let good := n + size fds <= MAXF /\ NoDup ds
                        /\ (forall d, In d ds -> index d < MAXF /\ u d = None) in
            (a = Fds fds /\ good /\ same u' (put_all u ds (fl mod 2 ^ 32)) /\ n' = n + size fds)
            \/ (exists e, a = Err e /\ same u' u /\ n' = n
                  /\ ((e = EMFILE /\ (MAXF < n + size fds \/ exists d, In d ds /\ MAXF <= index d))
                      \/ (e = EBADF /\ ~ NoDup ds)
                      \/ (e = EEXIST /\ exists d, In d ds /\ u d <> None)
                      \/ (good /\ refused k e)))
      end
  | Remove d =>
      match u d with
      | Some _ => a = Unit /\ same u' (put u d None) /\ n' = n - 1
      | None => a = Err EBADF /\ same u' u /\ n' = n
      end
  | GetFlags d =>
      same u' u /\ n' = n
      /\ a = match u d with Some f => Flags (if cloexec f then CLOEXEC else 0) | None => Err EBADF end
  | SetFlags d raw =>
      n' = n
      /\ match u d with
         | Some f => a = Unit /\ exists f', same u' (put u d (Some f')) /\ cloexec f' = cloexec raw
                     /\ (forall b, b <> 24 -> Z.testbit f' b = Z.testbit f b)
         | None => a = Err EBADF /\ same u' u
         end
  | OtherOpen =>
      same u' u /\ ((a = Unit /\ n < MAXF /\ n' = n + 1) \/ (a = Err EMFILE /\ MAXF <= n /\ n' = n))
  | OtherClose => same u' u /\ a = Unit /\ n' = n - 1
  end.

(* the descriptors an operation names are numbers of the upper table *)
Definition proper (o : op) : Prop :=
  match o with
  | Override d | Remove d | GetFlags d | SetFlags d _ => upper d
  | Bulk fds _ => forall d, In d fds -> 0 <= d < 2 ^ 64
  | _ => True
  end.
