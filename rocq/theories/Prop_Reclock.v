(* Property theorems: C104, record locks. *)
From Coq Require Import ZArith List Bool Lia.
From Verif Require Import Base Reclock_spec Reclock_model Reclock_proofs.
Import ListNotations.
Open Scope Z_scope.

(* C104.  fcntl with F_SETLK or F_OFD_SETLK and SEEK_SET: a section beginning before the file
   or an unknown type is EINVAL, otherwise the file system is asked to lock or unlock exactly
   the bytes of the section, exclusively for F_WRLCK, for the process or the open file. *)
Theorem C104_setlk_partial : forall ofd ty start len pid pos size, off_t start -> off_t len -> - 2 ^ 63 <= start + (if len <? 0 then len else 0) -> len <> - 2 ^ 63 ->
  let r := Fl ty SEEK_SET start len pid in let sec := section Set_ start len pos size in
  if first Set_ start len pos size <? 0 then setlk ofd r = Ok (inr EINVAL)
  else if ty =? F_UNLCK then exists c, setlk ofd r = Ok (inl c) /\ unlocks ofd c sec
  else if (ty =? F_RDLCK) || (ty =? F_WRLCK) then exists c, setlk ofd r = Ok (inl c) /\ locks ofd (ty =? F_WRLCK) c sec
  else setlk ofd r = Ok (inr EINVAL).
Proof. exact setlk_ok. Qed.
Print Assumptions C104_setlk_partial.

Example C104_case : setlk false (Fl F_WRLCK SEEK_SET 100 (-10) 0) = Ok (inl (Lock 90 (10 + 2 ^ 63))) /\
  section Set_ 100 (-10) 5 50 90 /\ ~ section Set_ 100 (-10) 5 50 100.
Proof. split; [reflexivity|]. cbv. split; [split; [discriminate|reflexivity]|intros (_ & H); discriminate]. Qed.

(* F_GETLK with SEEK_SET asks about exactly the section; without a lock in the way only the
   type changes, to F_UNLCK; a lock in the way is described if it begins where the section
   begins *)
Theorem C104_getlk_partial : forall ty start len pid pos size ask, off_t start -> off_t len -> - 2 ^ 63 <= start + (if len <? 0 then len else 0) -> len <> - 2 ^ 63 ->
  0 <= first Set_ start len pos size ->
  let r := Fl ty SEEK_SET start len pid in
  exists a b, Z.testbit a 63 = false /\ Z.testbit b 63 = (ty =? F_WRLCK) /\ (forall x, fs_range a b x <-> section Set_ start len pos size x) /\
    match ask a b with
    | inr e => getlk false ask r = Ok (if e =? ESRCH then (Fl F_UNLCK SEEK_SET start len pid, inl 0) else (r, inr e))
    | inl (owner, s, n) => Z.land s (top - 1) = Z.land a (top - 1) ->
        exists f, getlk false ask r = Ok (f, inl 0) /\ l_pid f = owner /\ l_type f = (if Z.testbit n 63 then F_WRLCK else F_RDLCK) /\
          l_whence f = SEEK_SET /\ l_start f = Z.land s (top - 1) /\ l_len f = Z.land n (top - 1)
    end.
Proof. exact getlk_ok. Qed.
Print Assumptions C104_getlk_partial.

(* relative to the offset or the end of the file, whatever section is asked for, the whole
   file is locked, also the byte 0 for a lock of the one byte at 1000 *)
Theorem C104_whence_refuted : forall ofd w pid, w <> Set_ ->
  (forall start len, exists a b, setlk ofd (Fl F_WRLCK (whence_of w) start len pid) = Ok (inl (Lock a b)) /\ forall x, 0 <= x -> fs_range a b x) /\ ~ section w 0 1 1000 1000 0.
Proof.
  intros ofd w pid N. split; [|destruct w; [contradiction| |]; cbv; intros (H & _); apply H; reflexivity].
  intros start len. destruct w; [contradiction| |]; eexists; eexists; (split; [reflexivity|]); intros x X; unfold fs_range; destruct ofd; exact X.
Qed.
Print Assumptions C104_whence_refuted.

(* lockf(fd, F_ULOCK, 1) releases every lock of the file, not only the byte at the offset *)
Theorem C104_lockf_refuted : forall size, exists a b, lockf_set F_ULOCK size = Some (Ok (inl (Unlock a b))) /\ forall x, 0 <= x -> fs_range a b x.
Proof. intro size. eexists. eexists. split; [reflexivity|]. intros x X. exact X. Qed.
Print Assumptions C104_lockf_refuted.

(* F_GETLK for the first 100 bytes, with a lock of process 7 on bytes 50 to 59: the lock is
   reported to begin at 0 *)
Theorem C104_start_refuted : exists f, getlk false (fun _ _ => inl (7, 50, 10 + 2 ^ 63)) (Fl F_WRLCK SEEK_SET 0 100 0) = Ok (f, inl 0) /\
  l_pid f = 7 /\ l_len f = 10 /\ l_start f = 0.
Proof. eexists. split; [reflexivity|]. repeat split; reflexivity. Qed.
Print Assumptions C104_start_refuted.

(* F_OFD_GETLK reports a negative start *)
Theorem C104_ofd_refuted : forall val s n, exists f, getlk true (fun _ _ => inl (val, s, n)) (Fl F_WRLCK SEEK_SET 0 100 0) = Ok (f, inl 0) /\ l_start f < 0.
Proof. intros. eexists. split; [reflexivity|]. reflexivity. Qed.
Print Assumptions C104_ofd_refuted.

(* flock excludes nobody: two exclusive locks through different descriptors succeed *)
Theorem C104_flock_refuted : forall fd1 fd2, flock_fn fd1 2 = inl 0 /\ flock_fn fd2 2 = inl 0.
Proof. split; reflexivity. Qed.
Print Assumptions C104_flock_refuted.
