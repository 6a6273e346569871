(* Property theorems: C102, descriptors. *)
From Coq Require Import ZArith List Bool Arith Lia.
From Verif Require Import Fdtbl_spec Fdtbl_model Fdtbl_proofs.
Import ListNotations.

(* C102.  A process that starts with the descriptors files and makes any calls to open, dup,
   dup2, fcntl, close and pipe2: every call answers what POSIX says, the lowest free
   descriptors in particular, the kernel's table holds what it should, and exec leaves
   exactly the descriptors without close-on-exec.  Left out (fine): F_DUPFD with a minimum
   above the lowest free descriptor, dup2 of a closed descriptor onto an open one, dup2 of
   a descriptor with close-on-exec onto itself, and running out of descriptors. *)
Theorem C102_descriptors_partial : forall max n l files ops answers s,
  Forall (fun fd => fd < max) l -> (forall k, files k <> None <-> In k l) -> runs (fine max 0) (begin files) ops answers s ->
  exists t st, from_kernel max n l = Some t /\ steps max (t, files) ops = (st, answers) /\
    (forall k, snd st k = files_of s k) /\ (forall k, exec st k = kept s k).
Proof. exact run_ok. Qed.
Print Assumptions C102_descriptors_partial.

(* descriptor 3 is opened with close-on-exec, 0 is closed, and a pipe takes 0 and 4 *)
Example C102_case : let ops := [Open (inl 7%Z) true; Close 0; Pipe (inl (8%Z, 9%Z)) false; GetFd 3; GetFd 5] in
  exists s, runs (fine 20 0) (begin three) ops [Fd 3; Done; Fds 0 4; Flag true; Err 9%Z] s.
Proof.
  cbv zeta.
  assert (FEW : forall s n, (forall k, s k <> None -> k < 5) -> n < 10 -> few 20 n s).
  { intros s n B N l D I. assert (length l <= length (seq 0 5)); [|cbn in *; lia]. apply NoDup_incl_length; [exact D|]. intros k K. apply in_seq. specialize (B k (I k K)). lia. }
  set (s1 := fun k => if k =? 3 then Some (7%Z, true) else begin three k).
  set (s2 := fun k => if k =? 0 then None else s1 k).
  set (s3 := fun k => if k =? 0 then Some (8%Z, false) else s2 k).
  set (s4 := fun k => if k =? 4 then Some (9%Z, false) else s3 k).
  assert (UPD : forall (s : fds) h x, updated s (fun k => if k =? h then x else s k) h x).
  { intros s h x. split; [rewrite Nat.eqb_refl; reflexivity|]. intros k N. destruct (Nat.eqb_spec k h); [contradiction|reflexivity]. }
  assert (B1 : forall k, begin three k <> None -> k < 5) by (intros k N; unfold begin, three in N; destruct (Nat.ltb_spec k 3); [lia|contradiction]).
  assert (B2 : forall k, s2 k <> None -> k < 5).
  { intros k N. unfold s2, s1 in N. destruct (Nat.eqb_spec k 0); [contradiction|]. destruct (Nat.eqb_spec k 3); [lia|apply B1, N]. }
  exists s4. eapply R_call with (t1 := s1); [apply FEW; [exact B1|lia]|apply D_open; [|apply UPD]|].
  { split; [lia|]. split; [reflexivity|]. intros [|[|[|i]]] I; try discriminate. lia. }
  eapply R_call with (t1 := s2); [exact I|eapply D_close; [reflexivity|apply UPD]|].
  eapply R_call with (t1 := s4); [apply FEW; [exact B2|lia]|eapply D_pipe with (t1 := s3); [|apply UPD| |apply UPD]|].
  { split; [lia|]. split; [reflexivity|]. intros i I. lia. }
  { split; [lia|]. split; [reflexivity|]. intros [|[|[|[|i]]]] I; try discriminate. lia. }
  eapply R_call with (t1 := s4); [exact I|eapply D_getfd with (f := 7%Z); [reflexivity|intro; reflexivity]|].
  eapply R_call with (t1 := s4); [exact I|eapply D_getfd_bad; [reflexivity|intro; reflexivity]|]. apply R_end. intro; reflexivity.
Qed.

(* dup2 of the closed descriptor 9 onto 2 must leave 2 open; afterwards F_GETFD of 2 fails
   though 2 is open in the kernel, and the next open is given 2 *)
Theorem C102_dup2_refuted : exists t st, from_kernel 20 8 [0; 1; 2] = Some t /\
  steps 20 (t, three) [Dup2 9 2; GetFd 2] = (st, [Err 9%Z; Err 9%Z]) /\ snd st 2 = Some 100%Z /\
  snd (step 20 st (Open (inl 7%Z) false)) = Fd 2 /\
  runs (fun _ _ => True) (begin three) [Dup2 9 2; GetFd 2] [Err 9%Z; Flag false] (begin three).
Proof.
  eexists. eexists. split; [vm_compute; reflexivity|]. split; [cbn; reflexivity|]. split; [reflexivity|]. split; [reflexivity|].
  eapply R_call with (t1 := begin three); [exact I|apply D_dup2_bad; [reflexivity|intro; reflexivity]|].
  eapply R_call with (t1 := begin three); [exact I|eapply D_getfd with (f := 100%Z); [reflexivity|intro; reflexivity]|]. apply R_end. intro; reflexivity.
Qed.
Print Assumptions C102_dup2_refuted.

(* dup2 of a descriptor onto itself clears its close-on-exec flag *)
Theorem C102_same_refuted : exists t st, from_kernel 20 8 [0; 1; 2] = Some t /\
  steps 20 (t, three) [SetFd 2 true; Dup2 2 2; GetFd 2] = (st, [Done; Fd 2; Flag false]) /\
  exists s, runs (fun _ _ => True) (begin three) [SetFd 2 true; Dup2 2 2; GetFd 2] [Done; Fd 2; Flag true] s.
Proof.
  eexists. eexists. split; [vm_compute; reflexivity|]. split; [cbn; reflexivity|].
  set (s := fun k => if k =? 2 then Some (100%Z, true) else begin three k). exists s.
  eapply R_call with (t1 := s); [exact I|eapply D_setfd with (f := 100%Z) (b := false); [reflexivity|]|].
  { split; [reflexivity|]. intros k N. unfold s. destruct (Nat.eqb_spec k 2); [contradiction|reflexivity]. }
  eapply R_call with (t1 := s); [exact I|eapply D_dup2_same; [reflexivity|intro; reflexivity]|].
  eapply R_call with (t1 := s); [exact I|eapply D_getfd with (f := 100%Z); [reflexivity|intro; reflexivity]|]. apply R_end. intro; reflexivity.
Qed.
Print Assumptions C102_same_refuted.

(* fcntl(1, F_DUPFD, 10) must answer 10 and answers 3 *)
Theorem C102_minimum_refuted : exists t st, from_kernel 20 8 [0; 1; 2] = Some t /\
  step 20 (t, three) (DupFd 1 10 false) = (st, Fd 3) /\ exists s, does (begin three) (DupFd 1 10 false) (Fd 10) s.
Proof.
  eexists. eexists. split; [vm_compute; reflexivity|]. split; [cbn; reflexivity|].
  exists (fun k => if k =? 10 then Some (100%Z, false) else begin three k). eapply D_dupfd; [reflexivity| |].
  - split; [lia|]. split; [reflexivity|]. intros i I. lia.
  - split; [reflexivity|]. intros k N. destruct (Nat.eqb_spec k 10); [contradiction|reflexivity].
Qed.
Print Assumptions C102_minimum_refuted.
