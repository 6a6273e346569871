(* C166: on aarch64 and i686, a signal handler that returns leaves the interrupted program's registers as they were. *)
From Verif Require Import Base Sigother_model Sigother_spec.

(* C166 full: resumed_arm c (sigentry_arm c chosen after) and resumed_x86 c (sigentry_x86 c o chosen after).
   Missing, refuted: x1, x2, x18 and the vector registers on aarch64; the x87 tags and stack pointer and the upper halves of ymm on i686. *)
Theorem C166_arm_partial : forall c chosen after, let d := sigentry_arm c chosen after in
  (forall i, 0 <= i < 31 -> i <> 1 -> i <> 2 -> i <> 18 -> x d i = x c i) /\ sp d = sp c /\ pc d = pc c /\ nzcv d = nzcv c.
Proof.
  intros c chosen after d. subst d. split; [|repeat split].
  intros i I N1 N2 N18.
  assert (E : exists n, (n < 31)%nat /\ i = Z.of_nat n) by (exists (Z.to_nat i); lia). destruct E as (n & L & ->). clear I.
  do 31 (destruct n as [|n]; [try (exfalso; lia); reflexivity|]). lia.
Qed.
Print Assumptions C166_arm_partial.
Definition running : arm := Arm (fun i => 100 + i) 4096 8192 6 (fun i => 200 + i).
Definition handled : arm := Arm (fun i => 7) 8 9 10 (fun i => 11).
Example C166_arm_case : x (sigentry_arm running (fun _ => 5) handled) 0 = 100 /\ x (sigentry_arm running (fun _ => 5) handled) 30 = 130 /\ pc (sigentry_arm running (fun _ => 5) handled) = 8192.
Proof.
  destruct (C166_arm_partial running (fun _ => 5) handled) as (A & _ & B & _).
  rewrite (A 0), (A 30), B by lia. repeat split.
Qed.
(* x1 and x2 are stored in one order and loaded in the other *)
Theorem C166_exchanged_refuted : forall c chosen after, let d := sigentry_arm c chosen after in x d 1 = x c 2 /\ x d 2 = x c 1.
Proof. intros. split; reflexivity. Qed.
Print Assumptions C166_exchanged_refuted.
Example C166_exchanged_case : ~ resumed_arm running (sigentry_arm running (fun _ => 5) handled).
Proof. intros (A & _). specialize (A 1 ltac:(lia)). rewrite (proj1 (C166_exchanged_refuted running (fun _ => 5) handled)) in A. discriminate A. Qed.
(* x18 holds the address resumed at; the vector registers are not saved: they hold what the handler left *)
Theorem C166_lost_refuted : forall c chosen after, let d := sigentry_arm c chosen after in x d 18 = pc c /\ forall i, v d i = v after i.
Proof. intros. split; reflexivity. Qed.
Print Assumptions C166_lost_refuted.
Example C166_lost_case : x (sigentry_arm running (fun _ => 5) handled) 18 = 8192 /\ v (sigentry_arm running (fun _ => 5) handled) 0 = 11 /\ v running 0 = 200.
Proof. destruct (C166_lost_refuted running (fun _ => 5) handled) as (A & B). rewrite A, B. repeat split. Qed.

Theorem C166_x86_partial : forall c o chosen after, let d := sigentry_x86 c o chosen after in
  (forall i, 0 <= i < 8 -> r d i = r c i) /\ eip d = eip c /\ eflags d = eflags c /\ (forall i, xmm d i = xmm c i) /\ (o = Dequeued -> tags d = tags c /\ top d = top c).
Proof.
  intros c o chosen after d. subst d. split; [|repeat split; intros; subst; reflexivity].
  intros i I. assert (E : i = 0 \/ i = 1 \/ i = 2 \/ i = 3 \/ i = 4 \/ i = 5 \/ i = 6 \/ i = 7) by lia.
  repeat (destruct E as [-> | E]; [destruct o; reflexivity|]). subst i. destruct o; reflexivity.
Qed.
Print Assumptions C166_x86_partial.
Definition busy32 : x86 := X86 (fun i => 100 + i) 4096 514 (fun i => 200 + i) (fun i => 300 + i) 128 7.
Definition left32 : x86 := X86 (fun i => 7) 8 9 (fun i => 10) (fun i => 11) 0 0.
Example C166_x86_case : r (sigentry_x86 busy32 Thread (fun _ => 5) left32) ecx = 101 /\ r (sigentry_x86 busy32 Dequeued (fun _ => 5) left32) esp = 104.
Proof.
  destruct (C166_x86_partial busy32 Thread (fun _ => 5) left32) as (A & _). destruct (C166_x86_partial busy32 Dequeued (fun _ => 5) left32) as (B & _).
  rewrite (A ecx), (B esp) by (unfold ecx, esp; lia). repeat split.
Qed.
(* reading the sender with an MMX register marks all x87 registers as in use, before fxsave: the program's next load overflows the x87 stack *)
Theorem C166_x87_refuted : forall c o chosen after, o <> Dequeued -> let d := sigentry_x86 c o chosen after in tags d = 255 /\ top d = 0.
Proof. intros c o chosen after N. destruct o; try (exfalso; apply N; reflexivity); split; reflexivity. Qed.
Print Assumptions C166_x87_refuted.
Example C166_x87_case : ~ resumed_x86 busy32 (sigentry_x86 busy32 Thread (fun _ => 5) left32).
Proof. intros (_ & _ & _ & _ & A & _). rewrite (proj1 (C166_x87_refuted busy32 Thread (fun _ => 5) left32 ltac:(discriminate))) in A. discriminate A. Qed.
(* the upper halves of ymm are not saved *)
Theorem C166_upper_refuted : forall c o chosen after i, upper (sigentry_x86 c o chosen after) i = upper after i.
Proof. reflexivity. Qed.
Print Assumptions C166_upper_refuted.
Example C166_upper_case : upper (sigentry_x86 busy32 Thread (fun _ => 5) left32) 0 = 11 /\ upper busy32 0 = 300.
Proof. rewrite C166_upper_refuted. split; reflexivity. Qed.
