(* C164: a signal handler that returns leaves the interrupted program's registers as they were. *)
From Verif Require Import Base Sigentry_model Sigentry_spec.

(* C164 full: resumed c (sigentry avx c s chosen start after).  Missing, refuted: rcx, always; r11 for realtime signals that are dequeued; the upper halves of ymm2 to ymm15. *)
Theorem C164_resume_partial : forall avx c s chosen start after, let d := sigentry avx c s chosen start after in
  same_registers (fun x => x <> RCX /\ (s = Dequeued -> x <> R11)) c d /\ rip d = rip c /\ flags d = flags c /\ (forall i, lo d i = lo c i) /\ (avx = true -> forall i, 0 <= i < 2 -> hi d i = hi c i).
Proof.
  intros avx c s chosen start after d. subst d. split; [|split; [destruct s; lazy -[Z.modulo Z.add]; reflexivity|split; [destruct s; lazy -[Z.modulo Z.add]; reflexivity|split; [intro i; lazy -[Z.modulo Z.add]; reflexivity|]]]].
  - intros x [N R]. destruct s, x; try (exfalso; apply N; reflexivity); try (exfalso; apply (R eq_refl); reflexivity); lazy -[Z.modulo Z.add]; reflexivity.
  - intros -> i I. assert (E : i = 0 \/ i = 1) by lia. destruct E as [-> | ->]; destruct s; lazy -[Z.modulo Z.add]; reflexivity.
Qed.
Print Assumptions C164_resume_partial.
Definition busy : cpu := Cpu (fun r => 1000 + num r) 4096 514 (fun i => 2000 + i) (fun i => 3000 + i).
Definition left : cpu := Cpu (fun r => 7) 8 9 (fun i => 10) (fun i => 11).
Example C164_resume_case : g (sigentry true busy Thread (fun _ => 15) 65536 left) RAX = 1000 /\ g (sigentry true busy Thread (fun _ => 15) 65536 left) RSP = 1004 /\ rip (sigentry true busy Thread (fun _ => 15) 65536 left) = 4096.
Proof.
  destruct (C164_resume_partial true busy Thread (fun _ => 15) 65536 left) as (A & B & _).
  rewrite (A RAX), (A RSP), B by (split; discriminate). repeat split.
Qed.
(* rcx is used before it is saved: whatever it held, the program finds the number of the signal in it *)
Theorem C164_rcx_refuted : forall avx c s chosen start after, g (sigentry avx c s chosen start after) RCX = chosen RAX mod 64.
Proof. intros avx c s chosen start after. destruct s; lazy -[Z.modulo Z.add]; reflexivity. Qed.
Print Assumptions C164_rcx_refuted.
Example C164_rcx_case : ~ resumed busy (sigentry true busy Thread (fun _ => 15) 65536 left).
Proof. intros (A & _). pose proof (A RCX) as R. rewrite C164_rcx_refuted in R. vm_compute in R. discriminate R. Qed.
(* r11 holds what the system call left in it *)
Theorem C164_r11_refuted : forall avx c chosen start after, g (sigentry avx c Dequeued chosen start after) R11 = chosen R11.
Proof. intros avx c chosen start after. lazy -[Z.modulo Z.add]. reflexivity. Qed.
Print Assumptions C164_r11_refuted.
(* the upper half of ymm2 is that of ymm15, those of ymm3 to ymm15 are what the handler left *)
Theorem C164_ymm_refuted : forall c s chosen start after, let d := sigentry true c s chosen start after in
  hi d 2 = hi c 15 /\ forall i, 3 <= i < 16 -> hi d i = hi after i.
Proof.
  intros c s chosen start after d. split; [lazy -[Z.modulo Z.add]; reflexivity|]. intros i I.
  assert (E : i = 3 \/ i = 4 \/ i = 5 \/ i = 6 \/ i = 7 \/ i = 8 \/ i = 9 \/ i = 10 \/ i = 11 \/ i = 12 \/ i = 13 \/ i = 14 \/ i = 15) by lia.
  repeat (destruct E as [-> | E]; [lazy -[Z.modulo Z.add]; reflexivity|]). subst i. lazy -[Z.modulo Z.add]. reflexivity.
Qed.
Print Assumptions C164_ymm_refuted.
