(* C165: the alternate signal stack. *)
From Verif Require Import Base Altstack_model Altstack_spec Altstack_proofs.

(* C165 full: sigaltstack sets, disables and reports the alternate stack as said in `effect` and `report`, refuses flags other than SS_DISABLE, and changes nothing when it fails.  A signal
   with SA_ONSTACK is handled from the end of the alternate stack, aligned, or, on it already, below what is in use; another on the current stack.
   Missing, refuted: SS_ONSTACK is accepted; the end is not aligned; near the start of the alternate stack the handler starts again at the end. *)
Theorem C165_history_partial : forall l, Forall (fun c => sensible (snd (fst c))) l -> results initial l = expected None l.
Proof. intros l F. exact (history_ok l None initial eq_refl F). Qed.
Print Assumptions C165_history_partial.
Definition some_calls : calls := [(100000, Some (Stack 4096 0 8192), Some (Stack 0 0 0)); (5000, Some (Stack 0 2 0), Some (Stack 7 7 7)); (100000, None, Some (Stack 0 0 0)); (100000, Some (Stack 4096 0 100), None)].
Example C165_history_case : results initial some_calls = [(Some (Stack 0 2 0), 0); (Some (Stack 7 7 7), 1); (Some (Stack 4096 0 8192), 0); (None, 12)].
Proof. reflexivity. Qed.
Example C165_history_hyp : results initial [(100000, Some (Stack 4096 0 8192), None); (100000, None, Some (Stack 0 0 0))] = expected None [(100000, Some (Stack 4096 0 8192), None); (100000, None, Some (Stack 0 0 0))].
Proof. apply C165_history_partial. repeat constructor; cbn; unfold MAX; lia. Qed.
(* not on it: the handler starts at its end *)
Theorem C165_switch : forall b n a sp, is_area (Some (b, n)) a -> sp <= b \/ b + n + 144 <= sp -> delivered a true sp = b + n.
Proof. exact deliver_switch. Qed.
Print Assumptions C165_switch.
Example C165_switch_case : delivered (Area 12288 4096) true 100000 = 12288.
Proof. apply (C165_switch 4096 8192); [repeat split; unfold MAX; lia|lia]. Qed.
(* on it with some room, or without SA_ONSTACK, or without an alternate stack: on the current stack, below what is in use and the red zone *)
Theorem C165_stay : forall s a f sp, is_area s a -> sp <= MAX -> 144 <= sp -> (f = false \/ s = None \/ exists b n, s = Some (b, n) /\ b + 144 <= sp <= b + n) ->
  let p := delivered a f sp in sp - 144 < p <= sp - 128 /\ p mod 16 = 0.
Proof. exact deliver_stay. Qed.
Print Assumptions C165_stay.
Example C165_stay_case : let p := delivered (Area 12288 4096) true 8000 in 7856 < p <= 7872 /\ p mod 16 = 0.
Proof. apply (C165_stay (Some (4096, 8192)) (Area 12288 4096) true 8000); [repeat split; unfold MAX; lia|unfold MAX; lia|lia|]. right. right. exists 4096, 8192. split; [reflexivity|lia]. Qed.
(* a stack whose end is no multiple of 16 is accepted, and the handler's frame, in which fxsave64 saves registers at multiples of 16, starts there *)
Theorem C165_aligned_refuted : exists a, sigaltstack initial 100000 (Some (Stack 4096 0 8200)) None = (a, None, 0) /\ delivered a true 100000 mod 16 = 8.
Proof. exists (Area 12296 4096). split; reflexivity. Qed.
Print Assumptions C165_aligned_refuted.
(* a second signal when less than 128 bytes are left: the frames in use are overwritten *)
Theorem C165_nested_refuted : exists a sp, is_area (Some (4096, 8192)) a /\ on (Some (4096, 8192)) sp = true /\ sp < delivered a true sp.
Proof. exists (Area 12288 4096), 4200. repeat split; unfold MAX; lia. Qed.
Print Assumptions C165_nested_refuted.
(* POSIX: EINVAL for flags other than SS_DISABLE *)
Theorem C165_flags_refuted : exists s, ss_flags s = SS_ONSTACK /\ snd (sigaltstack initial 100000 (Some s) None) = 0.
Proof. exists (Stack 4096 1 8192). split; reflexivity. Qed.
Print Assumptions C165_flags_refuted.
