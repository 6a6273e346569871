(* Property C140: epoll keeps the interest list and reports what happened to it, in time. *)
From Verif Require Import Base Epoll_model Epoll_spec Epoll_proofs.

(* C140, wait: the records of descriptors that the kernel delivers, and no others, are in the caller's array
   in their order, with the conditions and the caller's word; their number is returned and nothing
   outside the array is changed.
   Missing: that the kernel delivers what it should; room for maxevents besides the timeout. *)
Theorem C140_wait_partial tid write read m events maxevents timeout l : read maxevents = inl l -> 0 < maxevents -> -1 <= timeout ->
  (timeout <> -1 -> write (Ev tid 1 timeout) = None) -> Forall fine l -> len l <= maxevents -> mapped m events (24 * maxevents) ->
  exists m', epoll_pwait tid write read m events maxevents timeout = Ok (m', inl (len (filter (of_descriptor tid) l))) /\
    entries_at m' events (map shown (filter (of_descriptor tid) l)) /\
    forall x, ~ events <= x < events + 24 * maxevents -> m' x = m x.
Proof. exact (wait_ok tid write read m events maxevents timeout l). Qed.
Print Assumptions C140_wait_partial.
(* the timeout comes between two descriptors *)
Example C140_wait_case : exists m', epoll_pwait 99 (fun _ => None) (fun _ => inl [Ev 3 1 70; Ev 99 1 5; Ev 4 3 (2 ^ 64 - 1)]) (mem_of 1000 (repeat 170 96)) 1000 4 5 = Ok (m', inl 2) /\
  entries_at m' 1000 [(1, 70); (5, 2 ^ 64 - 1)].
Proof.
  destruct (C140_wait_partial 99 (fun _ => None) (fun _ => inl [Ev 3 1 70; Ev 99 1 5; Ev 4 3 (2 ^ 64 - 1)]) (mem_of 1000 (repeat 170 96)) 1000 4 5 [Ev 3 1 70; Ev 99 1 5; Ev 4 3 (2 ^ 64 - 1)]) as (m' & E & A & _).
  - reflexivity.
  - lia.
  - lia.
  - reflexivity.
  - repeat constructor; cbn; discriminate.
  - vm_compute. discriminate.
  - intros x X. unfold mem_of. destruct (Z.leb_spec 1000 x); [|lia]. destruct (nth_error (repeat 170 96) (Z.to_nat (x - 1000))) eqn:N; [eauto|].
    apply nth_error_None in N. rewrite repeat_length in N. lia.
  - exists m'. split; [exact E|exact A].
Qed.

(* C140, time: if no timeout of an earlier call is left, epoll_pwait returns no later than asked, and
   returns 0 only when the time has passed; without a timeout it never returns 0.
   Missing: a timeout left by an earlier call (see C140_stale_refuted). *)
Theorem C140_timeout_partial tid write read m events maxevents timeout k l t : read maxevents = inl l -> 0 < maxevents -> -1 <= timeout ->
  (timeout <> -1 -> write (Ev tid 1 timeout) = None) -> Forall fine l -> mapped m events (24 * maxevents) ->
  deadlines k = [] -> (forall s e, In e (ready k s) -> id e <> tid) -> delivers tid (registered k timeout) maxevents l t ->
  exists m' n, epoll_pwait tid write read m events maxevents timeout = Ok (m', inl n) /\ 0 <= n <= maxevents /\
    (timeout <> -1 -> t <= now k + timeout) /\ (n = 0 -> timeout <> -1 /\ t = now k + timeout).
Proof.
  intros RD MX TO W F M D R DE. assert (L : len l <= maxevents) by apply DE.
  destruct (wait_ok tid write read m events maxevents timeout l RD MX TO W F L M) as (m' & E & _).
  exists m', (len (filter (of_descriptor tid) l)). split; [exact E|].
  assert (U : timeout <> -1 -> t <= now k + timeout) by (intro N; eapply delivery_in_time; [exact N|lia|exact DE]).
  split.
  { split; [apply len_nonneg|]. etransitivity; [|exact L]. unfold len. apply inj_le. clear. induction l as [|e l IH]; [constructor|].
    cbn [filter]. destruct (of_descriptor tid e); cbn [length]; lia. }
  split; [exact U|]. intro N0.
  destruct (none_in_time tid k maxevents l t timeout D R DE) as (A & B).
  - destruct (filter (of_descriptor tid) l) as [|e r]; [reflexivity|]. rewrite len_cons in N0. pose proof (len_nonneg r). lia.
  - split; [exact A|]. specialize (U A). lia.
Qed.
Print Assumptions C140_timeout_partial.
Example C140_timeout_case : delivers 99 (registered (Queue 10 [] (fun _ => [])) 5) 1 [Ev 99 1 5] 15.
Proof.
  unfold delivers. cbn [registered Z.eqb now deadlines ready]. split; [cbn; lia|]. split; [discriminate|]. split; [vm_compute; discriminate|]. split.
  - intros e [<-|[]]. right. split; [reflexivity|]. exists 15. split; [left; reflexivity|lia].
  - intros t' T. split; [reflexivity|]. intros d [<-|[]]. cbn in T. lia.
Qed.

(* C140, the interest list: after calls that are all in order, the kernel has for each descriptor the
   caller's word and flags from which exactly the conditions asked for that hold are reported.
   Missing: conditions other than EPOLLIN and EPOLLOUT, and calls that should fail. *)
Theorem C140_interest_partial l t' : accepted (fun _ => None) (map snd l) t' ->
  Forall (fun x => small (snd x) /\ holds (fst (fst x)) (snd (fst x)) (snd x)) l ->
  exists k, records l k /\ same t' (fold_left register k (fun _ => None)).
Proof. intros A F. apply (interest_ok l (fun _ => None)); [exact A|intro; reflexivity|exact F]. Qed.
Print Assumptions C140_interest_partial.
Definition eg (ev d : Z) : mem := mem_of 100 (bytes_of 4 ev ++ [0; 0; 0; 0] ++ bytes_of 8 d).
Example C140_interest_case : exists k, records [(eg 1 7, 100, Add 3 1 7); (eg 4 8, 100, Add 4 4 8); (eg 5 9, 100, Modify 3 5 9); (eg 0 0, 100, Delete 4)] k /\
  fold_left register k (fun _ => None) 3 = Some (3, 9) /\ fold_left register k (fun _ => None) 4 = None.
Proof.
  eexists. split; [|split].
  - do 4 (apply records_S; [vm_compute; reflexivity|]). apply records_0.
  - vm_compute. reflexivity.
  - vm_compute. reflexivity.
Qed.
Example C140_interest_met : exists t', accepted (fun _ => None) [Add 3 1 7; Add 4 4 8; Modify 3 5 9; Delete 4] t' /\ holds (eg 5 9) 100 (Modify 3 5 9) /\ small (Modify 3 5 9).
Proof.
  eexists. split; [do 4 (eapply accepted_S; [reflexivity|]); apply accepted_0|]. split; [vm_compute; repeat split|].
  cbn [small]. split; [lia|]. split; [auto|]. unfold u64. lia.
Qed.

(* C140, arguments: no room, a timeout below -1 and an unknown operation are refused with EINVAL, without
   anything being written to the kernel or the memory *)
Theorem C140_arguments tid write read m events maxevents timeout kernel op fd event :
  (maxevents <= 0 \/ timeout < -1 -> epoll_pwait tid write read m events maxevents timeout = Ok (m, inr 22)) /\
  (op <> 1 -> op <> 2 -> op <> 3 -> epoll_ctl kernel m op fd event = Ok (inr 22)).
Proof.
  split.
  - intro H. unfold epoll_pwait. destruct (Z.leb_spec maxevents 0); [reflexivity|]. destruct H as [H|H]; [lia|]. cbv zeta.
    destruct (Z.eqb_spec timeout (-1)); [lia|]. unfold register_timeout. destruct (Z.ltb_spec timeout 0); [reflexivity|lia].
  - intros A B C. unfold epoll_ctl, ctl_record, EPOLL_CTL_ADD, EPOLL_CTL_MOD, EPOLL_CTL_DEL.
    destruct (Z.eqb_spec op 1); [contradiction|]. destruct (Z.eqb_spec op 3); [contradiction|]. destruct (Z.eqb_spec op 2); [contradiction|]. reflexivity.
Qed.
Print Assumptions C140_arguments.
Example C140_arguments_case : epoll_pwait 99 (fun _ => None) (fun _ => inl []) (eg 1 7) 100 1 (-2) = Ok (eg 1 7, inr 22).
Proof. apply (C140_arguments 99 (fun _ => None) (fun _ => inl []) (eg 1 7) 100 1 (-2) (fun _ => None) 0 0 0). right. lia. Qed.

(* C140, errors: what the kernel answers with is the caller's errno, and the memory is left as it was *)
Theorem C140_errors tid write read m events maxevents timeout kernel op fd event e c : 0 < maxevents -> -1 <= timeout ->
  (timeout <> -1 -> write (Ev tid 1 timeout) = Some e -> epoll_pwait tid write read m events maxevents timeout = Ok (m, inr e)) /\
  ((timeout <> -1 -> write (Ev tid 1 timeout) = None) -> read maxevents = inr e -> epoll_pwait tid write read m events maxevents timeout = Ok (m, inr e)) /\
  (ctl_record m op fd event = Ok (inl c) -> epoll_ctl kernel m op fd event = Ok (match kernel c with Some e => inr e | None => inl 0 end)).
Proof.
  intros MX TO. unfold epoll_pwait, register_timeout. destruct (Z.leb_spec maxevents 0); [lia|]. cbv zeta. split; [|split].
  - intros N W. destruct (Z.eqb_spec timeout (-1)); [contradiction|]. destruct (Z.ltb_spec timeout 0); [lia|]. unfold EVENT_READ. rewrite W. reflexivity.
  - intros W R. destruct (Z.eqb_spec timeout (-1)); [rewrite R; reflexivity|]. destruct (Z.ltb_spec timeout 0); [lia|]. unfold EVENT_READ. rewrite W, R by assumption. reflexivity.
  - intro C. unfold epoll_ctl. rewrite C. cbn [bind]. destruct (kernel c); reflexivity.
Qed.
Print Assumptions C140_errors.
Example C140_errors_case : epoll_pwait 99 (fun _ => None) (fun _ => inr 4) (eg 1 7) 100 1 5 = Ok (eg 1 7, inr 4) /\ epoll_ctl (fun _ => Some 9) (eg 1 7) 1 3 100 = Ok (inr 9).
Proof.
  destruct (C140_errors 99 (fun _ => None) (fun _ => inr 4) (eg 1 7) 100 1 5 (fun _ => Some 9) 1 3 100 4 (Ev 3 1 7) ltac:(lia) ltac:(lia)) as (_ & B & C).
  split; [apply B; reflexivity|apply C; reflexivity].
Qed.

(* C140, EEXIST: whatever the kernel does, it cannot refuse to add a descriptor that is there and yet let it be
   modified, since the records written are the same *)
Theorem C140_exist_refuted : exists m fd event, entry_at m event (1, 7) /\
  forall kernel, ~ (epoll_ctl kernel m 1 fd event = Ok (inr 17) /\ epoll_ctl kernel m 3 fd event = Ok (inl 0)).
Proof.
  exists (eg 1 7), 3, 100. split; [vm_compute; repeat split|]. intros kernel (A & B).
  change (epoll_ctl kernel (eg 1 7) 3 3 100) with (epoll_ctl kernel (eg 1 7) 1 3 100) in B. rewrite A in B. discriminate B.
Qed.
Print Assumptions C140_exist_refuted.

(* C140, conditions: EPOLLONESHOT and EPOLLET are not passed on, and what waits for EPOLLPRI, or for errors
   only, is taken out of the list instead *)
Theorem C140_flags_refuted : ctl_record (eg 1 7) 1 3 100 = ctl_record (eg (1 + 2 ^ 30) 7) 1 3 100 /\
  ctl_record (eg 1 7) 1 3 100 = ctl_record (eg (1 + 2 ^ 31) 7) 1 3 100 /\
  exists e, ctl_record (eg 2 7) 1 3 100 = Ok (inl e) /\ register (fun _ => None) e 3 = None.
Proof.
  split; [vm_compute; reflexivity|]. split; [vm_compute; reflexivity|].
  eexists. split; [vm_compute; reflexivity|vm_compute; reflexivity].
Qed.
Print Assumptions C140_flags_refuted.

(* C140, stale timeouts: a call with a timeout of 100 that returns at once leaves its timeout behind, and the next
   call, with a timeout of 1000, returns 0 after 100 *)
Theorem C140_stale_refuted : exists tid k m,
  let k1 := registered k 100 in
  deadlines k = [] /\ delivers tid k1 1 [Ev 3 1 7] (now k) /\
  (exists m', epoll_pwait tid (fun _ => None) (fun _ => inl [Ev 3 1 7]) m 1000 1 100 = Ok (m', inl 1)) /\
  let k2 := Queue (now k) (deadlines k1) (fun _ => []) in
  delivers tid (registered k2 1000) 1 [Ev tid 1 100] (now k + 100) /\
  exists m', epoll_pwait tid (fun _ => None) (fun _ => inl [Ev tid 1 100]) m 1000 1 1000 = Ok (m', inl 0).
Proof.
  exists 99, (Queue 0 [] (fun _ => [Ev 3 1 7])), (mem_of 1000 (repeat 0 24)). cbv zeta. split; [reflexivity|]. split.
  { unfold delivers. cbn [registered Z.eqb now deadlines ready]. split; [cbn; lia|]. split; [discriminate|]. split; [vm_compute; discriminate|].
    split; [intros e [<-|[]]; left; left; reflexivity|]. cbn. intros; lia. }
  split; [eexists; vm_compute; reflexivity|]. split; [|eexists; vm_compute; reflexivity].
  unfold delivers. cbn. split; [lia|]. split; [discriminate|]. split; [vm_compute; discriminate|]. split.
  - intros e [<-|[]]. right. split; [reflexivity|]. exists 100. split; [left; reflexivity|lia].
  - intros t' T. split; [reflexivity|]. intros d [<-|[<-|[]]]; lia.
Qed.
Print Assumptions C140_stale_refuted.
