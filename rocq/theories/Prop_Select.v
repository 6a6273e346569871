(* C66: select and pselect.  C67: poll and ppoll. *)
From Coq Require Import ZArith List Bool Lia.
From Verif Require Import Base Select_model Select_spec Select_proofs.
Import ListNotations.
Open Scope Z_scope.

(* The full statement drops [calm] and the bound of 32 descriptors, both of which are
   refuted below, and covers failure (the sets are then unchanged, also refuted). *)
Theorem C66_select_partial : forall w wait nfds s t,
  0 <= nfds <= FD_SETSIZE -> epoll_good w wait ->
  (forall x, 0 <= x < nfds -> watched s x = true -> calm s w x) ->
  (length (filter (busy s w) (descriptors nfds)) <= 32)%nat ->
  let o := select (epoll_add w) wait nfds s t in
  selected nfds (rd s) can_read w (rd (out o)) /\ selected nfds (wr s) can_write w (wr (out o)) /\
  selected nfds (ex s) exceptional w (ex (out o)) /\
  ret o = bits (rd (out o)) nfds + bits (wr (out o)) nfds + bits (ex (out o)) nfds.
Proof. exact select_ok. Qed.
Print Assumptions C66_select_partial.

(* How long it waits: not at all when a regular file is in a set, for ever without a
   timeout, otherwise for the timeout rounded down to milliseconds.  Missing: rounding up
   and timeouts over 24 days, refuted below. *)
Theorem C66_wait_partial : forall w wait nfds s,
  0 <= nfds <= FD_SETSIZE ->
  (forall x, 0 <= x < nfds -> watched s x = true -> w x <> Closed) ->
  let file := exists x, 0 <= x < nfds /\ watched s x = true /\ w x = Always in
  (file -> forall t, waited (select (epoll_add w) wait nfds s t) = Some 0) /\
  (~ file -> waited (select (epoll_add w) wait nfds s None) = Some (-1) /\
             forall sec usec, 0 <= sec <= 2147482 -> 0 <= usec < 1000000 ->
               exists ms, waited (select (epoll_add w) wait nfds s (Some (sec, usec))) = Some ms /\
                          ms * 1000 <= sec * 1000000 + usec < ms * 1000 + 1000 /\
                          (usec mod 1000 = 0 -> waits_for ms (sec * 1000000 + usec))).
Proof. exact select_wait_ok. Qed.
Print Assumptions C66_wait_partial.

(* pselect is select on the truncated timeout. *)
Theorem C66_pselect_partial : forall w wait nfds s sec nsec,
  0 <= nfds <= FD_SETSIZE -> (forall x, 0 <= x < nfds -> watched s x = true -> exists m, w x = Now m) ->
  0 <= sec <= 2147482 -> 0 <= nsec < 1000000000 ->
  exists ms, waited (pselect (epoll_add w) wait nfds s (Some (sec, nsec))) = Some ms /\
             ms * 1000000 <= sec * 1000000000 + nsec < ms * 1000000 + 1000000 /\
             out (pselect (epoll_add w) wait nfds s (Some (sec, nsec))) =
             out (select (epoll_add w) wait nfds s (Some (sec, nsec / 1000))).
Proof. exact pselect_ok. Qed.
Print Assumptions C66_pselect_partial.

(* 4: data to read and room to write; 5: room to write; 6: a regular file; 7: idle;
   8: hung up, nothing to read; 9: failed, and nothing else. *)
Definition w0 : world := fun x =>
  if x =? 4 then Now 5 else if x =? 5 then Now 4 else if x =? 6 then Always else if x =? 7 then Now 0
  else if x =? 8 then Now 16 else if x =? 9 then Now 13 else Closed.
Definition of_list (l : list Z) : option fdset := Some (fun x => existsb (Z.eqb x) l).
Definition to_list (s : option fdset) : list Z := filter (has s) (descriptors 64).
Definition run (w : world) (nfds : Z) (s : sets) (t : option (Z * Z)) : Z * Z * (list Z * list Z * list Z) * option Z :=
  let o := select (epoll_add w) (epoll_scan w) nfds s t in (ret o, err o, (to_list (rd (out o)), to_list (wr (out o)), to_list (ex (out o))), waited o).
Example C66_select_example :
  let s := {| rd := of_list [4; 6; 7; 50]; wr := of_list [4; 5; 7]; ex := of_list [7] |} in
  epoll_good w0 (epoll_scan w0) /\
  (forall x, 0 <= x < 8 -> watched s x = true -> calm s w0 x) /\
  (length (filter (busy s w0) (descriptors 8)) <= 32)%nat /\
  run w0 8 s None = (4, 0, ([4; 6; 50], [4; 5], []), Some 0).
Proof.
  cbv zeta. split; [apply epoll_scan_ok|]. split; [|split; [vm_compute; lia|vm_compute; reflexivity]].
  intros x Hx. assert (C : x = 0 \/ x = 1 \/ x = 2 \/ x = 3 \/ x = 4 \/ x = 5 \/ x = 6 \/ x = 7) by lia.
  destruct C as [->|[->|[->|[->|[->|[->|[->| ->]]]]]]]; vm_compute; intros H; repeat split; intros; try discriminate; try (left; reflexivity); auto.
Qed.
Example C66_wait_example :
  let s := {| rd := of_list [7]; wr := None; ex := None |} in
  (forall x, 0 <= x < 8 -> watched s x = true -> w0 x <> Closed /\ w0 x <> Always) /\
  waited (select (epoll_add w0) (epoll_scan w0) 8 s (Some (3, 250000))) = Some 3250 /\
  waited (pselect (epoll_add w0) (epoll_scan w0) 8 s (Some (3, 250999999))) = Some 3250.
Proof.
  cbv zeta. split; [|split; vm_compute; reflexivity]. intros x Hx W. assert (x = 7) as ->; [|split; discriminate].
  unfold watched in W. cbn [rd wr ex has of_list existsb] in W. rewrite !orb_false_r in W. apply Z.eqb_eq, W.
Qed.

(* A regular file in two sets counts once. *)
Theorem C66_file_count_refuted :
  exists s, (forall x, 0 <= x < 8 -> watched s x = true -> w0 x = Always) /\
            run w0 8 s None = (1, 0, ([6], [6], []), Some 0).
Proof.
  exists {| rd := of_list [6]; wr := of_list [6]; ex := None |}. split; [|vm_compute; reflexivity].
  intros x Hx W. unfold watched in W. cbn [rd wr ex has of_list existsb] in W. rewrite !orb_false_r in W. apply orb_true_iff in W.
  destruct W as [W|W]; apply Z.eqb_eq in W; subst x; reflexivity.
Qed.
Print Assumptions C66_file_count_refuted.

(* A peer that hung up makes a read return at once, but is not reported as readable: with
   no timeout, select returns 0 and empty sets. *)
Theorem C66_hangup_refuted :
  exists x, can_read (w0 x) = true /\
            run w0 9 {| rd := of_list [x]; wr := None; ex := None |} None = (0, 0, ([], [], []), Some (-1)).
Proof. exists 8. split; vm_compute; reflexivity. Qed.
Print Assumptions C66_hangup_refuted.

(* An error on a descriptor sets its bit in the third set although it was not there. *)
Theorem C66_foreign_refuted :
  exists x s, has (ex s) x = false /\ run w0 10 s None = (2, 0, ([x], [], [x]), Some (-1)).
Proof. exists 9, {| rd := of_list [9]; wr := None; ex := of_list [7] |}. split; vm_compute; reflexivity. Qed.
Print Assumptions C66_foreign_refuted.

(* Of 33 readable descriptors 32 are reported. *)
Definition w1 : world := fun _ => Now 1.
Theorem C66_many_refuted :
  exists f, (forall x, 0 <= x < 33 -> f x = true /\ can_read (w1 x) = true) /\
            ret (select (epoll_add w1) (epoll_scan w1) 33 {| rd := Some f; wr := None; ex := None |} None) = 32 /\
            has (rd (out (select (epoll_add w1) (epoll_scan w1) 33 {| rd := Some f; wr := None; ex := None |} None))) 32 = false.
Proof. exists (fun _ => true). split; [split; reflexivity|]. split; vm_compute; reflexivity. Qed.
Print Assumptions C66_many_refuted.

(* A call that fails changes the sets. *)
Theorem C66_failure_refuted :
  exists s, w0 12 = Closed /\ to_list (rd s) = [4; 12] /\ run w0 13 s None = (-1, EBADF, ([12], [], []), None).
Proof. exists {| rd := of_list [4; 12]; wr := None; ex := None |}. repeat split; vm_compute; reflexivity. Qed.
Print Assumptions C66_failure_refuted.

(* Half a millisecond is no time, and neither are 2^32 seconds; 10^7 seconds are 24 days. *)
Theorem C66_timeout_refuted :
  exists s, forall wait,
    waited (select (epoll_add w0) wait 8 s (Some (0, 500))) = Some 0 /\
    waited (select (epoll_add w0) wait 8 s (Some (4294967296, 0))) = Some 0 /\
    waited (select (epoll_add w0) wait 8 s (Some (10000000, 0))) = Some C_INT_MAX /\
    ~ waits_for 0 500 /\ ~ waits_for 0 (4294967296 * 1000000) /\ ~ waits_for C_INT_MAX (10000000 * 1000000).
Proof.
  exists {| rd := of_list [7]; wr := None; ex := None |}. intros wait.
  rewrite !(select_epoll_waits w0 wait 8).
  - repeat split; unfold waits_for, C_INT_MAX; lia.
  - unfold FD_SETSIZE; lia.
  - intros x Hx W. unfold watched in W. cbn [rd wr ex has of_list existsb] in W. rewrite !orb_false_r in W. apply Z.eqb_eq in W. subst x. discriminate.
  - unfold FD_SETSIZE; lia.
  - intros x Hx W. unfold watched in W. cbn [rd wr ex has of_list existsb] in W. rewrite !orb_false_r in W. apply Z.eqb_eq in W. subst x. discriminate.
  - unfold FD_SETSIZE; lia.
  - intros x Hx W. unfold watched in W. cbn [rd wr ex has of_list existsb] in W. rewrite !orb_false_r in W. apply Z.eqb_eq in W. subst x. discriminate.
Qed.
Print Assumptions C66_timeout_refuted.

(* The full statement drops the distinctness of descriptors, regular files and the bound
   of 32, and says that poll does not wait when a descriptor is closed; all are refuted
   below. *)
Theorem C67_poll_partial : forall w wait ps timeout,
  epoll_good w wait -> NoDup (valid_fds ps) -> (forall p, In p ps -> 0 <= fd p -> w (fd p) <> Always) ->
  (forall x m, w x = Now m -> 0 <= m < 1024) -> (length (filter (answered w) ps) <= 32)%nat ->
  let o := poll (epoll_add w) wait ps timeout in
  pout o = map (fun p => set_revents p (poll_answer w (fd p) (events p))) ps /\ pret o = len (filter (answered w) ps).
Proof. exact poll_ok. Qed.
Print Assumptions C67_poll_partial.

(* poll waits for the milliseconds given when every descriptor is open; ppoll for the
   given time rounded down to milliseconds.  Missing: rounding up and timeouts over 24
   days, refuted below. *)
Theorem C67_wait_partial : forall w wait ps,
  NoDup (valid_fds ps) -> (forall p, In p ps -> 0 <= fd p -> exists m, w (fd p) = Now m) ->
  (forall timeout, pwaited (poll (epoll_add w) wait ps timeout) = Some timeout) /\
  pwaited (ppoll (epoll_add w) wait ps None) = Some (-1) /\
  (forall sec nsec, 0 <= sec <= 2147482 -> 0 <= nsec < 1000000000 ->
     exists ms, pwaited (ppoll (epoll_add w) wait ps (Some (sec, nsec))) = Some ms /\
                ms * 1000000 <= sec * 1000000000 + nsec < ms * 1000000 + 1000000).
Proof. exact poll_wait_ok. Qed.
Print Assumptions C67_wait_partial.

Definition pf (x e : Z) : pollfd := {| fd := x; events := e; revents := 99 |}.
Definition prun (w : world) (ps : list pollfd) (timeout : Z) : Z * Z * list Z * option Z :=
  let o := poll (epoll_add w) (epoll_scan w) ps timeout in (pret o, perr o, map revents (pout o), pwaited o).
Example C67_poll_example :
  let ps := [pf 4 1; pf (-1) 1; pf 12 1; pf (-1) 1; pf 9 0; pf 7 5] in
  NoDup (valid_fds ps) /\ (forall p, In p ps -> 0 <= fd p -> w0 (fd p) <> Always) /\
  (forall x m, w0 x = Now m -> 0 <= m < 1024) /\ (length (filter (answered w0) ps) <= 32)%nat /\
  prun w0 ps 100 = (3, 0, [1; 0; 32; 0; 8; 0], Some 100).
Proof.
  cbv zeta. split; [|split; [|split; [|split; [vm_compute; lia|vm_compute; reflexivity]]]].
  - vm_compute. repeat constructor; cbn [In]; lia.
  - intros p I. cbn [In] in I. repeat (destruct I as [<-|I]; [vm_compute; discriminate|]). contradiction.
  - intros x m. unfold w0. repeat (destruct (_ =? _); [intros H; inversion H; lia|]). discriminate.
Qed.
Example C67_wait_example :
  let ps := [pf 4 1; pf (-1) 1] in
  NoDup (valid_fds ps) /\ (forall p, In p ps -> 0 <= fd p -> exists m, w0 (fd p) = Now m) /\
  pwaited (ppoll (epoll_add w0) (epoll_scan w0) ps (Some (2, 500000000))) = Some 2500.
Proof.
  cbv zeta. split; [vm_compute; repeat constructor; cbn [In]; tauto|]. split; [|vm_compute; reflexivity].
  intros p I P. cbn [In] in I. destruct I as [<-|[<-|[]]]; [exists 5; reflexivity|cbn [pf fd] in P; lia].
Qed.

(* The same descriptor twice, or a regular file, and the call fails. *)
Theorem C67_failure_refuted :
  prun w0 [pf 4 1; pf 4 4] 0 = (-1, EEXIST, [0; 0], None) /\ prun w0 [pf 6 1] 0 = (-1, EPERM, [0], None) /\
  poll_answer w0 4 1 = 1 /\ poll_answer w0 4 4 = 4 /\ poll_answer w0 6 1 = 1.
Proof. repeat split; vm_compute; reflexivity. Qed.
Print Assumptions C67_failure_refuted.

(* A closed descriptor does not keep poll from waiting, without end, for the others. *)
Theorem C67_closed_waits_refuted :
  poll_answer w0 12 1 = 32 /\
  (forall wait, pwaited (poll (epoll_add w0) wait [pf 12 1; pf 7 1] (-1)) = Some (-1) /\
                pwaited (poll (epoll_add w0) wait [pf 12 1; pf (-1) 1] (-1)) = Some (-1)).
Proof.
  split; [reflexivity|]. intros wait. split.
  - change (poll (epoll_add w0) wait [pf 12 1; pf 7 1] (-1)) with
      (match wait [(7, 1, 1)] (-1) with
       | inl evs => let ps := fold_left poll_report (firstn 32 evs) [set_revents (pf 12 1) 32; set_revents (pf 7 1) 0] in
                    {| pret := count ps; perr := 0; pout := ps; pwaited := Some (-1) |}
       | inr e => if (e =? EINTR) && true then {| pret := count [set_revents (pf 12 1) 32; set_revents (pf 7 1) 0]; perr := 0;
                    pout := [set_revents (pf 12 1) 32; set_revents (pf 7 1) 0]; pwaited := Some (-1) |}
                  else {| pret := -1; perr := e; pout := [set_revents (pf 12 1) 32; set_revents (pf 7 1) 0]; pwaited := Some (-1) |} end).
    destruct (wait _ _) as [evs|e]; [reflexivity|]. destruct (_ && _); reflexivity.
  - change (poll (epoll_add w0) wait [pf 12 1; pf (-1) 1] (-1)) with
      (match wait [] (-1) with
       | inl evs => let ps := fold_left poll_report (firstn 32 evs) [set_revents (pf 12 1) 32; set_revents (pf (-1) 1) 0] in
                    {| pret := count ps; perr := 0; pout := ps; pwaited := Some (-1) |}
       | inr e => if (e =? EINTR) && true then {| pret := count [set_revents (pf 12 1) 32; set_revents (pf (-1) 1) 0]; perr := 0;
                    pout := [set_revents (pf 12 1) 32; set_revents (pf (-1) 1) 0]; pwaited := Some (-1) |}
                  else {| pret := -1; perr := e; pout := [set_revents (pf 12 1) 32; set_revents (pf (-1) 1) 0]; pwaited := Some (-1) |} end).
    destruct (wait _ _) as [evs|e]; [reflexivity|]. destruct (_ && _); reflexivity.
Qed.
Print Assumptions C67_closed_waits_refuted.

(* Of 33 readable descriptors 32 are reported. *)
Theorem C67_many_refuted :
  exists ps, NoDup (valid_fds ps) /\ len ps = 33 /\ Forall (fun p => poll_answer w1 (fd p) (events p) = 1) ps /\
             pret (poll (epoll_add w1) (epoll_scan w1) ps 0) = 32.
Proof.
  exists (map (fun x => pf (Z.of_nat x) 1) (seq 0 33)). split; [|split; [vm_compute; reflexivity|split; [|vm_compute; reflexivity]]].
  - unfold valid_fds. apply NoDup_filter. rewrite map_map. cbn [pf fd].
    assert (I : forall n i, NoDup (map (fun x => Z.of_nat x) (seq i n))); [|apply I]. intros n i. rewrite range_seq. apply range_nodup.
  - apply Forall_forall. intros p I. apply in_map_iff in I. destruct I as (x & <- & _). unfold poll_answer, w1. cbn [pf fd events].
    destruct (Z.ltb_spec (Z.of_nat x) 0); [lia|reflexivity].
Qed.
Print Assumptions C67_many_refuted.

(* Half a millisecond is no time; just under 2147484 seconds is for ever. *)
Theorem C67_timeout_refuted :
  pwaited (ppoll (epoll_add w0) (epoll_scan w0) [pf 7 1] (Some (0, 500000))) = Some 0 /\
  pwaited (ppoll (epoll_add w0) (epoll_scan w0) [pf 7 1] (Some (2147483, 999999999))) = Some (-2147483297) /\
  pwaited (ppoll (epoll_add w0) (epoll_scan w0) [pf 7 1] (Some (10000000, 0))) = Some C_INT_MAX.
Proof. repeat split; vm_compute; reflexivity. Qed.
Print Assumptions C67_timeout_refuted.
