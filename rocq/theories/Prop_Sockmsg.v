(* C137: sendmsg and recvmsg with descriptors. *)
From Verif Require Import Base Word_mem Uio_spec Sockmsg_model Sockmsg_spec Sockmsg_proofs.
From Coq Require Import List Lia.
Import ListNotations.
Open Scope Z_scope.

(* sendmsg hands over the bytes of all areas in order and the descriptors of all control messages,
   in order.  Partial: messages of at least one area; the address of the message is not sent. *)
Theorem C137_send_partial : forall fuel m name namelen iovs d control clen l q, iovs <> [] -> good_iovs iovs -> holds m (spots iovs) d ->
  controls m control l -> Forall (Forall descriptor) l -> 0 < control -> needed l <= clen < total l + 16 -> (l = [] -> clen = 0) ->
  control + total l + 64 < 2 ^ 64 -> (length l < fuel)%nat ->
  sendmsg fuel m name namelen iovs control clen q = Ok (q ++ concat l, inl (len d, payload_stream d ++ rights_stream l)).
Proof. exact sendmsg_ok. Qed.
Print Assumptions C137_send_partial.

(* recvmsg, with a control buffer: the bytes are spread over the areas, MSG_TRUNC tells that they did
   not fit; the control messages that fit are stored, MSG_CTRUNC tells that some did not; nothing
   else is written.  Partial: no source address; when one does not fit its descriptors are lost, see
   below. *)
Theorem C137_receive_partial : forall fuel m name np iovs control clen d l q',
  good_iovs iovs -> NoDup (spots iovs) -> (forall p, In p (spots iovs) -> exists b, m p = Some b) -> len d < 2 ^ 64 ->
  mapped m np 4 -> 0 < control -> 0 < clen -> control + clen + 64 < 2 ^ 64 -> mapped m control clen ->
  (forall p, In p (spots iovs) -> ~ control <= p < control + clen /\ ~ np <= p < np + 4) -> disjoint np 4 control clen ->
  Forall (fun x => len x < 2 ^ 28) l -> (length l < fuel)%nat ->
  exists m', recvmsg fuel m name np iovs control clen (num 8 0 ++ num 8 (len d) ++ firstn (length (spots iovs)) d ++ rights_stream l) (concat l ++ q') =
    Ok (m', concat (skipn (S (length (fitting clen l))) l) ++ q',
        inl (Z.min (len d) (len (spots iovs)), Z.lor (if len (spots iovs) <? len d then 32 else 0) (if all_fit clen l then 0 else 8), total (fitting clen l))) /\
    holds m' (firstn (length d) (spots iovs)) (firstn (length (spots iovs)) d) /\ controls m' control (fitting clen l) /\
    bytes_at m' np [0; 0; 0; 0] /\
    (forall x, ~ In x (firstn (length d) (spots iovs)) -> ~ control <= x < control + total (fitting clen l) -> ~ np <= x < np + 4 -> m' x = m x).
Proof. exact recvmsg_ok. Qed.
Print Assumptions C137_receive_partial.

(* "hello" from two areas with descriptors 5 and 6, then 7, sent and received into two areas of 3 and
   4 bytes. *)
Definition C137_ctl : list Z :=
  num 8 24 ++ num 4 1 ++ num 4 1 ++ num 4 5 ++ num 4 6 ++ num 8 20 ++ num 4 1 ++ num 4 1 ++ num 4 7 ++ [0; 0; 0; 0].
Definition C137_mem : mem := mem_of 96 ([0; 0; 0; 0] ++ [104; 101] ++ [108; 108; 111] ++ repeat 0 91 ++ C137_ctl).
Example C137_send_nonvacuous : holds C137_mem (spots [(100, 2); (102, 3)]) [104; 101; 108; 108; 111] /\
  controls C137_mem 196 [[5; 6]; [7]] /\ needed [[5; 6]; [7]] <= 44 < total [[5; 6]; [7]] + 16 /\
  sendmsg 9 C137_mem 0 0 [(100, 2); (102, 3)] 196 44 [1] =
    Ok ([1; 5; 6; 7], inl (5, payload_stream [104; 101; 108; 108; 111] ++ rights_stream [[5; 6]; [7]])).
Proof.
  split; [repeat constructor|]. split; [cbn [controls]; repeat split; vm_compute; repeat split|]. split; [vm_compute; split; [discriminate|reflexivity]|reflexivity].
Qed.
Example C137_receive_nonvacuous : exists m',
  recvmsg 9 C137_mem 0 96 [(100, 3); (103, 4)] 196 48 (num 8 0 ++ payload_stream [87; 111; 114; 108; 100] ++ rights_stream [[5; 6]; [7]]) [5; 6; 7; 9] =
    Ok (m', [9], inl (5, 0, 48)) /\ holds m' (firstn 5 (spots [(100, 3); (103, 4)])) [87; 111; 114; 108; 100] /\ controls m' 196 [[5; 6]; [7]].
Proof.
  destruct (C137_receive_partial 9 C137_mem 0 96 [(100, 3); (103, 4)] 196 48 [87; 111; 114; 108; 100] [[5; 6]; [7]] [9]) as (m' & E & H & C & _ & _).
  - repeat constructor; cbn; lia.
  - vm_compute. repeat constructor; cbn; lia.
  - intros p P. vm_compute in P. repeat (destruct P as [<-|P]; [eexists; vm_compute; reflexivity|]). contradiction.
  - reflexivity.
  - intros p P. assert (X : p = 96 \/ p = 97 \/ p = 98 \/ p = 99) by lia. repeat (destruct X as [->|X]; [eexists; vm_compute; reflexivity|]). subst. eexists. vm_compute. reflexivity.
  - lia.
  - lia.
  - reflexivity.
  - intros p P. assert (B : mapped C137_mem 196 (len C137_ctl)) by (apply bytes_at_mapped; vm_compute; repeat split). apply B. change (len C137_ctl) with 48. lia.
  - intros p P. vm_compute in P. repeat (destruct P as [<-|P]; [lia|]). contradiction.
  - unfold disjoint. lia.
  - repeat constructor; reflexivity.
  - cbn. lia.
  - exists m'. split; [exact E|]. split; [exact H|exact C].
Qed.

(* The address a message is for goes nowhere. *)
Theorem C137_name_ignored_refuted : forall fuel m name namelen name' namelen' iovs control clen q,
  sendmsg fuel m name namelen iovs control clen q = sendmsg fuel m name' namelen' iovs control clen q.
Proof. reflexivity. Qed.
Print Assumptions C137_name_ignored_refuted.

(* Without room for control data nothing tells that there was some. *)
Theorem C137_no_ctrunc_refuted : exists m m' q', recvmsg 9 m 0 96 [(100, 3)] 0 0 (num 8 0 ++ payload_stream [1] ++ rights_stream [[5]]) [5] = Ok (m', q', inl (1, 0, 0)) /\ q' = [5].
Proof. exists C137_mem. do 2 eexists. split; reflexivity. Qed.
Print Assumptions C137_no_ctrunc_refuted.

(* A control message that does not fit: its descriptors are taken from the socket and given to
   nobody. *)
Theorem C137_lost_refuted : exists m m', recvmsg 9 m 0 96 [(100, 3)] 196 20 (num 8 0 ++ payload_stream [1] ++ rights_stream [[5; 6]]) [5; 6] = Ok (m', [], inl (1, 8, 0)) /\
  forall a, 196 <= a < 244 -> m' a = m a.
Proof.
  exists C137_mem. eexists. split; [reflexivity|]. intros a A. unfold upd. repeat match goal with |- context [?x =? ?y] => destruct (Z.eqb_spec x y); [lia|] end. reflexivity.
Qed.
Print Assumptions C137_lost_refuted.

(* A message that is refused leaves its descriptors behind; the receiver of the next one gets them
   in place of those that were sent with it. *)
Definition C137_bad : mem := mem_of 96 (repeat 0 100 ++ num 8 20 ++ num 4 1 ++ num 4 1 ++ num 4 5 ++ repeat 0 4 ++ num 8 16 ++ num 4 9 ++ num 4 9).
Definition C137_good : mem := mem_of 96 (repeat 0 100 ++ num 8 20 ++ num 4 1 ++ num 4 1 ++ num 4 8 ++ repeat 0 4).
Theorem C137_stale_refuted : exists q1 q2 s m' q3, sendmsg 9 C137_bad 0 0 [(100, 1)] 196 40 [] = Ok (q1, inr 95) /\
  sendmsg 9 C137_good 0 0 [(100, 1)] 196 20 q1 = Ok (q2, inl (1, s)) /\ controls C137_good 196 [[8]] /\
  recvmsg 9 C137_good 0 96 [(100, 1)] 196 24 (num 8 0 ++ s) q2 = Ok (m', q3, inl (1, 0, 24)) /\ controls m' 196 [[5]].
Proof.
  do 5 eexists. split; [reflexivity|]. split; [reflexivity|]. split; [cbn [controls]; split; [vm_compute; repeat split|exact I]|]. split; [reflexivity|].
  cbn [controls]. split; [vm_compute; repeat split|exact I].
Qed.
Print Assumptions C137_stale_refuted.

(* A message without areas lacks the length of the data: the receiver of the stream takes the control
   message for it. *)
Theorem C137_no_areas_refuted : sendmsg 9 C137_good 0 0 [] 196 20 [] = Ok ([8], inl (0, rights_stream [[8]])) /\
  rights_stream [[8]] <> payload_stream [] ++ rights_stream [[8]].
Proof. split; [reflexivity|discriminate]. Qed.
Print Assumptions C137_no_areas_refuted.
