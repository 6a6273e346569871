(* C105 to C107: the resolver behind gethostbyname, gethostbyaddr, getaddrinfo and getnameinfo. *)
From Coq Require Import ZArith String List Bool Lia.
From Verif Require Import Base Ctype_spec Inet_model Dns_spec Dns_model Dns_proofs.
Import ListNotations.
Open Scope string_scope.
Open Scope list_scope.
Open Scope Z_scope.

(* C105: the question sent is the RFC 1035 message that asks for the address of the name. *)
Theorem C105_query_partial : forall tid ls, 0 <= tid < 65536 -> ls <> [] -> Forall host_label ls ->
  message_at name_at (host_query tid (dotted ls)) (Msg tid 256 [Q ls 1 1] []).
Proof. intros tid ls T N F. eapply message_mono; [apply plain_name|]. apply query_ok; (assumption || lia). Qed.
Print Assumptions C105_query_partial.
Example C105_query_case : host_query 4660 (codes "www.redox-os.org") =
  [18; 52; 1; 0; 0; 1; 0; 0; 0; 0; 0; 0] ++ [3] ++ codes "www" ++ [8] ++ codes "redox-os" ++ [3] ++ codes "org" ++ [0; 0; 1; 0; 1] /\
  codes "www.redox-os.org" = dotted [codes "www"; codes "redox-os"; codes "org"].
Proof. split; reflexivity. Qed.

(* a numeric address stands for itself, whatever the name server would say *)
Theorem C105_numeric : forall fuel tid ask a b c d, 0 <= a < 256 -> 0 <= b < 256 -> 0 <= c < 256 -> 0 <= d < 256 ->
  lookup_host fuel tid ask (dec a ++ 46 :: dec b ++ 46 :: dec c ++ 46 :: dec d) = Ok (inl [[a; b; c; d]]).
Proof. intros fuel tid ask a b c d A B C D. unfold lookup_host. change (dec a ++ 46 :: dec b ++ 46 :: dec c ++ 46 :: dec d) with (dotted [dec a; dec b; dec c; dec d]). rewrite (numeric_ok a b c d A B C D). reflexivity. Qed.
Print Assumptions C105_numeric.
Example C105_numeric_case : lookup_host 0 0 (fun _ => []) (codes "127.0.0.1") = Ok (inl [[127; 0; 0; 1]]) /\
  codes "127.0.0.1" = dec 127 ++ 46 :: dec 0 ++ 46 :: dec 0 ++ 46 :: dec 1.
Proof. split; reflexivity. Qed.

(* a name of four labels is never looked up: it is 0.0.0.0 *)
Theorem C105_four_labels_refuted : exists ls, Forall host_label ls /\ ls <> [] /\
  forall fuel tid ask, lookup_host fuel tid ask (dotted ls) = Ok (inl [[0; 0; 0; 0]]).
Proof.
  exists [codes "www"; codes "mail"; codes "example"; codes "com"]. split; [|split; [discriminate|reflexivity]].
  repeat constructor; cbn; lia.
Qed.
Print Assumptions C105_four_labels_refuted.
(* with a trailing dot the question is not one for that name *)
Theorem C105_trailing_dot_refuted : forall tid, ~ message_at name_at (host_query tid (codes "a.")) (Msg tid 256 [Q [codes "a"] 1 1] []).
Proof.
  intros tid (_ & _ & _ & _ & _ & _ & k & j & H & _). cbn [m_questions] in H.
  replace (host_query tid (codes "a.")) with [tid / 256 mod 256; tid mod 256; 1; 0; 0; 1; 0; 0; 0; 0; 0; 0; 1; 97; 0; 0; 0; 1; 0; 1] in H by reflexivity.
  inversion H as [|? ? ? ? ? N T C R]; subst. cbn [q_name q_type] in *.
  inversion N as [|? ? ? ? L A N'|? ? ? ? ? P A]; subst.
  - inversion N' as [|? ? ? ? L' A'|? ? ? ? ? P A']; subst.
    + destruct T as (x & y & T & E). cbn in T. inversion T; subst. discriminate.
    + cbn in A'. inversion A'; subst. lia.
  - cbn in A. inversion A; subst. lia.
Qed.
Print Assumptions C105_trailing_dot_refuted.
(* a label of more than 63 bytes is sent, as no message at all *)
Theorem C105_long_label_refuted : forall tid m, ~ message_at name_at (host_query tid (repeat 97 64)) m.
Proof.
  intros tid m (_ & _ & NQ & _ & _ & _ & k & j & H & _).
  replace (host_query tid (repeat 97 64)) with (tid / 256 mod 256 :: tid mod 256 :: [1; 0; 0; 1; 0; 0; 0; 0; 0; 0; 64] ++ repeat 97 64 ++ [0; 0; 1; 0; 1]) in * by reflexivity.
  destruct NQ as (a & b & NQ & E). cbn in NQ. inversion NQ; subst. cbn in E.
  destruct (m_questions m) as [|q qs]; [discriminate|].
  inversion H as [|? ? ? ? ? N T C R]; subst. remember (q_name q) as ls.
  inversion N as [? A|? ? ? ? L A N'|? ? ? ? ? P A]; subst.
  - cbn in A. discriminate.
  - apply at_cons in A. destruct A as (A & _). cbn in A. inversion A. lia.
  - apply at_cons in A. destruct A as (A & _). cbn in A. inversion A. lia.
Qed.
Print Assumptions C105_long_label_refuted.

(* C106: the addresses reported are those of the response. *)
Theorem C106_addresses_partial : forall tid ask host m, parse_ipv4_string host = None -> let d := ask (host_query tid host) in
  Forall (fun b => 0 <= b < 256) d -> message_at easy_at d m ->
  exists f0, forall f, (f0 <= f)%nat -> lookup_host f tid ask host = Ok (inl (addresses m)).
Proof. exact lookup_ok. Qed.
Print Assumptions C106_addresses_partial.
Definition reply : list Z :=
  [18; 52; 129; 128; 0; 1; 0; 2; 0; 0; 0; 0] ++ [1] ++ codes "a" ++ [2] ++ codes "bc" ++ [0; 0; 1; 0; 1] ++
  [192; 12; 0; 5; 0; 1; 0; 0; 0; 60; 0; 3] ++ [1; 100; 0] ++
  [192; 12; 0; 1; 0; 1; 0; 0; 0; 60; 0; 4] ++ [10; 0; 2; 15].
Definition reply_m : message :=
  Msg 4660 33152 [Q [codes "a"; codes "bc"] 1 1] [R [codes "a"; codes "bc"] 5 1 0 60 [1; 100; 0]; R [codes "a"; codes "bc"] 1 1 0 60 [10; 0; 2; 15]].
Lemma u16_dec : forall d i a b v, at_ d i [a; b] -> v = 256 * a + b -> u16_at d i v.
Proof. intros d i a b v H E. exists a, b. auto. Qed.
Ltac u16 := eapply u16_dec; [reflexivity|reflexivity].
Lemma reply_chain : chain reply 12 [codes "a"; codes "bc"] 18.
Proof. apply CLabel; [cbn; lia|reflexivity|]. apply CLabel; [cbn; lia|reflexivity|]. apply CEnd. reflexivity. Qed.
Example C106_addresses_case : message_at easy_at reply reply_m /\ addresses reply_m = [[10; 0; 2; 15]] /\
  parse_ipv4_string (codes "a.bc") = None /\ lookup_host 10 4660 (fun _ => reply) (codes "a.bc") = Ok (inl [[10; 0; 2; 15]]).
Proof.
  split; [|repeat split].
  assert (P : forall i, (18 <= i)%nat -> at_ reply i [192; 12] -> easy_at reply i [codes "a"; codes "bc"] (i + 2)).
  { intros i L A. right. exists 192, 12, 18%nat. split; [lia|]. split; [exact A|]. split; [exact reply_chain|]. split; [lia|reflexivity]. }
  unfold message_at. split; [u16|]. split; [u16|]. split; [u16|]. split; [u16|]. split; [exists 0; u16|]. split; [exists 0; u16|].
  exists 22%nat, 53%nat. split.
  - apply QCons with (k := 18%nat); [|u16|u16|constructor]. left.
    apply PLabel; [cbn; lia|reflexivity|]. apply PLabel; [cbn; lia|reflexivity|]. apply PEnd. reflexivity.
  - apply RCons with (k := 24%nat); [apply (P 22%nat); [lia|reflexivity]|u16|u16|u16|u16|u16|reflexivity|].
    apply RCons with (k := 39%nat); [apply (P 37%nat); [lia|reflexivity]|u16|u16|u16|u16|u16|reflexivity|]. constructor.
Qed.

(* the whole message is understood *)
Theorem C106_parse_partial : forall d m, Forall (fun b => 0 <= b < 256) d -> message_at easy_at d m ->
  exists f0, forall f, (f0 <= f)%nat -> exists p j, parse f d = Ok (Some (p, j)) /\
    d_id p = m_id m /\ d_flags p = m_flags m /\
    map (fun q => (dq_name q, dq_type q, dq_class q)) (d_queries p) = map (fun q => (dotted (q_name q), q_type q, q_class q)) (m_questions m) /\
    map (fun a => (da_name a, da_type a, da_class a, da_data a)) (d_answers p) = map (fun r => (dotted (r_name r), r_type r, r_class r, r_data r)) (m_answers m).
Proof.
  intros d m B M. destruct (parse_ok d m B M) as (f0 & K). exists f0. intros f F. destruct (K f F) as (j & E). exists (conv m), j.
  split; [exact E|]. unfold conv. cbn [d_id d_flags d_queries d_answers]. rewrite !map_map. repeat split.
Qed.
Print Assumptions C106_parse_partial.
Example C106_parse_case : exists p j, parse 10 reply = Ok (Some (p, j)) /\ map da_name (d_answers p) = [codes "a.bc"; codes "a.bc"].
Proof. do 2 eexists. split; vm_compute; reflexivity. Qed.

(* no response whatever makes the parser index out of bounds *)
Theorem C106_safe : forall fuel d, parse fuel d <> Panic /\ parse fuel d <> Fault.
Proof. exact parse_calm. Qed.
Print Assumptions C106_safe.
Example C106_safe_case : parse 10 (firstn 30 reply) = Ok None /\ parse 10 [1; 2; 3] = Ok None.
Proof. split; reflexivity. Qed.

(* a name that points at itself is followed for ever *)
Theorem C106_loop_refuted : exists d, Forall (fun b => 0 <= b < 256) d /\ forall fuel, parse fuel d = OutOfFuel.
Proof.
  exists [0; 0; 129; 128; 0; 1; 0; 0; 0; 0; 0; 0; 192; 12; 0; 1; 0; 1]. split; [repeat constructor; lia|].
  intros fuel. unfold parse, pop_n16, index. cbn -[pop_queries pop_answers].
  replace (Z.to_nat (256 * 0 + 1)) with 1%nat by reflexivity. cbn [pop_queries]. unfold pop_name.
  assert (H : forall f name, name_loop f [0; 0; 129; 128; 0; 1; 0; 0; 0; 0; 0; 0; 192; 12; 0; 1; 0; 1] 12 name = OutOfFuel).
  { induction f as [|f IH]; intros name; [reflexivity|]. apply IH. }
  rewrite H. reflexivity.
Qed.
Print Assumptions C106_loop_refuted.
(* a valid response is refused when a name has labels before a pointer *)
Theorem C106_compression_refuted : exists d m, message_at name_at d m /\ addresses m = [[10; 0; 2; 15]] /\
  forall tid, lookup_host 100 tid (fun _ => d) (codes "w.a.bc") = Ok (inr 22).
Proof.
  set (d := [18; 52; 129; 128; 0; 1; 0; 1; 0; 0; 0; 0] ++ [1] ++ codes "a" ++ [2] ++ codes "bc" ++ [0; 0; 1; 0; 1] ++
    [1] ++ codes "w" ++ [192; 12; 0; 1; 0; 1; 0; 0; 0; 60; 0; 4] ++ [10; 0; 2; 15]).
  exists d, (Msg 4660 33152 [Q [codes "a"; codes "bc"] 1 1] [R [codes "w"; codes "a"; codes "bc"] 1 1 0 60 [10; 0; 2; 15]]).
  split; [|split; [reflexivity|intros; vm_compute; reflexivity]].
  unfold message_at. split; [u16|]. split; [u16|]. split; [u16|]. split; [u16|]. split; [exists 0; u16|]. split; [exists 0; u16|].
  exists 22%nat, 40%nat. split.
  - apply QCons with (k := 18%nat); [|u16|u16|constructor].
    apply NLabel; [cbn; lia|reflexivity|]. apply NLabel; [cbn; lia|reflexivity|]. apply NEnd. reflexivity.
  - apply RCons with (k := 26%nat); [|u16|u16|u16|u16|u16|reflexivity|constructor].
    apply NLabel; [cbn; lia|reflexivity|]. apply (NPtr d 24 192 12 _ 18); [lia|reflexivity|].
    apply CLabel; [cbn; lia|reflexivity|]. apply CLabel; [cbn; lia|reflexivity|]. apply CEnd. reflexivity.
Qed.
Print Assumptions C106_compression_refuted.
(* a response to another question, with another identifier and for another name, is believed *)
Theorem C106_unrelated_refuted : exists d m, message_at name_at d m /\ m_id m <> 1 /\
  Forall (fun r => r_name r <> [codes "x"; codes "yz"]) (m_answers m) /\
  lookup_host 10 1 (fun _ => d) (codes "x.yz") = Ok (inl [[10; 0; 2; 15]]).
Proof.
  exists reply, reply_m. split.
  - eapply message_mono; [apply easy_name|]. apply C106_addresses_case.
  - split; [discriminate|]. split; [repeat constructor; discriminate|]. vm_compute. reflexivity.
Qed.
Print Assumptions C106_unrelated_refuted.

(* C107: the name of an address. *)
Theorem C107_query : forall tid a b c d, 0 <= tid < 65536 -> 0 <= a < 256 -> 0 <= b < 256 -> 0 <= c < 256 -> 0 <= d < 256 ->
  message_at name_at (addr_query tid [a; b; c; d]) (Msg tid 256 [Q [dec d; dec c; dec b; dec a; codes "in-addr"; codes "arpa"] 12 1] []).
Proof.
  intros tid a b c d T A B C D. eapply message_mono; [apply plain_name|].
  exact (addr_query_ok tid [a; b; c; d] T (Forall_cons _ A (Forall_cons _ B (Forall_cons _ C (Forall_cons _ D (Forall_nil _)))))).
Qed.
Print Assumptions C107_query.
Example C107_query_case : reverse_name [192; 0; 2; 7] = codes "7.2.0.192.in-addr.arpa".
Proof. reflexivity. Qed.
(* names given without pointers come out in full, terminated *)
Theorem C107_names_partial : forall tid ask a m nss, let d := ask (addr_query tid a) in
  Forall (fun b => 0 <= b < 256) d -> message_at easy_at d m ->
  map r_data (filter (fun r => (r_type r =? 12) && (r_class r =? 1)) (m_answers m)) =
    map (fun ls => concat (map (fun l => Z.of_nat (length l) :: l) ls) ++ [0]) nss ->
  Forall (fun ls => ls <> [] /\ Forall (fun l => 1 <= Z.of_nat (length l) <= 63) ls) nss ->
  exists f0, forall f, (f0 <= f)%nat -> lookup_addr f tid ask a = Ok (inl (map (fun ls => dotted ls ++ [0]) nss)).
Proof. exact lookup_addr_ok. Qed.
Print Assumptions C107_names_partial.
Definition ptr_reply : list Z :=
  [18; 52; 129; 128; 0; 0; 0; 1; 0; 0; 0; 0] ++ [0; 0; 12; 0; 1; 0; 0; 0; 60; 0; 6] ++ [1; 97; 2; 98; 99; 0].
Example C107_names_case : message_at easy_at ptr_reply (Msg 4660 33152 [] [R [] 12 1 0 60 [1; 97; 2; 98; 99; 0]]) /\
  lookup_addr 10 4660 (fun _ => ptr_reply) [192; 0; 2; 7] = Ok (inl [codes "a.bc" ++ [0]]).
Proof.
  split; [|vm_compute; reflexivity].
  unfold message_at. split; [u16|]. split; [u16|]. split; [u16|]. split; [u16|]. split; [exists 0; u16|]. split; [exists 0; u16|].
  exists 12%nat, 29%nat. split; [constructor|].
  apply RCons with (k := 13%nat); [|u16|u16|u16|u16|u16|reflexivity|constructor]. left. apply PEnd. reflexivity.
Qed.
(* a response with a label length that is too large crashes the program *)
Theorem C107_crash_refuted : exists d m, message_at easy_at d m /\ lookup_addr 10 4660 (fun _ => d) [192; 0; 2; 7] = Panic.
Proof.
  exists ([18; 52; 129; 128; 0; 0; 0; 1; 0; 0; 0; 0] ++ [0; 0; 12; 0; 1; 0; 0; 0; 60; 0; 5] ++ [1; 97; 3; 98; 0]),
    (Msg 4660 33152 [] [R [] 12 1 0 60 [1; 97; 3; 98; 0]]).
  split; [|vm_compute; reflexivity].
  unfold message_at. split; [u16|]. split; [u16|]. split; [u16|]. split; [u16|]. split; [exists 0; u16|]. split; [exists 0; u16|].
  exists 12%nat, 28%nat. split; [constructor|].
  apply RCons with (k := 13%nat); [|u16|u16|u16|u16|u16|reflexivity|constructor]. left. apply PEnd. reflexivity.
Qed.
Print Assumptions C107_crash_refuted.
(* a compressed name is lost: the pointer is read as a length *)
Theorem C107_compressed_refuted : exists d m, message_at easy_at d m /\
  (exists i, name_at d i [codes "h"; codes "a"; codes "bc"] (i + 4) /\ at_ d i (concat (map r_data (m_answers m)))) /\
  lookup_addr 10 4660 (fun _ => d) [192; 0; 2; 7] = Ok (inl [[0]]).
Proof.
  exists ([18; 52; 129; 128; 0; 1; 0; 1; 0; 0; 0; 0] ++ [1] ++ codes "a" ++ [2] ++ codes "bc" ++ [0; 0; 12; 0; 1] ++
    [192; 12; 0; 12; 0; 1; 0; 0; 0; 60; 0; 4] ++ [1; 104; 192; 12]),
    (Msg 4660 33152 [Q [codes "a"; codes "bc"] 12 1] [R [codes "a"; codes "bc"] 12 1 0 60 [1; 104; 192; 12]]).
  set (d := _ ++ _).
  assert (C : chain d 12 [codes "a"; codes "bc"] 18).
  { apply CLabel; [cbn; lia|reflexivity|]. apply CLabel; [cbn; lia|reflexivity|]. apply CEnd. reflexivity. }
  split; [|split; [|vm_compute; reflexivity]].
  - unfold message_at. split; [u16|]. split; [u16|]. split; [u16|]. split; [u16|]. split; [exists 0; u16|]. split; [exists 0; u16|].
    exists 22%nat, 38%nat. split.
    + apply QCons with (k := 18%nat); [|u16|u16|constructor]. left.
      apply PLabel; [cbn; lia|reflexivity|]. apply PLabel; [cbn; lia|reflexivity|]. apply PEnd. reflexivity.
    + apply RCons with (k := 24%nat); [|u16|u16|u16|u16|u16|reflexivity|constructor].
      right. exists 192, 12, 18%nat. split; [lia|]. split; [reflexivity|]. split; [exact C|]. split; [lia|reflexivity].
  - exists 34%nat. split; [|reflexivity]. apply NLabel; [cbn; lia|reflexivity|]. apply (NPtr d 36 192 12 _ 18); [lia|reflexivity|exact C].
Qed.
Print Assumptions C107_compressed_refuted.
