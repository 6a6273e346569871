(* C111-C113: getaddrinfo, freeaddrinfo, getnameinfo. *)
From Coq Require Import ZArith String List Bool Lia.
From Verif Require Import Base Ctype_spec Inet_model Dns_model Dns_spec Dns_proofs Gai_model Gai_spec Gai_proofs Gni_proofs.
Import ListNotations.
Open Scope string_scope.
Open Scope list_scope.
Open Scope Z_scope.

Definition maxp (h : heap) : Z := 1 + fold_right (fun x m => Z.max (fst x) m) 0 h.
Example maxp_ok : fresh_ok maxp.
Proof.
  intros h. assert (N : 0 <= fold_right (fun x m => Z.max (fst x) m) 0 h) by (induction h; cbn; lia). split; [unfold maxp; lia|].
  assert (H : forall k, fold_right (fun x m => Z.max (fst x) m) 0 h < k -> get h k = None); [|apply H; unfold maxp; lia].
  induction h as [|[p b] h IH]; intros k K; [reflexivity|]. cbn in *. destruct (Z.eqb_spec k p); [lia|]. apply IH; [|lia]. clear. induction h; cbn; lia.
Qed.

(* C111 full: getaddrinfo gives the addresses of the node (of /etc/hosts and of the name server, of both
   families, as the hints ask for) with the port of the service (a number or a name of /etc/services), and an error
   code if there are none.
   Proved: numeric nodes, null nodes and the addresses that the name server gives, services that are numbers. *)
(* a numeric address is taken as it stands, with any flags *)
Theorem C111_numeric_partial : forall fresh fuel tid ask a b c d service hs h port, fresh_ok fresh -> (1 < fuel)%nat ->
  0 <= a < 256 -> 0 <= b < 256 -> 0 <= c < 256 -> 0 <= d < 256 -> 0 <= port < 65536 ->
  match service with Some s => s = dec port | None => port = 0 end ->
  let node := dec a ++ 46 :: dec b ++ 46 :: dec c ++ 46 :: dec d in
  exists h' r, getaddrinfo fresh fuel tid ask (Some node) service hs h = Ok (h', r, 0, None) /\
    linked h' r [Ent (inet_sockaddr port [a; b; c; d]) (type_of hs) (if has (flags_of hs) 2 then Some node else None)] /\
    forall p x, get h p = Some x -> get h' p = Some x.
Proof.
  intros fresh fuel tid ask a b c d service hs h port FO FU A B C D P PO node.
  pose proof (numeric_ok a b c d A B C D) as NU.
  destruct (gai_ok fresh FO fuel tid ask (Some node) service hs h port [[a; b; c; d]] P PO ltac:(discriminate)) as (h' & r & E & L & K & _).
  - cbn [node_of]. unfold lookup_host. change (dotted [dec a; dec b; dec c; dec d]) with node in NU. rewrite NU.
    destruct (has (flags_of hs) AI_NUMERICHOST); [eexists; split; reflexivity|reflexivity].
  - repeat constructor.
  - cbn; lia.
  - exists h', r. split; [exact E|]. split; [exact L|exact K].
Qed.
Print Assumptions C111_numeric_partial.
(* no node: the loopback address, or the wildcard address with AI_PASSIVE *)
Theorem C111_null_partial : forall fresh fuel tid ask service hs h port, fresh_ok fresh -> (1 < fuel)%nat -> 0 <= port < 65536 ->
  match service with Some s => s = dec port | None => port = 0 end -> has (flags_of hs) 2 = false ->
  exists h' r, getaddrinfo fresh fuel tid ask None service hs h = Ok (h', r, 0, None) /\
    linked h' r [Ent (inet_sockaddr port (if has (flags_of hs) 1 then [0; 0; 0; 0] else [127; 0; 0; 1])) (type_of hs) None] /\
    forall p x, get h p = Some x -> get h' p = Some x.
Proof.
  intros fresh fuel tid ask service hs h port FO FU P PO NC. set (a := if has (flags_of hs) 1 then [0; 0; 0; 0] else [127; 0; 0; 1]).
  assert (NU : parse_ipv4_string (node_of None (flags_of hs)) = Some a). { unfold a. cbn [node_of]. change AI_PASSIVE with 1. destruct (has (flags_of hs) 1); reflexivity. }
  destruct (gai_ok fresh FO fuel tid ask None service hs h port [a] P PO) as (h' & r & E & L & K & _).
  - change AI_CANONNAME with 2. congruence.
  - unfold lookup_host. rewrite NU. destruct (has (flags_of hs) AI_NUMERICHOST); [eexists; split; reflexivity|reflexivity].
  - constructor; [unfold a; destruct (has (flags_of hs) 1); reflexivity|constructor].
  - cbn; lia.
  - exists h', r. split; [exact E|]. split; [|exact K]. unfold canon_of in L. change AI_CANONNAME with 2 in L. rewrite NC in L. exact L.
Qed.
Print Assumptions C111_null_partial.
(* a name: what the name server answers, in its order *)
Theorem C111_names_partial : forall fresh tid ask node service hs h port m, fresh_ok fresh -> 0 <= port < 65536 ->
  match service with Some s => s = dec port | None => port = 0 end -> has (flags_of hs) 4 = false ->
  parse_ipv4_string node = None -> let d := ask (host_query tid node) in Forall (fun b => 0 <= b < 256) d -> message_at easy_at d m ->
  exists f0, forall f, (f0 <= f)%nat -> exists h' r, getaddrinfo fresh f tid ask (Some node) service hs h = Ok (h', r, 0, None) /\
    linked h' r (entries port (type_of hs) (if has (flags_of hs) 2 then Some node else None) (addresses m)) /\
    forall p x, get h p = Some x -> get h' p = Some x.
Proof.
  intros fresh tid ask node service hs h port m FO P PO NH NI d B M. destruct (lookup_ok tid ask node m NI B M) as (f0 & K).
  exists (f0 + S (length (addresses m)))%nat. intros f F.
  destruct (gai_ok fresh FO f tid ask (Some node) service hs h port (addresses m) P PO ltac:(discriminate)) as (h' & r & E & L & KK & _).
  - change AI_NUMERICHOST with 4. rewrite NH. cbn [node_of]. apply K. lia.
  - exact (lookup_len _ _ _ _ _ (K (f0 + S (length (addresses m)))%nat ltac:(lia))).
  - lia.
  - exists h', r. split; [exact E|]. split; [exact L|exact KK].
Qed.
Print Assumptions C111_names_partial.
(* AI_NUMERICHOST and a node that is no dotted quad (by the number of its dots): no query, no result *)
Theorem C111_numerichost_partial : forall fresh fuel tid ask node service hs h, has (flags_of hs) 4 = true -> count_occ Z.eq_dec node 46 <> 3%nat ->
  getaddrinfo fresh fuel tid ask (Some node) service hs h = Ok (h, 0, EAI_NONAME, None).
Proof.
  intros fresh fuel tid ask node service hs h NH C. unfold getaddrinfo. fold (flags_of hs). change AI_NUMERICHOST with 4. rewrite NH.
  rewrite (dots_ipv4 node C). reflexivity.
Qed.
Print Assumptions C111_numerichost_partial.
(* a lookup that fails: EAI_SYSTEM and errno *)
Theorem C111_fails_partial : forall fresh fuel tid ask node service hs h e, has (flags_of hs) 4 = false -> lookup_host fuel tid ask node = Ok (inr e) ->
  getaddrinfo fresh fuel tid ask (Some node) service hs h = Ok (h, 0, EAI_SYSTEM, Some e).
Proof.
  intros fresh fuel tid ask node service hs h e NH L. unfold getaddrinfo. fold (flags_of hs). change AI_NUMERICHOST with 4. rewrite NH, L. reflexivity.
Qed.
Print Assumptions C111_fails_partial.

Definition two_answers : list Z :=
  [18; 52; 129; 128; 0; 1; 0; 2; 0; 0; 0; 0] ++ [1] ++ codes "a" ++ [2] ++ codes "bc" ++ [0; 0; 1; 0; 1] ++
  [192; 12; 0; 1; 0; 1; 0; 0; 0; 60; 0; 4; 10; 0; 2; 16] ++ [192; 12; 0; 1; 0; 1; 0; 0; 0; 60; 0; 4; 10; 0; 2; 15].
Example C111_case :
  exists h' r, getaddrinfo maxp 20 4660 (fun _ => two_answers) (Some (codes "a.bc")) (Some (codes "8080")) (Some (Hints 2 0 1 0)) [(7, BName [])] = Ok (h', r, 0, None) /\
    linked h' r [Ent (inet_sockaddr 8080 [10; 0; 2; 16]) 1 (Some (codes "a.bc")); Ent (inet_sockaddr 8080 [10; 0; 2; 15]) 1 None] /\
    parse_ipv4_string (codes "a.bc") = None /\ codes "8080" = dec 8080 /\ count_occ Z.eq_dec (codes "a.bc") 46 <> 3%nat.
Proof.
  eexists _, _. split; [vm_compute; reflexivity|]. split.
  - econstructor; [discriminate|reflexivity|reflexivity|reflexivity|reflexivity|reflexivity|cbn; split; [discriminate|reflexivity]|].
    econstructor; [discriminate|reflexivity|reflexivity|reflexivity|reflexivity|reflexivity|reflexivity|]. cbn. constructor.
  - vm_compute. repeat split; congruence.
Qed.

(* a service that is no number gives port 0 *)
Theorem C111_service_refuted : forall fresh fuel tid ask h, fresh_ok fresh -> (1 < fuel)%nat ->
  exists h' r, getaddrinfo fresh fuel tid ask (Some (codes "127.0.0.1")) (Some (codes "http")) None h = Ok (h', r, 0, None) /\
    linked h' r [Ent (inet_sockaddr 0 [127; 0; 0; 1]) 0 None].
Proof.
  intros fresh fuel tid ask h FO FU.
  destruct (C111_numeric_partial fresh fuel tid ask 127 0 0 1 None None h 0 FO FU ltac:(lia) ltac:(lia) ltac:(lia) ltac:(lia) ltac:(lia) eq_refl) as (h' & r & E & L & _).
  exists h', r. split; [exact E|exact L].
Qed.
Print Assumptions C111_service_refuted.
(* a request for IPv6 addresses alone (family 10) gets an address of the other family *)
Theorem C111_family_refuted : forall fresh fuel tid ask h, fresh_ok fresh -> (1 < fuel)%nat ->
  exists h' r, getaddrinfo fresh fuel tid ask (Some (codes "127.0.0.1")) None (Some (Hints 0 10 0 0)) h = Ok (h', r, 0, None) /\
    linked h' r [Ent (inet_sockaddr 0 [127; 0; 0; 1]) 0 None].
Proof.
  intros fresh fuel tid ask h FO FU.
  destruct (C111_numeric_partial fresh fuel tid ask 127 0 0 1 None (Some (Hints 0 10 0 0)) h 0 FO FU ltac:(lia) ltac:(lia) ltac:(lia) ltac:(lia) ltac:(lia) eq_refl) as (h' & r & E & L & _).
  exists h', r. split; [exact E|exact L].
Qed.
Print Assumptions C111_family_refuted.
(* an answer without addresses is a success with a null list *)
Theorem C111_empty_refuted : exists d, message_at easy_at d (Msg 4660 33155 [Q [codes "a"; codes "bc"] 1 1] []) /\
  forall fresh h, getaddrinfo fresh 20 4660 (fun _ => d) (Some (codes "a.bc")) None None h = Ok (h, 0, 0, None).
Proof.
  exists ([18; 52; 129; 131; 0; 1; 0; 0; 0; 0; 0; 0] ++ [1] ++ codes "a" ++ [2] ++ codes "bc" ++ [0; 0; 1; 0; 1]). split; [|reflexivity].
  unfold message_at. repeat (split; [eexists _, _; split; [reflexivity|reflexivity]|]).
  split; [exists 0; eexists _, _; split; reflexivity|]. split; [exists 0; eexists _, _; split; reflexivity|].
  exists 22%nat, 22%nat. split; [|constructor].
  apply QCons with (k := 18%nat); [|eexists _, _; split; reflexivity|eexists _, _; split; reflexivity|constructor].
  left. apply PLabel; [cbn; lia|reflexivity|]. apply PLabel; [cbn; lia|reflexivity|]. apply PEnd. reflexivity.
Qed.
Print Assumptions C111_empty_refuted.
(* with AI_NUMERICHOST four labels that are no numbers are taken for 0.0.0.0 *)
Theorem C111_numerichost_refuted : forall fresh fuel tid ask h, fresh_ok fresh -> (1 < fuel)%nat ->
  exists h' r, getaddrinfo fresh fuel tid ask (Some (codes "www.mail.example.com")) None (Some (Hints 4 0 0 0)) h = Ok (h', r, 0, None) /\
    linked h' r [Ent (inet_sockaddr 0 [0; 0; 0; 0]) 0 None].
Proof.
  intros fresh fuel tid ask h FO FU.
  destruct (gai_ok fresh FO fuel tid ask (Some (codes "www.mail.example.com")) None (Some (Hints 4 0 0 0)) h 0 [[0; 0; 0; 0]] ltac:(lia) eq_refl ltac:(discriminate)) as (h' & r & E & L & _).
  - eexists. split; reflexivity.
  - repeat constructor.
  - cbn; lia.
  - exists h', r. split; [exact E|exact L].
Qed.
Print Assumptions C111_numerichost_refuted.

(* C112 full: every call of getaddrinfo that fails leaves nothing allocated, and freeaddrinfo of a result
   releases all that the call allocated and nothing else.  The null node with AI_CANONNAME is refuted. *)
Theorem C112_free_partial : forall fresh fuel tid ask node service hs h h' r v e, fresh_ok fresh ->
  (node = None -> has (flags_of hs) 2 = false) -> getaddrinfo fresh fuel tid ask node service hs h = Ok (h', r, v, e) ->
  (v = 0 -> (forall p b, get h p = Some b -> get h' p = Some b) /\
            exists f0, forall f, (f0 <= f)%nat -> exists h2, freeaddrinfo f h' r = Ok h2 /\ forall p, get h2 p = get h p) /\
  (v <> 0 -> h' = h /\ r = 0).
Proof. intros fresh fuel tid ask node service hs h h' r v e FO. exact (gai_any fresh FO fuel tid ask node service hs h h' r v e). Qed.
Print Assumptions C112_free_partial.
Example C112_case : exists h' r h2,
  getaddrinfo maxp 20 4660 (fun _ => two_answers) (Some (codes "a.bc")) (Some (codes "8080")) (Some (Hints 2 0 1 0)) [(7, BName [])] = Ok (h', r, 0, None) /\
  length h' = 7%nat /\ freeaddrinfo 5 h' r = Ok h2 /\ h2 = [(7, BName [])].
Proof. eexists _, _, _. split; [vm_compute; reflexivity|]. split; [reflexivity|]. split; vm_compute; reflexivity. Qed.
(* the address structure stays allocated, and there is no list by which to release it *)
Theorem C112_leak_refuted : forall fresh fuel tid ask h, fresh_ok fresh -> exists p b,
  getaddrinfo fresh fuel tid ask None None (Some (Hints 2 0 0 0)) h = Ok ((p, b) :: h, 0, EAI_BADFLAGS, None) /\ get h p = None.
Proof. intros fresh fuel tid ask h FO. eexists _, _. split; [reflexivity|]. apply FO. Qed.
Print Assumptions C112_leak_refuted.

(* C113 full: getnameinfo stores the name of the host and of the service (or the numbers, as the flags ask
   for) with their terminators if they fit, gives EAI_OVERFLOW if not, EAI_NONAME if a name is required and there is none,
   and writes nowhere but in the two buffers. *)
Theorem C113_bounds : forall fuel tid ask m addr addrlen host hostlen serv servlen flags,
  (addr <> 0 -> mapped m addr 16) -> (host <> 0 -> mapped m host hostlen) -> (serv <> 0 -> mapped m serv servlen) ->
  match getnameinfo fuel tid ask m addr addrlen host hostlen serv servlen flags with
  | Ok (m', v) => forall a, ~ (host <> 0 /\ host <= a < host + hostlen) -> ~ (serv <> 0 /\ serv <= a < serv + servlen) -> m' a = m a
  | Fault => False
  | Panic | OutOfFuel => True
  end.
Proof. exact gni_bounds. Qed.
Print Assumptions C113_bounds.
Theorem C113_numeric_partial : forall fuel tid ask m addr port a b c d host hostlen serv servlen flags,
  bytes_at m addr (inet_sockaddr port [a; b; c; d]) -> 0 <= port < 65536 -> addr <> 0 -> host <> 0 -> serv <> 0 ->
  mapped m host hostlen -> mapped m serv servlen -> disjoint addr 16 serv servlen -> disjoint host hostlen serv servlen ->
  has flags 1 = true -> has flags 2 = true ->
  let t := dec a ++ 46 :: dec b ++ 46 :: dec c ++ 46 :: dec d in len t < hostlen -> len (dec port) < servlen ->
  exists m', getnameinfo fuel tid ask m addr 16 host hostlen serv servlen flags = Ok (m', 0) /\
    bytes_at m' host (t ++ [0]) /\ bytes_at m' serv (dec port ++ [0]) /\
    forall x, ~ host <= x < host + len t + 1 -> ~ serv <= x < serv + len (dec port) + 1 -> m' x = m x.
Proof.
  intros fuel tid ask m addr port a b c d host hostlen serv servlen flags SA PT NA NH NS MH MS D1 D2 F1 F2 t LT LS.
  pose proof (len_nonneg t). apply (gni_texts m addr port a b c d); auto; lia.
Qed.
Print Assumptions C113_numeric_partial.
(* the name that the name server gives; its buffer must have room for one byte more than the name needs *)
Theorem C113_name_partial : forall fuel tid ask m addr port a b c d host hostlen serv servlen flags n ns,
  bytes_at m addr (inet_sockaddr port [a; b; c; d]) -> 0 <= port < 65536 -> addr <> 0 -> host <> 0 -> serv <> 0 ->
  mapped m host hostlen -> mapped m serv servlen -> disjoint addr 16 serv servlen -> disjoint host hostlen serv servlen ->
  has flags 1 = false -> has flags 2 = true ->
  lookup_addr fuel tid ask [a; b; c; d] = Ok (inl ((n ++ [0]) :: ns)) -> len n + 1 < hostlen -> len (dec port) < servlen ->
  exists m', getnameinfo fuel tid ask m addr 16 host hostlen serv servlen flags = Ok (m', 0) /\
    bytes_at m' host (n ++ [0]) /\ bytes_at m' serv (dec port ++ [0]) /\
    forall x, ~ host <= x < host + len n + 2 -> ~ serv <= x < serv + len (dec port) + 1 -> m' x = m x.
Proof.
  intros fuel tid ask m addr port a b c d host hostlen serv servlen flags n ns SA PT NA NH NS MH MS D1 D2 F1 F2 LK LT LS.
  pose proof (len_nonneg n). assert (LN : len (n ++ [0]) = len n + 1) by (rewrite len_app; reflexivity).
  destruct (gni_texts m addr port a b c d host hostlen serv servlen flags SA NA NH NS MH MS D1 D2 ltac:(lia) F2 fuel tid ask (n ++ [0])) as (m' & E & B1 & B2 & K); [lia|lia|right; eauto|].
  exists m'. split; [exact E|]. split; [apply bytes_at_app in B1; tauto|]. split; [exact B2|]. intros x X Y. apply K; lia.
Qed.
Print Assumptions C113_name_partial.
(* the number, if the name cannot be looked up *)
Theorem C113_fallback_partial : forall fuel tid ask m addr port a b c d host hostlen serv servlen flags e,
  bytes_at m addr (inet_sockaddr port [a; b; c; d]) -> 0 <= port < 65536 -> addr <> 0 -> host <> 0 -> serv <> 0 ->
  mapped m host hostlen -> mapped m serv servlen -> disjoint addr 16 serv servlen -> disjoint host hostlen serv servlen ->
  has flags 1 = false -> has flags 2 = true -> has flags 8 = false -> lookup_addr fuel tid ask [a; b; c; d] = Ok (inr e) ->
  let t := dec a ++ 46 :: dec b ++ 46 :: dec c ++ 46 :: dec d in len t < hostlen -> len (dec port) < servlen ->
  exists m', getnameinfo fuel tid ask m addr 16 host hostlen serv servlen flags = Ok (m', 0) /\
    bytes_at m' host (t ++ [0]) /\ bytes_at m' serv (dec port ++ [0]) /\
    forall x, ~ host <= x < host + len t + 1 -> ~ serv <= x < serv + len (dec port) + 1 -> m' x = m x.
Proof.
  intros fuel tid ask m addr port a b c d host hostlen serv servlen flags e SA PT NA NH NS MH MS D1 D2 F1 F2 F3 LK t LT LS. pose proof (len_nonneg t).
  exact (gni_texts m addr port a b c d host hostlen serv servlen flags SA NA NH NS MH MS D1 D2 ltac:(lia) F2 fuel tid ask t LS LT (or_intror (or_intror (conj F1 (conj F3 (conj (ex_intro _ e LK) eq_refl)))))).
Qed.
Print Assumptions C113_fallback_partial.
(* what does not fit is an error (EAI_MEMORY is -10, where EAI_OVERFLOW is asked for), as is the want of a name that
   is required (EAI_NONAME, -2), and a sockaddr of another size (EAI_FAMILY, -6); the buffer of the host is not written then *)
Theorem C113_errors_partial : forall fuel tid ask m addr port a b c d host hostlen serv servlen flags,
  bytes_at m addr (inet_sockaddr port [a; b; c; d]) -> 0 <= port < 65536 -> addr <> 0 -> host <> 0 -> serv <> 0 ->
  mapped m host hostlen -> mapped m serv servlen -> disjoint addr 16 serv servlen -> disjoint host hostlen serv servlen -> 0 < hostlen -> has flags 2 = true ->
  let t := dec a ++ 46 :: dec b ++ 46 :: dec c ++ 46 :: dec d in
  (forall n, n <> 16 -> getnameinfo fuel tid ask m addr n host hostlen serv servlen flags = Ok (m, -6)) /\
  (0 < servlen <= len (dec port) -> getnameinfo fuel tid ask m addr 16 host hostlen serv servlen flags = Ok (m, -10)) /\
  (len (dec port) < servlen -> forall v : Z,
   (v = -10 /\ has flags 1 = true /\ hostlen <= len t \/
    v = -10 /\ has flags 1 = false /\ (exists n ns, lookup_addr fuel tid ask [a; b; c; d] = Ok (inl (n :: ns)) /\ hostlen <= len n) \/
    v = -2 /\ has flags 1 = false /\ has flags 8 = true /\
      (lookup_addr fuel tid ask [a; b; c; d] = Ok (inl []) \/ exists e, lookup_addr fuel tid ask [a; b; c; d] = Ok (inr e))) ->
   exists m', getnameinfo fuel tid ask m addr 16 host hostlen serv servlen flags = Ok (m', v) /\
     forall x, ~ serv <= x < serv + len (dec port) + 1 -> m' x = m x).
Proof.
  intros fuel tid ask m addr port a b c d host hostlen serv servlen flags SA PT NA NH NS MH MS D1 D2 LH F2 t.
  split; [intros n N; unfold getnameinfo; destruct (Z.eqb_spec addr 0); [contradiction|]; destruct (Z.eqb_spec n 16); [contradiction|]; reflexivity|].
  destruct (gni_errors m addr port a b c d host hostlen serv servlen flags SA NA NH NS MH MS D1 D2 LH F2 fuel tid ask) as [P Q].
  split; [intros [? ?]; apply P; assumption|exact Q].
Qed.
Print Assumptions C113_errors_partial.

Definition sa_mem : mem := mem_union (mem_of 100 (inet_sockaddr 8080 [192; 0; 2; 7])) (mem_union (mem_of 200 (repeat 88 20)) (mem_of 300 (repeat 89 8))).
Definition ptr_answer : list Z :=
  [18; 52; 129; 128; 0; 0; 0; 1; 0; 0; 0; 0] ++ [0; 0; 12; 0; 1; 0; 0; 0; 60; 0; 6] ++ [1; 97; 2; 98; 99; 0].
Example C113_case :
  bytes_at sa_mem 100 (inet_sockaddr 8080 [192; 0; 2; 7]) /\ disjoint 100 16 300 8 /\ disjoint 200 20 300 8 /\
  (exists m', getnameinfo 20 4660 (fun _ => ptr_answer) sa_mem 100 16 200 20 300 8 3 = Ok (m', 0) /\ bytes_at m' 200 (codes "192.0.2.7" ++ [0; 88]) /\ bytes_at m' 300 (codes "8080" ++ [0; 89])) /\
  lookup_addr 20 4660 (fun _ => ptr_answer) [192; 0; 2; 7] = Ok (inl [codes "a.bc" ++ [0]]) /\
  (exists m', getnameinfo 20 4660 (fun _ => ptr_answer) sa_mem 100 16 200 20 300 8 2 = Ok (m', 0) /\ bytes_at m' 200 (codes "a.bc" ++ [0]) /\ bytes_at m' 300 (codes "8080" ++ [0; 89])).
Proof.
  split; [vm_compute; auto 30|]. split; [left; lia|]. split; [left; lia|]. split; [|split].
  - eexists. split; [reflexivity|]. split; vm_compute; auto 20.
  - vm_compute. reflexivity.
  - eexists. split; [reflexivity|]. split; vm_compute; auto 20.
Qed.

(* a buffer that holds the name and its terminator is refused, and with another code than EAI_OVERFLOW (-12) *)
Theorem C113_exact_refuted : lookup_addr 20 4660 (fun _ => ptr_answer) [192; 0; 2; 7] = Ok (inl [codes "a.bc" ++ [0]]) /\
  getnameinfo 20 4660 (fun _ => ptr_answer) sa_mem 100 16 200 5 0 0 0 = Ok (sa_mem, EAI_MEMORY).
Proof. split; [vm_compute; reflexivity|]. reflexivity. Qed.
Print Assumptions C113_exact_refuted.
(* the cases of C113_fallback_partial and of C113_errors_partial; a response that is no message *)
Example C113_case2 : lookup_addr 20 4660 (fun _ => []) [192; 0; 2; 7] = Ok (inr 22) /\ has 2 8 = false /\ has 10 8 = true /\
  (exists m', getnameinfo 20 4660 (fun _ => []) sa_mem 100 16 200 20 300 8 2 = Ok (m', 0) /\ bytes_at m' 200 (codes "192.0.2.7" ++ [0; 88])) /\
  (exists m', getnameinfo 20 4660 (fun _ => []) sa_mem 100 16 200 20 300 8 10 = Ok (m', -2)) /\
  (exists m', getnameinfo 20 4660 (fun _ => []) sa_mem 100 16 200 9 300 8 3 = Ok (m', -10)) /\
  getnameinfo 20 4660 (fun _ => []) sa_mem 100 16 200 20 300 4 3 = Ok (sa_mem, -10) /\
  lookup_host 20 4660 (fun _ => []) (codes "a.bc") = Ok (inr 22).
Proof.
  split; [vm_compute; reflexivity|]. split; [reflexivity|]. split; [reflexivity|].
  split; [eexists; split; [reflexivity|vm_compute; auto 20]|]. split; [eexists; reflexivity|]. split; [eexists; reflexivity|]. split; [reflexivity|vm_compute; reflexivity].
Qed.
(* no name: success, and the buffer is as it was *)
Theorem C113_untouched_refuted : exists d, lookup_addr 20 4660 (fun _ => d) [192; 0; 2; 7] = Ok (inl []) /\
  getnameinfo 20 4660 (fun _ => d) sa_mem 100 16 200 20 0 0 0 = Ok (sa_mem, 0).
Proof. exists [18; 52; 129; 131; 0; 0; 0; 0; 0; 0; 0; 0]. split; reflexivity. Qed.
Print Assumptions C113_untouched_refuted.
(* without NI_NUMERICSERV the service is an empty string, whatever the port is *)
Theorem C113_service_refuted : forall fuel tid ask m addr serv servlen flags, addr <> 0 -> serv <> 0 -> 0 < servlen -> mapped m serv servlen ->
  has flags 2 = false -> getnameinfo fuel tid ask m addr 16 0 0 serv servlen flags = Ok (upd m serv 0, 0).
Proof.
  intros fuel tid ask m addr serv servlen flags NA NS LS MS F. unfold getnameinfo. destruct (Z.eqb_spec addr 0); [contradiction|]. change (16 =? 16) with true. cbn [orb negb].
  destruct (Z.eqb_spec serv 0); [contradiction|]. destruct (Z.ltb_spec 0 servlen); [|lia]. cbn [negb andb]. change NI_NUMERICSERV with 2. rewrite F.
  rewrite st_ok by (apply MS; lia). reflexivity.
Qed.
Print Assumptions C113_service_refuted.
