(* C108 to C110: protocols, services and hosts. *)
From Coq Require Import ZArith String List Bool Lia.
From Verif Require Import Base Word_mem Ctype_spec Numeral Inet_spec Inet_model Dns_spec Dns_model Dns_proofs Netdb_spec Netdb_model Netdb_proofs.
Import ListNotations.
Open Scope string_scope.
Open Scope list_scope.
Open Scope Z_scope.

Definition start (d : Z) : state := St d 0 false [].
Definition nl : list Z := [10].
Ltac each := match goal with |- Forall ?P ?l => let l' := eval vm_compute in l in change (Forall P l') end; repeat first [apply Forall_nil | apply Forall_cons]; try (unfold white; lia).
Ltac white := each.
Ltac black := each.

(* C108: the entries of /etc/protocols come one by one, then null. *)
Theorem C108_scan_partial : forall file chunk fd es s n, 0 < fd -> db s = fd \/ db s = 0 -> pos s = 0%nat ->
  database (fun l o => protocol_line l o /\ apart l) file es -> complete file ->
  exists f0, forall f, (f0 <= f)%nat -> exists s',
    getprotoents file chunk fd f n s = Ok (map (nth_error (map (fun e => Pe (p_name e) (p_number e) (p_aliases e)) es)) (seq 0 n), s').
Proof.
  intros file chunk fd es s n F D P DB C. eapply (calls_start file chunk _ _ parse_proto conv_p pline proto_skip proto_entry); try eassumption; try lia.
  - unfold isz. lia.
  - reflexivity.
  - destruct D as [D|D]; [left; exact D|right; rewrite D; reflexivity].
Qed.
Print Assumptions C108_scan_partial.
Definition protocols : list Z := codes "# Internet protocols" ++ nl ++ codes "ip	0	IP" ++ nl ++ nl ++ codes "tcp 6 TCP" ++ nl.
Example C108_scan_case :
  database (fun l o => protocol_line l o /\ apart l) protocols [Protocol (codes "ip") 0 [codes "IP"]; Protocol (codes "tcp") 6 [codes "TCP"]] /\
  complete protocols /\ exists s, getprotoents protocols (fun _ => 3%nat) 4 100 3 (start 0) = Ok ([Some (Pe (codes "ip") 0 [codes "IP"]); Some (Pe (codes "tcp") 6 [codes "TCP"]); None], s).
Proof.
  split; [|split; [right; exists (removelast protocols); reflexivity|eexists; vm_compute; reflexivity]].
  apply (DSkip _ (codes "# Internet protocols")).
  { cbn. intuition lia. }
  { split; [|right; eexists; reflexivity]. apply (PLNone _ []); [|constructor; constructor]. split; [intros []|right; eexists; reflexivity]. }
  apply (DLine _ (codes "ip	0	IP")).
  { cbn. intuition lia. }
  { split; [|left; vm_compute; intuition discriminate]. apply (PLSome _ (codes "ip	0	IP") (codes "ip") (codes "0") 0 [codes "IP"]); [|..|reflexivity].
    - split; [vm_compute; intuition discriminate|left; reflexivity].
    - apply (WCons [] (codes "ip") (codes "	0	IP")); [white|discriminate|black|intros ? ? W; vm_compute in W; inversion W; unfold white; lia|].
      apply (WCons [9] (codes "0") (codes "	IP")); [white|discriminate|black|intros ? ? W; vm_compute in W; inversion W; unfold white; lia|].
      apply (WCons [9] (codes "IP") []); [white|discriminate|black|intros ? ? W; inversion W|]. constructor. constructor.
    - split; [discriminate|]. split; [|reflexivity]. each. }
  apply (DSkip _ []).
  { intros []. }
  { split; [|left; intros []]. apply (PLNone _ []); [|constructor; constructor]. split; [intros []|left; reflexivity]. }
  apply (DLine _ (codes "tcp 6 TCP")).
  { cbn. intuition lia. }
  { split; [|left; vm_compute; intuition discriminate]. apply (PLSome _ (codes "tcp 6 TCP") (codes "tcp") (codes "6") 6 [codes "TCP"]); [|..|reflexivity].
    - split; [vm_compute; intuition discriminate|left; reflexivity].
    - apply (WCons [] (codes "tcp") (codes " 6 TCP")); [white|discriminate|black|intros ? ? W; vm_compute in W; inversion W; unfold white; lia|].
      apply (WCons [32] (codes "6") (codes " TCP")); [white|discriminate|black|intros ? ? W; vm_compute in W; inversion W; unfold white; lia|].
      apply (WCons [32] (codes "TCP") []); [white|discriminate|black|intros ? ? W; inversion W|]. constructor. constructor.
    - split; [discriminate|]. split; [|reflexivity]. each. }
  constructor.
Qed.

(* getprotobyname and getprotobynumber find the first entry, and leave a state in which they do so again *)
Theorem C108_name_partial : forall file chunk fd es s stale name, 0 < fd -> db s = fd \/ (db s = 0 /\ pos s = 0%nat) -> stay s = false ->
  database (fun l o => protocol_line l o /\ apart l) file es -> complete file ->
  exists f0, forall f, (f0 <= f)%nat -> exists s',
    getprotobyname file chunk fd f stale name s =
      Ok (find (fun e => same (pe_name e) name || existsb (fun a => same a name) (stale e)) (map (fun e => Pe (p_name e) (p_number e) (p_aliases e)) es), s') /\
    db s' = fd /\ stay s' = false.
Proof.
  intros file chunk fd es s stale name F R ST DB C.
  destruct (find_ent_ok file chunk _ _ parse_proto conv_p pline proto_skip proto_entry fd 0 isz false true ltac:(lia) ltac:(unfold isz; lia) eq_refl
    es (fun e => same (pe_name e) name || existsb (fun a => same a name) (stale e)) true true s) as (f0 & K).
  - destruct R as [R|(R1 & R2)]; [left; exact R|right; rewrite R1; auto].
  - exact DB.
  - exact C.
  - right. auto.
  - exists f0. intros f L. destruct (K f L) as (s' & Y & Z1 & _ & Z3). exists s'. split; [exact Y|]. split; [apply Z3; left; reflexivity|congruence].
Qed.
Print Assumptions C108_name_partial.
Example C108_name_case : exists s, getprotobyname protocols (fun _ => 7%nat) 4 100 pe_aliases (codes "Tcp") (start 4) = Ok (Some (Pe (codes "tcp") 6 [codes "TCP"]), s) /\
  exists s', getprotobyname protocols (fun _ => 7%nat) 4 100 pe_aliases (codes "udp") s = Ok (None, s').
Proof. eexists. split; [vm_compute; reflexivity|]. eexists. vm_compute. reflexivity. Qed.
Theorem C108_number_partial : forall file chunk fd es s n, 0 < fd -> db s = fd \/ (db s = 0 /\ pos s = 0%nat) ->
  database (fun l o => protocol_line l o /\ apart l) file es -> complete file ->
  exists f0, forall f, (f0 <= f)%nat -> exists s',
    getprotobynumber file chunk fd f n s = Ok (find (fun e => pe_proto e =? n) (map (fun e => Pe (p_name e) (p_number e) (p_aliases e)) es), s') /\
    db s' = fd /\ stay s' = stay s.
Proof.
  intros file chunk fd es s n F R DB C.
  destruct (find_ent_ok file chunk _ _ parse_proto conv_p pline proto_skip proto_entry fd 0 isz false true ltac:(lia) ltac:(unfold isz; lia) eq_refl
    es (fun e => pe_proto e =? n) false true s) as (f0 & K).
  - destruct R as [R|(R1 & R2)]; [left; exact R|right; rewrite R1; auto].
  - exact DB.
  - exact C.
  - left. reflexivity.
  - exists f0. intros f L. destruct (K f L) as (s' & Y & Z1 & _ & Z3). exists s'. split; [exact Y|]. split; [apply Z3; left; reflexivity|exact Z1].
Qed.
Print Assumptions C108_number_partial.
Example C108_number_case : exists s, getprotobynumber protocols (fun _ => 7%nat) 4 100 6 (start 0) = Ok (Some (Pe (codes "tcp") 6 [codes "TCP"]), s).
Proof. eexists. vm_compute. reflexivity. Qed.
(* setprotoent does not rewind when it finds the file closed, as getprotoent leaves it *)
Theorem C108_rewind_refuted : exists s, getprotoents protocols (fun _ => 7%nat) 4 100 1 (start 0) = Ok ([Some (Pe (codes "ip") 0 [codes "IP"])], s) /\
  getprotoents protocols (fun _ => 7%nat) 4 100 1 (setprotoent 4 false s) = Ok ([Some (Pe (codes "tcp") 6 [codes "TCP"])], St 0 40 false [4; 4]) /\
  exists s', getprotobyname protocols (fun _ => 7%nat) 4 100 pe_aliases (codes "ip") s = Ok (None, s').
Proof. eexists. split; [vm_compute; reflexivity|]. split; [vm_compute; reflexivity|]. eexists. vm_compute. reflexivity. Qed.
Print Assumptions C108_rewind_refuted.
(* after setprotoent(1) getprotobyname looks at the first entry for ever *)
Theorem C108_stayopen_refuted : forall fuel, getprotobyname protocols (fun _ => 100%nat) 4 fuel pe_aliases (codes "udp") (setprotoent 4 true (start 0)) = OutOfFuel.
Proof.
  intros fuel. unfold getprotobyname, find_ent. cbn [setprotoent setent start isz db Z.eqb stay pos closed].
  change (setent 4 isz false true (St 4 0 true [])) with (St 4 0 true []).
  induction fuel as [|f IH]; [reflexivity|]. cbn [find_loop].
  destruct f as [|[|f]]; [vm_compute; reflexivity|vm_compute; reflexivity|].
  assert (G : getent protocols (fun _ => 100%nat) protoent parse_proto 4 isz 0 true (S (S (S f))) (St 4 0 true []) =
    Ok (Some (Pe (codes "ip") 0 [codes "IP"]), St 4 29 true [])) by (vm_compute; reflexivity).
  rewrite G. exact IH.
Qed.
Print Assumptions C108_stayopen_refuted.
(* a last line without newline comes for ever *)
Theorem C108_newline_refuted : exists e, (database protocol_line (codes "ip 0") [e]) /\
  forall n, getprotoents (codes "ip 0") (fun _ => 100%nat) 4 2 n (start 0) = Ok (repeat (Some (Pe (p_name e) (p_number e) (p_aliases e))) n, St 0 0 false (repeat 4 n)).
Proof.
  exists (Protocol (codes "ip") 0 []). split.
  - apply (DLast _ (codes "ip 0") (Some (Protocol (codes "ip") 0 []))); [discriminate|vm_compute; intuition discriminate|].
    apply (PLSome _ (codes "ip 0") (codes "ip") (codes "0") 0 []); [split; [vm_compute; intuition discriminate|left; reflexivity]| | |reflexivity].
    + apply (WCons [] (codes "ip") (codes " 0")); [white|discriminate|black|intros ? ? W; vm_compute in W; inversion W; unfold white; lia|].
      apply (WCons [32] (codes "0") []); [white|discriminate|black|intros ? ? W; inversion W|]. constructor. constructor.
    + split; [discriminate|]. split; [|reflexivity]. each.
  - assert (G : forall n cl, getprotoents (codes "ip 0") (fun _ => 100%nat) 4 2 n (St 0 0 false cl) = Ok (repeat (Some (Pe (codes "ip") 0 [])) n, St 0 0 false (cl ++ repeat 4 n))).
    { induction n as [|n IH]; intros cl; [cbn; rewrite app_nil_r; reflexivity|]. unfold getprotoents in *. cbn [calls].
      assert (G : getent (codes "ip 0") (fun _ => 100%nat) protoent parse_proto 4 isz 0 true 2 (St 0 0 false cl) = Ok (Some (Pe (codes "ip") 0 []), St 0 0 false (cl ++ [4]))) by (vm_compute; reflexivity).
      rewrite G. cbn [bind]. rewrite IH. cbn [bind]. rewrite <- app_assoc. reflexivity. }
    intros n. exact (G n []).
Qed.
Print Assumptions C108_newline_refuted.
(* endprotoent closes the standard input of a program that did not use the database *)
Theorem C108_close_refuted : closed (endprotoent (start 0)) = [0].
Proof. reflexivity. Qed.
Print Assumptions C108_close_refuted.
(* the words of a comment behind an entry are aliases; an entry of one word ends the program *)
Theorem C108_comment_refuted : exists s, getprotoents (codes "ip 0 IP # internet" ++ nl) (fun _ => 7%nat) 4 100 1 (start 0) = Ok ([Some (Pe (codes "ip") 0 [codes "IP"; codes "#"; codes "internet"])], s) /\
  protocol_line (codes "ip 0 IP # internet") (Some (Protocol (codes "ip") 0 [codes "IP"])).
Proof.
  eexists. split; [vm_compute; reflexivity|].
  apply (PLSome _ (codes "ip 0 IP ") (codes "ip") (codes "0") 0 [codes "IP"]); [split; [vm_compute; intuition discriminate|right; eexists; reflexivity]| | |reflexivity].
  - apply (WCons [] (codes "ip") (codes " 0 IP ")); [white|discriminate|black|intros ? ? W; vm_compute in W; inversion W; unfold white; lia|].
    apply (WCons [32] (codes "0") (codes " IP ")); [white|discriminate|black|intros ? ? W; vm_compute in W; inversion W; unfold white; lia|].
    apply (WCons [32] (codes "IP") [32]); [white|discriminate|black|intros ? ? W; vm_compute in W; inversion W; unfold white; lia|]. constructor. white.
  - split; [discriminate|]. split; [|reflexivity]. each.
Qed.
Print Assumptions C108_comment_refuted.
Theorem C108_crash_refuted : getprotoents (codes "ip" ++ nl) (fun _ => 7%nat) 4 100 1 (start 0) = Panic.
Proof. vm_compute. reflexivity. Qed.
Print Assumptions C108_crash_refuted.

(* C109: /etc/services; ports are in network byte order. *)
Theorem C109_scan_partial : forall file chunk fd es s n, 0 < fd -> db s = fd \/ db s = 0 -> pos s = 0%nat ->
  database (fun l o => service_line l o /\ apart l /\ (In 35 l -> harmless l)) file es -> complete file ->
  exists f0, forall f, (f0 <= f)%nat -> exists s',
    getservents file chunk fd f n s = Ok (map (nth_error (map (fun e => Se (s_name e) (htobe 2 (s_port e)) (s_protocol e)) es)) (seq 0 n), s').
Proof.
  intros file chunk fd es s n F D P DB C. eapply (calls_start file chunk _ _ parse_serv conv_s sline serv_skip serv_entry); try eassumption; try lia.
  - unfold isz. lia.
  - reflexivity.
  - destruct D as [D|D]; [left; exact D|right; rewrite D; reflexivity].
Qed.
Print Assumptions C109_scan_partial.
Definition services : list Z := codes "# Network services, Internet style" ++ nl ++ codes "ssh 22/tcp" ++ nl ++ codes "domain	53/udp" ++ nl.
Example C109_scan_case : exists s, getservents services (fun _ => 3%nat) 4 100 3 (start 0) =
  Ok ([Some (Se (codes "ssh") (256 * 22) (codes "tcp")); Some (Se (codes "domain") (256 * 53) (codes "udp")); None], s).
Proof. eexists. vm_compute. reflexivity. Qed.
Example C109_line_case : service_line (codes "ssh 22/tcp") (Some (Service (codes "ssh") 22 (codes "tcp") [])) /\ apart (codes "ssh 22/tcp") /\ (In 35 (codes "ssh 22/tcp") -> harmless (codes "ssh 22/tcp")).
Proof.
  split; [|split; [left; vm_compute; intuition discriminate|vm_compute; intuition discriminate]].
  apply (SLSome _ (codes "ssh 22/tcp") (codes "ssh") (codes "22") 22 (codes "tcp") []); [split; [vm_compute; intuition discriminate|left; reflexivity]| | |lia|vm_compute; intuition discriminate].
  - apply (WCons [] (codes "ssh") (codes " 22/tcp")); [white|discriminate|black|intros ? ? W; vm_compute in W; inversion W; unfold white; lia|].
    apply (WCons [32] (codes "22/tcp") []); [white|discriminate|black|intros ? ? W; inversion W|]. constructor. constructor.
  - split; [discriminate|]. split; [|reflexivity]. each.
Qed.
Theorem C109_name_partial : forall file chunk fd es s name proto, 0 < fd -> db s = fd \/ (db s = 0 /\ pos s = 0%nat) ->
  database (fun l o => service_line l o /\ apart l /\ (In 35 l -> harmless l)) file es -> complete file ->
  exists f0, forall f, (f0 <= f)%nat -> exists s',
    getservbyname file chunk fd f name proto s =
      Ok (find (fun e => same (se_name e) name && match proto with Some p => same (se_proto e) p | None => true end)
        (map (fun e => Se (s_name e) (htobe 2 (s_port e)) (s_protocol e)) es), s') /\ db s' = fd /\ stay s' = stay s.
Proof.
  intros file chunk fd es s name proto F R DB C.
  destruct (find_ent_ok file chunk _ _ parse_serv conv_s sline serv_skip serv_entry fd 0 isz false true ltac:(lia) ltac:(unfold isz; lia) eq_refl
    es (fun e => same (se_name e) name && match proto with Some p => same (se_proto e) p | None => true end) false true s) as (f0 & K).
  - destruct R as [R|(R1 & R2)]; [left; exact R|right; rewrite R1; auto].
  - exact DB.
  - exact C.
  - left. reflexivity.
  - exists f0. intros f L. destruct (K f L) as (s' & Y & Z1 & _ & Z3). exists s'. split; [exact Y|]. split; [apply Z3; left; reflexivity|exact Z1].
Qed.
Print Assumptions C109_name_partial.
Theorem C109_port_partial : forall file chunk fd es s port proto, 0 < fd -> db s = fd \/ (db s = 0 /\ pos s = 0%nat) ->
  database (fun l o => service_line l o /\ apart l /\ (In 35 l -> harmless l)) file es -> complete file ->
  exists f0, forall f, (f0 <= f)%nat -> exists s',
    getservbyport file chunk fd f port proto s =
      Ok (find (fun e => (se_port e =? port) && match proto with Some p => same (se_proto e) p | None => true end)
        (map (fun e => Se (s_name e) (htobe 2 (s_port e)) (s_protocol e)) es), s') /\ db s' = fd /\ stay s' = stay s.
Proof.
  intros file chunk fd es s port proto F R DB C.
  destruct (find_ent_ok file chunk _ _ parse_serv conv_s sline serv_skip serv_entry fd 0 isz false true ltac:(lia) ltac:(unfold isz; lia) eq_refl
    es (fun e => (se_port e =? port) && match proto with Some p => same (se_proto e) p | None => true end) false true s) as (f0 & K).
  - destruct R as [R|(R1 & R2)]; [left; exact R|right; rewrite R1; auto].
  - exact DB.
  - exact C.
  - left. reflexivity.
  - exists f0. intros f L. destruct (K f L) as (s' & Y & Z1 & _ & Z3). exists s'. split; [exact Y|]. split; [apply Z3; left; reflexivity|exact Z1].
Qed.
Print Assumptions C109_port_partial.
Example C109_port_case : exists s, getservbyport services (fun _ => 3%nat) 4 100 (htobe 2 53) (Some (codes "udp")) (start 0) = Ok (Some (Se (codes "domain") (256 * 53) (codes "udp")), s) /\
  exists s', getservbyname services (fun _ => 3%nat) 4 100 (codes "SSH") None s = Ok (Some (Se (codes "ssh") (256 * 22) (codes "tcp")), s').
Proof. eexists. split; [vm_compute; reflexivity|]. eexists. vm_compute. reflexivity. Qed.
(* aliases are not looked at *)
Theorem C109_alias_refuted : service_line (codes "http 80/tcp www") (Some (Service (codes "http") 80 (codes "tcp") [codes "www"])) /\
  exists s, getservbyname (codes "http 80/tcp www" ++ nl) (fun _ => 3%nat) 4 100 (codes "www") None (start 0) = Ok (None, s).
Proof.
  split; [|eexists; vm_compute; reflexivity].
  apply (SLSome _ (codes "http 80/tcp www") (codes "http") (codes "80") 80 (codes "tcp") [codes "www"]); [split; [vm_compute; intuition discriminate|left; reflexivity]| | |lia|vm_compute; intuition discriminate].
  - apply (WCons [] (codes "http") (codes " 80/tcp www")); [white|discriminate|black|intros ? ? W; vm_compute in W; inversion W; unfold white; lia|].
    apply (WCons [32] (codes "80/tcp") (codes " www")); [white|discriminate|black|intros ? ? W; vm_compute in W; inversion W; unfold white; lia|].
    apply (WCons [32] (codes "www") []); [white|discriminate|black|intros ? ? W; inversion W|]. constructor. constructor.
  - split; [discriminate|]. split; [|reflexivity]. each.
Qed.
Print Assumptions C109_alias_refuted.
(* a service that has been commented out is still there *)
Theorem C109_comment_refuted : service_line (codes "#telnet 23/tcp") None /\
  exists s, getservbyport (codes "#telnet 23/tcp" ++ nl) (fun _ => 3%nat) 4 100 (htobe 2 23) None (start 0) = Ok (Some (Se (codes "#telnet") (256 * 23) (codes "tcp")), s).
Proof.
  split; [|eexists; vm_compute; reflexivity]. apply (SLNone _ []); [split; [intros []|right; eexists; reflexivity]|constructor; constructor].
Qed.
Print Assumptions C109_comment_refuted.
(* a last line without newline that is not an entry hangs getservent *)
Theorem C109_hang_refuted : forall fuel, getservents (codes "# end") (fun _ => 100%nat) 4 fuel 1 (start 0) = OutOfFuel.
Proof.
  intros fuel. unfold getservents. cbn [calls]. unfold getent. cbn [start db isz Z.eqb pos stay closed Z.ltb Z.compare].
  destruct fuel as [|f]; [reflexivity|].
  assert (H : forall f, scan (codes "# end") (fun _ => 100%nat) servent parse_serv f (Rlb 5 (codes "# end") None 5) = OutOfFuel).
  { clear f. induction f as [|f IH]; [reflexivity|]. exact IH. }
  assert (H0 : scan (codes "# end") (fun _ => 100%nat) servent parse_serv (S f) (Rlb 0 [] None 0) = scan (codes "# end") (fun _ => 100%nat) servent parse_serv f (Rlb 5 (codes "# end") None 5)) by reflexivity.
  rewrite H0, H. reflexivity.
Qed.
Print Assumptions C109_hang_refuted.

(* C110: gethostbyname and gethostbyaddr look in /etc/hosts first, then ask. *)
Theorem C110_scan_partial : forall file chunk fd junk es s n, 0 <= fd -> db s = fd \/ db s = -1 -> pos s = 0%nat ->
  database (fun l o => host_line l o /\ apart l /\ ~ In 43 l) file es -> complete file ->
  exists f0, forall f, (f0 <= f)%nat -> exists s',
    gethostents file chunk fd junk f n s = Ok (map (nth_error (map (fun e => He (h_name e ++ [0]) (le_bytes 4 (htobe 4 (h_addr e))) (h_aliases e)) es)) (seq 0 n), s').
Proof.
  intros file chunk fd junk es s n F D P DB C. eapply (calls_start file chunk _ _ (parse_host junk) conv_h hline (host_skip junk) (host_entry junk)); try eassumption; try lia.
  - unfold neg. lia.
  - reflexivity.
  - destruct D as [D|D]; [left; exact D|right; rewrite D; reflexivity].
Qed.
Print Assumptions C110_scan_partial.
Definition hosts : list Z := codes "127.0.0.1	localhost" ++ nl ++ codes "10.0.2.15 build.example build" ++ nl.
Example C110_scan_case : exists s, gethostents hosts (fun _ => 3%nat) 4 [9; 9; 9; 9] 100 3 (start (-1)) =
  Ok ([Some (He (codes "localhost" ++ [0]) [127; 0; 0; 1] []); Some (He (codes "build.example" ++ [0]) [10; 0; 2; 15] [codes "build"]); None], s).
Proof. eexists. vm_compute. reflexivity. Qed.

(* names in the file are not asked for; others are *)
Theorem C110_name_partial : forall file chunk fd junk es s tid ask name, 0 <= fd -> db s = fd \/ db s = -1 ->
  database (fun l o => host_line l o /\ apart l /\ ~ In 43 l) file es -> complete file -> parse_ipv4_string name = None ->
  let known := find (fun e => same (h_name e) name || existsb (fun a => same a name) (h_aliases e)) es in
  (forall e, known = Some e -> exists f0, forall f, (f0 <= f)%nat -> exists s',
     gethostbyname file chunk fd junk f tid ask name s = Ok (Some (He (h_name e ++ [0]) (le_bytes 4 (htobe 4 (h_addr e))) (h_aliases e)), s', 0)) /\
  (known = None -> forall m, let d := ask (host_query tid name) in Forall (fun b => 0 <= b < 256) d -> message_at easy_at d m ->
     exists f0, forall f, (f0 <= f)%nat -> exists s' n, gethostbyname file chunk fd junk f tid ask name s =
       Ok (match addresses m with a :: _ => Some (He n a []) | [] => None end, s', match addresses m with [] => 1 | _ => 0 end)).
Proof.
  intros file chunk fd junk es s tid ask name F D DB C N known.
  set (hit := fun e => caseeq (removelast (he_name e)) name || existsb (fun x => caseeq x name) (he_aliases e)).
  assert (FK : find hit (map conv_h es) = match known with Some e => Some (conv_h e) | None => None end).
  { subst known. clear DB. induction es as [|e es IH]; [reflexivity|]. cbn [map find]. unfold hit at 1. cbn [conv_h he_name he_aliases].
    rewrite removelast_last. change caseeq with same. destruct (same (h_name e) name || existsb (fun a => same a name) (h_aliases e)); [reflexivity|exact IH]. }
  destruct (find_ent_ok file chunk _ _ (parse_host junk) conv_h hline (host_skip junk) (host_entry junk) fd (-1) neg true true F ltac:(unfold neg; lia) eq_refl
    es hit false false s) as (f0 & K).
  - destruct D as [D|D]; [left; exact D|right; rewrite D; auto].
  - exact DB.
  - exact C.
  - left. reflexivity.
  - unfold gethostbyname, host_by_name. rewrite N. fold hit. split.
    + intros e KE. exists f0. intros f L. destruct (K f L) as (s' & Y & _). rewrite Y, FK, KE. cbn [bind]. eexists. reflexivity.
    + intros KN m B M. destruct (lookup_ok tid ask name m N B M) as (f1 & K1). exists (f0 + f1)%nat. intros f L.
      destruct (K f ltac:(lia)) as (s' & Y & _). rewrite Y, FK, KN. cbn [bind]. rewrite K1 by lia. cbn [bind].
      destruct (addresses m) as [|a l]; eexists; exists name; reflexivity.
Qed.
Print Assumptions C110_name_partial.
Example C110_name_case : exists s, gethostbyname hosts (fun _ => 3%nat) 4 [] 100 1 (fun _ => []) (codes "BUILD") (start (-1)) = Ok (Some (He (codes "build.example" ++ [0]) [10; 0; 2; 15] [codes "build"]), s, 0) /\
  parse_ipv4_string (codes "BUILD") = None.
Proof. eexists. split; [vm_compute; reflexivity|reflexivity]. Qed.
Theorem C110_addr_partial : forall file chunk fd junk es s tid ask a, 0 <= fd -> db s = fd \/ db s = -1 ->
  database (fun l o => host_line l o /\ apart l /\ ~ In 43 l) file es -> complete file ->
  forall e, find (fun e => if list_eq_dec Z.eq_dec (le_bytes 4 (htobe 4 (h_addr e))) a then true else false) es = Some e ->
  exists f0, forall f, (f0 <= f)%nat -> exists s',
    gethostbyaddr file chunk fd junk f tid ask a s = Ok (Some (He (h_name e ++ [0]) (le_bytes 4 (htobe 4 (h_addr e))) (h_aliases e)), s', 0).
Proof.
  intros file chunk fd junk es s tid ask a F D DB C e KE.
  set (hit := fun e => if list_eq_dec Z.eq_dec (he_addr e) a then true else false).
  assert (FK : find hit (map conv_h es) = Some (conv_h e)).
  { clear DB. induction es as [|x es IH]; [discriminate|]. cbn [map find] in *. unfold hit at 1. cbn [conv_h he_addr].
    destruct (list_eq_dec Z.eq_dec (le_bytes 4 (htobe 4 (h_addr x))) a); [inversion KE; reflexivity|exact (IH KE)]. }
  destruct (find_ent_ok file chunk _ _ (parse_host junk) conv_h hline (host_skip junk) (host_entry junk) fd (-1) neg true true F ltac:(unfold neg; lia) eq_refl
    es hit false false s) as (f0 & K).
  - destruct D as [D|D]; [left; exact D|right; rewrite D; auto].
  - exact DB.
  - exact C.
  - left. reflexivity.
  - exists f0. intros f L. destruct (K f L) as (s' & Y & _). unfold gethostbyaddr, host_by_addr. fold hit. rewrite Y, FK. cbn [bind]. eexists. reflexivity.
Qed.
Print Assumptions C110_addr_partial.
Example C110_addr_case : exists s, gethostbyaddr hosts (fun _ => 3%nat) 4 [] 100 1 (fun _ => []) [127; 0; 0; 1] (start (-1)) = Ok (Some (He (codes "localhost" ++ [0]) [127; 0; 0; 1] []), s, 0).
Proof. eexists. vm_compute. reflexivity. Qed.
(* a name got from the name server is not a string: nothing terminates it *)
Theorem C110_terminator_refuted : exists ask s e, gethostbyname [] (fun _ => 3%nat) 4 [] 100 4660 ask (codes "a.bc") (start (-1)) = Ok (Some e, s, 0) /\
  ~ In 0 (he_name e).
Proof.
  exists (fun _ => [18; 52; 129; 128; 0; 1; 0; 1; 0; 0; 0; 0] ++ [1] ++ codes "a" ++ [2] ++ codes "bc" ++ [0; 0; 1; 0; 1] ++
    [192; 12; 0; 1; 0; 1; 0; 0; 0; 60; 0; 4] ++ [10; 0; 2; 15]). do 2 eexists. split; [vm_compute; reflexivity|]. cbn. intuition lia.
Qed.
Print Assumptions C110_terminator_refuted.
(* the address of an IPv6 line is whatever was in memory *)
Theorem C110_ipv6_refuted : forall junk, exists s, gethostbyname (codes "::1 ip6-localhost" ++ nl) (fun _ => 3%nat) 4 junk 100 1 (fun _ => []) (codes "ip6-localhost") (start (-1)) =
  Ok (Some (He (codes "ip6-localhost" ++ [0]) junk []), s, 0).
Proof. intros junk. eexists. vm_compute. reflexivity. Qed.
Print Assumptions C110_ipv6_refuted.
