(* C47, C48: IPv4 addresses as text, and byte order. *)
From Coq Require Import String ZArith List Bool Lia.
From Verif Require Import Base Numeral Word_mem Ctype_spec Scanf_spec Inet_model Inet_spec Inet_proofs.
Import ListNotations.
Open Scope string_scope.
Open Scope list_scope.
Open Scope Z_scope.

(* [le_bytes n v] are the bytes in memory of the n-byte integer v (little-endian host). *)
Theorem C48_byte_order : forall n x, 0 <= x < 256 ^ Z.of_nat n ->
  le_bytes n (htobe n x) = big_endian n x /\ le_bytes n (htole n x) = little_endian n x /\
  0 <= htobe n x < 256 ^ Z.of_nat n /\
  betoh n (htobe n x) = x /\ htobe n (betoh n x) = x /\ letoh n (htole n x) = x /\ htole n (letoh n x) = x.
Proof.
  intros n x X. split; [apply swap_bytes_mem|]. split; [apply le_is_little|]. split; [apply swap_bytes_range|].
  split; [apply swap_swap; exact X|]. split; [apply swap_swap; exact X|]. split; reflexivity.
Qed.
Print Assumptions C48_byte_order.

Example C48_case :
  big_endian 4 16909060 = [1; 2; 3; 4] /\ little_endian 2 258 = [2; 1] /\ htobe 4 16909060 = 67305985 /\ 0 <= 16909060 < 256 ^ Z.of_nat 4.
Proof. vm_compute. intuition discriminate. Qed.

(* Missing from C47: buffers smaller than 16 bytes, strings with '+' and the destination of
   a failed inet_pton (refuted below).  IPv6 is not modelled. *)

(* inet_ntop writes the canonical text of the four bytes, inside the buffer; it refuses
   other families and buffers below 16 bytes and then changes nothing. *)
Theorem C47_ntop_partial : forall m src dst size l, bytes_at m src l -> Forall is_byte l -> length l = 4%nat -> mapped m dst size ->
  (16 <= size < 2 ^ 32 ->
     exists m' s, inet_ntop m AF_INET src dst size = Ok (m', dst, None) /\ canonical s l /\ cstr m' dst s /\
       forall x, ~ (dst <= x < dst + size) -> m' x = m x) /\
  (size < 16 -> inet_ntop m AF_INET src dst size = Ok (m, NULL, Some ENOSPC)) /\
  (forall af, af <> AF_INET -> inet_ntop m af src dst size = Ok (m, NULL, Some EAFNOSUPPORT)).
Proof.
  intros m src dst size l B F L MP. split; [|split].
  - intro SZ. destruct l as [|a [|b [|c [|d [|? ?]]]]]; try discriminate.
    destruct (ntop_ok m src dst size a b c d B F SZ MP) as (m' & E & C & _ & U). eexists. eexists. split; [exact E|].
    split; [apply ntop_canonical; exact F|]. split; [exact C|exact U].
  - intro SZ. unfold inet_ntop. cbn. apply Z.ltb_lt in SZ. rewrite SZ. reflexivity.
  - intros af N. unfold inet_ntop. apply Z.eqb_neq in N. rewrite N. reflexivity.
Qed.
Print Assumptions C47_ntop_partial.

(* inet_pton accepts exactly the dotted quads and stores their octets. *)
Theorem C47_pton_partial : forall fuel m src dst s, cstr m src s -> (length s < fuel)%nat -> ~ In 43 s -> mapped m dst 4 ->
  (exists l m', quad s l /\ inet_pton4 fuel m src dst = Ok (m', 1) /\ stored m m' dst l) \/
  ((~ exists l, quad s l) /\
   exists m', inet_pton4 fuel m src dst = Ok (m', 0) /\ forall x, ~ (dst <= x < dst + 4) -> m' x = m x).
Proof. exact pton_ok. Qed.
Print Assumptions C47_pton_partial.

(* Reading back what inet_ntop wrote gives the same four bytes. *)
Theorem C47_round_trip : forall fuel m src buf size dst l, bytes_at m src l -> Forall is_byte l -> length l = 4%nat ->
  mapped m buf size -> 16 <= size < 2 ^ 32 -> mapped m dst 4 -> disjoint buf size dst 4 -> (16 <= fuel)%nat ->
  exists m1 m2, inet_ntop m AF_INET src buf size = Ok (m1, buf, None) /\
    inet_pton4 fuel m1 buf dst = Ok (m2, 1) /\ stored m1 m2 dst l.
Proof.
  intros fuel m src buf size dst l B F L MP SZ MD DJ FU. destruct l as [|a [|b [|c [|d [|? ?]]]]]; try discriminate.
  destruct (ntop_ok m src buf size a b c d B F SZ MP) as (m1 & E & C & LS & U). pose proof (ntop_quad a b c d F) as Q.
  set (s := dotted [dec a; dec b; dec c; dec d]) in *. exists m1.
  destruct (pton_ok fuel m1 buf dst s C) as [(k & m2 & K & E2 & S2)|(N & _)].
  - unfold len in LS. lia.
  - eapply no_plus_quad. exact Q.
  - intros x X. rewrite U; [apply MD; exact X|]. unfold disjoint in DJ. lia.
  - exists m2. split; [exact E|]. split; [exact E2|]. rewrite (quad_inj _ _ _ Q K). exact S2.
  - exfalso. apply N. eexists. exact Q.
Qed.
Print Assumptions C47_round_trip.

(* inet_aton accepts exactly the one- to four-part forms and stores the address they denote
   in network byte order; otherwise it changes nothing. *)
Theorem C47_aton_partial : forall fuel m cp inp s, cstr m cp s -> (length s < fuel)%nat -> ~ In 43 s -> mapped m inp 4 ->
  (exists a m', denotes s a /\ inet_aton fuel m cp inp = Ok (m', 1) /\ stored m m' inp (big_endian 4 a)) \/
  ((~ exists a, denotes s a) /\ inet_aton fuel m cp inp = Ok (m, 0)).
Proof. exact aton_ok. Qed.
Print Assumptions C47_aton_partial.

(* inet_addr returns that address, in network byte order, or INADDR_NONE; inet_network
   returns it in host order. *)
Theorem C47_addr_partial : forall fuel m cp s, cstr m cp s -> (length s < fuel)%nat -> ~ In 43 s ->
  (exists a v, denotes s a /\ inet_addr fuel m cp = Ok v /\ le_bytes 4 v = big_endian 4 a /\
     inet_network fuel m cp = Ok a) \/
  ((~ exists a, denotes s a) /\ inet_addr fuel m cp = Ok (2 ^ 32 - 1) /\ inet_network fuel m cp = Ok (2 ^ 32 - 1)).
Proof.
  intros fuel m cp s C F P. unfold inet_network, inet_addr. rewrite (read_str_ok s fuel m cp C F). cbn [bind].
  destruct (aton s) as [a|] eqn:E.
  - left. exists a, (swap_bytes 4 a). split; [apply aton_iff; assumption|]. split; [reflexivity|]. split; [apply swap_bytes_mem|].
    cbn [bind]. f_equal. apply swap_swap. eapply denotes_range. apply aton_iff; eassumption.
  - right. split; [|split; vm_compute; reflexivity]. intros (a & D). apply aton_iff in D; [|exact P]. congruence.
Qed.
Print Assumptions C47_addr_partial.

Definition str (s : string) : mem := mem_of 1000 (codes s ++ [0] ++ repeat 9 24).

(* A buffer of 8 bytes is enough for "1.2.3.4" but refused. *)
Theorem C47_small_refuted : exists m, bytes_at m 2000 [1; 2; 3; 4] /\ mapped m 1000 8 /\
  canonical (codes "1.2.3.4") [1; 2; 3; 4] /\ len (codes "1.2.3.4") + 1 <= 8 /\ inet_ntop m AF_INET 2000 1000 8 = Ok (m, NULL, Some ENOSPC).
Proof.
  exists (mem_union (mem_of 2000 [1; 2; 3; 4]) (mem_of 1000 (repeat 9 8))). split; [vm_compute; auto|]. split.
  - intros x X. unfold mem_union, mem_of. assert (K : x - 2000 < 0 /\ 0 <= x - 1000 < 8) by lia.
    assert (x = 1000 \/ x = 1001 \/ x = 1002 \/ x = 1003 \/ x = 1004 \/ x = 1005 \/ x = 1006 \/ x = 1007) as Q by lia.
    repeat (destruct Q as [->|Q]; [eexists; vm_compute; reflexivity|]). subst. eexists; vm_compute; reflexivity.
  - split; [|split; [vm_compute; discriminate|reflexivity]]. exists [[1]; [2]; [3]; [4]]. split; [reflexivity|]. split; [reflexivity|].
    repeat constructor; try lia; try discriminate.
Qed.
Print Assumptions C47_small_refuted.

(* "+1.2.3.4" is accepted, and a rejected string ("7.8.x") still changes the destination. *)
Theorem C47_plus_refuted :
  (exists m, inet_pton4 20 (str "+1.2.3.4") 1000 1010 = Ok (m, 1)) /\ ~ (exists l, quad (codes "+1.2.3.4") l) /\
  (exists m, inet_aton 20 (str "0x+1") 1000 1010 = Ok (m, 1)).
Proof.
  split; [eexists; vm_compute; reflexivity|]. split; [|eexists; vm_compute; reflexivity].
  intros (l & Q). apply no_plus_quad in Q. apply Q. left. reflexivity.
Qed.
Print Assumptions C47_plus_refuted.
Theorem C47_touched_refuted :
  exists m, inet_pton4 20 (str "7.8.x") 1000 1010 = Ok (m, 0) /\ str "7.8.x" 1010 = Some 9 /\ m 1010 = Some 7.
Proof. eexists. vm_compute. repeat split. Qed.
Print Assumptions C47_touched_refuted.

Example C47_case :
  quad (codes "192.168.0.7") [192; 168; 0; 7] /\ denotes (codes "0xC0.0250.7") (192 * 2 ^ 24 + 168 * 2 ^ 16 + 7) /\
  (exists m, inet_pton4 20 (str "192.168.0.7") 1000 1014 = Ok (m, 1) /\ map m [1014; 1015; 1016; 1017] = map Some [192; 168; 0; 7]) /\
  (exists m, inet_aton 20 (str "0xC0.0250.7") 1000 1014 = Ok (m, 1) /\ map m [1014; 1015; 1016; 1017] = map Some [192; 168; 0; 7]).
Proof.
  split; [|split; [|split; eexists; vm_compute; split; reflexivity]].
  - exists [codes "192"; codes "168"; codes "0"; codes "7"]. split; [reflexivity|]. split; [reflexivity|].
    repeat (apply Forall2_cons; [split; [split; [discriminate|]; split; [repeat constructor; cbn; lia|reflexivity]|split; vm_compute; discriminate]|]). constructor.
  - exists [codes "0xC0"; codes "0250"; codes "7"], [192; 168; 7]. split; [reflexivity|]. split; [|apply a3; lia].
    apply Forall2_cons; [|apply Forall2_cons; [|apply Forall2_cons; [|constructor]]].
    + apply (k_i16 120 (codes "C0")); [left; reflexivity|]. split; [discriminate|]. split; [repeat constructor; cbn; lia|reflexivity].
    + apply (k_i8 (codes "250")). split; [discriminate|]. split; [repeat constructor; cbn; lia|reflexivity].
    + apply k_i10; [discriminate|]. split; [discriminate|]. split; [repeat constructor; cbn; lia|reflexivity].
Qed.
