(* C89 *)
From Coq Require Import ZArith List Bool Lia.
From Verif Require Import Base Numeral Word_mem Scanf_spec Inet_model Inet_spec Inet_class_spec Inet_class_proofs.
Import ListNotations.
Open Scope Z_scope.

(* C89 full: s_addr holds the address in network byte order; inet_netof and inet_lnaof give
   its network number and local part by class, in host byte order, and inet_makeaddr puts
   them together again.
   Proved: inet_lnaof and inet_makeaddr as if s_addr were in host byte order (on a
   big-endian host it is).  Refuted below: the byte order, inet_netof. *)
Theorem C89_lnaof_partial a n c h : 0 <= a < 2 ^ 32 -> class a n c h -> inet_lnaof a = h.
Proof. exact (lnaof_ok a n c h). Qed.
Print Assumptions C89_lnaof_partial.
Theorem C89_makeaddr_partial a n c h : 0 <= a < 2 ^ 32 -> class a n c h -> inet_makeaddr n h = a.
Proof. exact (makeaddr_ok a n c h). Qed.
Print Assumptions C89_makeaddr_partial.
Example C89_ex : class (10 * 2 ^ 24 + 513) 10 24 513 /\ class (172 * 2 ^ 24 + 16 * 2 ^ 16 + 5) (172 * 256 + 16) 16 5 /\
  class (192 * 2 ^ 24 + 168 * 2 ^ 16 + 7) (192 * 65536 + 168 * 256) 8 7.
Proof. split; [|split]; constructor; lia. Qed.
(* inet_netof gives the local part. *)
Theorem C89_netof_refuted : class (10 * 2 ^ 24 + 513) 10 24 513 /\ inet_netof (10 * 2 ^ 24 + 513) = 513.
Proof. split; [constructor; lia|reflexivity]. Qed.
Print Assumptions C89_netof_refuted.
(* 10.0.2.1 as the four bytes 10, 0, 2, 1 in memory: the local part is 0.2.1, 513. *)
Theorem C89_order_refuted : let s_addr := 10 + 2 * 2 ^ 16 + 1 * 2 ^ 24 in
  le_bytes 4 s_addr = big_endian 4 (10 * 2 ^ 24 + 513) /\ inet_lnaof s_addr = 2 * 2 ^ 16 + 10 /\
  le_bytes 4 (inet_makeaddr 10 513) = [1; 2; 0; 10].
Proof. vm_compute. auto. Qed.
Print Assumptions C89_order_refuted.
