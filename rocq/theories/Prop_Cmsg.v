(* C162: walking through control messages. *)
From Verif Require Import Base String_model Sockmsg_model Cmsg_model Cmsg_spec Cmsg_proofs.

(* C162 full: the macros and the functions CMSG_FIRSTHDR, CMSG_NXTHDR and CMSG_DATA walk through exactly the messages in the buffer, in order; whatever is in the buffer, the walk
   ends and stays in it.  Missing, refuted: the macro misses a last message without data; the function does not end when a length is 0, the macro not
   when it is near 2^64. *)
Theorem C162_function_walk : forall m a n l, buffer m a n l -> function_walk (S (List.length l)) m a n = Ok (places a l).
Proof. exact fn_walk_ok. Qed.
Print Assumptions C162_function_walk.
Theorem C162_macro_walk_partial : forall m a n l, buffer m a n l -> last_has_data l -> macro_walk (S (List.length l)) m a n = Ok (places a l).
Proof. exact macro_walk_ok. Qed.
Print Assumptions C162_macro_walk_partial.
Theorem C162_data : forall m l a i p x, laid m a l -> nth_error (places a l) i = Some p -> nth_error l i = Some x ->
  bytes_at m p (num 8 (16 + len (data x)) ++ num 4 (level x) ++ num 4 (kind x)) /\ bytes_at m (MACRO_DATA p) (data x) /\ CMSG_DATA p = MACRO_DATA p.
Proof. exact place_data. Qed.
Print Assumptions C162_data.
Theorem C162_sizes : forall n, 0 <= n < 2 ^ 32 - 24 -> CMSG_LEN n = 16 + n /\ CMSG_SPACE n = 16 + (n + 7) / 8 * 8.
Proof. exact sizes. Qed.
Print Assumptions C162_sizes.
Example C162_sizes_case : CMSG_LEN 12 = 28 /\ CMSG_SPACE 12 = 32. Proof. apply (C162_sizes 12). split; [lia|reflexivity]. Qed.

Definition two : list message := [Message 1 1 [5; 0; 0; 0]; Message 1 2 [7]].
Definition two_bytes : list Z := num 8 20 ++ num 4 1 ++ num 4 1 ++ [5; 0; 0; 0] ++ [0; 0; 0; 0] ++ num 8 17 ++ num 4 1 ++ num 4 2 ++ [7].
Example two_buffer : buffer (mem_of 4096 two_bytes) 4096 41 two.
Proof. split; [lia|]. split; [reflexivity|]. split; [|vm_compute; split; discriminate]. vm_compute. tauto. Qed.
Example C162_walk_case : macro_walk 3 (mem_of 4096 two_bytes) 4096 41 = Ok [4096; 4120] /\ function_walk 3 (mem_of 4096 two_bytes) 4096 41 = Ok [4096; 4120].
Proof. split; [exact (C162_macro_walk_partial _ _ _ _ two_buffer ltac:(discriminate))|exact (C162_function_walk _ _ _ _ two_buffer)]. Qed.
Example C162_data_case : bytes_at (mem_of 4096 two_bytes) (MACRO_DATA 4120) [7].
Proof. apply (C162_data _ two 4096 1 4120 (Message 1 2 [7])); [apply two_buffer|reflexivity|reflexivity]. Qed.

(* whatever the buffer holds, with lengths below 2^63: the walk ends, stays in the buffer and takes at most one step for each 16 bytes *)
Theorem C162_inside_partial : forall m a n, 0 < a -> 0 <= n -> a + n < 2 ^ 63 -> (forall p, header_in a n p -> exists k, ld_le 8 m p = Ok k /\ 0 <= k < 2 ^ 63) ->
  exists l, (forall f, n < 16 * Z.of_nat f -> macro_walk f m a n = Ok l) /\ Forall (header_in a n) l /\ 16 * Z.of_nat (List.length l) <= n.
Proof.
  intros m a n A N T R. set (f0 := S (Z.to_nat n)).
  assert (W : forall f, n < 16 * Z.of_nat f -> exists l, macro_walk f m a n = Ok l /\ Forall (header_in a n) l /\ 16 * Z.of_nat (List.length l) <= n).
  { intros f F. unfold macro_walk, MACRO_FIRSTHDR. destruct (16 <=? n) eqn:E.
    - apply Z.leb_le in E. destruct (macro_walk_inside m a n A N T R f a) as (l & W & Q & B); [right; repeat split; try lia; rewrite Z.sub_diag; reflexivity|right; lia|lia|].
      exists l. split; [exact W|]. split; [exact Q|]. replace (a =? 0) with false in B by (symmetry; apply Z.eqb_neq; lia). lia.
    - exists []. split; [destruct f; [lia|reflexivity]|]. split; [constructor|cbn; lia]. }
  assert (MONO : forall f p l, walk MACRO_NXTHDR f m a n p = Ok l -> forall g, (f <= g)%nat -> walk MACRO_NXTHDR g m a n p = Ok l).
  { induction f as [|f IH]; intros p l E g G; [discriminate|]. destruct g as [|g]; [lia|]. cbn [walk] in *. destruct (p =? 0); [exact E|]. destruct (MACRO_NXTHDR m a n p) as [q| | |]; try discriminate. cbn [bind] in *.
    destruct (walk MACRO_NXTHDR f m a n q) as [r| | |] eqn:Er; try discriminate. rewrite (IH q r Er g) by lia. exact E. }
  destruct (W f0 ltac:(unfold f0; lia)) as (l & E & Q & B). exists l. split; [|split; assumption]. intros f F. destruct (W f F) as (l' & E' & _). destruct (Nat.le_ge_cases f f0) as [C|C].
  - pose proof (MONO _ _ _ E' f0 C) as X. fold (macro_walk f0 m a n) in X. congruence.
  - exact (MONO _ _ _ E f C).
Qed.
Print Assumptions C162_inside_partial.
(* a wrong length: the message said to have 100 bytes *)
Definition wrong : mem := fun p => if (4096 <=? p) && (p <? 4144) then Some (if p =? 4096 then 100 else 0) else None.
Example C162_inside_case : macro_walk 5 wrong 4096 40 = Ok [4096] /\ (forall p, header_in 4096 40 p -> exists k, ld_le 8 wrong p = Ok k /\ 0 <= k < 2 ^ 63).
Proof.
  split; [reflexivity|]. intros p (A & B & C). assert (P : p = 4096 \/ p = 4104 \/ p = 4112 \/ p = 4120) by lia.
  destruct P as [->|[->|[->| ->]]]; eexists; (split; [vm_compute; reflexivity|vm_compute; split; [discriminate|reflexivity]]).
Qed.
(* a second message without data, 16 bytes, is missed by the macro; the function finds it *)
Definition short_bytes : list Z := num 8 20 ++ num 4 1 ++ num 4 1 ++ [5; 0; 0; 0] ++ [0; 0; 0; 0] ++ num 8 16 ++ num 4 1 ++ num 4 2.
Theorem C162_last_refuted : exists m a n l, buffer m a n l /\ places a l = [4096; 4120] /\ macro_walk 5 m a n = Ok [4096] /\ function_walk 5 m a n = Ok [4096; 4120].
Proof.
  exists (mem_of 4096 short_bytes), 4096, 40, [Message 1 1 [5; 0; 0; 0]; Message 1 2 []]. split; [|repeat split; vm_compute; reflexivity].
  split; [lia|]. split; [reflexivity|]. split; [vm_compute; tauto|vm_compute; split; discriminate].
Qed.
Print Assumptions C162_last_refuted.
(* a length of 0: the function returns the same header for ever *)
Theorem C162_stuck_refuted : forall f, function_walk f (mem_of 4096 (num 8 0 ++ num 8 0 ++ num 8 0)) 4096 24 = OutOfFuel.
Proof.
  intro f. unfold function_walk. change (CMSG_FIRSTHDR 4096 24) with 4096. induction f as [|f IH]; [reflexivity|]. cbn [walk]. change (4096 =? 0) with false. cbn match.
  change (CMSG_NXTHDR (mem_of 4096 (num 8 0 ++ num 8 0 ++ num 8 0)) 4096 24 4096) with (@Ok Z 4096). cbn [bind]. rewrite IH. reflexivity.
Qed.
Print Assumptions C162_stuck_refuted.
(* a length of 2^64-1: so does the macro *)
Theorem C162_macro_stuck_refuted : forall f, macro_walk f (mem_of 4096 (num 8 (2 ^ 64 - 1) ++ num 8 0 ++ num 8 0)) 4096 24 = OutOfFuel.
Proof.
  intro f. unfold macro_walk. change (MACRO_FIRSTHDR 4096 24) with 4096. induction f as [|f IH]; [reflexivity|]. cbn [walk]. change (4096 =? 0) with false. cbn match.
  assert (E : MACRO_NXTHDR (mem_of 4096 (num 8 (2 ^ 64 - 1) ++ num 8 0 ++ num 8 0)) 4096 24 4096 = Ok 4096) by (vm_compute; reflexivity). rewrite E. cbn [bind]. rewrite IH. reflexivity.
Qed.
Print Assumptions C162_macro_stuck_refuted.
