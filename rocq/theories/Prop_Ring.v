(* C52: buffers of a ring pool. *)
From Coq Require Import ZArith List Lia Permutation.
From Verif Require Import Base Ring_model Ring_spec Ring_proofs.
Import ListNotations.
Open Scope Z_scope.

(* Missing from C52: requests larger than the chunk size, alignment beyond the chunk size
   offsets above 2^31 and redox_ring_free_buf_sized (refuted below); the Dynamic pool. *)

(* Live buffers lie inside the pool, at multiples of the chunk size, without overlap. *)
Theorem C52_disjoint_partial : forall total c base a live, 0 < c -> 0 <= total -> pool total c base a live ->
  Forall (fun x => 0 <= snd x <= c) live ->
  Forall (fun x => inside total x /\ (c | fst x)) live /\ ForallOrdPairs apart live.
Proof. intros. eapply live_ok; eassumption. Qed.
Print Assumptions C52_disjoint_partial.

(* The live and the free chunks are together exactly the chunks of the pool. *)
Theorem C52_partition : forall total c base a live, 0 < c -> 0 <= total -> pool total c base a live ->
  exists chunks, Permutation (map fst live ++ free_offsets a) chunks /\ NoDup chunks /\
    forall o, In o chunks <-> exists k, 0 <= k < total / c /\ o = k * c.
Proof.
  intros total c base a live C T P. exists (all total c). split; [eapply free_partition; eassumption|]. split; [apply nodup_offsets; exact C|].
  intro o. unfold all. rewrite in_offsets. assert (0 <= total / c) by (apply Z.div_pos; lia). rewrite Z2Nat.id by lia. reflexivity.
Qed.
Print Assumptions C52_partition.

(* An allocation fails exactly when every chunk is in use, and else returns pointer and
   offset of a chunk. *)
Theorem C52_alloc_partial : forall total c base a live size align a' p v, 0 < c -> 0 <= total < 2 ^ 31 -> pool total c base a live ->
  alloc_buf_sized a base size align = (a', p, v) ->
  (p = None /\ v = -1 /\ len live = total / c) \/
  (len live < total / c /\ p = Some (base + v) /\ (c | v) /\ 0 <= v /\ v + c <= total).
Proof.
  intros total c base a live size align a' p v C T P H.
  destruct (alloc_result total c base C ltac:(lia) a live size align a' p v P H) as [X|(L & o & -> & -> & I)]; [left; exact X|right].
  destruct (chunk_in total c C ltac:(lia) o I) as (k & E & K & B). assert (O : 0 <= o) by nia.
  assert (A : as_c_int o = o) by (unfold as_c_int; rewrite Z.mod_small by lia; lia). rewrite A.
  split; [exact L|]. split; [reflexivity|]. split; [exists k; exact E|]. split; [exact O|exact B].
Qed.
Print Assumptions C52_alloc_partial.

(* The size asked for is ignored: two live buffers of 100 bytes in chunks of 64 overlap. *)
Theorem C52_size_refuted : exists a, pool 256 64 4096 a [(64, 100); (0, 100)] /\ ~ apart (64, 100) (0, 100).
Proof.
  exists (Shm [128; 192] 64 256). split; [|unfold apart; cbn; lia].
  apply (p_alloc 256 64 4096 (Shm [64; 128; 192] 64 256) _ 100 1 _ 4160 64); [|lia|reflexivity].
  apply (p_alloc 256 64 4096 (Shm [0; 64; 128; 192] 64 256) _ 100 1 _ 4096 0); [|lia|reflexivity].
  apply p_new. reflexivity.
Qed.
Print Assumptions C52_size_refuted.
(* So is the alignment: 16 is asked for and the address 4101 returned. *)
Theorem C52_align_refuted : exists a a', pool 15 5 4096 a [(0, 5)] /\ alloc_buf_sized a 4096 5 16 = (a', Some 4101, 5) /\ ~ (16 | 4101).
Proof.
  exists (Shm [5; 10] 5 15), (Shm [10] 5 15). split; [|split; [reflexivity|intros (k & K); lia]].
  apply (p_alloc 15 5 4096 (Shm [0; 5; 10] 5 15) _ 5 16 _ 4096 0); [apply p_new; reflexivity|lia|reflexivity].
Qed.
Print Assumptions C52_align_refuted.
(* In a pool of 3 GiB a successful allocation returns a negative number. *)
Theorem C52_offset_refuted : exists a a', pool (3 * 2 ^ 30) (2 ^ 30) 4096 a [(2 ^ 30, 1); (0, 1)] /\
  alloc_buf_sized a 4096 1 1 = (a', Some (4096 + 2 ^ 31), - 2 ^ 31).
Proof.
  exists (Shm [2 ^ 31] (2 ^ 30) (3 * 2 ^ 30)), (Shm [] (2 ^ 30) (3 * 2 ^ 30)). split; [|reflexivity].
  apply (p_alloc _ _ 4096 (Shm [2 ^ 30; 2 ^ 31] (2 ^ 30) (3 * 2 ^ 30)) _ 1 1 _ (4096 + 2 ^ 30) (2 ^ 30)); [|lia|reflexivity].
  apply (p_alloc _ _ 4096 (Shm [0; 2 ^ 30; 2 ^ 31] (2 ^ 30) (3 * 2 ^ 30)) _ 1 1 _ 4096 0); [|lia|reflexivity].
  apply p_new. reflexivity.
Qed.
Print Assumptions C52_offset_refuted.
(* redox_ring_free_buf_sized releases the chunk at offset 0 whatever the pointer: with
   buffers live at 0 and 64, freeing the one at 64 makes the next allocation return 0. *)
Theorem C52_free_sized_refuted : exists a a' a'', pool 256 64 4096 a [(64, 64); (0, 64)] /\
  free_buf_sized a (4096 + 64) = (a', 0) /\ alloc_buf_sized a' 4096 64 1 = (a'', Some 4096, 0).
Proof.
  exists (Shm [128; 192] 64 256), (Shm [0; 128; 192] 64 256), (Shm [128; 192] 64 256). split; [|split; reflexivity].
  apply (p_alloc 256 64 4096 (Shm [64; 128; 192] 64 256) _ 64 1 _ 4160 64); [|lia|reflexivity].
  apply (p_alloc 256 64 4096 (Shm [0; 64; 128; 192] 64 256) _ 64 1 _ 4096 0); [|lia|reflexivity].
  apply p_new. reflexivity.
Qed.
Print Assumptions C52_free_sized_refuted.

Example C52_case : exists a, pool 256 64 4096 a [(0, 10); (64, 64)] /\ Forall (fun x => 0 <= snd x <= 64) [(0, 10); (64, 64)] /\
  free_offsets a = [128; 192].
Proof.
  exists (Shm [128; 192] 64 256). split; [|split; [repeat (apply Forall_cons; [cbn; lia|]); apply Forall_nil|reflexivity]].
  apply (p_alloc 256 64 4096 (Shm [0; 128; 192] 64 256) _ 10 1 _ 4096 0); [|lia|reflexivity].
  apply (p_free 256 64 4096 (Shm [128; 192] 64 256) [(64, 64)] 0 64 [] _ 0); [|reflexivity].
  apply (p_alloc 256 64 4096 (Shm [64; 128; 192] 64 256) _ 64 1 _ 4160 64); [|lia|reflexivity].
  apply (p_alloc 256 64 4096 (Shm [0; 64; 128; 192] 64 256) _ 64 1 _ 4096 0); [|lia|reflexivity].
  apply p_new. reflexivity.
Qed.
