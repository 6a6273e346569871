(* C87, C88 *)
From Coq Require Import ZArith List Bool Lia.
From Verif Require Import Base Dtls_model Dtls_spec Dtls_proofs.
Import ListNotations.
Open Scope Z_scope.

(* C87 full: in every thread each module loaded with the program has a block of its own
   for its thread-local variables, with the initial values, aligned as its segment demands;
   all ways of access agree on the addresses: __tls_get_addr, offsets from the thread
   pointer given by relocations, and for the program those fixed by the static linker (end
   of the area minus the size rounded up to the alignment).
   Proved: all but alignment and the last way; alignment if it divides 16 and all sizes.
   Refuted below: larger alignment, sizes that are no multiple of it, the static linker's offset. *)
Theorem C87_thread_partial page l m t : 0 < page -> Forall valid l -> thread page l m t ->
  exists b, (forall i s, nth_error l i = Some s -> tend t - tlen t <= b i /\ b i + msz s <= tend t /\
               forall j, 0 <= j < msz s -> m (b i + j) = nth (Z.to_nat j) (img s) 0) /\
    (forall i j s u, i <> j -> nth_error l i = Some s -> nth_error l j = Some u -> disjoint (b i) (msz s) (b j) (msz u)) /\
    (forall i x v a, nth_error (masters t) i = Some x -> tend t + tpoff x v a = b i + v + a) /\
    (forall ops, (forall k off al, In (k, off, al) ops -> 1 <= k <= Z.of_nat (length l)) ->
       exists t', gets m t ops = Ok (m, t', map (fun o => b (Z.to_nat (fst (fst o) - 1)) + snd (fst o)) ops)).
Proof. exact (fun PG V => thread_ok page l PG V m t). Qed.
Print Assumptions C87_thread_partial.
(* Creating threads succeeds, and changes nothing outside the new area. *)
Theorem C87_create_partial page l : 0 < page -> Forall valid l ->
  (forall m base, 0 < base -> exists m' t, start_tls page m base l = Ok (m', t) /\ tend t - tlen t = base /\
     forall a, a < base \/ tend t <= a -> m' a = m a) /\
  (forall m0 cur m base, thread page l m0 cur -> 0 < base -> exists m' t, spawn_tls page m base cur = Ok (m', t) /\ tend t - tlen t = base /\
     forall a, a < base \/ tend t <= a -> m' a = m a).
Proof. exact (create_both page l). Qed.
Print Assumptions C87_create_partial.
Theorem C87_align_partial page l m t k i x : 0 < page -> Forall valid l -> thread page l m t -> 0 < k -> (k | 16) -> (k | tend t) ->
  Forall (fun s => (k | msz s)) l -> nth_error (masters t) i = Some x -> (k | tend t + tpoff x 0 0).
Proof. exact (thread_aligned page l m t k i x). Qed.
Print Assumptions C87_align_partial.
(* Three modules; the second has no initialized data. *)
Definition ex_segs := [Seg [1; 2; 3] 24 8; Seg [] 16 16; Seg [7] 8 8].
Definition ex_mem : bytes := fun _ => 99.
Definition ex_t0 := match start_tls 4096 ex_mem 65536 ex_segs with Ok (_, t) => t | _ => Tcb 0 0 [] 0 None end.
Lemma ex_valid : Forall valid ex_segs.
Proof. repeat constructor; discriminate. Qed.
Example C87_ex : Forall valid ex_segs /\ ex_t0 = Tcb 69632 4096 [Mst [1; 2; 3] 24 24; Mst [] 16 48; Mst [7] 8 56] 3 (Some [69608; 69584; 69576]) /\
  match start_tls 4096 ex_mem 65536 ex_segs with
  | Ok (m, t) => thread 4096 ex_segs m t /\ map m [69576; 69577; 69584; 69607; 69608; 69610; 69611; 69632] = [7; 0; 0; 0; 1; 3; 0; 99]
  | _ => False
  end /\
  match spawn_tls 4096 ex_mem 131072 ex_t0 with
  | Ok (m, t) => map m [135112; 135113; 135146] = [7; 0; 3] /\
      match gets m t [(3, 0, 5); (1, 2, 5); (3, 1, 5)] with Ok (_, _, v) => v = [135112; 135146; 135113] | _ => False end
  | _ => False
  end.
Proof.
  split; [exact ex_valid|]. split; [vm_compute; reflexivity|]. split; [|vm_compute; auto].
  destruct (proj1 (create_both 4096 ex_segs eq_refl ex_valid) ex_mem 65536 eq_refl) as (m & t & E & _). rewrite E.
  split; [apply (th_start _ _ ex_mem 65536); [reflexivity|exact E]|].
  assert (X : match start_tls 4096 ex_mem 65536 ex_segs with Ok (m, _) => map m [69576; 69577; 69584; 69607; 69608; 69610; 69611; 69632] | _ => [] end = [7; 0; 0; 0; 1; 3; 0; 99])
    by (vm_compute; reflexivity).
  rewrite E in X. exact X.
Qed.
(* Size 20, alignment 16: the block starts at end - 20; aligned it is not, and code of the
   program expects it at end - 32. *)
Theorem C87_offset_refuted : exists x, static_layout 0 [Seg [1] 20 16] = [x] /\
  69632 + tpoff x 0 0 = 69632 - 20 /\ (69632 + tpoff x 0 0) mod 16 <> 0 /\ 69632 - up 20 16 = 69632 - 32.
Proof. eexists. split; [reflexivity|]. split; [reflexivity|]. split; [discriminate|reflexivity]. Qed.
Print Assumptions C87_offset_refuted.
(* Alignment 64 after a module of size 16. *)
Theorem C87_align_refuted : exists x y, static_layout 0 [Seg [] 16 16; Seg [] 64 64] = [x; y] /\ (69632 + tpoff y 0 0) mod 64 = 48.
Proof. eexists _, _. split; reflexivity. Qed.
Print Assumptions C87_align_refuted.

(* C88 full: in every thread each module loaded by dlopen has, as long as it is loaded, a
   block of its own, which holds the initial values when first accessed.
   Proved: for the first thread of the program, if no dlopen fails.
   Refuted below: other threads that exist at the time of dlopen; threads created
   afterwards; dlopen in another thread; modules loaded after a dlopen that failed. *)
Theorem C88_first_partial page size m t segs log : 0 < page -> life page size m t segs log ->
  (forall k b b', In (k, b) log -> In (k, b') log -> b = b') /\
  (forall k k' b b' s u, k <> k' -> In (k, b) log -> In (k', b') log -> nth_error segs k = Some s -> nth_error segs k' = Some u -> disjoint b (msz s) b' (msz u)) /\
  (forall k s off al, nth_error segs k = Some s -> fresh t segs log al (msz s) ->
     exists m' t' b, tls_get_addr m t (Z.of_nat k + 1) off al = Ok (m', t', b + off) /\
       ((m' = m /\ (In (k, b) log \/ (tend t - tlen t <= b /\ b + msz s <= tend t))) \/
        ((forall b', ~ In (k, b') log) /\ b = al /\ (forall j, 0 <= j < msz s -> m' (al + j) = nth (Z.to_nat j) (img s) 0) /\
         forall a, a < al \/ al + msz s <= a -> m' a = m a))).
Proof. exact (life_ok page size m t segs log). Qed.
Print Assumptions C88_first_partial.
(* Two modules opened; the blocks are where the allocator put them. *)
Definition ex_dyn := [Seg [5] 8 8; Seg [6; 6] 8 8].
Definition ex_t1 := snd (dlopen_tls (tls_size ex_segs) 4 ex_t0 ex_dyn true).
Definition ex_m0 := match start_tls 4096 ex_mem 65536 ex_segs with Ok (m, _) => m | _ => ex_mem end.
Example C88_ex : life 4096 (tls_size ex_segs) ex_m0 ex_t1 (ex_segs ++ ex_dyn) [] /\ fresh ex_t1 (ex_segs ++ ex_dyn) [] 1000 8 /\
  match gets ex_m0 ex_t1 [(5, 1, 1000); (4, 0, 2000); (5, 0, 3000); (1, 0, 3000)] with
  | Ok (m, _, v) => v = [1001; 2000; 1000; 69608] /\ map m [1000; 1001; 1002; 2000; 2001] = [6; 6; 0; 5; 0]
  | _ => False
  end.
Proof.
  split; [|split; [|vm_compute; auto]].
  - apply (l_open 4096 (tls_size ex_segs) ex_m0 ex_t0 ex_segs [] 4 ex_dyn 6 ex_t1); [|repeat constructor; discriminate|vm_compute; reflexivity].
    apply (l_start 4096 (tls_size ex_segs) ex_mem 65536 ex_segs); [reflexivity|exact ex_valid|reflexivity|].
    unfold ex_m0, ex_t0. destruct (proj1 (create_both 4096 ex_segs eq_refl ex_valid) ex_mem 65536 eq_refl) as (m & t & E & _). rewrite E. reflexivity.
  - split; [reflexivity|]. split; [left; discriminate|]. intros k b s [].
Qed.
(* A thread that exists when another one calls dlopen: __tls_get_addr gives the null
   pointer for the new module 4. *)
Definition ex_other := match spawn_tls 4096 ex_mem 131072 ex_t0 with Ok (_, t) => t | _ => ex_t0 end.
Theorem C88_other_refuted m off al : exists t, tls_get_addr m ex_other 4 off al = Ok (m, t, 0).
Proof. eexists. reflexivity. Qed.
Print Assumptions C88_other_refuted.
(* A thread created after dlopen: modules 4 and 5 have the same block, with the initial
   values of 5; a thread of its own that calls dlopen before its first access likewise. *)
Definition addrs (r : res (bytes * tcb)) ops := match r with Ok (m, t) => match gets m t ops with Ok (m', _, v) => Some (v, map m' v) | _ => None end | _ => None end.
Theorem C88_later_refuted :
  addrs (spawn_tls 4096 ex_mem 131072 ex_t1) [(4, 0, 1000); (5, 0, 2000)] = Some ([135096; 135096], [6; 6]) /\
  addrs (Ok (ex_mem, snd (dlopen_tls (tls_size ex_segs) 4 ex_other ex_dyn true))) [(4, 0, 1000); (5, 0, 2000)] = Some ([135096; 135096], [99; 99]).
Proof. split; vm_compute; reflexivity. Qed.
Print Assumptions C88_later_refuted.
(* A module of more than a page: threads cannot be created any more. *)
Theorem C88_create_refuted : spawn_tls 4096 ex_mem 131072 (snd (dlopen_tls (tls_size ex_segs) 4 ex_t0 [Seg [1] 5000 8] true)) = Panic.
Proof. vm_compute. reflexivity. Qed.
Print Assumptions C88_create_refuted.
(* After a dlopen that failed with one module, the next module gets number 5, which is out
   of bounds. *)
Theorem C88_failed_refuted m off al : let (next, t) := dlopen_tls (tls_size ex_segs) 4 ex_t0 [Seg [1] 8 8] false in
  next = 5 /\ exists t', tls_get_addr m (snd (dlopen_tls (tls_size ex_segs) next t [Seg [2] 8 8] true)) next off al = Ok (m, t', 0).
Proof. split; [reflexivity|]. eexists. reflexivity. Qed.
Print Assumptions C88_failed_refuted.
