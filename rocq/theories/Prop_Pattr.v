(* Property C128: thread attributes. *)
From Verif Require Import Base Pattr_spec Pattr_model Pattr_proofs.

(* C128, the object: whatever setters were called, an attribute reads as the value last set, or
   its default.  Missing: guard sizes from 2^31 on, see below. *)
Theorem C128_history_partial page x h v : Forall well_typed h -> Forall guard_small h -> has page x h v -> get (performed page h) x = v.
Proof. exact (history page x h v). Qed.
Print Assumptions C128_history_partial.
Example C128_history_case : get (performed 4096 [SetStacksize 100; SetStack 4096000 131072; SetGuard 0; SetScope 0]) Stacksize = 131072.
Proof.
  apply C128_history_partial; [repeat constructor; cbn; lia|repeat constructor; cbn; lia|].
  apply has_refused; [cbn; lia|]. apply has_set; [cbn; lia|reflexivity].
Qed.

(* C128, the answers: 0 exactly for the values POSIX allows; a call refused changes nothing *)
Theorem C128_codes t c : well_typed c -> (snd (perform t c) = 0 <-> accepted c) /\ (~ accepted c -> perform t c = (t, refusal c)).
Proof. exact (perform_code t c). Qed.
Print Assumptions C128_codes.
Example C128_codes_case : snd (perform (attr_init 4096) (SetPolicy 2)) = 0 /\ perform (attr_init 4096) (SetScope 7) = (attr_init 4096, 95).
Proof. split; [apply C128_codes; cbn; lia|]. apply (C128_codes (attr_init 4096) (SetScope 7)); cbn; lia. Qed.

(* C128, the guard size: the setter takes an int, so 2^32 becomes 0 *)
Theorem C128_guard_refuted : exists v, well_typed (SetGuard v) /\ accepted (SetGuard v)
  /\ snd (perform (attr_init 4096) (SetGuard v)) = 0 /\ get (performed 4096 [SetGuard v]) Guard <> v.
Proof. exists 4294967296. cbn. repeat split; try lia; discriminate. Qed.
Print Assumptions C128_guard_refuted.

(* C128, the thread: it starts on the stack asked for, or on a mapping at least that large, with
   the start routine and its argument in place, nothing is written outside that stack, and it is
   detached if asked to be; on failure the mapping made is undone.
   Missing: a stack of the caller whose size is not whole pages, and what failure does to one. *)
Theorem C128_create_partial page h own mmap tcb clone start arg mutex shim :
  0 < page < 4294967296 -> Forall well_typed h -> let t := performed page h in
  own = negb (stack t =? 0) -> (own = true -> stacksize t mod page = 0) ->
  exists r n, stacksize t <= n < stacksize t + page /\ n mod page = 0 /\ (own = true -> n = stacksize t)
    /\ create page (Some t) mmap tcb clone start arg mutex shim = Ok r
    /\ let b := if own then stack t else mmap n in
       (code r = 0 -> exists c, tcb = Some c /\ clone = true /\ laid (words r) (sp r) [shim; start; arg; c; mutex; 0; 0]
          /\ base r = b /\ size r = n /\ (flags r = 1 <-> detachstate t = 0) /\ unmapped r = [] /\ sp r = b + n - 56)
       /\ (code r <> 0 -> (code r = 11 /\ (b = -1 /\ own = false \/ clone = false) \/ code r = 12 /\ tcb = None)
           /\ (own = false -> unmapped r = if b =? -1 then [] else [(b, n)]))
       /\ (forall a v, In (a, v) (words r) -> b <= a /\ a + 8 <= b + n).
Proof. exact (create_ok page h own mmap tcb clone start arg mutex shim). Qed.
Print Assumptions C128_create_partial.
Example C128_create_case : exists r, create 4096 (Some (performed 4096 [SetDetach 0; SetStack 1048576 131072])) (fun _ => -1) (Some 4000) true 77 88 99 66 = Ok r
  /\ code r = 0 /\ base r = 1048576 /\ size r = 131072 /\ flags r = 1.
Proof.
  destruct (C128_create_partial 4096 [SetDetach 0; SetStack 1048576 131072] true (fun _ => -1) (Some 4000) true 77 88 99 66) as (r & n & _ & _ & N & E & H & K & _).
  - lia.
  - repeat constructor; cbn; lia.
  - reflexivity.
  - reflexivity.
  - exists r. split; [exact E|]. destruct (Z.eq_dec (code r) 0) as [Z0|Z0].
    + destruct (H Z0) as (c & _ & _ & _ & B & S & F & _). rewrite N in S by reflexivity. repeat split; auto. apply F. reflexivity.
    + destruct (K Z0) as [[[_ [[_ X]|X]]|[_ X]] _]; discriminate.
Qed.

(* C128, a stack of the caller: a size that is not whole pages is rounded up, so that words are
   written past its end *)
Theorem C128_stack_end_refuted : exists page h r a v, Forall well_typed h /\ Forall accepted h
  /\ has page Stackaddr h 1048576 /\ has page Stacksize h 65600
  /\ create page (Some (performed page h)) (fun _ => -1) (Some 4000) true 77 88 99 66 = Ok r /\ code r = 0
  /\ In (a, v) (words r) /\ 1048576 + 65600 <= a.
Proof.
  exists 4096, [SetStack 1048576 65600]. eexists. exists 1118200, 0.
  split; [repeat constructor; cbn; lia|]. split; [repeat constructor; cbn; lia|].
  split; [apply has_set; [cbn; lia|reflexivity]|]. split; [apply has_set; [cbn; lia|reflexivity]|].
  split; [vm_compute; reflexivity|]. split; [reflexivity|]. split; [cbn; tauto|lia].
Qed.
Print Assumptions C128_stack_end_refuted.
(* C128, a stack of the caller: it is unmapped when the thread could not be started *)
Theorem C128_unmap_refuted : exists page h r, Forall well_typed h /\ Forall accepted h
  /\ has page Stackaddr h 1048576 /\ has page Stacksize h 65536
  /\ create page (Some (performed page h)) (fun _ => -1) (Some 4000) false 77 88 99 66 = Ok r /\ code r = 11
  /\ unmapped r = [(1048576, 65536)].
Proof.
  exists 4096, [SetStack 1048576 65536]. eexists.
  split; [repeat constructor; cbn; lia|]. split; [repeat constructor; cbn; lia|].
  split; [apply has_set; [cbn; lia|reflexivity]|]. split; [apply has_set; [cbn; lia|reflexivity]|].
  split; [vm_compute; reflexivity|]. split; reflexivity.
Qed.
Print Assumptions C128_unmap_refuted.

(* C128, pthread_getattr_np: it reports the stack and detach state the thread was created with *)
Theorem C128_getattr page h mmap tcb clone start arg mutex shim r : 0 < page < 4294967296 -> Forall well_typed h ->
  let t := performed page h in stacksize t mod page = 0 ->
  create page (Some t) mmap tcb clone start arg mutex shim = Ok r -> code r = 0 ->
  get (getattr_np page r) Detach = get t Detach /\ get (getattr_np page r) Stacksize = get t Stacksize
  /\ (get t Stackaddr <> 0 -> get (getattr_np page r) Stackaddr = get t Stackaddr).
Proof. exact (getattr_ok page h mmap tcb clone start arg mutex shim r). Qed.
Print Assumptions C128_getattr.
Example C128_getattr_case : exists r, create 4096 (Some (performed 4096 [SetDetach 0; SetStack 1048576 131072])) (fun _ => -1) (Some 4000) true 77 88 99 66 = Ok r
  /\ get (getattr_np 4096 r) Detach = 0.
Proof.
  destruct C128_create_case as (r & E & Z0 & _). exists r. split; [exact E|].
  destruct (C128_getattr 4096 [SetDetach 0; SetStack 1048576 131072] (fun _ => -1) (Some 4000) true 77 88 99 66 r) as [H _]; [lia|repeat constructor; cbn; lia|reflexivity|exact E|exact Z0|exact H].
Qed.
