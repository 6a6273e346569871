(* C126: relibc's own descriptors, the upper table. *)
From Coq Require Import ZArith List Bool Lia.
From Verif Require Import Upperfd_spec Upperfd_model Upperfd_proofs Upperfd_proofs4.
Import ListNotations.
Open Scope Z_scope.

(* On every table a process can come to have, every operation does what it should: a
   descriptor handed out was not in use, nothing else changes, a failure changes nothing,
   the count is the number in use, nothing panics.
   Missing: bulk_remove and insert_at_upper, which do not (below), and reuse of every slot. *)
Theorem C126_upper_partial :
  forall cap oth t k o, 0 <= cap < 2 ^ 32 -> reach cap oth t -> honest k t -> proper o -> (o = OtherClose -> 0 < oth) ->
  match step cap k t o with
  | Val t' a => does k o a (flags_of t) (active t) (flags_of t') (active t')
  | Unreach => False
  | Nomem => short cap t o
  end
  /\ counts (flags_of t) (active t - oth).
Proof. exact upper_holds. Qed.
Print Assumptions C126_upper_partial.
(* 0 and 1 given out, 0 closed and given out again, then a block of three after 1 *)
Fixpoint run (t : fdt) (os : list op) : list ans :=
  match os with
  | [] => []
  | o :: r => match step 1000 (fun _ => None) t o with Val t a => a :: run t r | _ => [] end
  end.
Example C126_upper_case :
  run with_capacity [Insert 0; Insert CLOEXEC; Remove TAG; Insert 5; Bulk [2 ^ 64 - 1; 0; 0] 0; GetFlags (TAG + 1); Bulk [TAG + 9; 7] 0; Bulk [3] 0; Remove (TAG + 6)]
  = [Fds [TAG]; Fds [TAG + 1]; Unit; Fds [TAG]; Fds [TAG + 2; TAG + 3; TAG + 4]; Flags CLOEXEC; Fds [TAG + 9; 7]; Err EEXIST; Err EBADF].
Proof. vm_compute. reflexivity. Qed.

(* A descriptor in use is one the kernel was made to have room for. *)
Theorem C126_kernel :
  forall cap oth t d, 0 <= cap < 2 ^ 32 -> reach cap oth t -> has t = true -> flags_of t d <> None -> index d < kt t.
Proof. exact (fun cap oth t d C R => inv_kernel cap oth t d (reach_inv cap oth t C R)). Qed.
Print Assumptions C126_kernel.
Example C126_kernel_case :
  match step 1000 (fun _ => None) with_capacity (Override (TAG + 6)) with
  | Val t _ => flags_of t (TAG + 6) = Some 0 /\ has t = true /\ kt t = 7
  | _ => False
  end.
Proof. vm_compute. repeat split. Qed.

(* The table a program starts with has in use what the kernel lists, and nothing else. *)
Theorem C126_start :
  forall cap kt0 posix n ds t, 0 <= cap < 2 ^ 32 -> 0 <= posix <= MAXF -> 0 <= n <= kt0 ->
  (forall d, In d ds -> upper d /\ index d < kt0) -> from_kernel cap kt0 posix n ds = Some t ->
  same (flags_of t) (put_all (fun _ => None) ds 0).
Proof. exact (fun cap kt0 posix n ds t C P N D E => proj2 (kernel_ok cap kt0 posix n ds t C P N D E)). Qed.
Print Assumptions C126_start.
Example C126_start_case :
  match from_kernel 1000 200 3 64 [TAG + 5; TAG + 70; TAG] with
  | Some t => map (fun i => flags_of t (TAG + i)) [0; 1; 5; 63; 70; 71] = [Some 0; None; Some 0; None; Some 0; None] /\ active t = 6
  | None => False
  end.
Proof. vm_compute. split; reflexivity. Qed.

(* While the table has at most 65536 slots it grows only when none is free. *)
Theorem C126_reuse_partial :
  forall cap oth k t fl t' d, 0 <= cap < 2 ^ 32 -> reach cap oth t -> tlen (tab t) <= MAXF ->
  step cap k t (Insert fl) = Val t' (Fds [d]) -> tlen (tab t) <= index d ->
  forall i, 0 <= i < tlen (tab t) -> flags_of t (i + TAG) <> None.
Proof. exact (fun cap oth k t fl t' d C R => insert_reuses cap oth k t fl t' d C (reach_inv cap oth t C R)). Qed.
Print Assumptions C126_reuse_partial.
Example C126_reuse_case :
  run with_capacity [Override (TAG + 2); Insert 0; Insert 0; Insert 0] = [Fds [TAG + 2]; Fds [TAG]; Fds [TAG + 1]; Fds [TAG + 3]].
Proof. vm_compute. reflexivity. Qed.

(* Once slot 65536 has been closed every free slot is forgotten: its number is also the mark for
   the end of the free list. *)
Theorem C126_reuse_refuted :
  ~ (forall cap oth k t fl t' d, 0 <= cap < 2 ^ 32 -> reach cap oth t ->
     step cap k t (Insert fl) = Val t' (Fds [d]) -> tlen (tab t) <= index d ->
     forall i, 0 <= i < tlen (tab t) -> flags_of t (i + TAG) <> None).
Proof.
  intros H. pose (k := fun _ : Z => @None Z).
  pose (t0 := with_capacity). pose (cap := 100000).
  assert (S1 : exists t1 t2 t3, step cap k t0 (Override (TAG + 65536)) = Val t1 (Fds [TAG + 65536])
    /\ step cap k t1 (Remove (TAG + 65536)) = Val t2 Unit /\ step cap k t2 (Insert 0) = Val t3 (Fds [TAG + 65537])
    /\ tlen (tab t2) = 65537 /\ flags_of t2 (0 + TAG) = None).
  { assert (F : match step cap k t0 (Override (TAG + 65536)) with
      | Val t1 a1 => match step cap k t1 (Remove (TAG + 65536)) with
          | Val t2 a2 => match step cap k t2 (Insert 0) with
              | Val _ a3 => match a1, a2, a3 with
                  | Fds [x], Unit, Fds [y] => (x =? TAG + 65536) && (y =? TAG + 65537) && (tlen (tab t2) =? 65537)
                       && match flags_of t2 (0 + TAG) with None => true | _ => false end
                  | _, _, _ => false end
              | _ => false end
          | _ => false end
      | _ => false end = true) by (vm_cast_no_check (eq_refl true)).
    destruct (step cap k t0 (Override (TAG + 65536))) as [t1 a1| |]; [|discriminate|discriminate]. exists t1.
    destruct (step cap k t1 (Remove (TAG + 65536))) as [t2 a2| |]; [|discriminate|discriminate]. exists t2.
    destruct (step cap k t2 (Insert 0)) as [t3 a3| |]; [|discriminate|discriminate]. exists t3. destruct a1 as [[|x [|]]| | |]; try discriminate. destruct a2; try discriminate. destruct a3 as [[|y [|]]| | |]; try discriminate.
    apply andb_prop in F. destruct F as [F F4]. apply andb_prop in F. destruct F as [F F3]. apply andb_prop in F. destruct F as [F1 F2].
    apply Z.eqb_eq in F1, F2, F3. subst x y. split; [reflexivity|]. split; [reflexivity|]. split; [reflexivity|]. split; [exact F3|].
    destruct (flags_of t2 (0 + TAG)); [discriminate|reflexivity]. }
  destruct S1 as (t1 & t2 & t3 & A & B & C & D & E).
  assert (U : upper (TAG + 65536)) by (vm_compute; repeat split; congruence).
  assert (R1 : reach cap 0 t1) by (apply (reach_step cap 0 t0 k (Override (TAG + 65536)) t1 (Fds [TAG + 65536]) (reach_new cap)); [discriminate|exact U|discriminate|exact A]).
  assert (R2 : reach cap 0 t2) by (apply (reach_step cap 0 t1 k (Remove (TAG + 65536)) t2 Unit R1); [discriminate|exact U|discriminate|exact B]).
  refine (H cap 0 k t2 0 t3 (TAG + 65537) _ R2 C _ 0 _ E).
  - unfold cap. lia.
  - rewrite D. unfold index. lia.
  - rewrite D. lia.
Qed.
Print Assumptions C126_reuse_refuted.

(* bulk_remove given the descriptors that were handed out, tag and all, panics: it validates
   them without the tag and removes them with it. *)
Theorem C126_bulk_remove_refuted :
  ~ (forall cap oth t ds, 0 <= cap < 2 ^ 32 -> reach cap oth t -> bulk_remove t ds <> Unreach).
Proof.
  intros H. pose (k := fun _ : Z => @None Z).
  destruct (step 10 k with_capacity (Insert 0)) as [t a| |] eqn:E; [|discriminate E|discriminate E].
  assert (R : reach 10 0 t) by (apply (reach_step 10 0 with_capacity k (Insert 0) t a (reach_new 10)); [discriminate|exact Logic.I|discriminate|exact E]).
  apply (H 10 0 t [TAG] ltac:(lia) R). vm_compute in E. injection E as <- _. vm_compute. reflexivity.
Qed.
Print Assumptions C126_bulk_remove_refuted.

(* insert_at_upper over a descriptor in use counts it twice. *)
Theorem C126_insert_at_refuted :
  ~ (forall cap oth t k d fl t' a, 0 <= cap < 2 ^ 32 -> reach cap oth t -> upper d ->
     insert_at_upper cap k t d fl = Val t' a -> counts (flags_of t') (active t' - oth)).
Proof.
  intros H. pose (k := fun _ : Z => @None Z).
  destruct (step 10 k with_capacity (Insert 0)) as [t a| |] eqn:E; [|discriminate E|discriminate E].
  assert (R : reach 10 0 t) by (apply (reach_step 10 0 with_capacity k (Insert 0) t a (reach_new 10)); [discriminate|exact Logic.I|discriminate|exact E]).
  destruct (insert_at_upper 10 k t TAG 0) as [t' b| |] eqn:E'.
  2,3: vm_compute in E; injection E as <- _; vm_compute in E'; discriminate.
  assert (U : upper TAG) by (vm_compute; repeat split; congruence).
  pose proof (H 10 0 t k TAG 0 t' b ltac:(lia) R U E') as C.
  vm_compute in E. injection E as <- _. vm_compute in E'. injection E' as <- _.
  destruct C as (ds & N & M & L). change (active _ - 0) with 2 in L.
  assert (AL : forall d, In d ds -> d = TAG).
  { intros d D. apply M in D. destruct (upper_dec d) as [Ud|Ud]; [|rewrite flags_not in D by exact Ud; destruct (D eq_refl)].
    rewrite flags_upper in D by exact Ud. unfold occ in D. cbn [tab] in D.
    match type of D with isocc (getz ?l _) <> None => destruct (getz l (index d)) as [e|] eqn:G end; [|destruct (D eq_refl)].
    apply getz_range in G. change (tlen _) with 1 in G. unfold index in G. lia. }
  destruct ds as [|x [|y ds]]; [discriminate L|cbn in L; lia|].
  rewrite (AL x), (AL y) in N by (cbn; tauto). inversion N as [|? ? NI _]. apply NI. left. reflexivity.
Qed.
Print Assumptions C126_insert_at_refuted.
