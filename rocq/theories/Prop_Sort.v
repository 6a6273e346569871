(** C18, C19: qsort and bsearch.  Theorems only; lemmas are in Sort_proofs.v. *)
From Verif Require Import Base String_model Sort_model Sort_spec Sort_proofs.

(** For every comparator (even an inconsistent one) qsort finishes, touches only the
    array and permutes its records; if the comparator is a total preorder the result is
    sorted, and equal records keep their order.  qsort_r is the same with the extra
    argument inside [cmp]. *)
Theorem C18_qsort : forall cmp ord m base w rs, 0 <= w ->
  array m base w rs -> compares cmp m base w (len rs) ord ->
  exists m' rs', qsort cmp m base (len rs) w = Ok m' /\
    array m' base w rs' /\ (forall x, ~ (base <= x < base + len rs * w) -> m' x = m x) /\
    Permutation rs rs' /\
    (preorder_on rs ord -> StronglySorted (fun a b => ord a b <= 0) rs' /\ same_order ord rs rs').
Proof. exact qsort_ok. Qed.
Print Assumptions C18_qsort.

(** Two-byte records ordered by their first byte; the comparator faults outside the
    array. *)
Definition cmp_fst (m : mem) (a b : Z) : res Z := x <- ld m a ;; y <- ld m b ;; Ok (x - y).
Definition ord_fst (r s : list Z) : Z := hd 0 r - hd 0 s.
Example C18_case :
  let m := mem_of 1000 [3;1; 1;7; 3;0; 2;5; 9] in
  let rs := [[3;1];[1;7];[3;0];[2;5]] in
  array m 1000 2 rs /\ compares cmp_fst m 1000 2 4 ord_fst /\ preorder_on rs ord_fst /\
  match qsort cmp_fst m 1000 4 2 with
  | Ok m' => map m' [1000;1001;1002;1003;1004;1005;1006;1007;1008] =
             [Some 1; Some 7; Some 2; Some 5; Some 3; Some 1; Some 3; Some 0; Some 9]
  | _ => False
  end.
Proof.
  split; [|split; [|split]].
  - split; [repeat constructor|vm_compute; auto 20].
  - intros m i j r s _ Hi Hj Hr Hs Br Bs. destruct r as [|a r]; [discriminate|]. destruct s as [|b s]; [discriminate|].
    destruct Br as [Br _]. destruct Bs as [Bs _]. unfold cmp_fst, ld. rewrite Br, Bs. reflexivity.
  - unfold preorder_on, ord_fst. repeat split; intros; lia.
  - vm_compute. reflexivity.
Qed.

(** [cmp] is compar(key, .); on an array partitioned with respect to the key bsearch
    returns a matching element when there is one and NULL when there is none.  It calls
    the comparator on array elements only ([cmp] may fail elsewhere). *)
Theorem C19_bsearch : forall cmp f fuel base w n, 0 <= n -> n < Z.of_nat fuel ->
  (forall i, 0 <= i < n -> cmp (base + i * w) = Ok (f i)) -> partitioned f n ->
  (exists i, 0 <= i < n /\ f i = 0 /\ bsearch fuel cmp base n w = Ok (base + i * w)) \/
  ((forall i, 0 <= i < n -> f i <> 0) /\ bsearch fuel cmp base n w = Ok NULL).
Proof. exact bsearch_ok. Qed.
Print Assumptions C19_bsearch.

Example C19_case :
  let m := mem_of 1000 [1;3;3;8;9] in
  let f k i := match m (1000 + i) with Some b => k - b | None => 0 end in
  let cmp k a := b <- ld m a ;; Ok (k - b) in
  partitioned (f 8) 5 /\ bsearch 6 (cmp 8) 1000 5 1 = Ok 1003 /\ bsearch 6 (cmp 4) 1000 5 1 = Ok NULL.
Proof.
  split; [|split; reflexivity]. intros i j Hi Hj.
  assert (i = 0 \/ i = 1 \/ i = 2 \/ i = 3) as Hi' by lia.
  assert (j = 1 \/ j = 2 \/ j = 3 \/ j = 4) as Hj' by lia.
  destruct Hi' as [->|[->|[->| ->]]]; destruct Hj' as [->|[->|[->| ->]]]; vm_compute; split; intros; congruence || lia.
Qed.
