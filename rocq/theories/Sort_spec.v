(** Specification for C18 and C19. *)
From Verif Require Import Base.
From Coq Require Export Sorting.Permutation Sorting.Sorted.

(** The records [rs], each of [w] bytes, are stored contiguously at [base]. *)
Definition array (m : mem) (base w : Z) (rs : list (list Z)) : Prop :=
  Forall (fun r => len r = w) rs /\ bytes_at m base (concat rs).

(** The comparator evaluates [ord] on the contents of the two records, provided both
    addresses are those of array elements.  Memory outside the array may be used (for
    instance through pointers stored in the records) but only as it was in [m0].
    Nothing is promised for any other argument. *)
Definition compares (cmp : mem -> Z -> Z -> res Z) (m0 : mem) (base w n : Z)
    (ord : list Z -> list Z -> Z) : Prop :=
  forall m i j r s,
    (forall x, ~ (base <= x < base + n * w) -> m x = m0 x) ->
    0 <= i < n -> 0 <= j < n -> len r = w -> len s = w ->
    bytes_at m (base + i * w) r -> bytes_at m (base + j * w) s ->
    cmp m (base + i * w) (base + j * w) = Ok (ord r s).

(** [ord] is a total preorder (in the strcmp sense) on the elements of [rs]. *)
Definition preorder_on (rs : list (list Z)) (ord : list Z -> list Z -> Z) : Prop :=
  (forall r, In r rs -> ord r r = 0) /\
  (forall r s, In r rs -> In s rs -> (0 < ord r s <-> ord s r < 0)) /\
  (forall r s t, In r rs -> In s rs -> In t rs -> ord r s <= 0 -> ord s t <= 0 -> ord r t <= 0).

(** Records equivalent to [k] appear in the same order in both lists. *)
Definition same_order (ord : list Z -> list Z -> Z) (rs rs' : list (list Z)) : Prop :=
  forall k, In k rs -> filter (fun r => ord k r =? 0) rs' = filter (fun r => ord k r =? 0) rs.

(** Comparison results along the array are: positive, then zero, then negative. *)
Definition partitioned (f : Z -> Z) (n : Z) : Prop :=
  forall i j, 0 <= i < j -> j < n -> (0 < f j -> 0 < f i) /\ (f i < 0 -> f j < 0).
