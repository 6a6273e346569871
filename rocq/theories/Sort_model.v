(** Model of qsort/qsort_r (stdlib/sort.rs) and bsearch (stdlib/mod.rs).
    Not modelled: the unreachable introsort_helper/heapsort/partition (the code calls
    insertion_sort directly, sort.rs:28-39). *)
From Verif Require Import Base String_model.

(** A C comparator: reads memory, returns an int, or faults on addresses it must not
    be given. The extra [arg] of qsort_r is part of the closure (sort.rs:21-26). *)
Definition comparator := mem -> Z -> Z -> res Z.

(** sort.rs:255 [copy_from_nonoverlapping(buf, n)] into ptr2 *)
Fixpoint st_bytes (m : mem) (a : Z) (l : list Z) : res mem :=
  match l with
  | [] => Ok m
  | b :: l' => m1 <- st m a b ;; st_bytes m1 (a + 1) l'
  end.

(** sort.rs:242-264 swap: exchange in chunks of at most BUFSIZE = 128 bytes *)
Definition BUFSIZE_SWAP : Z := 128.
Fixpoint swap_loop (fuel : nat) (m : mem) (p1 p2 width : Z) : res mem :=
  match fuel with
  | O => OutOfFuel
  | S f =>
      if 0 <? width then
        let c := Z.min BUFSIZE_SWAP width in
        buf <- ld_bytes (Z.to_nat c) m p1 ;;
        m1 <- copy_fwd (Z.to_nat c) m p1 p2 ;;
        m2 <- st_bytes m1 p2 buf ;;
        swap_loop f m2 (p1 + c) (p2 + c) (width - c)
      else Ok m
  end.
Definition swap (m : mem) (p1 p2 width : Z) : res mem := swap_loop (S (Z.to_nat width)) m p1 p2 width.

(** sort.rs:100-108: [for j in (0..i).rev()]; [j] iterations remain *)
Fixpoint insert_down (cmp : comparator) (j : nat) (m : mem) (base width : Z) : res mem :=
  match j with
  | O => Ok m
  | S j' =>
      let current := base + Z.of_nat j' * width in
      let prev := base + (Z.of_nat j' + 1) * width in
      d <- cmp m current prev ;;
      if 0 <? d then m1 <- swap m current prev width ;; insert_down cmp j' m1 base width
      else Ok m
  end.
(** sort.rs:93-110 insertion_sort: [for i in 0..nel]; [k] iterations remain *)
Fixpoint sort_loop (cmp : comparator) (k i : nat) (m : mem) (base width : Z) : res mem :=
  match k with
  | O => Ok m
  | S k' => m1 <- insert_down cmp i m base width ;; sort_loop cmp k' (S i) m1 base width
  end.
(** mod.rs:1069-1099 qsort / qsort_r with a non-NULL comparator *)
Definition qsort (cmp : comparator) (m : mem) (base nel width : Z) : res mem :=
  if 0 <? nel then sort_loop cmp (Z.to_nat nel) 0 m base width else Ok m.

(** mod.rs:247-272 bsearch; [cmp med] is compar(key, med).  The address arithmetic is
    usize arithmetic; it stays inside the array, so it does not wrap. *)
Fixpoint bsearch_loop (fuel : nat) (cmp : Z -> res Z) (start width n : Z) : res Z :=
  match fuel with
  | O => OutOfFuel
  | S f =>
      if 0 <? n then
        let med := start + Z.shiftr n 1 * width in
        diff <- cmp med ;;
        if diff =? 0 then Ok med
        else if 0 <? diff then bsearch_loop f cmp (med + width) width (Z.shiftr (n - 1) 1)
        else bsearch_loop f cmp start width (Z.shiftr n 1)
      else Ok NULL
  end.
Definition bsearch (fuel : nat) (cmp : Z -> res Z) (base nel width : Z) : res Z :=
  bsearch_loop fuel cmp base width nel.
