(* The vector whose block C may free (src/c_vec.rs 26-171, elements of one byte), and vasprintf / asprintf
   (src/header/stdio/mod.rs 1583-1604), which print into one.  The allocator is arbitrary. *)
From Verif Require Import Base Strto_model Printf_model.

Definition ISIZE_MAX : Z := 9223372036854775807.
(* what is allocated: address and bytes *)
Definition heap := list (Z * list Z).
Fixpoint get (h : heap) (p : Z) : option (list Z) := match h with [] => None | (q, b) :: h => if p =? q then Some b else get h p end.
Definition put (h : heap) (p : Z) (b : list Z) : heap := (p, b) :: h.
Definition del (h : heap) (p : Z) : heap := filter (fun x => negb (p =? fst x)) h.

Section Alloc.
(* malloc and realloc: where the block goes, if there is memory; what it holds at first *)
Variable place : heap -> Z -> option Z.
Variable move : heap -> Z -> Z -> option Z.
Variable junk : Z -> Z -> Z.
Definition fresh_bytes (p from size : Z) : list Z := map (fun i => junk p (from + Z.of_nat i)) (seq 0 (Z.to_nat (size - from))).
Definition alloc (h : heap) (size : Z) : option (heap * Z) :=
  match place h size with Some p => Some (put h p (fresh_bytes p 0 size), p) | None => None end.
Definition realloc (h : heap) (p size : Z) : res (option (heap * Z)) :=
  match get h p with
  | None => Fault
  | Some b =>
      match move h p size with
      | None => Ok None
      | Some q => Ok (Some (put (del h p) q (firstn (Z.to_nat size) b ++ fresh_bytes q (len b) size), q))
      end
  end.

(* 26-30; the dangling pointer is 1 *)
Record cvec := CVec { ptr : Z; vlen : Z; cap : Z }.
Definition new : cvec := CVec 1 0 0.
(* 40-51: check_mul with size_of::<T>() = 1, check_bounds *)
Definition check_bounds (i : Z) : option Z := if ISIZE_MAX <? i then None else Some i.
(* 60-76; None: AllocError *)
Definition resize (h : heap) (v : cvec) (c : Z) : res (option (heap * cvec)) :=
  match check_bounds c with
  | None => Ok None
  | Some size =>
      if c =? 0 then Ok (Some (h, CVec 1 (vlen v) 0))
      else
        r <- (if 0 <? cap v then realloc h (ptr v) size else Ok (alloc h size)) ;;
        match r with
        | None => Ok None
        | Some (h, p) => Ok (Some (h, CVec p (vlen v) c))
        end
  end.
(* usize::next_power_of_two *)
Definition next_power_of_two (x : Z) : Z := if x <=? 1 then 1 else 2 ^ Z.log2_up x.
(* 88-101 *)
Definition reserve (h : heap) (v : cvec) (required : Z) : res (option (heap * cvec)) :=
  match check_bounds (vlen v + required) with
  | None => Ok None
  | Some n => if cap v <? n then resize h v (Z.min (next_power_of_two n) ISIZE_MAX) else Ok (Some (h, v))
  end.
(* stores of l at index i of the block at p *)
Definition store (h : heap) (p i : Z) (l : list Z) : res heap :=
  match get h p with
  | None => Fault
  | Some b => if len b <? i + len l then Fault else Ok (put h p (firstn (Z.to_nat i) b ++ l ++ skipn (Z.to_nat (i + len l)) b))
  end.
(* 110-120 *)
Definition extend_from_slice (h : heap) (v : cvec) (l : list Z) : res (option (heap * cvec)) :=
  r <- reserve h v (len l) ;;
  match r with
  | None => Ok None
  | Some (h, v) => h <- store h (ptr v) (vlen v) l ;; Ok (Some (h, CVec (ptr v) (vlen v + len l) (cap v)))
  end.
(* 102-109 *)
Definition push (h : heap) (v : cvec) (c : Z) : res (option (heap * cvec)) :=
  r <- reserve h v 1 ;;
  match r with
  | None => Ok None
  | Some (h, v) => h <- store h (ptr v) (vlen v) [c] ;; Ok (Some (h, CVec (ptr v) (vlen v + 1) (cap v)))
  end.
(* 144-152 *)
Definition shrink_to_fit (h : heap) (v : cvec) : res (option (heap * cvec)) :=
  if vlen v <? cap v then resize h v (vlen v) else Ok (Some (h, v)).
(* 211-223: the slices one by one; false: one could not be written *)
Fixpoint write_slices (h : heap) (v : cvec) (l : list (list Z)) : res (heap * cvec * bool) :=
  match l with
  | [] => Ok (h, v, true)
  | x :: l =>
      r <- extend_from_slice h v x ;;
      match r with
      | None => Ok (h, v, false)
      | Some (h, v) => write_slices h v l
      end
  end.
(* mod.rs 1583-1594: memory, heap, what is stored at strp, the value returned.  After a slice that could not be written
   the rest of the format is not printed; here what %n stores is stored nevertheless. *)
Definition vasprintf (fuel : nat) (m wm : mem) (em : list Z) (h : heap) (fmt args : list Z) : res (mem * heap * Z * Z) :=
  ' (m, r) <- p_printf fuel m wm em fmt args ;;
  ' (h, v, ret) <- (match r with
                    | None => Ok (h, new, -1)
                    | Some (out, ok) =>
                        ' (h, v, w) <- write_slices h new (filter nonempty out) ;;
                        Ok (h, v, if (w : bool) && ok then to_i32 (len (concat out) mod two64) else -1)
                    end) ;;
  r <- push h v 0 ;;
  match r with
  | None => Panic
  | Some (h, v) =>
      r <- shrink_to_fit h v ;;
      match r with
      | None => Panic
      | Some (h, v) => Ok (m, h, ptr v, ret)
      end
  end.
End Alloc.
