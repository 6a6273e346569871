(* Specification for C52: buffers of a pool. *)
From Verif Require Import Base Ring_model.

(* A buffer: offset in the pool and size. *)
Definition apart (x y : Z * Z) : Prop := fst x + snd x <= fst y \/ fst y + snd y <= fst x.
Definition inside (total : Z) (x : Z * Z) : Prop := 0 <= fst x /\ 0 <= snd x /\ fst x + snd x <= total.

(* Histories of a pool of the given size and chunk size mapped at base: the pool and the
   buffers that were allocated and not freed.  A buffer is freed by
   redox_ring_free_buf with the offset it was returned with. *)
Inductive pool (total c base : Z) : shm -> list (Z * Z) -> Prop :=
| p_new a : shm_new total c = Ok a -> pool total c base a []
| p_alloc a live size align a' p v : pool total c base a live -> 0 <= size -> alloc_buf_sized a base size align = (a', Some p, v) ->
    pool total c base a' ((p - base, size) :: live)
| p_full a live size align a' v : pool total c base a live -> alloc_buf_sized a base size align = (a', None, v) ->
    pool total c base a' live
| p_free a l1 o size l2 a' v : pool total c base a (l1 ++ (o, size) :: l2) -> free_buf a o = (a', v) ->
    pool total c base a' (l1 ++ l2).
