(* Specification for C87, C88. *)
From Coq Require Import ZArith List Bool.
From Verif Require Import Base Dtls_model.
Import ListNotations.
Open Scope Z_scope.

(* A segment as the linker makes it: the image is not longer than the segment. *)
Definition valid (s : seg) : Prop := Z.of_nat (length (img s)) <= msz s.

Definition disjoint (a n b k : Z) : Prop := a + n <= b \/ b + k <= a.

(* The threads of a program with segments l that does not call dlopen: the first one, and
   those created by threads; the memory at that time is arbitrary. *)
Inductive thread (page : Z) (l : list seg) : bytes -> tcb -> Prop :=
| th_start m base m' t : 0 < base -> start_tls page m base l = Ok (m', t) -> thread page l m' t
| th_spawn m0 cur m base m' t : thread page l m0 cur -> 0 < base -> spawn_tls page m base cur = Ok (m', t) -> thread page l m' t.

(* Calls of __tls_get_addr: module, offset, and what the allocator would give. *)
Fixpoint gets (m : bytes) (t : tcb) (l : list (Z * Z * Z)) : res (bytes * tcb * list Z) :=
  match l with
  | [] => Ok (m, t, [])
  | (k, off, al) :: l =>
      ' r <- tls_get_addr m t k off al ;;
      match r with (m, t, a) => ' r <- gets m t l ;; match r with (m, t, v) => Ok (m, t, a :: v) end end
  end.

(* The life of the first thread: dlopen of objects with given segments, stores to memory,
   calls of __tls_get_addr.  [segs]: the modules loaded, in the order of their numbers;
   [log]: module and start of the block for each call.  The allocator gives memory that
   is neither in the static area nor in a block given out. *)
Definition fresh (t : tcb) (segs : list seg) (log : list (nat * Z)) (al n : Z) : Prop :=
  0 < al /\ disjoint al n (tend t - tlen t) (tlen t) /\
  forall k b s, In (k, b) log -> nth_error segs k = Some s -> disjoint al n b (msz s).
Inductive life (page size : Z) : bytes -> tcb -> list seg -> list (nat * Z) -> Prop :=
| l_start m base l m' t : 0 < base -> Forall valid l -> size = tls_size l -> start_tls page m base l = Ok (m', t) -> life page size m' t l []
| l_open m t segs log next l next' t' : life page size m t segs log -> Forall valid l -> dlopen_tls size next t l true = (next', t') ->
    life page size m t' (segs ++ l) log
| l_store m t segs log a v : life page size m t segs log -> life page size (fun x => if x =? a then v else m x) t segs log
| l_get m t segs log k s off al m' t' a : life page size m t segs log -> nth_error segs k = Some s -> fresh t segs log al (msz s) ->
    tls_get_addr m t (Z.of_nat k + 1) off al = Ok (m', t', a) -> life page size m' t' segs ((k, a - off) :: log).
