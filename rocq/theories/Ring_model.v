(* Model of the chunk allocator of src/platform/redox/ring.rs (RingPool::Chunk).  The
   Dynamic pool (crate redox_buffer_pool) and the queues (crate redox_rings) are not
   modelled; neither are the expect() calls on null pointers.  The vector free_offsets is
   the list with its last element first. *)
From Verif Require Import Base.

(* ring.rs:44-48 *)
Record shm := Shm { free_offsets : list Z; chunk_size : Z; total_size : Z }.

(* ring.rs:53-55: for i in (0..n).rev() push(i * chunk_size), so i = 0 is last *)
Fixpoint offsets (n : nat) (i c : Z) : list Z :=
  match n with O => [] | S n => i * c :: offsets n (i + 1) c end.
(* ring.rs:51-61; division by zero panics *)
Definition shm_new (total c : Z) : res shm :=
  if c =? 0 then Panic else Ok (Shm (offsets (Z.to_nat (total / c)) 0 c) c total).
(* ring.rs:63-65 *)
Definition allocate (a : shm) : shm * option Z :=
  match free_offsets a with
  | [] => (a, None)
  | o :: r => (Shm r (chunk_size a) (total_size a), Some o)
  end.
(* ring.rs:67-69 *)
Definition deallocate (a : shm) (o : Z) : shm := Shm (o :: free_offsets a) (chunk_size a) (total_size a).

(* as c_int *)
Definition as_c_int (x : Z) : Z := (x + 2 ^ 31) mod 2 ^ 32 - 2 ^ 31.
(* ring.rs:104-127 (Chunk) and 598-621: the new pool, the pointer stored in *out_ptr if
   any, and the value returned; size and align are not used *)
Definition alloc_buf_sized (a : shm) (base size align : Z) : shm * option Z * Z :=
  match allocate a with
  | (a, None) => (a, None, -1)
  | (a, Some o) => (a, Some (base + o), as_c_int o)
  end.
(* ring.rs:586-596 *)
Definition alloc_buf (a : shm) (base : Z) : shm * option Z * Z :=
  alloc_buf_sized a base (chunk_size a) 1.
(* ring.rs:129-134 (Chunk) and 623-629: the pointer is not used *)
Definition free_at (a : shm) (p o : Z) : shm * Z := (deallocate a o, 0).
(* redox_ring/mod.rs:140-147: redox_ring_free_buf and redox_ring_free_buf_sized *)
Definition free_buf (a : shm) (o : Z) : shm * Z := free_at a NULL o.
Definition free_buf_sized (a : shm) (p : Z) : shm * Z := free_at a p 0.
