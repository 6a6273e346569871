(* Signals accepted one at a time, whatever else happens meanwhile. *)
From Verif Require Import Base Sigwait_model.
Open Scope Z_scope.

(* what others and the kernel's sleep make of a state *)
Inductive evolves (e : env) (nap : (Z -> bool) -> state -> state * slept) (set : Z -> bool) : state -> state -> Prop :=
| ev_refl s : evolves e nap set s s
| ev_env s n s' : evolves e nap set s s' -> evolves e nap set s (e n s')
| ev_nap s s' : evolves e nap set s s' -> evolves e nap set s (fst (nap set s')).
(* of all that is pending in s exactly one instance of the signal with index i is gone in s': that of the thread, that of the process, or the oldest in the
   process's queue *)
Definition others_kept (s s' : state) : Prop := thread_sender s' = thread_sender s /\ process_sender s' = process_sender s.
Inductive takes (s s' : state) (x : info) : Prop :=
| takes_thread i : signo x = i + 1 -> thread s i = true -> (forall j, thread s' j = if Z.eq_dec j i then false else thread s j) ->
    (forall j, process s' j = process s j /\ queue s' j = queue s j) -> others_kept s s' -> takes s s' x
| takes_process i : i < 32 -> signo x = i + 1 -> process s i = true -> (forall j, process s' j = if Z.eq_dec j i then false else process s j) ->
    (forall j, thread s' j = thread s j /\ queue s' j = queue s j) -> others_kept s s' -> takes s s' x
| takes_queue i q : 32 <= i -> signo x = i + 1 -> queue s i = (code x, pid x, uid x, value x) :: q ->
    (forall j, queue s' j = if Z.eq_dec j i then q else queue s j) ->
    (forall j, process s' j = if Z.eq_dec j i then match q with [] => false | _ => process s j end else process s j) ->
    (forall j, thread s' j = thread s j) -> others_kept s s' -> takes s s' x.
(* only the thread itself clears its bits *)
Definition keeps (e : env) : Prop := forall n s i, thread s i = true -> thread (e n s) i = true.
(* a bit of a real-time signal of the process stands for a queue that is not empty *)
Definition queued (s : state) : Prop := forall i, 32 <= i < 64 -> process s i = true -> queue s i <> [].
Definition quiet : env := fun _ s => s.
Definition waiting (s : state) (set : Z -> bool) (i : Z) : Prop := 0 <= i < 64 /\ set i = true /\ (thread s i = true \/ process s i = true).
Definition first (s : state) (set : Z -> bool) (i : Z) : Prop := waiting s set i /\ forall j, waiting s set j -> i <= j.
Definition none (s : state) (set : Z -> bool) : Prop := forall j, ~ waiting s set j.
