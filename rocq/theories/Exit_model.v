(** Model of atexit/exit and at_quick_exit/quick_exit (stdlib/mod.rs): the handler
    tables.  Not modelled: what exit does after the handlers (fini_array, ld_so::fini,
    terminate_from_main_thread, flush_io_streams, Sys::exit; mod.rs:374-388). *)
From Verif Require Import Base.

(** mod.rs:62-63: [Option<extern "C" fn()>; 32].  Functions are named by integers. *)
Definition table := list (option Z).
Definition empty_table : table := repeat None 32.

(** mod.rs:160-170, 174-184: first free slot; returns (table, result) *)
Fixpoint register (t : table) (f : Z) : table * Z :=
  match t with
  | [] => ([], 1)
  | None :: t' => (Some f :: t', 0)
  | Some g :: t' => let '(t1, r) := register t' f in (Some g :: t1, r)
  end.
Definition atexit := register.
Definition at_quick_exit := register.

(** Calls made one after another; results in order. *)
Fixpoint register_all (t : table) (fs : list Z) : table * list Z :=
  match fs with
  | [] => (t, [])
  | f :: fs' => let '(t1, r) := register t f in let '(t2, rs) := register_all t1 fs' in (t2, r :: rs)
  end.

(** mod.rs:368-372, 1104-1108: [for i in (0..32).rev()]; [body log f] lists the functions
    handler [f] registers while it runs, [log] being the calls made so far (latest last).
    Returns the calls made and the results of the registrations made meanwhile. *)
Fixpoint run_handlers (i : nat) (t : table) (body : list Z -> Z -> list Z) (log : list Z) (regs : list (Z * Z)) : list Z * list (Z * Z) :=
  match i with
  | O => (log, regs)
  | S i' =>
      match nth i' t None with
      | None => run_handlers i' t body log regs
      | Some f =>
          let new := body log f in
          let '(t1, rs) := register_all t new in
          run_handlers i' t1 body (log ++ [f]) (regs ++ combine new rs)
      end
  end.
Definition exit (t : table) (body : list Z -> Z -> list Z) : list Z * list (Z * Z) := run_handlers 32 t body [] [].
Definition quick_exit := exit.
