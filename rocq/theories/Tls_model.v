(* Model of header/pthread/tls.rs.  Each call is one step: the shared part of each is
   one access to KEYS under its lock (key_create's two shared accesses are merged,
   nobody knows the key before it returns) and VALUES is thread-local.
   run_all_destructors is a sequence of steps, and a destructor may make any calls
   itself; other threads run in between. *)
From Coq Require Import ZArith List Bool.
From Verif Require Import Conc.
Import ListNotations.
Open Scope Z_scope.

Definition EINVAL := 22.
(* /repo/src/header/bits_limits_ptdi/mod.rs 8-13 *)
Definition ITERATIONS : nat := 4.

(* BTreeMap<K, V> *)
Fixpoint mget {A} (m : list (Z * A)) (k : Z) : option A :=
  match m with [] => None | (k', v) :: r => if k' =? k then Some v else mget r k end.
Fixpoint mset {A} (m : list (Z * A)) (k : Z) (v : A) : list (Z * A) :=
  match m with [] => [(k, v)] | (k', w) :: r => if k' =? k then (k, v) :: r else (k', w) :: mset r k v end.
Definition mdel {A} (m : list (Z * A)) (k : Z) : list (Z * A) :=
  filter (fun p => negb (fst p =? k)) m.

(* What a call did, for the specification. *)
Inductive event :=
| EvGet (t : tid) (k v : Z)                 (* getspecific returned v *)
| EvSet (t : tid) (k v r : Z)               (* setspecific returned r *)
| EvCreate (t : tid) (k : Z) (d : option Z) (* key_create returned 0 and k; d: the destructor *)
| EvDelete (t : tid) (k r : Z)
| EvRound (t : tid) (round : nat)           (* at exit, a round begins *)
| EvCall (t : tid) (round : nat) (k d v : Z)(* destructor d of key k is called with v *)
| EvDone (t : tid).                         (* run_all_destructors returned *)

(* TRun: normal code.  TRound i: before round i.  TScan i any snap ds: in round i,
   the list taken at its beginning was snap, ds of it is left.  TDtor: in a
   destructor called there.  TDone b: returned (b: because a round called nothing). *)
Inductive tpc := TRun | TRound (i : nat)
  | TScan (i : nat) (any : bool) (snap ds : list (Z * Z))
  | TDtor (i : nat) (snap ds : list (Z * Z))
  | TDone (early : bool) (snap : list (Z * Z)).

(* [log]: newest event first (ghost). *)
Record tstate := TState {
  next : Z; keys : list (Z * option Z); vals : tid -> list (Z * Z);
  tpcs : tid -> tpc; log : list event }.

(* tls.rs 27-30 *)
Definition tls_init : tstate := TState 1 [] (fun _ => []) (fun _ => TRun) [].

Inductive tact :=
| TGet (k : Z) | TSet (k v : Z) | TCreate (d : option Z) | TDelete (k : Z)
| TExit       (* the thread begins to exit *)
| TReturn     (* the destructor returns *)
| TStep.      (* run_all_destructors goes on *)

Definition may_call (p : tpc) : bool := match p with TRun | TDtor _ _ _ => true | _ => false end.

(* keys.iter().filter_map(..) *)
Definition snapshot (ks : list (Z * option Z)) : list (Z * Z) :=
  flat_map (fun p => match snd p with Some d => [(fst p, d)] | None => [] end) ks.

Definition tls_exec (s : tstate) (l : tid * tact) : option tstate :=
  let t := fst l in
  let calls e st := if may_call (tpcs s t) then
      Some (TState (next st) (keys st) (vals st) (tpcs st) (e :: log st)) else None in
  let go p := TState (next s) (keys s) (vals s) (setf (tpcs s) t p) (log s) in
  match snd l with
  (* tls.rs 34-46 *)
  | TGet k => calls (EvGet t k (match mget (vals s t) k with Some v => v | None => 0 end)) s
  (* tls.rs 50-66 *)
  | TSet k v =>
      match mget (keys s) k with
      | None => calls (EvSet t k v EINVAL) s
      | Some _ => calls (EvSet t k v 0)
          (TState (next s) (keys s) (setf (vals s) t (mset (vals s t) k v)) (tpcs s) (log s))
      end
  (* tls.rs 70-84; pthread_key_t is c_ulong *)
  | TCreate d =>
      calls (EvCreate t (next s) d)
        (TState ((next s + 1) mod 2 ^ 64) (mset (keys s) (next s) d) (vals s) (tpcs s) (log s))
  (* tls.rs 88-99 *)
  | TDelete k =>
      match mget (keys s) k with
      | None => calls (EvDelete t k EINVAL) s
      | Some _ => calls (EvDelete t k 0)
          (TState (next s) (mdel (keys s) k) (setf (vals s) t (mdel (vals s t) k)) (tpcs s) (log s))
      end
  (* tls.rs 101-138 *)
  | TExit => match tpcs s t with TRun => Some (go (TRound 0)) | _ => None end
  | TStep =>
      match tpcs s t with
      | TRound i =>
          if (i <? ITERATIONS)%nat
          then let ds := snapshot (keys s) in
               Some (TState (next s) (keys s) (vals s) (setf (tpcs s) t (TScan i false ds ds)) (EvRound t i :: log s))
          else Some (TState (next s) (keys s) (vals s) (setf (tpcs s) t (TDone false [])) (EvDone t :: log s))
      | TScan i any snap ((k, d) :: ds) =>
          match mget (vals s t) k with
          | Some v =>
              if v =? 0 then Some (go (TScan i any snap ds))
              else Some (TState (next s) (keys s) (setf (vals s) t (mset (vals s t) k 0))
                                (setf (tpcs s) t (TDtor i snap ds)) (EvCall t i k d v :: log s))
          | None => Some (go (TScan i any snap ds))
          end
      | TScan i any snap [] =>
          if any then Some (go (TRound (S i)))
          else Some (TState (next s) (keys s) (vals s) (setf (tpcs s) t (TDone true snap)) (EvDone t :: log s))
      | _ => None
      end
  | TReturn => match tpcs s t with TDtor i snap ds => Some (go (TScan i true snap ds)) | _ => None end
  end.
