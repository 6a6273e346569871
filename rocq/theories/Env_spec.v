(** Specification for C22: the environment as a finite map from names to values. *)
From Verif Require Import Base Env_model.

(** A valid name: non-empty, no '=' (61), no NUL. *)
Definition name_ok (k : list Z) : Prop := Forall (fun c => is_char c /\ c <> 61) k /\ k <> [].
Definition value_ok (v : list Z) : Prop := Forall is_char v.
Definition entry (k v : list Z) : list Z := k ++ 61 :: v.

(** Environment calls, with the addresses of their arguments. *)
Inductive event :=
| Set_ (k v : list Z) (overwrite : Z) (pk pv alloc : Z)
| Put_ (k v : list Z) (p : Z)
| Unset_ (k : list Z) (pk : Z).

(** The map each call denotes. *)
Definition env_map := list Z -> option (list Z).
Definition leqb (a b : list Z) : bool := if list_eq_dec Z.eq_dec a b then true else false.
Definition bind_name (e : env_map) (k v : list Z) : env_map := fun n => if leqb n k then Some v else e n.
Definition apply_event (e : env_map) (ev : event) : env_map :=
  match ev with
  | Set_ k v ow _ _ _ =>
      if ow =? 0 then match e k with Some _ => e | None => bind_name e k v end else bind_name e k v
  | Put_ k v _ => bind_name e k v
  | Unset_ k _ => fun n => if leqb n k then None else e n
  end.

(** Storage.  [cap p] is the size of the block at [p] (fixed: blocks are never freed or
    moved by this code).  Blocks of environ entries are pairwise disjoint. *)
Definition owned (cap : Z -> Z) (environ : list Z) (x : Z) : Prop :=
  exists p, In p environ /\ p <= x < p + cap p.
Definition apart (cap : Z -> Z) (environ : list Z) (a n : Z) : Prop :=
  forall p, In p environ -> disjoint p (cap p) a n.
(** [environ] holds the entries [es] (name, value), in order, names distinct. *)
Record holds (cap : Z -> Z) (m : mem) (environ : list Z) (es : list (list Z * list Z)) : Prop := {
  h_str : Forall2 (fun p kv => name_ok (fst kv) /\ value_ok (snd kv) /\ 0 < p /\
                     len (entry (fst kv) (snd kv)) < cap p /\
                     cstr m p (entry (fst kv) (snd kv))) environ es;
  h_map : forall p, In p environ -> mapped m p (cap p);
  h_disj : ForallOrdPairs (fun p q => disjoint p (cap p) q (cap q)) environ;
  h_names : NoDup (map fst es) }.
Fixpoint lookup (es : list (list Z * list Z)) (k : list Z) : option (list Z) :=
  match es with
  | [] => None
  | (n, v) :: es' => if leqb k n then Some v else lookup es' k
  end.

(** Requirements on one call: the argument strings are present in memory outside the
    blocks of the environment (for putenv: the string becomes a block of its own);
    a fresh block is available for setenv. *)
Definition legal (cap : Z -> Z) (m : mem) (environ : list Z) (ev : event) : Prop :=
  match ev with
  | Set_ k v _ pk pv a =>
      name_ok k /\ value_ok v /\ 0 < pk /\ 0 < pv /\ cstr m pk k /\ cstr m pv v /\
      apart cap environ pk (len k + 1) /\ apart cap environ pv (len v + 1) /\
      0 < a /\ cap a = len k + 1 + len v + 1 /\ mapped m a (cap a) /\ apart cap environ a (cap a) /\
      disjoint a (cap a) pk (len k + 1) /\ disjoint a (cap a) pv (len v + 1)
  | Put_ k v p =>
      name_ok k /\ value_ok v /\ cstr m p (entry k v) /\ 0 < p /\
      len (entry k v) < cap p /\ mapped m p (cap p) /\ apart cap environ p (cap p)
  | Unset_ k pk => name_ok k /\ cstr m pk k /\ apart cap environ pk (len k + 1)
  end.

(** ** Histories of the model *)
Definition exec (fuel : nat) (m : mem) (environ : list Z) (ev : event) : res (mem * list Z) :=
  match ev with
  | Set_ _ _ ow pk pv a => setenv fuel m environ pk pv ow a
  | Put_ _ _ p => e <- putenv fuel m environ p ;; Ok (m, e)
  | Unset_ _ pk => e <- unsetenv fuel m environ pk ;; Ok (m, e)
  end.

(** enough steps for the loops *)
Definition fuel_ok (fuel : nat) (cap : Z -> Z) (environ : list Z) (ev : event) : Prop :=
  (forall p, In p environ -> cap p < Z.of_nat fuel) /\
  match ev with
  | Set_ k v _ _ _ _ => (length k < fuel)%nat /\ (length v < fuel)%nat
  | Put_ k v _ => (length k < fuel)%nat
  | Unset_ k _ => (length k < fuel)%nat
  end.

(** Executions: legal calls interleaved with arbitrary client activity outside the
    blocks of the current environment (including allocation and release of memory). *)
Inductive run : (Z -> Z) -> mem -> list Z -> list event -> (Z -> Z) -> mem -> list Z -> Prop :=
| run_nil cap m ps : run cap m ps [] cap m ps
| run_client cap m ps evs cap1 m1 cap2 m2 ps2 :
    (forall p, In p ps -> cap1 p = cap p) -> (forall x, owned cap ps x -> m1 x = m x) ->
    run cap1 m1 ps evs cap2 m2 ps2 -> run cap m ps evs cap2 m2 ps2
| run_call cap fuel m ps ev m1 ps1 evs cap2 m2 ps2 :
    legal cap m ps ev -> fuel_ok fuel cap ps ev -> exec fuel m ps ev = Ok (m1, ps1) ->
    run cap m1 ps1 evs cap2 m2 ps2 -> run cap m ps (ev :: evs) cap2 m2 ps2.
