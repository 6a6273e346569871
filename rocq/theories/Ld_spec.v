(* Specification for C83, C84, C85. *)
From Coq Require Import ZArith List Bool Arith.
From Verif Require Import Base Ld_model.
Import ListNotations.
Open Scope nat_scope.

(* The files n depends on, itself included. *)
Inductive reach (fs : name -> option desc) (n : name) : name -> Prop :=
| r_refl : reach fs n n
| r_step m d x : reach fs n m -> fs m = Some d -> In x (needed d) -> reach fs n x.

(* No cycles: dependencies have smaller rank.  Files carry their name as SONAME. *)
Definition acyclic (fs : name -> option desc) (rank : name -> nat) : Prop :=
  forall n d x, fs n = Some d -> In x (needed d) -> rank x < rank n.
Definition sonames (fs : name -> option desc) : Prop := forall n d, fs n = Some d -> so d = n.

Definition loaded (s : ld) (n : name) : Prop := exists o, In o (objs s) /\ onam o = n.
Definition present (s : ld) (i : nat) : Prop := exists o, In o (objs s) /\ oid o = i.

(* The states of a process: the program has been loaded, dlopen and dlclose have been
   called in any order, dlclose on open handles.  [g]: dlopen has loaded something with
   RTLD_GLOBAL. *)
Inductive history (fuel : nat) (fs : name -> option desc) : bool -> ld -> Prop :=
| h_start n s i : load_object fuel fs ld_init n false Global = Ok (s, Some i) -> history fuel fs false s
| h_open g s n k now noload s' r : history fuel fs g s -> dlopen fuel fs s n k now noload = Ok (s', r) ->
    history fuel fs (match k with Global => true | Local => g end) s'
| h_close g s i s' : history fuel fs g s -> In i (handles s) -> dlclose fuel s i = Ok s' -> history fuel fs g s'.
(* Only RTLD_LOCAL, or no dlclose. *)
Inductive tame (fuel : nat) (fs : name -> option desc) : bool -> ld -> Prop :=
| t_start n s i : load_object fuel fs ld_init n false Global = Ok (s, Some i) -> tame fuel fs false s
| t_open g s n k now noload s' r : tame fuel fs g s -> dlopen fuel fs s n k now noload = Ok (s', r) ->
    tame fuel fs (match k with Global => true | Local => g end) s'
| t_close s i s' : tame fuel fs false s -> In i (handles s) -> dlclose fuel s i = Ok s' -> tame fuel fs false s'.

(* What loading n does to the state, with result r. *)
Definition loads (fs : name -> option desc) (s : ld) (n : name) (s' : ld) (r : option nat) : Prop :=
  match r with
  | Some i =>
      (* n is object i, and exactly what it depends on has been added; *)
      (exists o, In o (objs s') /\ onam o = n /\ oid o = i) /\
      (forall m, loaded s' m <-> loaded s m \/ reach fs n m) /\
      (* the initializers of exactly the new objects have run, once, dependencies first. *)
      exists l, inits s' = inits s ++ map oid l /\ NoDup (map onam l) /\ NoDup (map oid l) /\
        (forall o, In o (objs s') <-> In o (objs s) \/ In o l) /\
        (forall o, In o l -> ~ present s (oid o) /\ ~ loaded s (onam o)) /\
        (forall l1 o l2 d x, l = l1 ++ o :: l2 -> fs (onam o) = Some d -> In x (needed d) -> loaded s x \/ In x (map onam l1))
  | None =>
      (* something is missing, and nothing has been added or run. *)
      (exists m, reach fs n m /\ fs m = None) /\ objs s' = objs s /\ inits s' = inits s /\ finis s' = finis s
  end.

(* A definition of x in object i. *)
Definition defines (tab : nat -> name -> option sym) (x : name) (i : nat) (s : sym) : Prop :=
  tab i x = Some s /\ sundef s = false.
(* i is the first object of l with a definition that satisfies P. *)
Definition first_def (tab : nat -> name -> option sym) (x : name) (P : sym -> Prop) (l : list nat) (i : nat) (s : sym) : Prop :=
  exists l1 l2, l = l1 ++ i :: l2 /\ defines tab x i s /\ P s /\ forall j t, In j l1 -> defines tab x j t -> ~ P t.
Definition strong_def (s : sym) : Prop := sbind s = STB_GLOBAL.
(* All definitions of x have binding global or weak. *)
Definition plain (tab : nat -> name -> option sym) (x : name) (l : list nat) : Prop :=
  forall i s, In i l -> defines tab x i s -> sbind s = STB_GLOBAL \/ sbind s = STB_WEAK.
