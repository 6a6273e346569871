(* Specification of thread-specific data (C38) over histories, newest event first. *)
From Coq Require Import ZArith List Bool.
From Verif Require Import Conc Tls_model.
Import ListNotations.
Open Scope Z_scope.

(* The value of key k in thread t: the last one it set, NULL after the key's
   destructor was called with it or the thread deleted the key. *)
Fixpoint last_value (t : tid) (k : Z) (h : list event) : Z :=
  match h with
  | [] => 0
  | EvSet t' k' v 0 :: r => if (t' =? t) && (k' =? k) then v else last_value t k r
  | EvCall t' _ k' _ _ :: r => if (t' =? t) && (k' =? k) then 0 else last_value t k r
  | EvDelete t' k' 0 :: r => if (t' =? t) && (k' =? k) then 0 else last_value t k r
  | _ :: r => last_value t k r
  end.

(* Is k a key, and with which destructor. *)
Fixpoint live (k : Z) (h : list event) : option (option Z) :=
  match h with
  | [] => None
  | EvCreate _ k' d :: r => if k' =? k then Some d else live k r
  | EvDelete _ k' 0 :: r => if k' =? k then None else live k r
  | _ :: r => live k r
  end.

Fixpoint created (k : Z) (h : list event) : bool :=
  match h with
  | [] => false
  | EvCreate _ k' _ :: r => (k' =? k) || created k r
  | _ :: r => created k r
  end.

Definition creations (h : list event) : Z :=
  Z.of_nat (length (filter (fun e => match e with EvCreate _ _ _ => true | _ => false end) h)).

(* The history up to the beginning of round i of thread t's exit. *)
Fixpoint round_start (t : tid) (i : nat) (h : list event) : list event :=
  match h with
  | [] => []
  | EvRound t' j :: r => if (t' =? t) && (j =? i)%nat then r else round_start t i r
  | _ :: r => round_start t i r
  end.

(* Destructor d of key k was called in round i of t's exit. *)
Definition called (t : tid) (i : nat) (k : Z) (h : list event) : bool :=
  existsb (fun e => match e with EvCall t' j k' _ _ => (t' =? t) && (j =? i)%nat && (k' =? k) | _ => false end) h.
