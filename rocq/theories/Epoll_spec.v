(* What epoll(7) asks. *)
From Verif Require Import Base.

(* a number as so many bytes, the low one first *)
Fixpoint bytes_of (k : nat) (x : Z) : list Z := match k with O => [] | S k => x mod 256 :: bytes_of k (x / 256) end.
(* an element of the caller's array: conditions and the caller's word *)
Definition entry_at (m : mem) (a : Z) (x : Z * Z) : Prop := bytes_at m a (bytes_of 4 (fst x)) /\ bytes_at m (a + 8) (bytes_of 8 (snd x)).
Fixpoint entries_at (m : mem) (a : Z) (l : list (Z * Z)) : Prop :=
  match l with [] => True | x :: r => entry_at m a x /\ entries_at m (a + 24) r end.
(* conditions: readable, writable *)
Definition conditions (r w : bool) : Z := (if r then 1 else 0) + (if w then 4 else 0).

(* the interest list: conditions asked for and the caller's word, by descriptor *)
Definition interest := Z -> option (Z * Z).
Inductive call := Add (fd ev d : Z) | Modify (fd ev d : Z) | Delete (fd : Z).
Definition set (t : interest) (fd : Z) (x : option (Z * Z)) : interest := fun k => if k =? fd then x else t k.
(* EEXIST 17, ENOENT 2 *)
Definition asked (t : interest) (c : call) : interest + Z :=
  match c with
  | Add fd ev d => match t fd with Some _ => inr 17 | None => inl (set t fd (Some (ev, d))) end
  | Modify fd ev d => match t fd with Some _ => inl (set t fd (Some (ev, d))) | None => inr 2 end
  | Delete fd => match t fd with Some _ => inl (set t fd None) | None => inr 2 end
  end.
Inductive accepted : interest -> list call -> interest -> Prop :=
| accepted_0 t : accepted t [] t
| accepted_S t c t1 l t' : asked t c = inl t1 -> accepted t1 l t' -> accepted t (c :: l) t'.
