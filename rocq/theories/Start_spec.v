(* What main is handed: C strings laid out by the kernel and the block they are copied to. *)
From Verif Require Import Base.

(* 8-byte words of the initial stack *)
Definition words := Z -> option Z.
Fixpoint words_at (w : words) (a : Z) (l : list Z) : Prop :=
  match l with [] => True | x :: r => w a = Some x /\ words_at w (a + 8) r end.
(* the pointers ps, none null, point to the strings ss *)
Definition points (m : mem) (ps : list Z) (ss : list (list Z)) : Prop :=
  Forall2 (fun p s => p <> 0 /\ cstr m p s) ps ss.
(* argc, the arguments and a null, the environment and a null, pairs that end with AT_NULL *)
Definition stack (w : words) (sp : Z) (args env : list Z) (aux : list (Z * Z)) : Prop :=
  words_at w sp (len args :: args ++ 0 :: env ++ 0 :: flat_map (fun kv => [fst kv; snd kv]) aux ++ [0]).

(* strings one after the other, each with its terminator *)
Fixpoint flat (ss : list (list Z)) : list Z := match ss with [] => [] | s :: r => s ++ 0 :: flat r end.
(* where each begins when the first is at a *)
Fixpoint places (a : Z) (ss : list (list Z)) : list Z :=
  match ss with [] => [] | s :: r => a :: places (a + len s + 1) r end.
(* the block of n bytes at a holds none of the strings *)
Definition apart (a n : Z) (ps : list Z) (ss : list (list Z)) : Prop :=
  Forall2 (fun p s => disjoint a n p (len s + 1)) ps ss.
Definition ends_slash (s : list Z) : Prop := exists q, s = q ++ [47].
