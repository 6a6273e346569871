(* Wide strings in a memory of wide characters. *)
From Verif Require Import Base String_spec.

Definition nz (c : Z) : Prop := c <> 0.
(* A terminated wide string; the first at most n characters of one. *)
Definition wstr (m : mem) (a : Z) (s : list Z) : Prop := Forall nz s /\ bytes_at m a (s ++ [0]).
Definition wbstr (m : mem) (a n : Z) (l : list Z) : Prop :=
  Forall nz l /\ bytes_at m a l /\ (len l = n \/ len l < n /\ m (a + len l) = Some 0).
(* The values of characters: not negative, as wchar_t is an i32. *)
Definition wchars (s : list Z) : Prop := Forall (fun c => 0 <= c < 2 ^ 31) s.

(* The pointers returned by n calls of a tokenizer: the first gets the string. *)
Section Client.
  Variable call : mem -> Z -> Z -> res (mem * Z * Z).     (* memory, string or NULL, state *)
  Fixpoint next_calls (n : nat) (m : mem) (state : Z) : res (mem * Z * list Z) :=
    match n with
    | O => Ok (m, state, [])
    | S n => '(m, state, p) <- call m NULL state ;; '(m, state, ps) <- next_calls n m state ;; Ok (m, state, p :: ps)
    end.
  Definition all_calls (n : nat) (m : mem) (s state : Z) : res (mem * Z * list Z) :=
    match n with
    | O => Ok (m, state, [])
    | S n => '(m, state, p) <- call m s state ;; '(m, state, ps) <- next_calls n m state ;; Ok (m, state, p :: ps)
    end.
End Client.
