(* Specification for C162: control messages in a buffer. *)
From Verif Require Import Base.

(* x in k bytes, least significant first *)
Fixpoint num (k : nat) (x : Z) : list Z := match k with O => [] | S k => x mod 256 :: num k (x / 256) end.
Record message := Message { level : Z; kind : Z; data : list Z }.
(* a header of 16 bytes and the data, in multiples of 8 *)
Definition room (d : list Z) : Z := 16 + (len d + 7) / 8 * 8.
(* the messages one after the other at a *)
Fixpoint laid (m : mem) (a : Z) (l : list message) : Prop :=
  match l with
  | [] => True
  | x :: l => bytes_at m a (num 8 (16 + len (data x)) ++ num 4 (level x) ++ num 4 (kind x) ++ data x) /\ laid m (a + room (data x)) l
  end.
Fixpoint places (a : Z) (l : list message) : list Z := match l with [] => [] | x :: l => a :: places (a + room (data x)) l end.
Definition total (l : list message) : Z := fold_right (fun x n => room (data x) + n) 0 l.
(* the last need not be padded *)
Fixpoint needed (l : list message) : Z := match l with [] => 0 | [x] => 16 + len (data x) | x :: l => room (data x) + needed l end.
Definition buffer (m : mem) (a n : Z) (l : list message) : Prop := 0 < a /\ a + total l < 2 ^ 63 /\ laid m a l /\ needed l <= n <= total l.
(* a message without data after others is the case the macro misses *)
Definition last_has_data (l : list message) : Prop := match l with [] | [_] => True | _ => data (last l (Message 0 0 [])) <> [] end.
(* the header at p is in the n bytes at a, and so placed that it can be read *)
Definition header_in (a n p : Z) : Prop := a <= p /\ p + 16 <= a + n /\ (p - a) mod 8 = 0.
