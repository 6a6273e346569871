(** Specification vocabulary for string.h, independent of the model. *)
From Verif Require Import Base.

(** Lexicographic order of byte sequences (a proper prefix is smaller). *)
Fixpoint lex (l k : list Z) : comparison :=
  match l, k with
  | [], [] => Eq
  | [], _ :: _ => Lt
  | _ :: _, [] => Gt
  | a :: l', b :: k' => match a ?= b with Eq => lex l' k' | c => c end
  end.

(** An int whose sign reports the comparison result. *)
Definition sign_is (r : Z) (c : comparison) : Prop :=
  match c with Eq => r = 0 | Lt => r < 0 | Gt => 0 < r end.

(** [i] is the index of the first / last occurrence of [c] in [l]. *)
Definition first_occ (c : Z) (l : list Z) (i : nat) : Prop :=
  nth_error l i = Some c /\ forall j, (j < i)%nat -> nth_error l j <> Some c.
Definition last_occ (c : Z) (l : list Z) (i : nat) : Prop :=
  nth_error l i = Some c /\ forall j, (i < j)%nat -> nth_error l j <> Some c.

(** [p] is the address of the first (last) [c] in the sequence [l] stored at [a],
    or NULL when [c] does not occur. *)
Definition finds_first (c : Z) (l : list Z) (a p : Z) : Prop :=
  (~ In c l /\ p = NULL) \/ exists i, first_occ c l i /\ p = a + Z.of_nat i.
Definition finds_last (c : Z) (l : list Z) (a p : Z) : Prop :=
  (~ In c l /\ p = NULL) \/ exists i, last_occ c l i /\ p = a + Z.of_nat i.

(** The word [w] occurs in [l] at index [i]. *)
Definition occurs_at (w l : list Z) (i : nat) : Prop :=
  exists pre post, l = pre ++ w ++ post /\ length pre = i.
Definition finds_leftmost (w l : list Z) (a p : Z) : Prop :=
  ((forall i, ~ occurs_at w l i) /\ p = NULL) \/
  exists i, occurs_at w l i /\ (forall j, (j < i)%nat -> ~ occurs_at w l j) /\ p = a + Z.of_nat i.

(** [n] is the length of the longest prefix of [s] all of whose bytes satisfy [P]. *)
Definition longest_prefix (P : Z -> Prop) (s : list Z) (n : Z) : Prop :=
  exists pre post, s = pre ++ post /\ Forall P pre /\ n = len pre /\
    match post with [] => True | b :: _ => ~ P b end.

(** Fields of [s] separated by single bytes of [D] (strsep). *)
Inductive fields (D : list Z) : list Z -> list (list Z) -> Prop :=
| fields_last : forall s, Forall (fun b => ~ In b D) s -> fields D s [s]
| fields_more : forall f d rest fs,
    Forall (fun b => ~ In b D) f -> In d D -> fields D rest fs ->
    fields D (f ++ d :: rest) (f :: fs).

(** Tokens of [s]: the maximal non-empty runs of bytes outside [D] (strtok). *)
Inductive tokens (D : list Z) : list Z -> list (list Z) -> Prop :=
| tokens_none : forall s, Forall (fun b => In b D) s -> tokens D s []
| tokens_more : forall sep t rest ts,
    Forall (fun b => In b D) sep ->
    t <> [] -> Forall (fun b => ~ In b D) t ->
    match rest with [] => True | b :: _ => In b D end ->
    tokens D rest ts ->
    tokens D (sep ++ t ++ rest) (t :: ts).

(** Equality up to ASCII letter case. *)
Definition lower (c : Z) : Z := if (65 <=? c) && (c <=? 90) then c + 32 else c.

(** [n] consecutive calls of strsep on one cursor; collects the returned pointers.
    (A client program, not code of the library.) *)
Section Client.
  Variable call : mem -> Z -> res (mem * Z * Z).
  Fixpoint repeat_calls (n : nat) (m : mem) (cur : Z) : res (mem * Z * list Z) :=
    match n with
    | O => Ok (m, cur, [])
    | S n' => '(m1, cur1, p) <- call m cur ;;
              '(m2, cur2, ps) <- repeat_calls n' m1 cur1 ;;
              Ok (m2, cur2, p :: ps)
    end.
End Client.

Definition letter (c : Z) : Prop := 65 <= c <= 90 \/ 97 <= c <= 122.
(** Leftmost occurrence up to ASCII letter case. *)
Definition finds_leftmost_nocase (w l : list Z) (a p : Z) : Prop :=
  finds_leftmost (map lower w) (map lower l) a p.
