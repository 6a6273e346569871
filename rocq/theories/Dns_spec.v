(* Domain names and messages of the domain name system, RFC 1035 4.1. *)
From Coq Require Import ZArith List Bool.
Import ListNotations.
Open Scope Z_scope.

Definition label := list Z.
(* the bytes from i on *)
Definition at_ (d : list Z) (i : nat) (l : list Z) : Prop := firstn (length l) (skipn i d) = l.
Definition u16_at (d : list Z) (i : nat) (v : Z) : Prop := exists a b, at_ d i [a; b] /\ v = 256 * a + b.

(* 4.1.4: labels until an empty one, or until a pointer to the rest of the name.  The last
   argument: behind the empty label at the end of all pointers. *)
Inductive chain (d : list Z) : nat -> list label -> nat -> Prop :=
| CEnd i : at_ d i [0] -> chain d i [] (S i)
| CLabel i l ls e : 1 <= Z.of_nat (length l) <= 63 -> at_ d i (Z.of_nat (length l) :: l) -> chain d (S i + length l) ls e -> chain d i (l :: ls) e
| CPtr i hi lo ls e : 192 <= hi < 256 -> at_ d i [hi; lo] -> chain d (Z.to_nat ((hi - 192) * 256 + lo)) ls e -> chain d i ls e.
(* the name at i, and where the field ends *)
Inductive name_at (d : list Z) : nat -> list label -> nat -> Prop :=
| NEnd i : at_ d i [0] -> name_at d i [] (S i)
| NLabel i l ls j : 1 <= Z.of_nat (length l) <= 63 -> at_ d i (Z.of_nat (length l) :: l) -> name_at d (S i + length l) ls j -> name_at d i (l :: ls) j
| NPtr i hi lo ls e : 192 <= hi < 256 -> at_ d i [hi; lo] -> chain d (Z.to_nat ((hi - 192) * 256 + lo)) ls e -> name_at d i ls (i + 2).
(* names without pointer, and names that are nothing but a pointer, to a name that ends
   before it *)
Inductive plain_at (d : list Z) : nat -> list label -> nat -> Prop :=
| PEnd i : at_ d i [0] -> plain_at d i [] (S i)
| PLabel i l ls j : 1 <= Z.of_nat (length l) <= 63 -> at_ d i (Z.of_nat (length l) :: l) -> plain_at d (S i + length l) ls j -> plain_at d i (l :: ls) j.
Definition easy_at (d : list Z) (i : nat) (ls : list label) (j : nat) : Prop :=
  plain_at d i ls j \/
  exists hi lo e, 192 <= hi < 256 /\ at_ d i [hi; lo] /\ chain d (Z.to_nat ((hi - 192) * 256 + lo)) ls e /\ (e <= i)%nat /\ j = (i + 2)%nat.

(* questions and resource records *)
Record question := Q { q_name : list label; q_type : Z; q_class : Z }.
Record record := R { r_name : list label; r_type : Z; r_class : Z; r_ttl_hi : Z; r_ttl_lo : Z; r_data : list Z }.
Record message := Msg { m_id : Z; m_flags : Z; m_questions : list question; m_answers : list record }.
Section Message.
Variable names : list Z -> nat -> list label -> nat -> Prop.
Inductive questions_at (d : list Z) : nat -> list question -> nat -> Prop :=
| QNil i : questions_at d i [] i
| QCons i q k r j : names d i (q_name q) k -> u16_at d k (q_type q) -> u16_at d (k + 2) (q_class q) ->
    questions_at d (k + 4) r j -> questions_at d i (q :: r) j.
Inductive records_at (d : list Z) : nat -> list record -> nat -> Prop :=
| RNil i : records_at d i [] i
| RCons i a k r j : names d i (r_name a) k -> u16_at d k (r_type a) -> u16_at d (k + 2) (r_class a) ->
    u16_at d (k + 4) (r_ttl_hi a) -> u16_at d (k + 6) (r_ttl_lo a) ->
    u16_at d (k + 8) (Z.of_nat (length (r_data a))) -> at_ d (k + 10) (r_data a) ->
    records_at d (k + 10 + length (r_data a)) r j -> records_at d i (a :: r) j.
(* header, questions, answers; other sections may follow *)
Definition message_at (d : list Z) (m : message) : Prop :=
  u16_at d 0 (m_id m) /\ u16_at d 2 (m_flags m) /\
  u16_at d 4 (Z.of_nat (length (m_questions m))) /\ u16_at d 6 (Z.of_nat (length (m_answers m))) /\
  (exists a, u16_at d 8 a) /\ (exists a, u16_at d 10 a) /\
  exists k j, questions_at d 12 (m_questions m) k /\ records_at d k (m_answers m) j.
End Message.

(* text of a name *)
Fixpoint dotted (ls : list label) : list Z :=
  match ls with [] => [] | [l] => l | l :: r => l ++ 46 :: dotted r end.
Definition host_label (l : label) : Prop := 1 <= Z.of_nat (length l) <= 63 /\ Forall (fun c => 0 <= c < 256 /\ c <> 46) l.

(* Internet addresses of the answer: type A, class IN, four bytes *)
Definition addresses (m : message) : list (list Z) :=
  map r_data (filter (fun r => (r_type r =? 1) && (r_class r =? 1) && (Z.of_nat (length (r_data r)) =? 4)) (m_answers m)).
