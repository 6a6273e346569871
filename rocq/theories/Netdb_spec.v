(* The files /etc/protocols, /etc/services and /etc/hosts: protocols(5), services(5), hosts(5). *)
From Coq Require Import ZArith List Bool.
From Verif Require Import Numeral Inet_spec.
Import ListNotations.
Open Scope Z_scope.

Definition white (c : Z) : Prop := c = 32 \/ 9 <= c <= 13.
(* the words of a line, separated by white space *)
Inductive words : list Z -> list (list Z) -> Prop :=
| WNil l : Forall white l -> words l []
| WCons s w r ws : Forall white s -> w <> [] -> Forall (fun c => ~ white c) w ->
    (forall c r', r = c :: r' -> white c) -> words r ws -> words (s ++ w ++ r) (w :: ws).
(* what is left of a line without its comment *)
Definition content (l c : list Z) : Prop := ~ In 35 c /\ (l = c \/ exists r, l = c ++ 35 :: r).
Definition decimal (d : list Z) (n : Z) : Prop := d <> [] /\ Forall (fun c => 48 <= c <= 57) d /\ n = dvalue 10 (map (fun c => c - 48) d).

(* a file: lines, each with an entry or none; the last may lack its newline *)
Inductive database {E} (line : list Z -> option E -> Prop) : list Z -> list E -> Prop :=
| DNil : database line [] []
| DSkip l r es : ~ In 10 l -> line l None -> database line r es -> database line (l ++ 10 :: r) es
| DLine l e r es : ~ In 10 l -> line l (Some e) -> database line r es -> database line (l ++ 10 :: r) (e :: es)
| DLast l o : l <> [] -> ~ In 10 l -> line l o -> database line l (match o with Some e => [e] | None => [] end).

Record protocol := Protocol { p_name : list Z; p_number : Z; p_aliases : list (list Z) }.
Inductive protocol_line : list Z -> option protocol -> Prop :=
| PLNone l c : content l c -> words c [] -> protocol_line l None
| PLSome l c n d v al : content l c -> words c (n :: d :: al) -> decimal d v -> v < 2 ^ 31 -> protocol_line l (Some (Protocol n v al)).

Record service := Service { s_name : list Z; s_port : Z; s_protocol : list Z; s_aliases : list (list Z) }.
Inductive service_line : list Z -> option service -> Prop :=
| SLNone l c : content l c -> words c [] -> service_line l None
| SLSome l c n d v pr al : content l c -> words c (n :: (d ++ 47 :: pr) :: al) -> decimal d v -> v < 65536 -> ~ In 47 pr ->
    service_line l (Some (Service n v pr al)).

(* an address in host byte order; IPv6 addresses are not represented *)
Record host := Host { h_name : list Z; h_addr : Z; h_aliases : list (list Z) }.
Inductive host_line : list Z -> option host -> Prop :=
| HLNone l c : content l c -> words c [] -> host_line l None
| HLSome l c t a n al : content l c -> words c (t :: n :: al) -> denotes t a -> host_line l (Some (Host n a al)).

Definition lower (c : Z) : Z := if (65 <=? c) && (c <=? 90) then c + 32 else c.
Fixpoint same (a b : list Z) : bool :=
  match a, b with
  | [], [] => true
  | x :: a, y :: b => (lower x =? lower y) && same a b
  | _, _ => false
  end.
(* every line ends with a newline *)
Definition complete (file : list Z) : Prop := file = [] \/ exists a, file = a ++ [10].
(* comments have lines of their own *)
Definition apart (l : list Z) : Prop := ~ In 35 l \/ exists r, l = 35 :: r.
