(* What getaddrinfo's caller sees: a linked list in memory. *)
From Coq Require Import ZArith List Bool.
From Verif Require Import Base Gai_model.
Import ListNotations.
Open Scope Z_scope.

(* struct sockaddr_in of an Internet address: the family 2, the port and the address in network order *)
Definition inet_sockaddr (port : Z) (a : list Z) : list Z := [2; 0; port / 256; port mod 256] ++ a ++ repeat 0 8.
Record entry := Ent { e_sockaddr : list Z; e_socktype : Z; e_canon : option (list Z) }.
Inductive linked (h : heap) : Z -> list entry -> Prop :=
| LNil : linked h 0 []
| LCons p n e es : p <> 0 -> get h p = Some (BNode n) ->
    ai_family n = 2 -> ai_socktype n = e_socktype e -> ai_addrlen n = Z.of_nat (length (e_sockaddr e)) -> get h (ai_addr n) = Some (BAddr (e_sockaddr e)) ->
    match e_canon e with None => ai_canonname n = 0 | Some s => ai_canonname n <> 0 /\ get h (ai_canonname n) = Some (BName s) end ->
    linked h (ai_next n) es -> linked h p (e :: es).
(* One entry for each address, in their order; the first has the canonical name. *)
Definition entries (port socktype : Z) (canon : option (list Z)) (l : list (list Z)) : list entry :=
  match l with
  | [] => []
  | a :: l => Ent (inet_sockaddr port a) socktype canon :: map (fun a => Ent (inet_sockaddr port a) socktype None) l
  end.
Definition fresh_ok (fresh : heap -> Z) : Prop := forall h, fresh h <> 0 /\ get h (fresh h) = None.
(* The hints of a call: flags and socket type *)
Definition flags_of (hs : option hints) : Z := match hs with Some x => h_flags x | None => 0 end.
Definition type_of (hs : option hints) : Z := match hs with Some x => h_socktype x | None => 0 end.
