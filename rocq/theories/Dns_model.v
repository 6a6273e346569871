(* Model of the resolver: /repo/src/header/netdb/dns/mod.rs and netdb/lookup.rs.  Packets are
   lists of bytes, strings are lists of bytes (the characters pushed to a name are bytes, so
   String holds them as code points below 256; the names of a response are not used).
   Sockets, the clock and the file with the server's address are outside: the response is a
   parameter. *)
From Verif Require Import Base Grp_model Shadow_model Inet_model.

(* dns/mod.rs 18-24, answer.rs, query.rs *)
Record query := DQ { dq_name : list Z; dq_type : Z; dq_class : Z }.
Record answer := DA { da_name : list Z; da_type : Z; da_class : Z; da_ttl_a : Z; da_ttl_b : Z; da_data : list Z }.
Record dns := Dns { d_id : Z; d_flags : Z; d_queries : list query; d_answers : list answer }.

(* 35-39: u16::to_be_bytes *)
Definition n16 (v : Z) : list Z := [v / 256 mod 256; v mod 256].
(* 48-56: one query *)
Definition compile_query (q : query) : list Z :=
  concat (map (fun part => (len part mod 256) :: part) (split_at 46 [] (dq_name q))) ++ [0] ++ n16 (dq_type q) ++ n16 (dq_class q).
(* 27-58; the answers are counted and not written *)
Definition compile (p : dns) : list Z :=
  n16 (d_id p) ++ n16 (d_flags p) ++ n16 (len (d_queries p) mod 65536) ++ n16 (len (d_answers p) mod 65536) ++ n16 0 ++ n16 0 ++
  concat (map compile_query (d_queries p)).

(* parse: None is Err; the position comes with the value *)
Definition popped (A : Type) := res (option (A * nat)).
Definition pbind {A B} (x : popped A) (f : A -> nat -> popped B) : popped B :=
  match x with Ok (Some (a, i)) => f a i | Ok None => Ok None | Fault => Fault | Panic => Panic | OutOfFuel => OutOfFuel end.
Definition index (d : list Z) (i : nat) : res Z := match nth_error d i with Some b => Ok b | None => Panic end.
(* 64-72 *)
Definition pop_u8 (d : list Z) (i : nat) : popped Z :=
  if (length d <? i + 1)%nat then Ok None else b <- index d i ;; Ok (Some (b, (i + 1)%nat)).
(* 74-84 *)
Definition pop_n16 (d : list Z) (i : nat) : popped Z :=
  if (length d <? i + 2)%nat then Ok None else a <- index d i ;; b <- index d (i + 1) ;; Ok (Some (256 * a + b, (i + 2)%nat)).
(* 91-93, 116-118 *)
Fixpoint pop_bytes (d : list Z) (n i : nat) : popped (list Z) :=
  match n with
  | O => Ok (Some ([], i))
  | S n => pbind (pop_u8 d i) (fun b i => pbind (pop_bytes d n i) (fun l i => Ok (Some (b :: l, i))))
  end.
(* 86-97 *)
Definition pop_data (d : list Z) (i : nat) : popped (list Z) :=
  pbind (pop_n16 d i) (fun n i => pop_bytes d (Z.to_nat n) i).
(* 104-119; pop_n16!() - 0xC000 wraps *)
Fixpoint name_loop (fuel : nat) (d : list Z) (i : nat) (name : list Z) : popped (list Z) :=
  match fuel with
  | O => OutOfFuel
  | S f =>
      pbind (pop_u8 d i) (fun n j =>
        if Z.land n 192 =? 192 then
          pbind (pop_n16 d (j - 1)) (fun v _ => name_loop f d (Z.to_nat ((v - 49152) mod 65536)) name)
        else if n =? 0 then Ok (Some (name, j))
        else
          let name := match name with [] => [] | _ => name ++ [46] end in
          pbind (pop_bytes d (Z.to_nat n) j) (fun l j => name_loop f d j (name ++ l)))
  end.
(* 99-126 *)
Definition pop_name (fuel : nat) (d : list Z) (i : nat) : popped (list Z) :=
  pbind (name_loop fuel d i []) (fun name j => Ok (Some (name, if (j <=? i)%nat then (i + 2)%nat else j))).
(* 136-142 *)
Fixpoint pop_queries (fuel : nat) (d : list Z) (n i : nat) : popped (list query) :=
  match n with
  | O => Ok (Some ([], i))
  | S n =>
      pbind (pop_name fuel d i) (fun name i => pbind (pop_n16 d i) (fun t i => pbind (pop_n16 d i) (fun c i =>
        pbind (pop_queries fuel d n i) (fun l i => Ok (Some (DQ name t c :: l, i))))))
  end.
(* 145-154 *)
Fixpoint pop_answers (fuel : nat) (d : list Z) (n i : nat) : popped (list answer) :=
  match n with
  | O => Ok (Some ([], i))
  | S n =>
      pbind (pop_name fuel d i) (fun name i => pbind (pop_n16 d i) (fun t i => pbind (pop_n16 d i) (fun c i =>
        pbind (pop_n16 d i) (fun ta i => pbind (pop_n16 d i) (fun tb i => pbind (pop_data d i) (fun data i =>
          pbind (pop_answers fuel d n i) (fun l i => Ok (Some (DA name t c ta tb data :: l, i)))))))))
  end.
(* 60-163 *)
Definition parse (fuel : nat) (d : list Z) : popped dns :=
  pbind (pop_n16 d 0) (fun id i => pbind (pop_n16 d i) (fun flags i => pbind (pop_n16 d i) (fun nq i => pbind (pop_n16 d i) (fun na i =>
    pbind (pop_n16 d i) (fun _ i => pbind (pop_n16 d i) (fun _ i =>
      pbind (pop_queries fuel d (Z.to_nat nq) i) (fun qs i => pbind (pop_answers fuel d (Z.to_nat na) i) (fun rs i =>
        Ok (Some (Dns id flags qs rs, i)))))))))).

(* lookup.rs 267-284: the four bytes of the address *)
Definition octet (l : list Z) : Z := match parse_int 0 255 l with Some v => v | None => 0 end.
Definition parse_ipv4_string (s : list Z) : option (list Z) :=
  let v := map octet (split_at 46 [] (trim s)) in
  if len v =? 4 then Some v else None.

(* 31-122: the packet sent, and the addresses taken from the response.  EINVAL: Err. *)
Definition host_query (tid : Z) (host : list Z) : list Z := compile (Dns tid 256 [DQ host 1 1] []).
Definition host_answers (p : dns) : list (list Z) :=
  map da_data (filter (fun a => (da_type a =? 1) && (da_class a =? 1) && (len (da_data a) =? 4)) (d_answers p)).
Definition lookup_host (fuel : nat) (tid : Z) (ask : list Z -> list Z) (host : list Z) : res (list (list Z) + Z) :=
  match parse_ipv4_string host with
  | Some a => Ok (inl [a])
  | None =>
      r <- parse fuel (ask (host_query tid host)) ;;
      Ok (match r with Some (p, _) => inl (host_answers p) | None => inr 22 end)
  end.

(* 124-219; a: the four bytes of the address *)
Definition dot (l : list Z) : list Z := l ++ [46].
Definition arpa : list Z := [105; 110; 45; 97; 100; 100; 114; 46; 97; 114; 112; 97].
Definition reverse_name (a : list Z) : list Z := concat (map (fun b => dot (dec b)) (rev a)) ++ arpa.
Definition addr_query (tid : Z) (a : list Z) : list Z := compile (Dns tid 256 [DQ (reverse_name a) 12 1] []).
Fixpoint set_nth (l : list Z) (n : nat) (v : Z) : list Z :=
  match l, n with [], _ => [] | _ :: r, O => v :: r | x :: r, S n => x :: set_nth r n v end.
(* 231-242 *)
Fixpoint rev_loop (fuel : nat) (d out : list Z) (cursor idx : nat) : res (list Z) :=
  match fuel with
  | O => OutOfFuel
  | S f =>
      if (idx <? length d - 1)%nat then
        o <- index d idx ;;
        if len d - 1 <? o then Ok [0]
        else
          let idx := (cursor + Z.to_nat o + 1)%nat in
          if (idx - 1 <? length out)%nat then rev_loop f d (set_nth out (idx - 1) 46) idx idx else Panic
      else Ok (match out with [] => [0] | _ => removelast out ++ [0] end)
  end.
(* 221-253 *)
Definition parse_revdns (d : list Z) : res (list Z) :=
  match d with
  | [] => Ok [0]
  | c :: r => if c =? 0 then Ok [0] else rev_loop (S (length d)) d r 0 0
  end.
Fixpoint all_names (l : list answer) : res (list (list Z)) :=
  match l with
  | [] => Ok []
  | a :: l =>
      if (da_type a =? 12) && (da_class a =? 1) then n <- parse_revdns (da_data a) ;; r <- all_names l ;; Ok (n :: r)
      else all_names l
  end.
Definition lookup_addr (fuel : nat) (tid : Z) (ask : list Z -> list Z) (a : list Z) : res (list (list Z) + Z) :=
  r <- parse fuel (ask (addr_query tid a)) ;;
  match r with Some (p, _) => l <- all_names (d_answers p) ;; Ok (inl l) | None => Ok (inr 22) end.
