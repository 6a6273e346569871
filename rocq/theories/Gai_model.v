(* getaddrinfo, freeaddrinfo and getnameinfo: src/header/netdb/mod.rs 835-1063.  The resolver is
   that of Dns_model; allocation does not fail. *)
From Coq Require Import ZArith List Bool.
From Verif Require Import Base Word_mem Sort_model Shadow_model Inet_model Dns_model.
Import ListNotations.
Open Scope Z_scope.

(* mod.rs 100-128 *)
Definition AI_PASSIVE : Z := 1.
Definition AI_CANONNAME : Z := 2.
Definition AI_NUMERICHOST : Z := 4.
Definition EAI_BADFLAGS : Z := -1.
Definition EAI_NONAME : Z := -2.
Definition EAI_FAMILY : Z := -6.
Definition EAI_MEMORY : Z := -10.
Definition EAI_SYSTEM : Z := -11.
Definition NI_NUMERICHOST : Z := 1.
Definition NI_NUMERICSERV : Z := 2.
Definition NI_NAMEREQD : Z := 8.
Definition has (flags f : Z) : bool := negb (Z.land flags f =? 0).

(* 87-98: the members of the hints that are read or ought to be, and an element of the result *)
Record hints := Hints { h_flags : Z; h_family : Z; h_socktype : Z; h_protocol : Z }.
Record ainfo := AI { ai_flags : Z; ai_family : Z; ai_socktype : Z; ai_protocol : Z; ai_addrlen : Z; ai_canonname : Z; ai_addr : Z; ai_next : Z }.
(* What is allocated: a sockaddr_in (its bytes), a string, an addrinfo *)
Inductive block := BAddr (l : list Z) | BName (s : list Z) | BNode (n : ainfo).
Definition heap := list (Z * block).
Fixpoint get (h : heap) (p : Z) : option block := match h with [] => None | (q, b) :: h => if p =? q then Some b else get h p end.
Definition put (h : heap) (p : Z) (b : block) : heap := (p, b) :: h.
Definition del (h : heap) (p : Z) : heap := filter (fun x => negb (p =? fst x)) h.

Section Alloc.
(* Box::new: where the next block goes *)
Variable fresh : heap -> Z.
Definition box (h : heap) (b : block) : heap * Z := (put h (fresh h) b, fresh h).

Definition set_next (n : ainfo) (p : Z) : ainfo :=
  AI (ai_flags n) (ai_family n) (ai_socktype n) (ai_protocol n) (ai_addrlen n) (ai_canonname n) (ai_addr n) p.
(* 935-940 *)
Fixpoint walk (fuel : nat) (h : heap) (p new : Z) : res heap :=
  match fuel with
  | O => OutOfFuel
  | S f =>
      match get h p with
      | Some (BNode n) => if ai_next n =? 0 then Ok (put h p (BNode (set_next n new))) else walk f h (ai_next n) new
      | _ => Fault
      end
  end.
Definition append (fuel : nat) (h : heap) (first new : Z) : res (heap * Z) :=
  if first =? 0 then Ok (h, new) else h <- walk fuel h first new ;; Ok (h, first).

(* 903-908: struct sockaddr_in *)
Definition sockaddr_in (port : Z) (a : list Z) : list Z := le_bytes 2 2 ++ le_bytes 2 (htobe 2 port) ++ a ++ [0; 0; 0; 0; 0; 0; 0; 0].
(* 900-943: heap, *res and the value returned *)
Fixpoint fill (fuel : nat) (given : bool) (node : list Z) (port socktype flags : Z) (l : list (list Z)) (h : heap) (first : Z) : res (heap * Z * Z) :=
  match l with
  | [] => Ok (h, first, 0)
  | a :: l =>
      let (h, addr) := box h (BAddr (sockaddr_in port a)) in
      if has flags AI_CANONNAME && negb given then Ok (h, first, EAI_BADFLAGS)
      else
        let '(h, name, flags) :=
          if has flags AI_CANONNAME then let (h, p) := box h (BName node) in (h, p, Z.land flags (Z.lnot AI_CANONNAME))
          else (h, 0, flags) in
        let (h, new) := box h (BNode (AI 0 AF_INET socktype 0 16 name addr 0)) in
        ' (h, first) <- append fuel h first new ;;
        fill fuel given node port socktype flags l h first
  end.
(* c"0.0.0.0", c"127.0.0.1" *)
Definition ANY_NODE : list Z := [48; 46; 48; 46; 48; 46; 48].
Definition LOOPBACK_NODE : list Z := [49; 50; 55; 46; 48; 46; 48; 46; 49].
(* 836-946; the last component: errno, if it is set *)
Definition getaddrinfo (fuel : nat) (tid : Z) (ask : list Z -> list Z) (node service : option (list Z)) (hs : option hints) (h : heap)
    : res (heap * Z * Z * option Z) :=
  let flags := match hs with Some x => h_flags x | None => 0 end in
  let socktype := match hs with Some x => h_socktype x | None => 0 end in
  let port := match service with
              | Some s => match parse_int 0 65535 s with Some p => p | None => 0 end
              | None => 0
              end in
  let name := match node with Some n => n | None => if has flags AI_PASSIVE then ANY_NODE else LOOPBACK_NODE end in
  let given := match node with Some _ => true | None => false end in
  if has flags AI_NUMERICHOST then
    match parse_ipv4_string name with
    | Some a => ' (h, r, v) <- fill fuel given name port socktype flags [a] h 0 ;; Ok (h, r, v, None)
    | None => Ok (h, 0, EAI_NONAME, None)
    end
  else
    x <- lookup_host fuel tid ask name ;;
    match x with
    | inl l => ' (h, r, v) <- fill fuel given name port socktype flags l h 0 ;; Ok (h, r, v, None)
    | inr e => Ok (h, 0, EAI_SYSTEM, Some e)
    end.
End Alloc.

(* 1045-1063; releasing what is not allocated is a Fault *)
Definition release (h : heap) (p : Z) : res heap := match get h p with Some _ => Ok (del h p) | None => Fault end.
Fixpoint freeaddrinfo (fuel : nat) (h : heap) (ai : Z) : res heap :=
  match fuel with
  | O => OutOfFuel
  | S f =>
      if ai =? 0 then Ok h
      else
        match get h ai with
        | Some (BNode n) =>
            h <- (if ai_canonname n =? 0 then Ok h else release h (ai_canonname n)) ;;
            h <- (if ai_addr n =? 0 then Ok h
                  else if (ai_addrlen n =? 16) || (ai_addrlen n =? 28) then release h (ai_addr n) else Ok h) ;;
            h <- release h ai ;;
            freeaddrinfo f h (ai_next n)
        | _ => Fault
        end
  end.

(* Ipv4Addr::to_string *)
Definition dotted_quad (a b c d : Z) : list Z := dec a ++ [46] ++ dec b ++ [46] ++ dec c ++ [46] ++ dec d.
(* copy_nonoverlapping and the terminator; the text must be shorter than the buffer *)
Definition put_text (m : mem) (p size : Z) (l : list Z) : res (mem * Z) :=
  if size <=? len l then Ok (m, EAI_MEMORY) else m <- st_bytes m p l ;; m <- st m (p + len l) 0 ;; Ok (m, 0).
Definition put_quad (m : mem) (addr p size : Z) : res (mem * Z) :=
  a <- ld m (addr + 4) ;; b <- ld m (addr + 5) ;; c <- ld m (addr + 6) ;; d <- ld m (addr + 7) ;;
  put_text m p size (dotted_quad a b c d).
(* 949-1042; the bytes of the sockaddr_in are at addr *)
Definition getnameinfo (fuel : nat) (tid : Z) (ask : list Z -> list Z) (m : mem) (addr addrlen host hostlen serv servlen flags : Z) : res (mem * Z) :=
  if (addr =? 0) || negb (addrlen =? 16) then Ok (m, EAI_FAMILY)
  else
    ' (m, v) <- (if negb (serv =? 0) && (0 <? servlen) then
                   if has flags NI_NUMERICSERV then
                     x <- ld m (addr + 2) ;; y <- ld m (addr + 3) ;; put_text m serv servlen (dec (256 * x + y))
                   else m <- st m serv 0 ;; Ok (m, 0)
                 else Ok (m, 0)) ;;
    if negb (v =? 0) then Ok (m, v)
    else if negb (host =? 0) && (0 <? hostlen) then
      if has flags NI_NUMERICHOST then put_quad m addr host hostlen
      else
        a <- ld m (addr + 4) ;; b <- ld m (addr + 5) ;; c <- ld m (addr + 6) ;; d <- ld m (addr + 7) ;;
        r <- lookup_addr fuel tid ask [a; b; c; d] ;;
        match r with
        | inl (n :: _) => put_text m host hostlen n
        | inl [] => if has flags NI_NAMEREQD then Ok (m, EAI_NONAME) else Ok (m, 0)
        | inr _ => if has flags NI_NAMEREQD then Ok (m, EAI_NONAME) else put_quad m addr host hostlen
        end
    else Ok (m, 0).
