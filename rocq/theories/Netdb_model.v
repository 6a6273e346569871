(* /etc/protocols, /etc/services and /etc/hosts: src/platform/rlb.rs, src/header/netdb/mod.rs
   155-204 and 428-833, src/header/netdb/host.rs.
   Bytes of 128 and more count as letters (a line that is not UTF-8 is an empty one to the code,
   and white space that is not ASCII separates words); the file has no null bytes; reading it
   does not fail. *)
From Coq Require Import ZArith List Bool Arith.
From Verif Require Import Base Word_mem Inet_model Dns_model.
Import ListNotations.
Open Scope Z_scope.

(* str::split_whitespace *)
Definition is_white (c : Z) : bool := (c =? 32) || ((9 <=? c) && (c <=? 13)).
Fixpoint split_white (cur : list Z) (l : list Z) : list (list Z) :=
  match l with
  | [] => match cur with [] => [] | _ => [rev cur] end
  | c :: l => if is_white c then match cur with [] => split_white [] l | _ => rev cur :: split_white [] l end else split_white (c :: cur) l
  end.

(* rlb.rs 11-16: off is the offset of the open file *)
Record rlb := Rlb { off : nat; buf : list Z; newline : option nat; got : nat }.
Inductive line := Eof | Line (l : list Z).
Fixpoint position (c : Z) (l : list Z) : option nat :=
  match l with [] => None | x :: l => if x =? c then Some O else match position c l with Some n => Some (S n) | None => None end end.

Section File.
Variable file : list Z.
(* the number of bytes a read gives at most, one at least *)
Variable chunk : rlb -> nat.

(* rlb.rs 45-86; the file cannot keep giving bytes, so the fuel of next is enough *)
Fixpoint fill (fuel : nat) (b : rlb) : res (line * rlb) :=
  match fuel with
  | O => OutOfFuel
  | S f =>
      match position 10 (buf b) with
      | Some n => Ok (Line (firstn n (buf b)), Rlb (off b) (buf b) (Some n) (got b))
      | None =>
          let r := firstn (S (chunk b)) (skipn (off b) file) in
          let b' := Rlb (off b + length r) (buf b ++ r) None (got b + length r) in
          match r with
          | [] => Ok (match buf b with [] => Eof | l => Line l end, b')
          | _ => fill f b'
          end
      end
  end.
(* 39-43 *)
Definition next (b : rlb) : res (line * rlb) :=
  fill (S (S (length file))) (match newline b with Some n => Rlb (off b) (skipn (S n) (buf b)) (newline b) (got b) | None => b end).
(* 92-94 *)
Definition line_pos (b : rlb) : nat := got b - length (buf b).

(* One database.  What a line is: to be skipped, an entry, or the end of the program. *)
Variable E : Type.
Inductive step := Skip | Entry (e : E) | Crash.
Variable parse_line : list Z -> step.
(* the descriptor the file is opened with, negative if it cannot be *)
Variable fd : Z.
(* in which the databases differ: whether a descriptor variable means that the file is not open, and
   its value then; whether set...ent rewinds when it opens the file; whether get...ent closes it behind an entry *)
Variable shut : Z -> bool.
Variable none : Z.
Variable rewinds closes : bool.
(* descriptor variable, position, stayopen, and the descriptors closed *)
Record state := St { db : Z; pos : nat; stay : bool; closed : list Z }.

(* mod.rs 186-204, host.rs 38-43 (which closes no negative descriptor; that has no effect) *)
Definition endent (s : state) : state := St none (pos s) (stay s) (closed s ++ [db s]).
(* mod.rs 799-833, host.rs 46-53 *)
Definition setent (keep : bool) (s : state) : state :=
  if shut (db s) then St fd (if rewinds then O else pos s) keep (closed s) else St (db s) O keep (closed s).
(* mod.rs 578-591, 710-745, host.rs 63-76: None at the end of the file *)
Fixpoint scan (fuel : nat) (b : rlb) : res (option (E * nat)) :=
  match fuel with
  | O => OutOfFuel
  | S f =>
      ' (l, b) <- next b ;;
      match l with
      | Eof => Ok None
      | Line l =>
          match parse_line l with
          | Skip => scan f b
          | Crash => Panic
          | Entry e => ' (_, b) <- next b ;; Ok (Some (e, line_pos b))
          end
      end
  end.
(* mod.rs 570-634, 702-797, host.rs 56-132 *)
Definition getent (fuel : nat) (s : state) : res (option E * state) :=
  let s := if shut (db s) then St fd (pos s) (stay s) (closed s) else s in
  let fin s := if stay s then s else endent s in
  if db s <? 0 then Ok (None, fin s)
  else
    r <- scan fuel (Rlb (pos s) [] None (pos s)) ;;
    match r with
    | None => Ok (None, fin s)
    | Some (e, p) =>
        let s := St (db s) p (stay s) (closed s) in
        Ok (Some e, if closes then fin s else s)
    end.
(* the loops of the get...by... functions; again: set...ent is called after each entry that
   does not match (mod.rs 528-535); fin: it is called at the end (not in gethostbyname) *)
Fixpoint find_loop (fuel : nat) (hit : E -> bool) (again fin : bool) (s : state) : res (option E * state) :=
  match fuel with
  | O => OutOfFuel
  | S f =>
      ' (e, s) <- getent fuel s ;;
      match e with
      | None => Ok (None, if fin then setent (stay s) s else s)
      | Some e =>
          if hit e then Ok (Some e, setent (stay s) s)
          else find_loop f hit again fin (if again then setent (stay s) s else s)
      end
  end.
Definition find_ent (fuel : nat) (hit : E -> bool) (again fin : bool) (s : state) : res (option E * state) :=
  find_loop fuel hit again fin (setent (stay s) s).
(* n calls of get...ent *)
Fixpoint calls (fuel n : nat) (s : state) : res (list (option E) * state) :=
  match n with
  | O => Ok ([], s)
  | S n => ' (e, s) <- getent fuel s ;; ' (l, s) <- calls fuel n s ;; Ok (e :: l, s)
  end.
End File.
Arguments Skip {E}. Arguments Entry {E} e. Arguments Crash {E}.

(* stdlib/mod.rs 191-227, on the bytes of a string; the accumulator wraps *)
Definition wrap32 (z : Z) : Z := (z + 2 ^ 31) mod 2 ^ 32 - 2 ^ 31.
Fixpoint atoi_digits (n : Z) (l : list Z) : Z :=
  match l with
  | c :: l => if (48 <=? c) && (c <=? 57) then atoi_digits (wrap32 (10 * n - (c - 48))) l else n
  | [] => n
  end.
Definition atoi (l : list Z) : Z :=
  match l with
  | 45 :: r => atoi_digits 0 r
  | 43 :: r => wrap32 (- atoi_digits 0 r)
  | _ => wrap32 (- atoi_digits 0 l)
  end.

(* mod.rs 579: lines to skip *)
Definition skipped (l : list Z) : bool :=
  match l with [] => true | c :: _ => (c =? 35) || match split_white [] l with [] => true | _ => false end end.
(* 593-629.  p_aliases points to memory that is freed on return; the strings it had pointed to
   are kept. *)
Record protoent := Pe { pe_name : list Z; pe_proto : Z; pe_aliases : list (list Z) }.
Definition parse_proto (l : list Z) : step protoent :=
  if skipped l then Skip
  else match split_white [] l with n :: d :: al => Entry (Pe n (atoi d) al) | _ => Crash end.
(* strcasecmp(a, b) == 0 *)
Definition low (c : Z) : Z := if (65 <=? c) && (c <=? 90) then c + 32 else c.
Fixpoint caseeq (a b : list Z) : bool :=
  match a, b with [], [] => true | x :: a, y :: b => (low x =? low y) && caseeq a b | _, _ => false end.

Definition isz (z : Z) : bool := z =? 0.
Section Proto.
Variable file : list Z.
Variable chunk : rlb -> nat.
Variable fd : Z.
(* 570-634, 813-821, 194-197 *)
Definition getprotoent := getent file chunk protoent parse_proto fd isz 0 true.
Definition setprotoent := setent fd isz false.
Definition endprotoent := endent 0.
Definition getprotoents := calls file chunk protoent parse_proto fd isz 0 true.
(* 514-547; stale: the strings found by way of the freed alias vector *)
Definition getprotobyname (fuel : nat) (stale : protoent -> list (list Z)) (name : list Z) (s : state) :=
  find_ent file chunk protoent parse_proto fd isz 0 false true fuel
    (fun e => caseeq (pe_name e) name || existsb (fun a => caseeq a name) (stale e)) true true s.
(* 551-566 *)
Definition getprotobynumber (fuel : nat) (n : Z) (s : state) :=
  find_ent file chunk protoent parse_proto fd isz 0 false true fuel (fun e => pe_proto e =? n) false true s.
End Proto.

(* 721-742; s_aliases has none *)
Record servent := Se { se_name : list Z; se_port : Z; se_proto : list Z }.
Fixpoint split_slash (cur : list Z) (l : list Z) : list (list Z) :=
  match l with [] => [rev cur] | c :: l => if c =? 47 then rev cur :: split_slash [] l else split_slash (c :: cur) l end.
Definition parse_serv (l : list Z) : step servent :=
  match split_white [] l with
  | n :: pp :: _ =>
      match split_slash [] pp with
      | port :: proto :: _ => Entry (Se n (htobe 2 (atoi port mod 65536)) proto)
      | _ => Skip
      end
  | _ => Skip
  end.
Section Serv.
Variable file : list Z.
Variable chunk : rlb -> nat.
Variable fd : Z.
(* 702-797, 825-833 *)
Definition getservents := calls file chunk servent parse_serv fd isz 0 true.
Definition setservent := setent fd isz false.
(* 638-667 *)
Definition getservbyname (fuel : nat) (name : list Z) (proto : option (list Z)) (s : state) :=
  find_ent file chunk servent parse_serv fd isz 0 false true fuel
    (fun e => caseeq (se_name e) name && match proto with Some p => caseeq (se_proto e) p | None => true end) false true s.
(* 671-698 *)
Definition getservbyport (fuel : nat) (port : Z) (proto : option (list Z)) (s : state) :=
  find_ent file chunk servent parse_serv fd isz 0 false true fuel
    (fun e => (se_port e =? port) && match proto with Some p => caseeq (se_proto e) p | None => true end) false true s.
End Serv.

(* host.rs 78-127; junk: what the uninitialised address holds when inet_aton fails *)
Record hostent := He { he_name : list Z; he_addr : list Z; he_aliases : list (list Z) }.
Definition parse_host (junk : list Z) (l : list Z) : step hostent :=
  if skipped l then Skip
  else
    match split_white [] l with
    | t :: n :: al => Entry (He (n ++ [0]) (match aton t with Some a => le_bytes 4 (htobe 4 a) | None => junk end) al)
    | _ => Crash
    end.
Definition neg (z : Z) : bool := z <? 0.
Section Host.
Variable file : list Z.
Variable chunk : rlb -> nat.
Variable fd : Z.
Variable junk : list Z.
Definition gethostents := calls file chunk hostent (parse_host junk) fd neg (-1) true.
(* netdb/mod.rs 247-274 *)
Definition host_by_addr (fuel : nat) (a : list Z) (s : state) :=
  find_ent file chunk hostent (parse_host junk) fd neg (-1) true true fuel
    (fun e => if list_eq_dec Z.eq_dec (he_addr e) a then true else false) false false s.
(* 356-381; the names compared are the strings, without their terminator *)
Definition host_by_name (fuel : nat) (name : list Z) (s : state) :=
  find_ent file chunk hostent (parse_host junk) fd neg (-1) true true fuel
    (fun e => caseeq (removelast (he_name e)) name || existsb (fun x => caseeq x name) (he_aliases e)) false false s.
(* 227-316; the last argument of the result: h_errno *)
Definition gethostbyaddr (fuel : nat) (tid : Z) (ask : list Z -> list Z) (a : list Z) (s : state) : res (option hostent * state * Z) :=
  ' (e, s) <- host_by_addr fuel a s ;;
  match e with
  | Some e => Ok (Some e, s, 0)
  | None =>
      r <- lookup_addr fuel tid ask a ;;
      Ok (match r with
          | inl (n :: _) => (Some (He n a []), s, 0)
          | inl [] => (None, s, 1)
          | inr _ => (None, s, 3)
          end)
  end.
(* 336-419; h_name is a copy of the name without its terminator (392) *)
Definition gethostbyname (fuel : nat) (tid : Z) (ask : list Z -> list Z) (name : list Z) (s : state) : res (option hostent * state * Z) :=
  match parse_ipv4_string name with
  | Some a => gethostbyaddr fuel tid ask a s
  | None =>
      ' (e, s) <- host_by_name fuel name s ;;
      match e with
      | Some e => Ok (Some e, s, 0)
      | None =>
          r <- lookup_host fuel tid ask name ;;
          Ok (match r with
              | inl (a :: _) => (Some (He name a []), setent fd neg true (stay s) s, 0)
              | inl [] => (None, s, 1)
              | inr _ => (None, s, 3)
              end)
      end
  end.
End Host.
