(* Socket addresses: /repo/src/platform/redox/socket.rs 40-94 (bind_or_connect), 103-202 (the
   names of sockets), 580-604 and 651-672 (the paths of AF_UNIX addresses).  What dup is given
   and what fpath or GetPeerName answered are texts; the kernel is outside. *)
From Coq Require Import String Ascii.
From Verif Require Import Base Numeral Sort_model Word_mem Utf8_model String_model Inet_model.
From Coq Require Import List.

Definition AF_UNSPEC : Z := 0.
Definition AF_UNIX : Z := 1.
Definition EINVAL : Z := 22.
Definition ENOTSOCK : Z := 88.
(* mem::size_of::<sockaddr_in>(), sun_path.len() *)
Definition SIN_SIZE : Z := 16.
Definition PATH_SIZE : Z := 108.

Open Scope string_scope.
Open Scope list_scope.
Open Scope Z_scope.
Definition text (s : string) : list Z := map (fun c => Z.of_nat (nat_of_ascii c)) (list_ascii_of_string s).

(* 65-73: format!("{}.{}.{}.{}:{}") *)
Definition inet_text (a b c d port : Z) : list Z :=
  dec a ++ [46] ++ dec b ++ [46] ++ dec c ++ [46] ++ dec d ++ [58] ++ dec port.
(* 40-93; the path for dup or errno *)
Definition bind_or_connect (passive : bool) (m : mem) (address address_len : Z) : res (list Z + Z) :=
  if address_len <? 2 then Ok (inr EINVAL) else
  family <- ld_le 2 m address ;;
  if family =? AF_INET then
    if negb (address_len =? SIN_SIZE) then Ok (inr EINVAL) else
    sin_port <- ld_le 2 m (address + 2) ;;
    a <- ld m (address + 4) ;; b <- ld m (address + 5) ;; c <- ld m (address + 6) ;; d <- ld m (address + 7) ;;
    let t := inet_text a b c d (betoh 2 sin_port) in
    Ok (inl (if passive then 47 :: t else t))
  else if family =? AF_UNIX then Ok (inr EAFNOSUPPORT)
  else if family =? AF_UNSPEC then
    if passive then Ok (inr EAFNOSUPPORT) else Ok (inl (text "disconnect"))
  else Ok (inr EAFNOSUPPORT).

(* slice::split *)
Fixpoint split_on (sep : Z) (l : list Z) : list (list Z) :=
  match l with
  | [] => [[]]
  | c :: r =>
      if c =? sep then [] :: split_on sep r
      else match split_on sep r with [] => [[c]] | p :: ps => (c :: p) :: ps end
  end.
(* memchr and split_at: what comes before and after the first c *)
Fixpoint cut (c : Z) (l : list Z) : option (list Z * list Z) :=
  match l with
  | [] => None
  | x :: r => if x =? c then Some ([], r) else match cut c r with None => None | Some (a, b) => Some (x :: a, b) end
  end.
(* the C string at the start of the bytes *)
Fixpoint until_nul (l : list Z) : list Z :=
  match l with [] => [] | x :: r => if x =? 0 then [] else x :: until_nul r end.
Definition sockaddr_in_bytes (port addr : Z) : list Z :=
  le_bytes 2 AF_INET ++ le_bytes 2 (htobe 2 port) ++ le_bytes 4 addr ++ repeat 0 8.
(* 125-170; the failed expect and assert panic *)
Definition inner_af_inet (local : bool) (m : mem) (buf : list Z) (address address_len : Z) : res mem :=
  match (if local then tl (split_on 47 buf) else split_on 47 buf) with
  | [] => Panic
  | unparsed :: _ =>
      match cut 58 unparsed with
      | None => Panic
      | Some (raw_addr, raw_port) =>
          match parse_uint 10 65535 raw_port with
          | None => Panic
          | Some port =>
              match aton (until_nul raw_addr) with
              | None => Panic
              | Some a =>
                  n <- ld32 m address_len ;;
                  let l := Z.min n SIN_SIZE in
                  m <- st_bytes m address (firstn (Z.to_nat l) (sockaddr_in_bytes port (swap_bytes 4 a))) ;;
                  st32 m address_len l
              end
          end
      end
  end.
(* 103-123 *)
Definition inner_af_unix (m : mem) (buf : list Z) (address address_len : Z) : res mem :=
  m <- st_bytes m address (le_bytes 2 AF_UNIX) ;;
  let n := Z.min PATH_SIZE (len buf) in
  m <- st_bytes m (address + 2) (firstn (Z.to_nat n) buf) ;;
  if n <? PATH_SIZE then m <- st m (address + 2 + n) 0 ;; st32 m address_len (2 + (n + 1))
  else st32 m address_len (2 + n).

(* starts_with *)
Fixpoint starts_with (p l : list Z) : bool :=
  match p, l with [], _ => true | x :: p, y :: l => (x =? y) && starts_with p l | _, [] => false end.
Definition after (n : nat) (l : list Z) : list Z := skipn n l.
(* 172-202; None or the errno *)
Definition get_name (local : bool) (m : mem) (buf : list Z) (address address_len : Z) : res (mem * option Z) :=
  if starts_with (text "tcp:") buf || starts_with (text "udp:") buf then
    m <- inner_af_inet local m (after 4 buf) address address_len ;; Ok (m, None)
  else if starts_with (text "/scheme/tcp/") buf || starts_with (text "/scheme/udp/") buf then
    m <- inner_af_inet local m (after 12 buf) address address_len ;; Ok (m, None)
  else if starts_with (text "chan:") buf then
    m <- inner_af_unix m (after 5 buf) address address_len ;; Ok (m, None)
  else if starts_with (text "/scheme/chan/") buf then
    m <- inner_af_unix m (after 13 buf) address address_len ;; Ok (m, None)
  else if starts_with (text "/scheme/uds_stream/") buf then
    m <- inner_af_unix m (after 18 buf) address address_len ;; Ok (m, None)
  else if starts_with (text "/scheme/uds_dgram/") buf then
    m <- inner_af_unix m (after 17 buf) address address_len ;; Ok (m, None)
  else Ok (m, Some ENOTSOCK).
(* 717-727 *)
Definition getsockname := get_name true.
(* 701-715 *)
Definition getpeername := get_name false.

(* strnlen, then the bytes *)
Fixpoint up_to (n : nat) (m : mem) (p : Z) : res (list Z) :=
  match n with
  | O => Ok []
  | S n => b <- ld m p ;; if b =? 0 then Ok [] else r <- up_to n m (p + 1) ;; Ok (b :: r)
  end.
(* 580-604: the path bind takes; address_len - 2 wraps *)
Definition bind_path (m : mem) (address address_len : Z) : res (list Z) :=
  up_to (Z.to_nat (Z.min PATH_SIZE ((address_len - 2) mod 2 ^ 64))) m (address + 2).
(* 651-675: the path connect takes; the length computed is not used *)
Definition connect_path (fuel : nat) (m : mem) (address address_len : Z) : res (list Z) :=
  read_str fuel m (address + 2).
