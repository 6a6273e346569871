(* Model of src/header/arpa_inet/mod.rs (the IPv4 functions), bits_arpainet/mod.rs and
   endian/mod.rs on a little-endian host (all of relibc's targets).  Strings are read in
   full before anything is stored (the code reads them lazily; the theorems assume the
   destination does not overlap the string). *)
From Verif Require Import Base Numeral Sort_model Word_mem Utf8_model Writer_model String_model.

(* ---- byte order ---- *)
Definition of_le (l : list Z) : Z := fold_right (fun b a => b + 256 * a) 0 l.
(* core: uN::swap_bytes on n bytes; to_be and from_be are swap_bytes, to_le and from_le
   the identity, on a little-endian host *)
Definition swap_bytes (n : nat) (x : Z) : Z := of_le (rev (le_bytes n x)).
(* endian/mod.rs:12-112 (n = 2, 4, 8); bits_arpainet/mod.rs: htonl, htons, ntohl, ntohs
   are htobe32, htobe16, be32toh, be16toh *)
Definition htobe (n : nat) (x : Z) : Z := swap_bytes n x.
Definition betoh (n : nat) (x : Z) : Z := swap_bytes n x.
Definition htole (n : nat) (x : Z) : Z := x.
Definition letoh (n : nat) (x : Z) : Z := x.

(* ---- str helpers (core) ---- *)
(* c_str.rs CStr::from_ptr(p).to_bytes() *)
Fixpoint read_str (fuel : nat) (m : mem) (p : Z) : res (list Z) :=
  match fuel with
  | O => OutOfFuel
  | S f => b <- ld m p ;; if b =? 0 then Ok [] else r <- read_str f m (p + 1) ;; Ok (b :: r)
  end.
(* str::split('.') *)
Fixpoint split_dot (l : list Z) : list (list Z) :=
  match l with
  | [] => [[]]
  | c :: r =>
      if c =? 46 then [] :: split_dot r
      else match split_dot r with [] => [[c]] | p :: ps => (c :: p) :: ps end
  end.
(* char::to_digit *)
Definition to_digit (c radix : Z) : option Z :=
  let d := if (48 <=? c) && (c <=? 57) then c - 48
           else if (65 <=? c) && (c <=? 90) then c - 55
           else if (97 <=? c) && (c <=? 122) then c - 87 else 99 in
  if d <? radix then Some d else None.
(* uN::from_str_radix, max = uN::MAX *)
Fixpoint parse_digits (radix max acc : Z) (l : list Z) : option Z :=
  match l with
  | [] => Some acc
  | c :: r =>
      match to_digit c radix with
      | None => None
      | Some d => if max <? acc * radix + d then None else parse_digits radix max (acc * radix + d) r
      end
  end.
Definition parse_uint (radix max : Z) (l : list Z) : option Z :=
  match l with
  | [] => None
  | c :: r => if c =? 43 then match r with [] => None | _ => parse_digits radix max 0 r end
              else parse_digits radix max 0 l
  end.

(* ---- inet_aton, arpa_inet/mod.rs:65-115 ---- *)
Definition U32MAX : Z := 2 ^ 32 - 1.
Definition parse_part (l : list Z) : option Z :=
  match l with
  | c :: (d :: r) as t =>
      if c =? 48 then
        (if (d =? 120) || (d =? 88) then parse_uint 16 U32MAX r else parse_uint 8 U32MAX t)
      else parse_uint 10 U32MAX l
  | _ => parse_uint 10 U32MAX l
  end.
Fixpoint aton_loop (parts : list (list Z)) (index result : Z) : option Z :=
  match parts with
  | [] => Some result
  | part :: rest =>
      match parse_part part with
      | None => None
      | Some v =>
          match rest with
          | _ :: _ =>
              if 255 <? v then None
              else aton_loop rest (index + 1) ((result + v * 2 ^ (24 - index * 8)) mod 2 ^ 32)
          | [] =>
              if (0 <? index) && (2 ^ (32 - index * 8) <=? v) then None
              else aton_loop rest (index + 1) ((result + v) mod 2 ^ 32)
          end
      end
  end.
(* None: return 0; the guard index < 4 never fails after the count check *)
Definition aton (s : list Z) : option Z :=
  let parts := split_dot s in
  if 4 <? len parts then None else aton_loop parts 0 0.
Definition inet_aton (fuel : nat) (m : mem) (cp inp : Z) : res (mem * Z) :=
  s <- read_str fuel m cp ;;
  match aton s with
  | None => Ok (m, 0)
  | Some a => m <- st32 m inp (swap_bytes 4 a) ;; Ok (m, 1)
  end.
(* arpa_inet/mod.rs:49-57; the in_addr is a local *)
Definition inet_addr (fuel : nat) (m : mem) (cp : Z) : res Z :=
  s <- read_str fuel m cp ;;
  match aton s with None => Ok U32MAX | Some a => Ok (swap_bytes 4 a) end.
(* arpa_inet/mod.rs:189-194 *)
Definition inet_network (fuel : nat) (m : mem) (cp : Z) : res Z :=
  a <- inet_addr fuel m cp ;; Ok (betoh 4 a).

(* ---- inet_lnaof, inet_makeaddr, inet_netof, arpa_inet/mod.rs:126-176 ---- *)
Definition inet_lnaof (a : Z) : Z :=
  if a / 2 ^ 24 <? 128 then a mod 2 ^ 24 else if a / 2 ^ 24 <? 192 then a mod 2 ^ 16 else a mod 2 ^ 8.
Definition inet_netof (a : Z) : Z :=
  if a / 2 ^ 24 <? 128 then a mod 2 ^ 24 else if a / 2 ^ 24 <? 192 then a mod 2 ^ 16 else a mod 2 ^ 8.
Definition inet_makeaddr (net lna : Z) : Z :=
  if net <? 256 then Z.lor lna (net * 2 ^ 24 mod 2 ^ 32)
  else if net <? 65536 then Z.lor lna (net * 2 ^ 16 mod 2 ^ 32)
  else Z.lor lna (net * 2 ^ 8 mod 2 ^ 32).

(* ---- inet_ntop, arpa_inet/mod.rs:229-257; result: (memory, pointer, errno) ---- *)
Definition AF_INET : Z := 2.
Definition AF_INET6 : Z := 10.
Definition EAFNOSUPPORT : Z := 97.
Definition ENOSPC : Z := 28.
Definition dec (b : Z) : list Z := map (fun d => 48 + d) (to_digits 10 b).
Definition ntop_pieces (a b c d : Z) : list (list Z) :=
  [dec a; [46]; dec b; [46]; dec c; [46]; dec d; [0]].
Definition inet_ntop (m : mem) (af src dst size : Z) : res (mem * Z * option Z) :=
  if negb (af =? AF_INET) then Ok (m, NULL, Some EAFNOSUPPORT)
  else if size <? 16 then Ok (m, NULL, Some ENOSPC)
  else
    a <- ld m src ;; b <- ld m (src + 1) ;; c <- ld m (src + 2) ;; d <- ld m (src + 3) ;;
    '(m, _) <- cw_write_all m (dst, size) 0 (ntop_pieces a b c d) ;;
    Ok (m, dst, None).

(* ---- inet_pton for AF_INET, arpa_inet/mod.rs:263-287 ---- *)
Fixpoint pton_loop (k : nat) (m : mem) (dst : Z) (octets : list (list Z)) : res (mem * Z) :=
  match k with
  | O => Ok (m, match octets with [] => 1 | _ => 0 end)
  | S k =>
      match octets with
      | [] => Ok (m, 0)
      | x :: rest =>
          if 3 <? len x then Ok (m, 0)
          else match parse_uint 10 255 x with
               | None => Ok (m, 0)
               | Some n => m <- st m dst n ;; pton_loop k m (dst + 1) rest
               end
      end
  end.
Definition inet_pton4 (fuel : nat) (m : mem) (src dst : Z) : res (mem * Z) :=
  s <- read_str fuel m src ;; pton_loop 4 m dst (split_dot s).
