(** Model of src/header/string/mod.rs over the faulting byte memory of Base.v.
    Conventions: pointers, size_t and int are Z; characters are kept as bytes
    0..255 (c_char is i8, but the modelled functions only compare characters for
    equality, or cast them to u8 first, so the sign is immaterial here);
    [fuel] bounds the number of iterations of loops whose end depends on data. *)
From Verif Require Import Base.

(** iter.rs:50-68 [NulTerminated::next] driven by [count()] (string/mod.rs:483-487).
    The NULL check of [NulTerminated::new] (iter.rs:82-88) is in [strlen]. *)
Fixpoint count_nul (fuel : nat) (m : mem) (p i : Z) : res Z :=
  match fuel with
  | O => OutOfFuel
  | S f => b <- ld m p ;; if b =? 0 then Ok i else count_nul f m (p + 1) (i + 1)
  end.

(** string/mod.rs:483-487 *)
Definition strlen (fuel : nat) (m : mem) (s : Z) : res Z :=
  if s =? NULL then Ok 0 else count_nul fuel m s 0.

(** string/mod.rs:568-570; [Iterator::take(size)] does not call [next] again once
    [size] items were produced.  [NulTerminated::new(s).unwrap()] panics on NULL. *)
Fixpoint count_nul_take (fuel : nat) (m : mem) (p n i : Z) : res Z :=
  match fuel with
  | O => OutOfFuel
  | S f => if n =? 0 then Ok i
           else b <- ld m p ;; if b =? 0 then Ok i else count_nul_take f m (p + 1) (n - 1) (i + 1)
  end.
Definition strnlen (fuel : nat) (m : mem) (s n : Z) : res Z :=
  if s =? NULL then Panic else count_nul_take fuel m s n 0.

(** string/mod.rs:574-580 *)
Definition strnlen_s (fuel : nat) (m : mem) (s n : Z) : res Z :=
  if s =? NULL then Ok 0 else strnlen fuel m s n.

(** string/mod.rs:111-116: ascending byte loop; [k] iterations remain. *)
Fixpoint copy_fwd (k : nat) (m : mem) (d s : Z) : res mem :=
  match k with
  | O => Ok m
  | S k' => b <- ld m s ;; m1 <- st m d b ;; copy_fwd k' m1 (d + 1) (s + 1)
  end.
Definition memcpy (m : mem) (s1 s2 n : Z) : res (mem * Z) :=
  m' <- copy_fwd (Z.to_nat n) m s1 s2 ;; Ok (m', s1).

(** string/mod.rs:158-164: descending byte loop, [k] = current i. *)
Fixpoint copy_bwd (k : nat) (m : mem) (d s : Z) : res mem :=
  match k with
  | O => Ok m
  | S k' => b <- ld m (s + Z.of_nat k') ;; m1 <- st m (d + Z.of_nat k') b ;; copy_bwd k' m1 d s
  end.
(** string/mod.rs:157-173 *)
Definition memmove (m : mem) (s1 s2 n : Z) : res (mem * Z) :=
  m' <- (if s2 <? s1 then copy_bwd (Z.to_nat n) m s1 s2 else copy_fwd (Z.to_nat n) m s1 s2) ;;
  Ok (m', s1).

(** string/mod.rs:201-206 *)
Fixpoint fill (k : nat) (m : mem) (d c : Z) : res mem :=
  match k with
  | O => Ok m
  | S k' => m1 <- st m d c ;; fill k' m1 (d + 1) c
  end.
Definition memset (m : mem) (s c n : Z) : res (mem * Z) :=
  m' <- fill (Z.to_nat n) m s (to_u8 c) ;; Ok (m', s).

(** [read_unaligned] of a little-endian 8-byte word (string/mod.rs:76). *)
Fixpoint ld_le (k : nat) (m : mem) (a : Z) : res Z :=
  match k with
  | O => Ok 0
  | S k' => b <- ld m a ;; r <- ld_le k' m (a + 1) ;; Ok (b + 256 * r)
  end.
Definition ld_word (m : mem) (a : Z) : res Z := ld_le 8 m a.

(** string/mod.rs:77-83: bytewise scan inside a differing word; reaching the end is
    [unreachable!()]. *)
Fixpoint memcmp_word_diff (k : nat) (m : mem) (a b : Z) : res Z :=
  match k with
  | O => Panic
  | S k' => c <- ld m a ;; d <- ld m b ;;
            if negb (c =? d) then Ok (c - d) else memcmp_word_diff k' m (a + 1) (b + 1)
  end.
(** string/mod.rs:90-99: tail loop. *)
Fixpoint memcmp_tail (k : nat) (m : mem) (a b : Z) : res Z :=
  match k with
  | O => Ok 0
  | S k' => c <- ld m a ;; d <- ld m b ;;
            if negb (c =? d) then Ok (c - d) else memcmp_tail k' m (a + 1) (b + 1)
  end.
(** string/mod.rs:73-88: word loop, followed by the tail. *)
Fixpoint memcmp_words (k : nat) (rem : nat) (m : mem) (a b : Z) : res Z :=
  match k with
  | O => memcmp_tail rem m a b
  | S k' => x <- ld_word m a ;; y <- ld_word m b ;;
            if negb (x =? y) then memcmp_word_diff 8 m a b
            else memcmp_words k' rem m (a + 8) (b + 8)
  end.
(** string/mod.rs:69-101 *)
Definition memcmp (m : mem) (s1 s2 n : Z) : res Z :=
  memcmp_words (Z.to_nat (n / 8)) (Z.to_nat (n mod 8)) m s1 s2.

(** A slice [from_raw_parts(p, n)]: creating it asserts that all n bytes are valid,
    so the model loads them all (string/mod.rs:59, 141-143, 183). *)
Fixpoint ld_bytes (k : nat) (m : mem) (a : Z) : res (list Z) :=
  match k with
  | O => Ok []
  | S k' => b <- ld m a ;; r <- ld_bytes k' m (a + 1) ;; Ok (b :: r)
  end.

(** The [memchr] crate's documented result: index of the first match. *)
Fixpoint index_of (c : Z) (l : list Z) : option Z :=
  match l with
  | [] => None
  | b :: l' => if b =? c then Some 0 else option_map (fun i => i + 1) (index_of c l')
  end.
(** ... and of [memchr::memrchr]: index of the last match. *)
Fixpoint rindex_of (c : Z) (l : list Z) : option Z :=
  match l with
  | [] => None
  | b :: l' => match rindex_of c l' with
               | Some i => Some (i + 1)
               | None => if b =? c then Some 0 else None
               end
  end.

(** string/mod.rs:54-65 *)
Definition memchr (m : mem) (h c n : Z) : res Z :=
  l <- ld_bytes (Z.to_nat n) m h ;;
  Ok (match index_of (to_u8 c) l with Some i => h + i | None => NULL end).

(** string/mod.rs:178-189 *)
Definition memrchr (m : mem) (h c n : Z) : res Z :=
  l <- ld_bytes (Z.to_nat n) m h ;;
  Ok (match rindex_of (to_u8 c) l with Some i => h + i | None => NULL end).

(** string/mod.rs:32-50 *)
Definition memccpy (m : mem) (s1 s2 c n : Z) : res (mem * Z) :=
  to <- memchr m s2 c n ;;
  let dist := if to =? NULL then n else (to - s2) + 1 in
  '(m', _) <- memcpy m s1 s2 dist ;;
  Ok (m', if to =? NULL then NULL else s1 + dist).

(** Slice equality. *)
Fixpoint list_eqb (l k : list Z) : bool :=
  match l, k with
  | [], [] => true
  | a :: l', b :: k' => (a =? b) && list_eqb l' k'
  | _, _ => false
  end.
(** [slice.windows(k).find(|w| w == needle)]: the windows of a slice shorter than k
    are none; otherwise they start at 0, 1, ... (string/mod.rs:147-150). *)
Fixpoint find_window (k : nat) (needle : list Z) (l : list Z) : option Z :=
  if (length l <? k)%nat then None
  else if list_eqb (firstn k l) needle then Some 0
  else match l with
       | [] => None
       | _ :: l' => option_map (fun i => i + 1) (find_window k needle l')
       end.
(** string/mod.rs:125-153 *)
Definition memmem (m : mem) (h hn nd nn : Z) : res Z :=
  if nn =? 0 then Ok h
  else hl <- ld_bytes (Z.to_nat hn) m h ;;
       nl <- ld_bytes (Z.to_nat nn) m nd ;;
       Ok (match find_window (Z.to_nat nn) nl hl with Some i => h + i | None => NULL end).

(** string/mod.rs:639-651: inner loop at one haystack position; [Some true] = match. *)
Fixpoint strstr_inner (fuel : nat) (m : mem) (h nd mask i : Z) : res bool :=
  match fuel with
  | O => OutOfFuel
  | S f => nb <- ld m (nd + i) ;;
           if nb =? 0 then Ok true
           else hb <- ld m (h + i) ;;
                if negb (Z.land hb mask =? Z.land nb mask) then Ok false
                else strstr_inner f m h nd mask (i + 1)
  end.
(** string/mod.rs:632-655.  [mask] is the byte mask (0xFF for !0, 0xDF for !32). *)
Fixpoint inner_strstr (fuel ifuel : nat) (m : mem) (h nd mask : Z) : res Z :=
  match fuel with
  | O => OutOfFuel
  | S f => hb <- ld m h ;;
           if hb =? 0 then Ok NULL
           else r <- strstr_inner ifuel m h nd mask 0 ;;
                if (r : bool) then Ok h else inner_strstr f ifuel m (h + 1) nd mask
  end.
(** string/mod.rs:658-660 *)
Definition strstr (fuel : nat) (m : mem) (h nd : Z) : res Z := inner_strstr fuel fuel m h nd 255.
(** string/mod.rs:266-268 *)
Definition strcasestr (fuel : nat) (m : mem) (h nd : Z) : res Z := inner_strstr fuel fuel m h nd 223.

(** string/mod.rs:210-224 *)
Fixpoint stpcpy (fuel : nat) (m : mem) (s1 s2 : Z) : res (mem * Z) :=
  match fuel with
  | O => OutOfFuel
  | S f => b <- ld m s2 ;; m1 <- st m s1 b ;; b' <- ld m1 s1 ;;
           if b' =? 0 then Ok (m1, s1) else stpcpy f m1 (s1 + 1) (s2 + 1)
  end.

(** string/mod.rs:335-343: writes the bytes before the NUL, then [once(&0)]. *)
Fixpoint strcpy_loop (fuel : nat) (m : mem) (d s : Z) : res mem :=
  match fuel with
  | O => OutOfFuel
  | S f => b <- ld m s ;;
           if b =? 0 then st m d 0
           else m1 <- st m d b ;; strcpy_loop f m1 (d + 1) (s + 1)
  end.
Definition strcpy (fuel : nat) (m : mem) (d s : Z) : res (mem * Z) :=
  m' <- strcpy_loop fuel m d s ;; Ok (m', d).

(** string/mod.rs:247-258: copying loop, returning the cursor and the remaining n. *)
Fixpoint stpncpy_loop (fuel : nat) (m : mem) (s1 s2 n : Z) : res (mem * Z * Z) :=
  match fuel with
  | O => OutOfFuel
  | S f => if n >? 0 then
             b <- ld m s2 ;; m1 <- st m s1 b ;; b' <- ld m1 s1 ;;
             if b' =? 0 then Ok (m1, s1, n)
             else stpncpy_loop f m1 (s1 + 1) (s2 + 1) (n - 1)
           else Ok (m, s1, n)
  end.
(** string/mod.rs:242-262 *)
Definition stpncpy (fuel : nat) (m : mem) (s1 s2 n : Z) : res (mem * Z) :=
  '(m1, d, n') <- stpncpy_loop fuel m s1 s2 n ;;
  '(m2, _) <- memset m1 d 0 n' ;;
  Ok (m2, d).
(** string/mod.rs:541-544 *)
Definition strncpy (fuel : nat) (m : mem) (s1 s2 n : Z) : res (mem * Z) :=
  '(m', _) <- stpncpy fuel m s1 s2 n ;; Ok (m', s1).

(** string/mod.rs:493-503 *)
Fixpoint strncat_loop (fuel : nat) (m : mem) (d s2 n i : Z) : res (mem * Z) :=
  match fuel with
  | O => OutOfFuel
  | S f => if i <? n then
             b <- ld m (s2 + i) ;;
             if b =? 0 then Ok (m, i)
             else m1 <- st m (d + i) b ;; strncat_loop f m1 d s2 n (i + 1)
           else Ok (m, i)
  end.
(** string/mod.rs:491-507 *)
Definition strncat (fuel : nat) (m : mem) (s1 s2 n : Z) : res (mem * Z) :=
  l <- strlen fuel m s1 ;;
  '(m1, i) <- strncat_loop fuel m (s1 + l) s2 n 0 ;;
  m2 <- st m1 (s1 + l + i) 0 ;;
  Ok (m2, s1).
(** string/mod.rs:272-274 *)
Definition strcat (fuel : nat) (m : mem) (s1 s2 : Z) : res (mem * Z) :=
  strncat fuel m s1 s2 USIZE_MAX.

(** string/mod.rs:458-463 *)
Fixpoint strlcpy_copy (fuel : nat) (m : mem) (dst src dstsize i : Z) : res (mem * Z) :=
  match fuel with
  | O => OutOfFuel
  | S f => b <- ld m (src + i) ;;
           if negb (b =? 0) && (i <? dstsize - 1) then
             m1 <- st m (dst + i) b ;; strlcpy_copy f m1 dst src dstsize (i + 1)
           else Ok (m, i)
  end.
(** string/mod.rs:469-471 *)
Fixpoint strlcpy_rest (fuel : nat) (m : mem) (src i : Z) : res Z :=
  match fuel with
  | O => OutOfFuel
  | S f => b <- ld m (src + i) ;; if b =? 0 then Ok i else strlcpy_rest f m src (i + 1)
  end.
(** string/mod.rs:454-474 *)
Definition strlcpy (fuel : nat) (m : mem) (dst src dstsize : Z) : res (mem * Z) :=
  '(m1, i) <- (if dstsize =? 0 then Ok (m, 0)
               else '(m1, i) <- strlcpy_copy fuel m dst src dstsize 0 ;;
                    m2 <- st m1 (dst + i) 0 ;; Ok (m2, i)) ;;
  r <- strlcpy_rest fuel m1 src i ;;
  Ok (m1, r).
(** string/mod.rs:427-432 *)
Definition strlcat (fuel : nat) (m : mem) (dst src dstsize : Z) : res (mem * Z) :=
  dl <- strnlen fuel m dst dstsize ;;
  '(m1, sl) <- strlcpy fuel m (dst + dl) src (dstsize - dl) ;;
  Ok (m1, sl + (if dl >? dstsize then dstsize else dl)).

(** string/mod.rs:510-537 *)
Fixpoint strncmp_loop (fuel : nat) (m : mem) (s1 s2 n i : Z) : res Z :=
  match fuel with
  | O => OutOfFuel
  | S f => if i <? n then
             a <- ld m (s1 + i) ;; b <- ld m (s2 + i) ;;
             if negb (a =? b) || (a =? 0) then Ok (a - b)
             else strncmp_loop f m s1 s2 n (i + 1)
           else Ok 0
  end.
Definition strncmp (fuel : nat) (m : mem) (s1 s2 n : Z) : res Z := strncmp_loop fuel m s1 s2 n 0.
(** string/mod.rs:316-318 *)
Definition strcmp (fuel : nat) (m : mem) (s1 s2 : Z) : res Z := strncmp fuel m s1 s2 USIZE_MAX.
(** string/mod.rs:322-331 (no locale) *)
Definition strcoll (fuel : nat) (m : mem) (s1 s2 : Z) : res Z := strcmp fuel m s1 s2.

(** string/mod.rs:283-296 with iter.rs:103-125 (the NUL is yielded last). *)
Fixpoint strchr_loop (fuel : nat) (m : mem) (p c : Z) : res Z :=
  match fuel with
  | O => OutOfFuel
  | S f => b <- ld m p ;;
           if b =? c then Ok p
           else if b =? 0 then Ok NULL else strchr_loop f m (p + 1) c
  end.
Definition strchr (fuel : nat) (m : mem) (s c : Z) : res Z :=
  if s =? NULL then Ok NULL else strchr_loop fuel m s (to_u8 c).

(** string/mod.rs:300-312 *)
Fixpoint strchrnul_loop (fuel : nat) (m : mem) (p c : Z) : res Z :=
  match fuel with
  | O => OutOfFuel
  | S f => b <- ld m p ;;
           if b =? c then Ok p
           else if b =? 0 then Ok p else strchrnul_loop f m (p + 1) c
  end.
Definition strchrnul (fuel : nat) (m : mem) (s c : Z) : res Z := strchrnul_loop fuel m s (to_u8 c).

(** string/mod.rs:598-605; [k] = i + 1, the loop counts i down to 0. *)
Fixpoint strrchr_loop (k : nat) (m : mem) (s c : Z) : res Z :=
  match k with
  | O => Ok NULL
  | S k' => b <- ld m (s + Z.of_nat k') ;;
            if b =? c then Ok (s + Z.of_nat k') else strrchr_loop k' m s c
  end.
(** string/mod.rs:595-607 *)
Definition strrchr (fuel : nat) (m : mem) (s c : Z) : res Z :=
  l <- strlen fuel m s ;; strrchr_loop (Z.to_nat l) m s (to_u8 c).

(** [BitSet256] of the cbitset crate: four 64-bit words; [insert i] sets bit i,
    [contains i] tests it.  Modelled as one 256-bit number. *)
Definition bitset := Z.
Definition bs_empty : bitset := 0.
Definition bs_insert (s : bitset) (i : Z) : bitset := Z.lor s (Z.shiftl 1 i).
Definition bs_contains (s : bitset) (i : Z) : bool := Z.testbit s i.

(** string/mod.rs:356-359 *)
Fixpoint span_set (fuel : nat) (m : mem) (p : Z) (s : bitset) : res bitset :=
  match fuel with
  | O => OutOfFuel
  | S f => b <- ld m p ;; if b =? 0 then Ok s else span_set f m (p + 1) (bs_insert s b)
  end.
(** string/mod.rs:361-368 *)
Fixpoint span_loop (fuel : nat) (m : mem) (p : Z) (set : bitset) (cmp : bool) (i : Z) : res Z :=
  match fuel with
  | O => OutOfFuel
  | S f => b <- ld m p ;;
           if b =? 0 then Ok i
           else if negb (Bool.eqb (bs_contains set b) cmp) then Ok i
           else span_loop f m (p + 1) set cmp (i + 1)
  end.
(** string/mod.rs:345-370 *)
Definition inner_strspn (fuel : nat) (m : mem) (s1 s2 : Z) (cmp : bool) : res Z :=
  set <- span_set fuel m s2 bs_empty ;; span_loop fuel m s1 set cmp 0.
(** string/mod.rs:628-630 *)
Definition strspn (fuel : nat) (m : mem) (s1 s2 : Z) : res Z := inner_strspn fuel m s1 s2 true.
(** string/mod.rs:374-376 *)
Definition strcspn (fuel : nat) (m : mem) (s1 s2 : Z) : res Z := inner_strspn fuel m s1 s2 false.

(** string/mod.rs:584-591 *)
Definition strpbrk (fuel : nat) (m : mem) (s1 s2 : Z) : res Z :=
  k <- strcspn fuel m s1 s2 ;;
  b <- ld m (s1 + k) ;;
  Ok (if negb (b =? 0) then s1 + k else NULL).

(** string/mod.rs:436-450; the cursor [*str_] is passed and returned by value.
    Result: memory, new cursor, returned pointer. *)
Definition strsep (fuel : nat) (m : mem) (cur sep : Z) : res (mem * Z * Z) :=
  if cur =? NULL then Ok (m, cur, NULL)
  else k <- strcspn fuel m cur sep ;;
       let e := cur + k in
       b <- ld m e ;;
       if negb (b =? 0) then m1 <- st m e 0 ;; Ok (m1, e + 1, cur)
       else Ok (m, NULL, cur).

(** string/mod.rs:671-704; [*lasts] is passed and returned by value.
    Result: memory, new *lasts, token. *)
Definition strtok_r (fuel : nat) (m : mem) (s delim lasts : Z) : res (mem * Z * Z) :=
  if (s =? NULL) && (lasts =? NULL) then Ok (m, lasts, NULL)
  else
    let h0 := if s =? NULL then lasts else s in
    k <- strspn fuel m h0 delim ;;
    let h := h0 + k in
    b <- ld m h ;;
    if b =? 0 then Ok (m, h, NULL)
    else
      e <- strpbrk fuel m h delim ;;
      if negb (e =? NULL) then m1 <- st m e 0 ;; Ok (m1, e + 1, h)
      else l <- strlen fuel m h ;; Ok (m, h + l, h).

(** string/mod.rs:548-565.  [alloc] is the allocator's answer for a request of the
    given size (0 = failure).  Result: memory, returned pointer, errno set to ENOMEM? *)
Definition strndup (fuel : nat) (alloc : Z -> Z) (m : mem) (s n : Z) : res (mem * Z * bool) :=
  l <- strnlen fuel m s n ;;
  let buf := alloc (l + 1) in
  if buf =? NULL then Ok (m, buf, true)
  else m1 <- copy_fwd (Z.to_nat l) m buf s ;;
       m2 <- st m1 (buf + l) 0 ;;
       Ok (m2, buf, false).
(** string/mod.rs:380-382 *)
Definition strdup (fuel : nat) (alloc : Z -> Z) (m : mem) (s : Z) : res (mem * Z * bool) :=
  strndup fuel alloc m s USIZE_MAX.

(** string/mod.rs:708-721 *)
Definition strxfrm (fuel : nat) (m : mem) (s1 s2 n : Z) : res (mem * Z) :=
  l <- strlen fuel m s2 ;;
  if l <? n then '(m1, _) <- strcpy fuel m s1 s2 ;; Ok (m1, l) else Ok (m, l).

(** errno/mod.rs: ERANGE = 34 *)
Definition ERANGE : Z := 34.
(** string/mod.rs:409-423; [msg] is the pointer returned by strerror(errnum), whose
    text (lines 386-400) is not modelled. *)
Definition strerror_r (fuel : nat) (m : mem) (msg buf buflen : Z) : res (mem * Z) :=
  l <- strlen fuel m msg ;;
  if l >=? buflen then
    if negb (buflen =? 0) then
      '(m1, _) <- memcpy m buf msg (buflen - 1) ;;
      m2 <- st m1 (buf + (buflen - 1)) 0 ;;
      Ok (m2, ERANGE)
    else Ok (m, ERANGE)
  else
    '(m1, _) <- memcpy m buf msg (l + 1) ;; Ok (m1, 0).
