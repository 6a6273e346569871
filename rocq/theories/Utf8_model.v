(** Model of the UTF-8 conversions: header/wchar/utf8.rs, the mb*/wc* functions of
    header/wchar/mod.rs and header/stdlib/mod.rs.
    - wide strings live in a separate memory whose cells are wchar_t (i32) values, one
      cell per element, so [dst.add(1)] is the next cell; byte strings live in the byte
      memory.  The two never overlap.
    - mbstate_t is an empty struct and is dropped.
    - errno is returned next to the result: [None] = unchanged.
    - core::str::from_utf8, str::chars and char::encode_utf8 (Rust core library) are
      modelled after their source for slices holding one character; from_utf8 reads the
      bytes left to right and stops at the first bad one. *)
From Verif Require Import Base String_model.

Definition EILSEQ : Z := 84.
Definition EOF : Z := -1.
Definition WEOF : Z := 4294967295.
(** usize values of -1 and -2 *)
Definition SZ_M1 : Z := USIZE_MAX.
Definition SZ_M2 : Z := USIZE_MAX - 1.

(** utf8.rs:22-46: the table, by ranges *)
Definition utf8_char_width (b : Z) : Z :=
  if b <=? 127 then 1
  else if b <=? 193 then 0
  else if b <=? 223 then 2
  else if b <=? 239 then 3
  else if b <=? 244 then 4
  else 0.

(** core: a continuation byte, [(b as i8) < -64] *)
Definition is_cont (b : Z) : bool := (128 <=? b) && (b <=? 191).

(** core::str::validations::run_utf8_validation on one character of [size] bytes;
    [None] = Err, [Some l] = the validated bytes *)
Definition from_utf8 (m : mem) (s size : Z) : res (option (list Z)) :=
  b0 <- ld m s ;;
  if size =? 1 then Ok (if b0 <=? 127 then Some [b0] else None)
  else if size =? 2 then
    b1 <- ld m (s + 1) ;;
    Ok (if is_cont b1 then Some [b0; b1] else None)
  else if size =? 3 then
    b1 <- ld m (s + 1) ;;
    let ok := if b0 =? 224 then (160 <=? b1) && (b1 <=? 191)
              else if (225 <=? b0) && (b0 <=? 236) then is_cont b1
              else if b0 =? 237 then (128 <=? b1) && (b1 <=? 159)
              else is_cont b1 in
    if negb ok then Ok None else
    b2 <- ld m (s + 2) ;;
    Ok (if is_cont b2 then Some [b0; b1; b2] else None)
  else
    b1 <- ld m (s + 1) ;;
    let ok := if b0 =? 240 then (144 <=? b1) && (b1 <=? 191)
              else if (241 <=? b0) && (b0 <=? 243) then is_cont b1
              else (128 <=? b1) && (b1 <=? 143) in
    if negb ok then Ok None else
    b2 <- ld m (s + 2) ;;
    if negb (is_cont b2) then Ok None else
    b3 <- ld m (s + 3) ;;
    Ok (if is_cont b3 then Some [b0; b1; b2; b3] else None).

(** core::str::validations::next_code_point *)
Definition acc_cont (ch b : Z) : Z := Z.lor (Z.shiftl ch 6) (Z.land b 63).
Definition next_code_point (l : list Z) : Z :=
  match l with
  | [x] => x
  | [x; y] => acc_cont (Z.land x 31) y
  | [x; y; z] => Z.lor (Z.shiftl (Z.land x 31) 12) (acc_cont (Z.land y 63) z)
  | [x; y; z; w] =>
      Z.lor (Z.shiftl (Z.land (Z.land x 31) 7) 18) (acc_cont (acc_cont (Z.land y 63) z) w)
  | _ => 0
  end.

(** utf8.rs:48-75.  Result: returned size_t, value stored in *pwc if any, errno. *)
Definition utf8_mbrtowc (m : mem) (s n : Z) : res (Z * option Z * option Z) :=
  b <- ld m s ;;
  let size := utf8_char_width b in
  if n <? size then Ok (SZ_M2, None, Some EILSEQ)
  else if size =? 0 then Ok (SZ_M1, None, Some EILSEQ)
  else
    r <- from_utf8 m s size ;;
    match r with
    | None => Ok (SZ_M1, None, Some EILSEQ)
    | Some l =>
        let wc := next_code_point l in
        Ok (if wc =? 0 then 0 else size, Some wc, None)
    end.

(** wchar/mod.rs:226-241; a null s decodes "\0" *)
Definition mbrtowc (m : mem) (s n : Z) : res (Z * option Z * option Z) :=
  if s =? NULL then utf8_mbrtowc (mem_of 1 [0]) 1 1 else utf8_mbrtowc m s n.

(** wchar/mod.rs:215-219 *)
Definition mbrlen (m : mem) (s n : Z) : res Z :=
  '(r, _, _) <- mbrtowc m s n ;; Ok r.

(** [as c_int] of a size_t *)
Definition to_i32 (x : Z) : Z := (x + 2147483648) mod 4294967296 - 2147483648.

(** stdlib/mod.rs:729-742 *)
Definition mblen (m : mem) (s n : Z) : res Z :=
  '(r, _, _) <- mbrtowc m s n ;;
  Ok (if (r =? SZ_M1) || (r =? SZ_M2) then -1 else to_i32 r).

(** stdlib/mod.rs:753-756 *)
Definition mbtowc (m : mem) (s n : Z) : res (Z * option Z) :=
  '(r, wc, _) <- mbrtowc m s n ;; Ok (to_i32 r, wc).

(** wchar/mod.rs:47-64; the byte is a local variable *)
Definition btowc (c : Z) : res Z :=
  if c =? EOF then Ok WEOF
  else
    '(r, wc, _) <- utf8_mbrtowc (mem_of 1 [to_u8 c]) 1 1 ;;
    if (r =? SZ_M1) || (r =? SZ_M2) then Ok WEOF
    else Ok (match wc with Some w => w mod 4294967296 | None => 0 end).

(** wchar/mod.rs:975-977; c is a wint_t (u32) *)
Definition wctob (c : Z) : Z := if c <=? 127 then c else EOF.

(** core: char::from_u32 *)
Definition from_u32 (c : Z) : option Z :=
  if (c <? 55296) || ((57343 <? c) && (c <=? 1114111)) then Some c else None.
(** core: char::len_utf8 *)
Definition len_utf8 (c : Z) : Z :=
  if c <? 128 then 1 else if c <? 2048 then 2 else if c <? 65536 then 3 else 4.
(** core: char::encode_utf8 *)
Definition encode_utf8 (c : Z) : list Z :=
  if c <? 128 then [c]
  else if c <? 2048 then
    [Z.lor (Z.land (Z.shiftr c 6) 31) 192; Z.lor (Z.land c 63) 128]
  else if c <? 65536 then
    [Z.lor (Z.land (Z.shiftr c 12) 15) 224; Z.lor (Z.land (Z.shiftr c 6) 63) 128;
     Z.lor (Z.land c 63) 128]
  else
    [Z.lor (Z.land (Z.shiftr c 18) 7) 240; Z.lor (Z.land (Z.shiftr c 12) 63) 128;
     Z.lor (Z.land (Z.shiftr c 6) 63) 128; Z.lor (Z.land c 63) 128].

(** store the bytes of a list one after another *)
Fixpoint st_list (m : mem) (a : Z) (l : list Z) : res mem :=
  match l with
  | [] => Ok m
  | b :: l' => m1 <- st m a b ;; st_list m1 (a + 1) l'
  end.

(** utf8.rs:78-93, wchar/mod.rs:460-469; wc is a wchar_t (i32) *)
Definition wcrtomb (m : mem) (s wc : Z) : res (mem * Z * option Z) :=
  if s =? NULL then Ok (m, len_utf8 0, None)
  else
    match from_u32 (wc mod 4294967296) with
    | None => Ok (m, SZ_M1, Some EILSEQ)
    | Some c => m' <- st_list m s (encode_utf8 c) ;; Ok (m', len_utf8 c, None)
    end.

(** stdlib/mod.rs:1761-1773 *)
Definition wctomb (m : mem) (s wc : Z) : res (mem * Z) :=
  '(m', r, _) <- wcrtomb m s wc ;;
  Ok (m', if (r =? SZ_M1) || (r =? SZ_M2) then -1 else to_i32 r).

(** utf8.rs:96-108 *)
Definition get_char_encoded_length (b : Z) : option Z :=
  if Z.shiftr b 7 =? 0 then Some 1
  else if Z.shiftr b 5 =? 6 then Some 2
  else if Z.shiftr b 4 =? 14 then Some 3
  else if Z.shiftr b 3 =? 30 then Some 4
  else None.

(** wchar/mod.rs:247-300.  [wm] is the wide-character memory, [m] the byte memory.
    Result: wide memory, returned size_t, new value of *src. *)
Fixpoint mbsn_loop (fuel : nat) (m wm : mem) (dst src src_len dst_len dst_off src_off : Z)
    : res (mem * Z * Z) :=
  match fuel with
  | O => OutOfFuel
  | S f =>
      if ((dst =? NULL) || (dst_off <? dst_len)) && (src_off <? src_len) then
        '(amount, wc, _) <- mbrtowc m (src + src_off) (src_len - src_off) ;;
        if amount =? SZ_M1 then Ok (wm, 1, src + src_off)
        else if amount =? SZ_M2 then Ok (wm, dst_off, src + src_off)
        else
          let wc := match wc with Some w => w | None => 0 end in
          wm1 <- (if dst =? NULL then Ok wm else st wm (dst + dst_off) wc) ;;
          if wc =? 0 then Ok (wm1, dst_off, NULL)
          else mbsn_loop f m wm1 dst src src_len dst_len (dst_off + 1) (src_off + amount)
      else Ok (wm, dst_off, src + src_off)
  end.
Definition mbsnrtowcs (fuel : nat) (m wm : mem) (dst src src_len dst_len : Z) :=
  mbsn_loop fuel m wm dst src src_len dst_len 0 0.
(** wchar/mod.rs:306-313 *)
Definition mbsrtowcs (fuel : nat) (m wm : mem) (dst src dst_len : Z) :=
  mbsnrtowcs fuel m wm dst src USIZE_MAX dst_len.
(** stdlib/mod.rs:746-749 *)
Definition mbstowcs (fuel : nat) (m wm : mem) (dst src n : Z) : res (mem * Z) :=
  '(wm', r, _) <- mbsrtowcs fuel m wm dst src n ;; Ok (wm', r).

(** wchar/mod.rs:667-712.  Result: byte memory, returned size_t, new value of *src. *)
Fixpoint wcsn_loop (fuel : nat) (m wm : mem) (dest src nwc len_ written read : Z)
    : res (mem * Z * Z) :=
  match fuel with
  | O => OutOfFuel
  | S f =>
      if read <? nwc then
        wc <- ld wm src ;;
        match from_u32 (wc mod 4294967296) with
        | None => Ok (m, SZ_M1, src)
        | Some c =>
            let ret := len_utf8 c in
            if negb (dest =? NULL) && (len_ <? written + ret) then Ok (m, written, src)
            else
              m1 <- (if dest =? NULL then Ok m else st_list m dest (encode_utf8 c)) ;;
              let dest1 := if dest =? NULL then dest else dest + ret in
              if wc =? 0 then Ok (m1, written, NULL)
              else wcsn_loop f m1 wm dest1 (src + 1) nwc len_ (written + ret) (read + 1)
        end
      else Ok (m, written, src)
  end.
Definition wcsnrtombs (fuel : nat) (m wm : mem) (dest src nwc len_ : Z) :=
  wcsn_loop fuel m wm dest src nwc len_ 0 0.
(** wchar/mod.rs:488-499 *)
Definition wcsrtombs (fuel : nat) (m wm : mem) (dest src n : Z) :=
  wcsnrtombs fuel m wm dest src USIZE_MAX n.
(** stdlib/mod.rs:1754-1757 *)
Definition wcstombs (fuel : nat) (m wm : mem) (dest src n : Z) : res (mem * Z) :=
  '(m', r, _) <- wcsrtombs fuel m wm dest src n ;; Ok (m', r).
