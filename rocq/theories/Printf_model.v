(* Model of header/stdio/printf.rs for byte formats (Thin), and of vsnprintf and vsprintf.
   - Arguments are a list of integers, one per variadic argument in source order; reading
     one as a type keeps that type's low bits.
   - Not modelled: the floating-point conversions (result Fault).  c_char is i8 (x86_64).
   - Output is the list of slices passed to write_all, in order.  Strings printed by %s do
     not overlap the output buffer.
   - Integer Display/LowerHex/UpperHex/Octal/Binary formatting of the Rust core library is
     [to_digits] (Numeral.v). *)
From Verif Require Import Base Numeral Utf8_model Word_mem Writer_model Sort_model.

(** printf.rs 38-66 *)
Inductive intkind := IByte | IShort | IInt | ILong | ILongLong | IIntMax | IPtrDiff | ISize.
Inductive fmtkind := KPercent | KSigned | KUnsigned | KFloat | KString | KChar | KPointer | KWritten.
Inductive number := NStatic (n : Z) | NIndex (i : Z) | NNext.
(** printf.rs 101-115 VaArg: type and value *)
Inductive vty := TChar | TShort | TInt | TLong | TLongLong | TIntMax | TPtrDiff | TSize | TPtr | TWint | TFloat.
Definition varg := (vty * Z)%type.

Definition two64 : Z := 18446744073709551616.
Definition sgn (k x : Z) : Z := (x + 2 ^ (k - 1)) mod 2 ^ k - 2 ^ (k - 1).

(** bits of a type; the value an argument has when read with that type *)
Definition vbits (t : vty) : Z :=
  match t with TChar => 8 | TShort => 16 | TInt | TWint => 32 | _ => 64 end.
Definition as_vty (t : vty) (x : Z) : Z :=
  match t with
  | TPtr | TWint => x mod 2 ^ vbits t
  | _ => sgn (vbits t) x
  end.
Definition vty_eqb (a b : vty) : bool :=
  match a, b with
  | TChar, TChar | TShort, TShort | TInt, TInt | TLong, TLong | TLongLong, TLongLong
  | TIntMax, TIntMax | TPtrDiff, TPtrDiff | TSize, TSize | TPtr, TPtr | TWint, TWint | TFloat, TFloat => true
  | _, _ => false
  end.

(** printf.rs 117-178 VaArg::arg_from: the type read for a conversion *)
Definition vty_of (k : fmtkind) (i : intkind) : vty :=
  match k, i with
  | KChar, ILong | KChar, ILongLong => TWint
  | KChar, _ => TChar
  | (KUnsigned | KSigned), IByte => TChar
  | (KUnsigned | KSigned), IShort => TShort
  | (KUnsigned | KSigned), IInt => TInt
  | (KUnsigned | KSigned), ILong => TLong
  | (KUnsigned | KSigned), ILongLong => TLongLong
  | (KUnsigned | KSigned), IIntMax => TIntMax
  | (KUnsigned | KSigned), IPtrDiff => TPtrDiff
  | (KUnsigned | KSigned), ISize => TSize
  | KFloat, _ => TFloat
  | _, _ => TPtr
  end.

(** ap.next_arg *)
Definition next_arg (t : vty) (ap : list Z) : res (varg * list Z) :=
  match ap with [] => Fault | x :: r => Ok ((t, as_vty t x), r) end.

(** printf.rs 238-313 VaArg::transmute, defined where the union read is: Fault when bytes
    of the wider type were never stored, and for floating-point types. *)
Definition transmute (a : varg) (t : vty) : res varg :=
  if vty_eqb (fst a) t then Ok a
  else if vty_eqb (fst a) TFloat || vty_eqb t TFloat then Fault
  else if vbits t <=? vbits (fst a) then Ok (t, as_vty t (snd a)) else Fault.

(** printf.rs 326-362 VaListCache::get; the cache and the remaining arguments *)
Fixpoint fill (cache : list varg) (ap : list Z) (i : Z) : res (list varg * list Z) :=
  if len cache <? i then
    match ap with
    | [] => Fault
    | x :: r => fill (cache ++ [(TInt, as_vty TInt x)]) r i
    end
  else Ok (cache, ap).
Definition va_get (cache : list varg) (ap : list Z) (i : Z) (default : option vty) : res (varg * list varg * list Z) :=
  if i <? len cache then
    match nth_error cache (Z.to_nat i) with
    | Some a =>
        match default with
        | Some t => a' <- transmute a t ;; Ok (a', cache, ap)
        | None => Ok (a, cache, ap)
        end
    | None => Panic
    end
  else
    '(cache, ap) <- fill cache ap i ;;
    '(a, ap) <- next_arg (match default with Some t => t | None => TInt end) ap ;;
    Ok (a, cache ++ [a], ap).

(** printf.rs 73-98 Number::resolve; vi is varargs.i *)
Definition to_usize (a : varg) : res Z :=
  if vty_eqb (fst a) TFloat then Fault else Ok (snd a mod two64).
Definition resolve (n : number) (cache : list varg) (ap : list Z) (vi : Z) : res (Z * list varg * list Z * Z) :=
  match n with
  | NStatic k => Ok (k, cache, ap, vi)
  | NIndex i =>
      '(a, cache, ap) <- va_get cache ap ((i - 1) mod two64) None ;;
      k <- to_usize a ;; Ok (k, cache, ap, vi)
  | NNext =>
      '(a, cache, ap) <- va_get cache ap vi None ;;
      k <- to_usize a ;; Ok (k, cache, ap, vi + 1)
  end.

(** printf.rs 385-399 pop_int_raw *)
Definition is_dec (c : Z) : bool := (48 <=? c) && (c <=? 57).
Fixpoint pop_digits (f : list Z) (acc : option Z) : option Z * list Z :=
  match f with
  | c :: r =>
      if is_dec c then
        pop_digits r (Some (((match acc with Some a => a | None => 0 end) * 10 + (c - 48)) mod two64))
      else (acc, f)
  | [] => (acc, f)
  end.
Definition pop_int_raw (f : list Z) : option Z * list Z := pop_digits f None.
(** printf.rs 400-410 *)
Definition pop_index (f : list Z) : option Z * list Z :=
  match pop_int_raw f with
  | (Some i, c :: r) => if c =? 36 then (Some i, r) else (None, f)
  | _ => (None, f)
  end.
(** printf.rs 411-418 *)
Definition pop_int (f : list Z) : option number * list Z :=
  if hd 0 f =? 42
  then match pop_index (tl f) with (Some i, r') => (Some (NIndex i), r') | (None, r') => (Some NNext, r') end
  else match pop_int_raw f with (Some n, r) => (Some (NStatic n), r) | (None, r) => (None, r) end.

(** printf.rs 597-610 *)
Record parg := PArg {
  a_index : option Z; a_alt : bool; a_zero : bool; a_left : bool; a_space : bool; a_plus : bool;
  a_width : number; a_prec : option number; a_int : intkind; a_fmt : Z; a_kind : fmtkind }.
Inductive item := Plain (l : list Z) | Arg (a : parg).

(** printf.rs 645-657; the flags in the order # 0 - space + *)
Record pflags := PF { f_alt : bool; f_zero : bool; f_left : bool; f_space : bool; f_plus : bool }.
Fixpoint pop_flags (f : list Z) (fl : pflags) : pflags * list Z :=
  match f with
  | c :: r =>
      if c =? 35 then pop_flags r (PF true (f_zero fl) (f_left fl) (f_space fl) (f_plus fl))
      else if c =? 48 then pop_flags r (PF (f_alt fl) true (f_left fl) (f_space fl) (f_plus fl))
      else if c =? 45 then pop_flags r (PF (f_alt fl) (f_zero fl) true (f_space fl) (f_plus fl))
      else if c =? 32 then pop_flags r (PF (f_alt fl) (f_zero fl) (f_left fl) true (f_plus fl))
      else if c =? 43 then pop_flags r (PF (f_alt fl) (f_zero fl) (f_left fl) (f_space fl) true)
      else (fl, f)
  | [] => (fl, f)
  end.
(** printf.rs 672-698 *)
Fixpoint pop_size (f : list Z) (k : intkind) : intkind * list Z :=
  match f with
  | c :: r =>
      if c =? 104 then pop_size r (match k with IShort | IByte => IByte | _ => IShort end)
      else if c =? 106 then pop_size r IIntMax
      else if c =? 108 then pop_size r (match k with ILong | ILongLong => ILongLong | _ => ILong end)
      else if (c =? 113) || (c =? 76) then pop_size r ILongLong
      else if c =? 116 then pop_size r IPtrDiff
      else if c =? 122 then pop_size r ISize
      else (k, f)
  | [] => (k, f)
  end.
(** printf.rs 702-734; [inr tt]: %m *)
Definition kind_of (c : Z) : option (fmtkind + unit) :=
  if c =? 37 then Some (inl KPercent)
  else if (c =? 100) || (c =? 105) then Some (inl KSigned)
  else if (c =? 111) || (c =? 117) || (c =? 120) || (c =? 88) then Some (inl KUnsigned)
  else if (c =? 98) || (c =? 66) then Some (inl KUnsigned)
  else if (c =? 101) || (c =? 69) || (c =? 102) || (c =? 70) || (c =? 76) || (c =? 103) || (c =? 71) then Some (inl KFloat)
  else if c =? 115 then Some (inl KString)
  else if c =? 99 then Some (inl KChar)
  else if c =? 112 then Some (inl KPointer)
  else if c =? 110 then Some (inl KWritten)
  else if c =? 109 then Some (inr tt)
  else None.
Definition is_int_conv (c : Z) : bool :=
  (c =? 98) || (c =? 66) || (c =? 100) || (c =? 105) || (c =? 111) || (c =? 117) || (c =? 120) || (c =? 88).

(** printf.rs 634-759, after the '%'; [None] is Err(()).  [em]: the text of %m. *)
Definition pop_arg (em : list Z) (f : list Z) : option (item * list Z) :=
  let (index, f) := pop_index f in
  let (fl, f) := pop_flags f (PF false false false false false) in
  let (w, f) := pop_int f in
  let width := match w with Some n => n | None => NStatic 0 end in
  let prec :=
    if hd 0 f =? 46
    then match pop_int (tl f) with (Some n, r') => Some (Some n, r') | (None, _) => None end
    else Some (None, f) in
  match prec with
  | None => None
  | Some (prec, f) =>
      let (ik, f) := pop_size f IInt in
      match f with
      | [] => None
      | c :: r =>
          match kind_of c with
          | None => None
          | Some (inr _) => Some (Plain em, r)
          | Some (inl k) =>
              let zero := match prec with Some _ => if is_int_conv c then false else f_zero fl | None => f_zero fl end in
              Some (Arg (PArg index (f_alt fl) zero (f_left fl) (f_space fl) (f_plus fl) width prec ik c k), r)
          end
      end
  end.

(** c_str.rs 135-156 find_get_subslice_or_all(b'%'): the text before the first '%'. *)
Fixpoint until_percent (f : list Z) : list Z * list Z :=
  match f with
  | c :: r => if c =? 37 then ([], f) else let (t, r') := until_percent r in (c :: t, r')
  | [] => ([], [])
  end.
(** printf.rs 621-759, iterated to the end; [None]: an Err(()) section. *)
Fixpoint parse (fuel : nat) (em : list Z) (f : list Z) : option (list item) :=
  match fuel with
  | O => None
  | S fu =>
      match until_percent f with
      | (c :: t, r) => match parse fu em r with Some l => Some (Plain (c :: t) :: l) | None => None end
      | ([], []) => Some []
      | ([], _ :: r) =>
          match pop_arg em r with
          | None => None
          | Some (it, r') => match parse fu em r' with Some l => Some (it :: l) | None => None end
          end
      end
  end.

(** BTreeMap::insert *)
Fixpoint pos_insert (i : Z) (t : vty) (l : list (Z * vty)) : list (Z * vty) :=
  match l with
  | [] => [(i, t)]
  | (j, u) :: r => if i <? j then (i, t) :: l else if i =? j then (i, t) :: r else (j, u) :: pos_insert i t r
  end.
(** printf.rs 776-806 *)
Definition pre_number (n : number) (s : list varg * list Z * list (Z * vty)) : res (list varg * list Z * list (Z * vty)) :=
  let '(cache, ap, pos) := s in
  match n with
  | NNext => '(a, ap) <- next_arg TInt ap ;; Ok (cache ++ [a], ap, pos)
  | NIndex i => Ok (cache, ap, pos_insert ((i - 1) mod two64) TInt pos)
  | NStatic _ => Ok s
  end.
Definition pre_item (it : item) (s : list varg * list Z * list (Z * vty)) : res (list varg * list Z * list (Z * vty)) :=
  match it with
  | Plain _ => Ok s
  | Arg a =>
      match a_kind a with
      | KPercent => Ok s
      | k =>
          s <- pre_number (a_width a) s ;;
          s <- pre_number (match a_prec a with Some n => n | None => NStatic 0 end) s ;;
          let '(cache, ap, pos) := s in
          match a_index a with
          | Some i => Ok (cache, ap, pos_insert ((i - 1) mod two64) (vty_of k (a_int a)) pos)
          | None => '(v, ap) <- next_arg (vty_of k (a_int a)) ap ;; Ok (cache ++ [v], ap, pos)
          end
      end
  end.
Fixpoint pre_items (l : list item) (s : list varg * list Z * list (Z * vty)) : res (list varg * list Z * list (Z * vty)) :=
  match l with
  | [] => Ok s
  | it :: r => s <- pre_item it s ;; pre_items r s
  end.
(** printf.rs 808-811 *)
Fixpoint pre_pos (pos : list (Z * vty)) (cache : list varg) (ap : list Z) : res (list varg * list Z) :=
  match pos with
  | [] => Ok (cache, ap)
  | (i, t) :: r => '(_, cache, ap) <- va_get cache ap i (Some t) ;; pre_pos r cache ap
  end.

(** printf.rs 434-447 pad *)
Definition padding (side : bool) (c from to : Z) : list (list Z) :=
  if side then repeat [c] (Z.to_nat (to - from)) else [].

(** Rust's Display, LowerHex, UpperHex, Octal, Binary of an integer *)
Definition digit_char (upper : bool) (d : Z) : Z := if d <? 10 then 48 + d else (if upper then 55 else 87) + d.
Definition show (base : Z) (upper : bool) (n : Z) : list Z := map (digit_char upper) (to_digits base n).
Definition show_signed (n : Z) : list Z := if n <? 0 then 45 :: show 10 false (- n) else show 10 false n.
(** printf.rs 421-433 fmt_int *)
Definition fmt_int (c n : Z) : list Z :=
  if c =? 111 then show 8 false n
  else if c =? 117 then show 10 false n
  else if c =? 120 then show 16 false n
  else if c =? 88 then show 16 true n
  else show 2 false n.

Definition is_zero_str (l : list Z) : bool := match l with [c] => c =? 48 | _ => false end.
Definition or_else (p : option Z) (d : Z) : Z := match p with Some n => n | None => d end.

(** printf.rs 878-927; v: the argument *)
Definition conv_signed (plus space left : bool) (prec : option Z) (pad_zero pad_space v : Z) : list (list Z) :=
  let string := show_signed v in
  let positive := negb (v <? 0) in
  let zero := match prec with Some p => (p =? 0) && is_zero_str string | None => false end in
  let final_len := Z.max (len string) (or_else prec 0) + (if positive && (space || plus) then 1 else 0) in
  let len' := if zero then 0 else len string in
  let final_len := if zero then 0 else final_len in
  padding (negb left) 32 final_len pad_space ++
  (if positive then (if space then [[32]] else if plus then [[43]] else []) else [[45]]) ++
  padding true 48 len' (or_else prec pad_zero) ++
  (if zero then [] else [if positive then string else tl string]) ++
  padding left 32 final_len pad_space.

(** printf.rs 928-992; n: the argument as unsigned *)
Definition conv_unsigned (c : Z) (alt left : bool) (prec : option Z) (pad_zero pad_space n : Z) : list (list Z) :=
  let string := fmt_int c n in
  let is0 := is_zero_str string in
  let zero := match prec with Some p => (p =? 0) && is0 | None => false end in
  let no_precision := match prec with Some p => p <? len string | None => true end in
  let prefix :=
    if alt && negb is0 then
      if c =? 111 then (if no_precision then [48] else [])
      else if c =? 120 then [48; 120]
      else if c =? 88 then [48; 88]
      else if c =? 98 then [48; 98]
      else if c =? 66 then [48; 66]
      else []
    else [] in
  let len' := if zero then 0 else len string in
  let final_len := if zero then 0 else Z.max (len string) (or_else prec 0) + len prefix in
  padding (negb left) 32 final_len pad_space ++
  (match prefix with [] => [] | _ => [prefix] end) ++
  padding true 48 len' (or_else prec pad_zero) ++
  (if zero then [] else [string]) ++
  padding left 32 final_len pad_space.

(** printf.rs 1080-1088: the length loop of %s; the byte is read before the bound is looked at *)
Fixpoint str_len (fuel : nat) (m : mem) (p l max : Z) : res Z :=
  match fuel with
  | O => OutOfFuel
  | S f => b <- ld m (p + l) ;; if negb (b =? 0) && (l <? max) then str_len f m p (l + 1) max else Ok l
  end.
Fixpoint ld_list (m : mem) (a : Z) (n : nat) : res (list Z) :=
  match n with O => Ok [] | S k => b <- ld m a ;; r <- ld_list m (a + 1) k ;; Ok (b :: r) end.
(** printf.rs 1057-1079: %ls; wide strings live in [wm], one cell per element; [None]: EILSEQ *)
Fixpoint wide_str (fuel : nat) (wm : mem) (p max : Z) (acc : list Z) : res (option (list Z)) :=
  match fuel with
  | O => OutOfFuel
  | S f =>
      w <- ld wm p ;;
      if w =? 0 then Ok (Some acc)
      else match from_u32 (w mod 2 ^ 32) with
           | None => Ok None
           | Some c =>
               if max <=? len acc + len_utf8 c then Ok (Some acc)
               else wide_str f wm (p + 1) max (acc ++ encode_utf8 c)
           end
  end.

Definition psize (i : intkind) : nat :=
  match i with IByte => 1 | IShort => 2 | IInt => 4 | _ => 8 end.

(** printf.rs 876-1162: one conversion.  Result: memory (%n stores), slices written, and
    whether it went on (else Err). *)
Definition conv (fuel : nat) (m wm : mem) (a : parg) (left : bool) (prec : option Z) (pad_zero pad_space written : Z) (v : varg)
    : res (mem * list (list Z) * bool) :=
  match a_kind a with
  | KPercent => Ok (m, [[37]], true)
  | KSigned => Ok (m, conv_signed (a_plus a) (a_space a) left prec pad_zero pad_space (snd v), true)
  | KUnsigned => Ok (m, conv_unsigned (a_fmt a) (a_alt a) left prec pad_zero pad_space (snd v mod 2 ^ vbits (fst v)), true)
  | KFloat => Fault
  | KString =>
      if snd v =? 0 then Ok (m, [[40; 110; 117; 108; 108; 41]], true)
      else
        let max := or_else prec USIZE_MAX in
        match a_int a with
        | ILong | ILongLong =>
            r <- wide_str fuel wm (snd v) max [] ;;
            match r with
            | None => Ok (m, [], false)
            | Some s => Ok (m, padding (negb left) 32 (len s) pad_space ++ [s] ++ padding left 32 (len s) pad_space, true)
            end
        | _ =>
            l <- str_len fuel m (snd v) 0 max ;;
            s <- ld_list m (snd v) (Z.to_nat l) ;;
            Ok (m, padding (negb left) 32 l pad_space ++ [s] ++ padding left 32 l pad_space, true)
        end
  | KChar =>
      match fst v with
      | TWint =>
          match from_u32 (snd v) with
          | None => Ok (m, [], false)
          | Some c => Ok (m, padding (negb left) 32 1 pad_space ++ [encode_utf8 c] ++ padding left 32 1 pad_space, true)
          end
      | _ => Ok (m, padding (negb left) 32 1 pad_space ++ [[snd v mod 256]] ++ padding left 32 1 pad_space, true)
      end
  | KPointer =>
      let l := if snd v =? 0 then 5 else len (show 10 false (snd v)) in
      Ok (m, padding (negb left) 32 l pad_space ++
             (if snd v =? 0 then [[40; 110; 105; 108; 41]] else [[48; 120]; show 16 false (snd v)]) ++
             padding left 32 l pad_space, true)
  | KWritten => m <- st_bytes m (snd v) (le_bytes (psize (a_int a)) written) ;; Ok (m, [], true)
  end.

(** printf.rs 813-1164: the main loop. *)
Fixpoint p_main (fuel : nat) (m wm : mem) (l : list item) (cache : list varg) (ap : list Z) (vi written : Z) (out : list (list Z))
    : res (mem * list (list Z) * bool) :=
  match l with
  | [] => Ok (m, out, true)
  | Plain t :: r => p_main fuel m wm r cache ap vi ((written + len t) mod two64) (out ++ [t])
  | Arg a :: r =>
      '(min_width, cache, ap, vi) <- resolve (a_width a) cache ap vi ;;
      '(prec, cache, ap, vi) <-
        (match a_prec a with
         | None => Ok (None, cache, ap, vi)
         | Some n =>
             '(p, cache, ap, vi) <- resolve n cache ap vi ;;
             Ok (if 0 <=? sgn 32 p then Some p else None, cache, ap, vi)
         end) ;;
      let pad_zero := if a_zero a then min_width else 0 in
      let signed_space := if pad_zero =? 0 then sgn 64 min_width else 0 in
      let left := if signed_space <? 0 then true else a_left a in
      let pad_space := if signed_space <? 0 then (- signed_space) mod two64 else signed_space in
      '(v, cache, ap, vi) <-
        (match a_kind a with
         | KPercent => Ok ((TInt, 0), cache, ap, vi)
         | k =>
             let (index, vi) := match a_index a with Some i => ((i - 1) mod two64, vi) | None => (vi, vi + 1) end in
             '(v, cache, ap) <- va_get cache ap index (Some (vty_of k (a_int a))) ;;
             Ok (v, cache, ap, vi)
         end) ;;
      '(m, ps, ok) <- conv fuel m wm a left prec pad_zero pad_space written v ;;
      if ok : bool then p_main fuel m wm r cache ap vi ((written + len (concat ps)) mod two64) (out ++ ps)
      else Ok (m, out ++ ps, false)
  end.

(** printf.rs 762-1165 inner_printf up to what the writer does; [None]: returned -1 before
    any output. *)
Definition p_printf (fuel : nat) (m wm : mem) (em fmt : list Z) (args : list Z) : res (mem * option (list (list Z) * bool)) :=
  match parse (S (length fmt)) em fmt with
  | None => Ok (m, None)
  | Some items =>
      '(cache, ap, pos) <- pre_items items ([], args, []) ;;
      '(cache, ap) <- pre_pos pos cache ap ;;
      '(m, out, ok) <- p_main fuel m wm items cache ap 0 0 [] ;;
      Ok (m, Some (out, ok))
  end.

(** io/mod.rs 1754-1769 write_all does not call write for an empty slice. *)
Definition nonempty (l : list Z) : bool := match l with [] => false | _ => true end.

(** mod.rs 1608-1638 vsnprintf/snprintf with printf.rs 1440-1442 *)
Definition vsnprintf (fuel : nat) (m wm : mem) (em : list Z) (s n : Z) (fmt args : list Z) : res (mem * Z) :=
  '(m, r) <- p_printf fuel m wm em fmt args ;;
  match r with
  | None => Ok (m, -1)
  | Some (out, ok) =>
      '(m, written) <- cw_write_all m (s, n) 0 (filter nonempty out) ;;
      Ok (m, if ok : bool then to_i32 written else -1)
  end.
(** mod.rs 1642-1662 vsprintf/sprintf *)
Definition vsprintf (fuel : nat) (m wm : mem) (em : list Z) (s : Z) (fmt args : list Z) : res (mem * Z) :=
  '(m, r) <- p_printf fuel m wm em fmt args ;;
  match r with
  | None => Ok (m, -1)
  | Some (out, ok) =>
      m <- usw_write_all m s (filter nonempty out) ;;
      Ok (m, if ok : bool then to_i32 (len (concat out) mod two64) else -1)
  end.
