(* Model of header/stdio/scanf.rs inner_scanf for bytes (Thin) reading from a string
   (reader.rs 38-47 BufferReader), i.e. sscanf and vsscanf.
   - Arguments are a list of pointers, one per variadic argument.
   - Not modelled: the floating-point conversions (result Fault).
   - c_char is i8 (x86_64).  Reading from a FILE (reader.rs 49-143) is not modelled. *)
From Verif Require Import Base Numeral Word_mem Sort_model Printf_model.

(** [char::is_whitespace] of a byte turned into a char (scanf.rs 27-31, 83) *)
Definition ws (c : Z) : bool := ((9 <=? c) && (c <=? 13)) || (c =? 32) || (c =? 133) || (c =? 160).

(** scanf.rs 38-42: the locals of inner_scanf, memory and the variadic arguments *)
Record sst := SS { inp : list Z; ch : Z; skip : bool; cnt : Z; mt : Z; mm : mem; ap : list Z }.

(** scanf.rs 44-56 read! *)
Definition rd (s : sst) : option sst :=
  match inp s with
  | [] => None
  | c :: r => Some (SS r c (skip s) (cnt s + 1) (mt s) (mm s) (ap s))
  end.
(** what a step does: go on, or return a value *)
Inductive step := Go (s : sst) | Ret (v : Z) (m : mem).
Definition no_input (s : sst) : step := Ret (if mt s =? 0 then -1 else mt s) (mm s).
(** scanf.rs 58-76 maybe_read! (noreset), maybe_read!() *)
Definition mr_keep (s : sst) : step :=
  if skip s then Go s else match rd s with None => no_input s | Some s => Go s end.
Definition set_skip (b : bool) (s : sst) : sst := SS (inp s) (ch s) b (cnt s) (mt s) (mm s) (ap s).
Definition mr_reset (s : sst) : step :=
  match mr_keep s with Go s => Go (set_skip false s) | r => r end.

(** scanf.rs 83-87, 161-165, 175-179, 301-305: while character.is_whitespace() { read } *)
Fixpoint skip_ws (i : list Z) (c n : Z) : option (list Z * Z * Z) :=
  if ws c then match i with [] => None | c' :: r => skip_ws r c' (n + 1) end else Some (i, c, n).
Definition skip_white (s : sst) : step :=
  match skip_ws (inp s) (ch s) (cnt s) with
  | None => Ret (mt s) (mm s)
  | Some (i, c, n) => Go (SS i c (skip s) n (mt s) (mm s) (ap s))
  end.

Definition wpos (w : option Z) : bool := match w with Some n => 0 <? n | None => true end.
Definition wdec (w : option Z) : option Z := match w with Some n => Some (n - 1) | None => None end.

(** scanf.rs 194-201 *)
Definition in_radix (radix c : Z) : bool :=
  ((48 <=? c) && (c <=? 55)) || ((10 <=? radix) && (56 <=? c) && (c <=? 57)) ||
  ((radix =? 16) && (((97 <=? c) && (c <=? 102)) || ((65 <=? c) && (c <=? 70)))).
(** scanf.rs 194-239; [None]: return Ok(matched); else the rest of the input, character,
    count, width, radix and the digits *)
Fixpoint num_loop (auto pointer : bool) (i : list Z) (c n : Z) (w : option Z) (radix : Z) (ds : list Z)
    : option (list Z * Z * Z * option Z * Z * list Z) :=
  if wpos w && in_radix radix c then
    if auto && (match ds with [] => true | _ => false end) && (c =? 48) then
      let radix := if pointer then radix else 8 in
      let w := wdec w in
      match i with
      | [] => Some (i, c, n, w, radix, ds)
      | c1 :: r1 =>
          if wpos w && ((c1 =? 120) || (c1 =? 88)) then
            let w := wdec w in
            if wpos w then
              match r1 with
              | [] => None
              | c2 :: r2 => num_loop auto pointer r2 c2 (n + 2) w 16 ds
              end
            else Some (r1, c1, n + 1, w, 16, ds)
          else num_loop auto pointer r1 c1 (n + 1) w radix ds
      end
    else
      let ds := ds ++ [c] in
      let w := wdec w in
      if wpos w then
        match i with
        | [] => Some (i, c, n, w, radix, ds)
        | c1 :: r1 => num_loop auto pointer r1 c1 (n + 1) w radix ds
        end
      else Some (i, c, n, w, radix, ds)
  else Some (i, c, n, w, radix, ds).

(** char::to_digit *)
Definition dig (c : Z) : Z := if c <=? 57 then c - 48 else if c <=? 70 then c - 55 else c - 87.
(** $type::from_str_radix on digits of the radix; [None]: overflow *)
Definition from_radix (ds : list Z) (radix max : Z) : option Z :=
  let v := dvalue radix (map dig ds) in if v <=? max then Some v else None.
(** scanf.rs 283-341: the largest value of the type *)
Definition imax (k : intkind) (unsigned : bool) : Z :=
  match k, unsigned with
  | IByte, true => 2 ^ 8 - 1 | IByte, false => 2 ^ 7 - 1
  | IShort, true => 2 ^ 16 - 1 | IShort, false => 2 ^ 15 - 1
  | IInt, true => 2 ^ 32 - 1 | IInt, false => 2 ^ 31 - 1
  | IPtrDiff, _ => 2 ^ 63 - 1
  | _, true => 2 ^ 64 - 1 | _, false => 2 ^ 63 - 1
  end.

Definition pop_ap (s : sst) : res (Z * sst) :=
  match ap s with [] => Fault | p :: r => Ok (p, SS (inp s) (ch s) (skip s) (cnt s) (mt s) (mm s) r) end.
Definition put (s : sst) (p : Z) (l : list Z) : res sst :=
  m <- st_bytes (mm s) p l ;; Ok (SS (inp s) (ch s) (skip s) (cnt s) (mt s) m (ap s)).
Definition inc (s : sst) : sst := SS (inp s) (ch s) (skip s) (cnt s) (mt s + 1) (mm s) (ap s).

(** scanf.rs 174-342; result: the step and the width left *)
Definition scan_int (s : sst) (c : Z) (ignore : bool) (k : intkind) (w : option Z) : res (step * option Z) :=
  match skip_white s with
  | Ret v m => Ok (Ret v m, w)
  | Go s =>
      let pointer := c =? 112 in
      let radix := if c =? 111 then 8 else if (c =? 120) || (c =? 88) || (c =? 112) then 16 else 10 in
      match num_loop ((c =? 105) || pointer) pointer (inp s) (ch s) (cnt s) w radix [] with
      | None => Ok (Ret (mt s) (mm s), w)
      | Some (i, c1, n, w, radix, ds) =>
          let s := SS i c1 (skip s) n (mt s) (mm s) (ap s) in
          let unsigned := (c =? 111) || (c =? 117) || (c =? 120) || (c =? 88) in
          let max := if pointer then 2 ^ 64 - 1 else imax k unsigned in
          match (match ds with [] => Some 0 | _ => from_radix ds radix max end) with
          | None => Ok (Ret 0 (mm s), w)
          | Some v =>
              if ignore then Ok (Go s, w)
              else
                '(p, s) <- pop_ap s ;;
                s <- put s p (le_bytes (if pointer then 8 else psize k) v) ;;
                Ok (Go (inc s), w)
          end
      end
  end.

(** scanf.rs 308-321: copying non-white characters; result: rest, character, count, width,
    eof, memory, pointer *)
Fixpoint str_loop (store : bool) (i : list Z) (c n : Z) (w : option Z) (m : mem) (p : Z)
    : res (list Z * Z * Z * option Z * bool * mem * Z) :=
  if wpos w && negb (ws c) then
    m <- (if store then st m p c else Ok m) ;;
    let w := wdec w in
    if wpos w then
      match i with
      | [] => Ok (i, c, n, w, true, m, p + 1)
      | c1 :: r1 => str_loop store r1 c1 (n + 1) w m (p + 1)
      end
    else Ok (i, c, n, w, false, m, p + 1)
  else Ok (i, c, n, w, false, m, p).
(** scanf.rs 344-391 (%s); result: step, width, eof *)
Definition scan_str (s : sst) (ignore : bool) (w : option Z) : res (step * option Z * bool) :=
  match skip_white s with
  | Ret v m => Ok (Ret v m, w, false)
  | Go s =>
      '(p, s) <- (if ignore then Ok (0, s) else pop_ap s) ;;
      '(i, c, n, w, eof, m, p) <- str_loop (negb ignore) (inp s) (ch s) (cnt s) w (mm s) p ;;
      let s := SS i c (skip s) n (mt s) m (ap s) in
      let s := match w with Some n => if n =? 0 then (match rd s with Some s => s | None => s end) else s | None => s end in
      if ignore then Ok (Go s, w, eof)
      else m <- st (mm s) p 0 ;; Ok (Go (inc (SS (inp s) (ch s) (skip s) (cnt s) (mt s) m (ap s))), w, eof)
  end.

(** scanf.rs 402-411: for i in 0..width *)
Fixpoint chr_loop (k : nat) (store : bool) (i : list Z) (c n : Z) (w : option Z) (m : mem) (p : Z)
    : res (list Z * Z * Z * option Z * bool * mem) :=
  match k with
  | O => Ok (i, c, n, w, false, m)
  | S k =>
      m <- (if store then st m p c else Ok m) ;;
      let w := wdec w in
      if wpos w then
        match i with
        | [] => Ok (i, c, n, w, true, m)
        | c1 :: r1 => chr_loop k store r1 c1 (n + 1) w m (p + 1)
        end
      else chr_loop k store i c n w m (p + 1)
  end.
(** scanf.rs 393-423 (%c) *)
Definition scan_chr (s : sst) (ignore : bool) (w : option Z) : res (step * option Z * bool) :=
  '(p, s) <- (if ignore then Ok (0, s) else pop_ap s) ;;
  '(i, c, n, w, eof, m) <- chr_loop (Z.to_nat (match w with Some n => n | None => 1 end)) (negb ignore) (inp s) (ch s) (cnt s) w (mm s) p ;;
  let s := SS i c (skip s) n (mt s) m (ap s) in
  Ok (Go (if ignore then s else inc s), w, eof).

(** scanf.rs 18-24 next_char *)
Definition nc (f : list Z) : Z * list Z := match f with c :: r => (c, r) | [] => (0, []) end.
Fixpoint from_to (k : nat) (a : Z) : list Z := match k with O => [] | S k => a :: from_to k (a + 1) end.
(** scanf.rs 437-460: the characters of a scanlist; c is the current one *)
Fixpoint scan_set (fuel : nat) (c : Z) (f : list Z) (acc : list Z) : res (list Z * list Z) :=
  match fuel with
  | O => OutOfFuel
  | S fu =>
      let acc := acc ++ [c] in
      let prev := c in
      let (c, f) := nc f in
      if c =? 45 then
        if prev =? 93 then scan_set fu c f acc
        else
          let (c, f) := nc f in
          if c =? 93 then Ok (acc ++ [45], f)
          else scan_set fu c f (acc ++ from_to (Z.to_nat (c - (prev + 1))) (prev + 1))
      else if c =? 93 then Ok (acc, f)
      else scan_set fu c f acc
  end.
(** scanf.rs 468-490 *)
Fixpoint set_loop (store : bool) (invert : bool) (set : list Z) (i : list Z) (c n : Z) (w : option Z) (m : mem) (p : Z) (stored : bool)
    : res (list Z * Z * Z * option Z * bool * mem * Z * bool) :=
  if wpos w && negb (eqb invert (existsb (Z.eqb c) set)) then
    '(m, p, stored) <- (if store then m <- st m p c ;; Ok (m, p + 1, true) else Ok (m, p, stored)) ;;
    let w := wdec w in
    if wpos w then
      match i with
      | [] => Ok (i, c, n, w, true, m, p, stored)
      | c1 :: r1 => set_loop store invert set r1 c1 (n + 1) w m p stored
      end
    else Ok (i, c, n, w, false, m, p, stored)
  else Ok (i, c, n, w, false, m, p, stored).
(** scanf.rs 426-494 *)
Definition scan_list (fuel : nat) (s : sst) (f : list Z) (ignore : bool) (w : option Z) : res (step * option Z * bool * list Z) :=
  let (c, f) := nc f in
  let invert := c =? 94 in
  let (c, f) := if invert then nc f else (c, f) in
  '(set, f) <- scan_set fuel c f [] ;;
  '(p, s) <- (if ignore then Ok (0, s) else pop_ap s) ;;
  '(i, c, n, w, eof, m, p, stored) <- set_loop (negb ignore) invert set (inp s) (ch s) (cnt s) w (mm s) p false ;;
  let s := SS i c (skip s) n (mt s) m (ap s) in
  if stored : bool then m <- st m p 0 ;; Ok (Go (inc (SS (inp s) (ch s) (skip s) (cnt s) (mt s) m (ap s))), w, eof, f)
  else Ok (Go s, w, eof, f).

(** scanf.rs 105-118: digits of the width, from the character c on *)
Fixpoint width_digits (f : list Z) (c : Z) (ds : list Z) : list Z * Z * list Z :=
  if is_dec c then
    match f with
    | [] => (ds ++ [c - 48], 0, [])
    | c1 :: r => width_digits r c1 (ds ++ [c - 48])
    end
  else (ds, c, f).
(** [None]: the width does not fit in usize *)
Definition width_of (ds : list Z) : option (option Z) :=
  match ds with
  | [] => Some None
  | _ => if dvalue 10 ds <? two64 then Some (Some (dvalue 10 ds)) else None
  end.

(** scanf.rs 156-158: maybe_read unless %n *)
Definition start (c : Z) (s : sst) : step := if c =? 110 then Go s else mr_keep s.
Definition is_num_conv (c : Z) : bool := existsb (Z.eqb c) [100; 105; 111; 117; 120; 88; 112].
Definition is_float_conv (c : Z) : bool := existsb (Z.eqb c) [102; 101; 103; 69; 97].

(** scanf.rs 94-507: one conversion, after the '%'; f: the format after it.  Result: the
    step and the rest of the format. *)
Definition scan_conv (fuel : nat) (s : sst) (f : list Z) : res (step * list Z) :=
  let (c, f) := nc f in
  let ignore := c =? 42 in
  let (c, f) := if ignore then nc f else (c, f) in
  let '(ds, c, f) := width_digits f c [] in
  match width_of ds with
  | None => Ok (Ret (-1) (mm s), f)
  | Some w =>
      let (k, f) := pop_size (c :: f) IInt in
      let (c, f) := nc f in
      match start c s with
      | Ret v m => Ok (Ret v m, f)
      | Go s =>
          '(st, w, eof, f) <-
            (if c =? 37 then
               match skip_white s with
               | Ret v m => Ok (Ret v m, w, false, f)
               | Go s =>
                   if negb (ch s =? 37) then Ok (Ret (mt s) (mm s), w, false, f)
                   else match rd s with None => Ok (Ret (mt s) (mm s), w, false, f) | Some s => Ok (Go s, w, false, f) end
               end
             else if is_num_conv c then '(st, w) <- scan_int s c ignore k w ;; Ok (st, w, false, f)
             else if is_float_conv c then Fault
             else if c =? 115 then '(st, w, eof) <- scan_str s ignore w ;; Ok (st, w, eof, f)
             else if c =? 99 then '(st, w, eof) <- scan_chr s ignore w ;; Ok (st, w, eof, f)
             else if c =? 91 then scan_list fuel s f ignore w
             else if c =? 110 then
               if ignore then Ok (Go s, w, false, f)
               else '(p, s) <- pop_ap s ;; s <- put s p (le_bytes 4 (cnt s mod 2 ^ 32)) ;; Ok (Go s, w, false, f)
             else Ok (Ret (-1) (mm s), w, false, f)) ;;
          match st with
          | Ret v m => Ok (Ret v m, f)
          | Go s =>
              if eof : bool then Ok (Ret (mt s) (mm s), f)
              else if negb (match w with Some n => n =? 0 | None => false end) && negb (c =? 110)
              then Ok (Go (set_skip true s), f) else Ok (Go s, f)
          end
      end
  end.

(** scanf.rs 78-509 *)
Fixpoint scan (fuel : nat) (s : sst) (f : list Z) : res (mem * Z) :=
  match fuel with
  | O => OutOfFuel
  | S fu =>
      match f with
      | [] => Ok (mm s, mt s)
      | c :: f =>
          '(st, f) <-
            (if c =? 32 then
               match mr_keep s with
               | Ret v m => Ok (Ret v m, f)
               | Go s => match skip_white s with Ret v m => Ok (Ret v m, f) | Go s => Ok (Go (set_skip true s), f) end
               end
             else if negb (c =? 37) then
               match mr_reset s with
               | Ret v m => Ok (Ret v m, f)
               | Go s => if c =? ch s then Ok (Go s, f) else Ok (Ret (mt s) (mm s), f)
               end
             else scan_conv fu s f) ;;
          match st with
          | Ret v m => Ok (m, v)
          | Go s => scan fu s f
          end
      end
  end.

(** mod.rs 1700-1716 with scanf.rs 512-517: the string i, the format f, the pointers *)
Definition sscanf (fuel : nat) (m : mem) (i f args : list Z) : res (mem * Z) :=
  scan fuel (SS i 0 false 0 0 m args) f.
