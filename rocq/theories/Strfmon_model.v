(* strfmon: src/header/monetary/mod.rs 34-85 and strfmon.rs 16-325.  The format is the list of its characters (code
   points): a format that is not UTF-8 is refused before (30-32).  The buffer is the list of its bytes.  The doubles are
   not modelled: an amount is its sign and, for a number of fraction digits, the integer part and the fraction after
   rounding and carry, or None when it is too large (177-210). *)
From Coq Require Import String.
From Verif Require Import Base Numeral Ctype_spec.
Open Scope string_scope.
Open Scope list_scope.
Open Scope Z_scope.

Record amount := { is_neg : bool; parts : Z -> option (Z * Z) }.

(* mod.rs 50-61 *)
Record flags := { left_justify : bool; force_sign : bool; space_sign : bool; use_parens : bool; suppress : bool;
  width : option Z; lprec : option Z; rprec : option Z; intl : bool }.
Definition no_flags : flags := {| left_justify := false; force_sign := false; space_sign := false; use_parens := false;
  suppress := false; width := None; lprec := None; rprec := None; intl := false |}.

(* integer Display, and {:0>width$} *)
Definition display (n : Z) : list Z := map (fun d => 48 + d) (to_digits 10 n).
Definition pad0 (w : Z) (l : list Z) : list Z := repeat 48 (Z.to_nat (w - len l)) ++ l.

(* mod.rs 64-85: both entries of mon_grouping are 3, the separator is a comma; the count is cast to u8 *)
Fixpoint group_loop (count : Z) (l : list Z) : list Z :=
  match l with
  | [] => []
  | c :: l => (if (0 <? count) && ((count mod 256) mod 3 =? 0) then [44; c] else [c]) ++ group_loop (count + 1) l
  end.
Definition apply_grouping (l : list Z) : list Z := group_loop 0 l.

(* strfmon.rs 165-325, up to the copy; DEFAULT_MONETARY (mod.rs 32-48): the symbol precedes, no space, the sign first *)
Definition symbol (f : flags) : list Z :=
  if suppress f then [] else if intl f then codes "USD " else codes "$".
Definition sign (neg : bool) (f : flags) : list Z :=
  if neg then codes "-" else if force_sign f then [] else if space_sign f then codes " " else [].
Definition pad (f : flags) (r : list Z) : list Z :=
  match width f with
  | Some w =>
      if len r <? w then
        let p := repeat 32 (Z.to_nat (w - len r)) in
        if left_justify f then r ++ p else p ++ r
      else r
  | None => r
  end.
Definition format_monetary (v : amount) (f : flags) : option (list Z) :=
  let frac_digits := match rprec f with Some p => p | None => 2 end in
  match parts v frac_digits with
  | None => None
  | Some (i, fr) =>
      let s := display i in
      match (match lprec f with
             | None => Some s
             | Some p => if p <? len s then None else Some (pad0 p s)
             end) with
      | None => None
      | Some s =>
          Some (pad f (sign (is_neg v) f ++ symbol f ++ apply_grouping s ++
                       (if 0 <? frac_digits then 46 :: pad0 frac_digits (display fr) else [])))
      end
  end.

(* 68-79 *)
Definition set_flag (f : flags) (c : Z) : option flags :=
  if c =? 61 then Some {| left_justify := true; force_sign := force_sign f; space_sign := space_sign f; use_parens := use_parens f; suppress := suppress f; width := width f; lprec := lprec f; rprec := rprec f; intl := intl f |}
  else if c =? 43 then Some {| left_justify := left_justify f; force_sign := true; space_sign := space_sign f; use_parens := use_parens f; suppress := suppress f; width := width f; lprec := lprec f; rprec := rprec f; intl := intl f |}
  else if c =? 32 then Some {| left_justify := left_justify f; force_sign := force_sign f; space_sign := true; use_parens := use_parens f; suppress := suppress f; width := width f; lprec := lprec f; rprec := rprec f; intl := intl f |}
  else if c =? 40 then Some {| left_justify := left_justify f; force_sign := force_sign f; space_sign := space_sign f; use_parens := true; suppress := suppress f; width := width f; lprec := lprec f; rprec := rprec f; intl := intl f |}
  else if c =? 33 then Some {| left_justify := left_justify f; force_sign := force_sign f; space_sign := space_sign f; use_parens := use_parens f; suppress := true; width := width f; lprec := lprec f; rprec := rprec f; intl := intl f |}
  else None.
Fixpoint parse_flags (f : flags) (l : list Z) : flags * list Z :=
  match l with
  | c :: l' => match set_flag f c with Some f => parse_flags f l' | None => (f, l) end
  | [] => (f, [])
  end.
(* the digits ahead, and str::parse::<usize>().ok() *)
Definition is_digit (c : Z) : bool := (48 <=? c) && (c <=? 57).
Fixpoint take_digits (l : list Z) : list Z * list Z :=
  match l with
  | c :: l' => if is_digit c then let (d, r) := take_digits l' in (c :: d, r) else ([], l)
  | [] => ([], [])
  end.
Definition parse (d : list Z) : option Z :=
  match d with
  | [] => None
  | _ => let n := fold_left (fun a c => a * 10 + (c - 48)) d 0 in if n <? 2 ^ 64 then Some n else None
  end.
(* 99-111 and 114-126 *)
Definition parse_prec (mark : Z) (l : list Z) : option Z * list Z :=
  match l with
  | c :: l' => if c =? mark then let (d, r) := take_digits l' in (parse d, r) else (None, l)
  | [] => (None, [])
  end.
Definition parse_spec (l : list Z) : flags * list Z :=
  let (f, l) := parse_flags no_flags l in
  let (d, l) := take_digits l in
  let (lp, l) := parse_prec 35 l in
  let (rp, l) := parse_prec 46 l in
  ({| left_justify := left_justify f; force_sign := force_sign f; space_sign := space_sign f; use_parens := use_parens f;
      suppress := suppress f; width := parse d; lprec := lp; rprec := rp; intl := false |}, l).
Definition international (f : flags) : flags :=
  {| left_justify := left_justify f; force_sign := force_sign f; space_sign := space_sign f; use_parens := use_parens f;
     suppress := suppress f; width := width f; lprec := lprec f; rprec := rprec f; intl := true |}.

(* The buffer, from byte pos on, receives bytes. *)
Definition blit (buf : list Z) (pos : Z) (t : list Z) : list Z :=
  firstn (Z.to_nat pos) buf ++ t ++ skipn (Z.to_nat (pos + len t)) buf.

(* 38-150: the loop; the buffer and the result *)
Fixpoint go (fuel : nat) (buf : list Z) (pos : Z) (l : list Z) (args : list amount) : res (list Z * Z) :=
  match fuel with
  | O => OutOfFuel
  | S n =>
      match l with
      | [] => if len buf <=? pos then Ok (buf, -1) else Ok (blit buf pos [0], pos)
      | c :: l =>
          if negb (c =? 37) then
            if len buf <=? pos then Ok (buf, -1)
            else go n (blit buf pos [c mod 256]) (pos + 1) l args
          else
            match l with
            | 37 :: l =>
                if len buf <=? pos then Ok (buf, -1)
                else go n (blit buf pos [37]) (pos + 1) l args
            | _ =>
                let (f, l) := parse_spec l in
                match l with
                | c :: l =>
                    if (c =? 105) || (c =? 110) then
                      match args with
                      | v :: args =>
                          match format_monetary v (if c =? 105 then international f else f) with
                          | Some t =>
                              if len buf - pos <? len t then Ok (buf, -1)
                              else go n (blit buf pos t) (pos + len t) l args
                          | None => Ok (buf, -1)
                          end
                      | [] => Fault
                      end
                    else Ok (buf, -1)
                | [] => Ok (buf, -1)
                end
            end
      end
  end.
(* 16-28 *)
Definition strfmon (fuel : nat) (buf : list Z) (fmt : list Z) (args : list amount) : res (list Z * Z) :=
  if len buf =? 0 then Ok (buf, -1) else go fuel buf 0 fmt args.
