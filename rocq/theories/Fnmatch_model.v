(* Model of src/header/fnmatch/mod.rs.  The pattern is turned into a sequence of tokens,
   each taken once or any number of times, for the external crate posix_regex; [matches] is
   what its matches_exact is documented to decide for such a sequence followed by End
   (trusted; the crate is not in /repo).  FNM_CASEFOLD is passed to the crate and is not
   modelled: flags without it. *)
From Verif Require Import Base String_model Inet_model.

Definition FNM_NOMATCH : Z := 1.
Definition FNM_NOESCAPE : Z := 1.
Definition FNM_PATHNAME : Z := 2.
Definition FNM_PERIOD : Z := 4.
Definition flag (flags f : Z) : bool := Z.land flags f =? f.

(* posix_regex Token::Char, Token::OneOf; the boolean: Range(0, None) instead of ONCE *)
Inductive token := TChar (c : Z) | TOneOf (invert : bool) (list : list Z).

(* fnmatch/mod.rs:34-43 *)
Definition any (leading : bool) (flags : Z) : token :=
  TOneOf true ((if flag flags FNM_PATHNAME then [47] else []) ++
               (if leading && flag flags FNM_PERIOD then [46] else [])).
(* fnmatch/mod.rs:44-47 *)
Definition can_push (leading : bool) (flags c : Z) : bool :=
  (negb (c =? 47) || negb (flag flags FNM_PATHNAME)) &&
  (negb (c =? 46) || negb leading || negb (flag flags FNM_PERIOD)).
(* fnmatch/mod.rs:48-50 *)
Definition is_leading (flags c : Z) : bool := (c =? 47) && flag flags FNM_PATHNAME.

(* c..=end, on u8 *)
Fixpoint upto (k : nat) (c : Z) : list Z := match k with O => [] | S k => c :: upto k (c + 1) end.
Definition char_range (c e : Z) : list Z := upto (Z.to_nat (e - c + 1)) c.

(* fnmatch/mod.rs:103-111, after the character c, p behind it: one element of the list *)
Definition bracket_item (m : mem) (c p flags : Z) (wl : bool) : res (list Z * Z) :=
  d <- ld m p ;;
  range <- (if d =? 45 then e <- ld m (p + 1) ;; Ok (negb (e =? 0)) else Ok false) ;;
  if range : bool then
    e <- ld m (p + 1) ;;
    Ok (filter (can_push wl flags) (char_range c e), p + 2)
  else Ok (filter (can_push wl flags) [c], p).
(* fnmatch/mod.rs:84-112: the loop of a bracket expression; the list and the pointer *)
Fixpoint bracket (fuel : nat) (m : mem) (p flags : Z) (wl : bool) (acc : list Z) : res (list Z * Z) :=
  match fuel with
  | O => OutOfFuel
  | S f =>
      c <- ld m p ;;
      if c =? 0 then Ok (acc, p)
      else if c =? 93 then Ok (acc, p + 1)
      else if c =? 92 then
        c <- ld m (p + 1) ;;
        if c =? 0 then Ok (acc, p + 2)
        else '(l, q) <- bracket_item m c (p + 2) flags wl ;; bracket f m q flags wl (acc ++ l)
      else '(l, q) <- bracket_item m c (p + 1) flags wl ;; bracket f m q flags wl (acc ++ l)
  end.

(* fnmatch/mod.rs:59-126 *)
Fixpoint tokenize (fuel : nat) (m : mem) (p flags : Z) (leading collapse : bool) (acc : list (token * bool))
  : res (list (token * bool)) :=
  match fuel with
  | O => OutOfFuel
  | S f =>
      c <- ld m p ;;
      if c =? 0 then Ok acc
      else if (c =? 42) && collapse then tokenize f m (p + 1) flags false true acc
      else if (c =? 92) && flag flags FNM_NOESCAPE then
        c <- ld m (p + 1) ;;
        if c =? 0 then Ok acc
        else tokenize f m (p + 2) flags (is_leading flags c) false (acc ++ [(TChar c, false)])
      else if c =? 63 then tokenize f m (p + 1) flags false false (acc ++ [(any leading flags, false)])
      else if c =? 42 then tokenize f m (p + 1) flags false true (acc ++ [(any leading flags, true)])
      else if c =? 91 then
        b <- ld m (p + 1) ;;
        let invert := b =? 33 in
        '(l, q) <- bracket fuel m (if invert then p + 2 else p + 1) flags leading [] ;;
        tokenize f m q flags false false (acc ++ [(TOneOf invert l, false)])
      else tokenize f m (p + 1) flags (is_leading flags c) false (acc ++ [(TChar c, false)])
  end.

(* posix_regex *)
Definition accepts (t : token) (c : Z) : bool :=
  match t with TChar d => c =? d | TOneOf invert l => negb (eqb invert (existsb (Z.eqb c) l)) end.
Fixpoint matches (ts : list (token * bool)) (s : list Z) : bool :=
  match ts with
  | [] => match s with [] => true | _ => false end
  | (t, false) :: r => match s with c :: s => accepts t c && matches r s | [] => false end
  | (t, true) :: r =>
      (fix star (s : list Z) : bool :=
         matches r s || match s with c :: s => accepts t c && star s | [] => false end) s
  end.

(* fnmatch/mod.rs:144-169 *)
Definition fnmatch (fuel : nat) (m : mem) (pattern input flags : Z) : res Z :=
  s <- read_str fuel m input ;;
  ts <- tokenize fuel m pattern flags true false [] ;;
  Ok (if matches ts s then 0 else FNM_NOMATCH).
