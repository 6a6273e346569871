(* Model of src/header/wctype (mod.rs, alpha.rs, punct.rs, casecmp.rs) and of
   wcscasecmp, wcsncasecmp and wcswidth of src/header/wchar/mod.rs.
   wint_t is u32, a table access out of bounds panics, u32 and i32 arithmetic wraps
   (release build). *)
From Coq Require Import String.
From Verif Require Import Base Ctype_spec Ctype_model Inet_model Wcs_model Wctype_tables.
Open Scope Z_scope.

(* An array as seen by the indexing operator. *)
Definition arr (A : Type) := Z -> option A.
Definition arr_of {A} (l : list A) : arr A := fun i => nth_error l (Z.to_nat i).
Definition idx {A} (t : arr A) (i : Z) : res A := match t i with Some v => Ok v | None => Panic end.
Definition u32 (x : Z) : Z := x mod 4294967296.

(* The two-level bit map of alpha.rs:9 and punct.rs:9 *)
Definition bitmap (t : arr Z) (wc : Z) : res Z :=
  row <- idx t (Z.shiftr wc 8) ;;
  byte <- idx t (row * 32 + Z.shiftr (Z.land wc 255) 3) ;;
  Ok (Z.land (Z.shiftr byte (Z.land wc 7)) 1).
(* alpha.rs:7-15 is *)
Definition alpha_is (t : arr Z) (wc : Z) : res Z :=
  if wc <? 131072 then bitmap t wc else if wc <? 196606 then Ok 1 else Ok 0.
(* punct.rs:7-12 is *)
Definition punct_is (t : arr Z) (wc : Z) : res Z :=
  if wc <? 131072 then bitmap t wc else Ok 0.

(* casecmp.rs:378-383 and 394-397: rules 0 and 1, a delta applied in one direction *)
Definition delta (c0 rt rd dir : Z) : Z := u32 (c0 + Z.land (u32 rd) (u32 (- Z.lxor rt dir))).

(* casecmp.rs:389-412: the binary search *)
Fixpoint except_loop (fuel : nat) (rules : arr Z) (exc : arr (Z * Z)) (c0 c dir xb xn : Z) : res Z :=
  match fuel with
  | O => OutOfFuel
  | S f =>
      if xn =? 0 then Ok c0 else
      '(attempt, rule) <- idx exc (xb + xn / 2) ;;
      if attempt =? c then
        r <- idx rules rule ;;
        let rt := Z.land r 255 in
        let rd := Z.shiftr r 8 in
        if rt <? 2 then Ok (delta c0 rt rd dir)
        else if dir =? 0 then Ok (u32 (c0 + 1)) else Ok (u32 (c0 - 1))
      else if c <? attempt then except_loop f rules exc c0 c dir xb (xn / 2)
      else except_loop f rules exc c0 c dir (xb + xn / 2) (xn - xn / 2)
  end.

(* casecmp.rs:358-414 casemap.  xn is at most 255, so a search that is not over after
   256 rounds never ends. *)
Definition casemap (tab rules bases : arr Z) (exc : arr (Z * Z)) (c0 dir : Z) : res Z :=
  if 131072 <=? c0 then Ok c0 else
  let b := Z.shiftr c0 8 in
  let c := Z.land c0 255 in
  let x := c / 3 in
  let y := c mod 3 in
  row <- idx tab b ;;
  v <- idx tab (row * 86 + x) ;;
  mt <- idx (arr_of [2048; 342; 57]) y ;;
  let v := Z.shiftr (v * mt) 11 mod 6 in
  base <- idx bases b ;;
  r <- idx rules (base + v) ;;
  let rt := Z.land r 255 in
  let rd := Z.shiftr r 8 in
  if rt <? 2 then Ok (delta c0 rt rd dir)
  else except_loop 256 rules exc c0 c dir (Z.shiftr (u32 rd) 8) (Z.land rd 255).

(* mod.rs:47-49 iswalpha *)
Definition iswalpha (wc : Z) : res Z := alpha_is (arr_of alpha_table) wc.
(* mod.rs:125-127 iswpunct *)
Definition iswpunct (wc : Z) : res Z := punct_is (arr_of punct_table) wc.
(* mod.rs:184-192 towlower, towupper *)
Definition towlower (wc : Z) : res Z :=
  casemap (arr_of case_tab) (arr_of case_rules) (arr_of case_rulebases) (arr_of case_exceptions) wc 0.
Definition towupper (wc : Z) : res Z :=
  casemap (arr_of case_tab) (arr_of case_rules) (arr_of case_rulebases) (arr_of case_exceptions) wc 1.
(* mod.rs:90-92 iswdigit *)
Definition iswdigit (wc : Z) : Z := b2i (u32 (wc - 48) <? 10).
(* mod.rs:41-43 iswalnum *)
Definition iswalnum (wc : Z) : res Z :=
  if negb (iswdigit wc =? 0) then Ok 1 else a <- iswalpha wc ;; Ok (b2i (negb (a =? 0))).
(* mod.rs:53-55 iswblank: the argument is cast to int *)
Definition iswblank (wc : Z) : Z := isblank (to_i32 wc).
(* mod.rs:59-66 iswcntrl *)
Definition iswcntrl (wc : Z) : Z :=
  b2i ((wc <? 32) || (u32 (wc - 127) <? 33) || (u32 (wc - 8232) <? 2) || (u32 (wc - 65529) <? 3)).
(* mod.rs:108-121 iswprint *)
Definition iswprint (wc : Z) : Z :=
  if wc <? 255 then b2i (33 <=? Z.land (wc + 1) 127)
  else if (wc <? 8232) || (u32 (wc - 8234) <? 55296 - 8234) || (u32 (wc - 57344) <? 65529 - 57344) then 1
  else if (1114111 - 65532 <? u32 (wc - 65532)) || (Z.land wc 65534 =? 65534) then 0
  else 1.
(* mod.rs:131-158 iswspace *)
Definition iswspace (wc : Z) : Z :=
  b2i (existsb (Z.eqb wc)
    [32; 9; 10; 13; 11; 12; 133; 8192; 8193; 8194; 8195; 8196; 8197; 8198; 8200; 8201; 8202; 8232; 8233; 8287; 12288]).
(* mod.rs:96-98 iswgraph *)
Definition iswgraph (wc : Z) : Z := b2i ((iswspace wc =? 0) && negb (iswprint wc =? 0)).
(* mod.rs:102-104 iswlower, 162-164 iswupper *)
Definition iswlower (wc : Z) : res Z := u <- towupper wc ;; Ok (b2i (negb (u =? wc))).
Definition iswupper (wc : Z) : res Z := l <- towlower wc ;; Ok (b2i (negb (l =? wc))).
(* mod.rs:168-170 iswxdigit *)
Definition iswxdigit (wc : Z) : Z :=
  b2i ((u32 (wc - 48) <? 10) || (u32 (Z.lor wc 32 - 97) <? 6)).

(* mod.rs:70-86 iswctype, with the constants of 23-34 *)
Definition iswctype (wc desc : Z) : res Z :=
  if desc =? 1 then iswalnum wc
  else if desc =? 2 then iswalpha wc
  else if desc =? 3 then Ok (iswblank wc)
  else if desc =? 4 then Ok (iswcntrl wc)
  else if desc =? 5 then Ok (iswdigit wc)
  else if desc =? 6 then Ok (iswgraph wc)
  else if desc =? 7 then iswlower wc
  else if desc =? 8 then Ok (iswprint wc)
  else if desc =? 9 then iswpunct wc
  else if desc =? 10 then Ok (iswspace wc)
  else if desc =? 11 then iswupper wc
  else if desc =? 12 then Ok (iswxdigit wc)
  else Ok 0.

Definition streq (s : list Z) (t : string) : bool := if list_eq_dec Z.eq_dec s (codes t) then true else false.
(* mod.rs:214-232 wctype *)
Definition wctype (fuel : nat) (m : mem) (name : Z) : res Z :=
  s <- read_str fuel m name ;;
  Ok (if streq s "alnum" then 1
      else if streq s "alpha" then 2
      else if streq s "blank" then 3
      else if streq s "cntrl" then 4
      else if streq s "digit" then 5
      else if streq s "graph" then 6
      else if streq s "lower" then 7
      else if streq s "print" then 8
      else if streq s "punct" then 9
      else if streq s "space" then 10
      else if streq s "upper" then 11
      else if streq s "xdigit" then 12
      else 0).
(* mod.rs:199-207 wctrans *)
Definition wctrans (fuel : nat) (m : mem) (class : Z) : res Z :=
  s <- read_str fuel m class ;;
  Ok (if streq s "toupper" then 1 else if streq s "tolower" then 2 else 0).
(* mod.rs:174-180 towctrans *)
Definition towctrans (wc trans : Z) : res Z :=
  if trans =? 1 then towupper wc else if trans =? 2 then towlower wc else Ok wc.

(* wchar/mod.rs:1095-1107 wcscasecmp; a cell holds a wchar_t (i32), cast to wint_t *)
Fixpoint wcscasecmp (fuel : nat) (m : mem) (s1 s2 : Z) : res Z :=
  match fuel with
  | O => OutOfFuel
  | S f =>
      a <- ld m s1 ;; b <- ld m s2 ;;
      la <- towlower (u32 a) ;; lb <- towlower (u32 b) ;;
      if negb (a =? 0) && negb (b =? 0) && (la =? lb) then wcscasecmp f m (s1 + 1) (s2 + 1)
      else Ok (to_i32 (la - lb))
  end.

(* wchar/mod.rs:1111-1130 wcsncasecmp; the loop runs n times *)
Fixpoint wcsncasecmp_loop (fuel : nat) (m : mem) (s1 s2 n : Z) : res Z :=
  match fuel with
  | O => OutOfFuel
  | S f =>
      if n =? 0 then Ok 0 else
      a <- ld m s1 ;; b <- ld m s2 ;;
      la <- towlower (u32 a) ;; lb <- towlower (u32 b) ;;
      if (a =? 0) || (b =? 0) || negb (la =? lb) then Ok (to_i32 (la - lb))
      else wcsncasecmp_loop f m (s1 + 1) (s2 + 1) (n - 1)
  end.
Definition wcsncasecmp (fuel : nat) (m : mem) (s1 s2 n : Z) : res Z :=
  if n =? 0 then Ok 0 else wcsncasecmp_loop fuel m s1 s2 n.

Section Width.
  (* unicode_width::UnicodeWidthChar::width, a dependency *)
  Variable width : Z -> option Z.
  (* wchar/mod.rs:981-991 wcwidth; char::from_u32 accepts the Unicode scalar values *)
  Definition wcwidth (wc : Z) : Z :=
    let w := u32 wc in
    if (w <? 55296) || ((57344 <=? w) && (w <? 1114112)) then
      match width w with Some n => n | None => -1 end
    else -1.
  (* wchar/mod.rs:953-963 wcswidth *)
  Fixpoint wcswidth_loop (fuel : nat) (m : mem) (pwcs i n total : Z) : res Z :=
    match fuel with
    | O => OutOfFuel
    | S f =>
        if n <=? i then Ok total else
        c <- ld m (pwcs + i) ;;
        if wcwidth c <? 0 then Ok (-1)
        else wcswidth_loop f m pwcs (i + 1) n (to_i32 (total + wcwidth c))
    end.
  Definition wcswidth (fuel : nat) (m : mem) (pwcs n : Z) : res Z := wcswidth_loop fuel m pwcs 0 n 0.
End Width.

(* A function that cannot panic. *)
Definition sure (f : Z -> Z) : Z -> res Z := fun w => Ok (f w).
(* The twelve functions, in the order of the names. *)
Definition classes : list (Z -> res Z) :=
  [iswalnum; iswalpha; sure iswblank; sure iswcntrl; sure iswdigit; sure iswgraph; iswlower; sure iswprint; iswpunct;
   sure iswspace; iswupper; sure iswxdigit].

