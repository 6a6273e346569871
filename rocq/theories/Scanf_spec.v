(* Specification for C44: what the C standard says sscanf does with a format made of
   ordinary characters, spaces, integer and string conversions.  Written without the model's
   functions; [dvalue] is positional notation, [le_bytes] the representation of integers. *)
From Verif Require Import Base Numeral Word_mem Printf_model.

Definition isspace (c : Z) : Prop := 9 <= c <= 13 \/ c = 32.
(* The digits of a base and their values. *)
Definition dval (c : Z) : Z := if c <=? 57 then c - 48 else if c <=? 70 then c - 55 else c - 87.
Definition base_digit (b c : Z) : Prop :=
  (48 <= c <= 57 \/ 65 <= c <= 70 \/ 97 <= c <= 102) /\ dval c < b.
Definition digits_of (b : Z) (t : list Z) (v : Z) : Prop :=
  t <> [] /\ Forall (base_digit b) t /\ v = dvalue b (map dval t).
Definition is_x (c : Z) : Prop := c = 120 \/ c = 88.

(* Text t is an unsigned integer constant of conversion c, with value v. *)
Inductive constant : Z -> list Z -> Z -> Prop :=
| k_dec c t v : c = 100 \/ c = 117 -> digits_of 10 t v -> constant c t v
| k_oct t v : digits_of 8 t v -> constant 111 t v
| k_hex c t v : c = 120 \/ c = 88 -> digits_of 16 t v -> constant c t v
| k_hex0 c x t v : c = 120 \/ c = 88 -> is_x x -> digits_of 16 t v -> constant c (48 :: x :: t) v
| k_i10 t v : hd 0 t <> 48 -> digits_of 10 t v -> constant 105 t v
| k_i8 t v : digits_of 8 (48 :: t) v -> constant 105 (48 :: t) v
| k_i16 x t v : is_x x -> digits_of 16 t v -> constant 105 (48 :: x :: t) v.
(* With a sign. *)
Inductive subject : Z -> list Z -> Z -> Prop :=
| s_plain c t v : constant c t v -> subject c t v
| s_plus c t v : constant c t v -> subject c (43 :: t) v
| s_minus c t v : constant c t v -> subject c (45 :: t) (- v).

(* Text t is the item that conversion c with field width w takes from t ++ rest: no longer
   text within the width is one, or the beginning of one. *)
Definition item_of (c : Z) (w : option Z) (t rest : list Z) (v : Z) : Prop :=
  subject c t v /\ (forall n, w = Some n -> len t <= n) /\
  (w = Some (len t) \/ rest = [] \/ ~ exists e v', subject c (t ++ hd 0 rest :: e) v').

(* Directives: an ordinary character; a space; a conversion with '*', width, modifier,
   conversion character and pointer argument; %%; %s; %c; %[ with its scanlist, which may be
   negated and end in a hyphen. *)
Inductive sitem := SOne (c : Z) | SRange (a b : Z).
Inductive directive :=
| SLit (c : Z) | SSpace
| SInt (ignore : bool) (width : list Z) (k : intkind) (c p : Z)
| SPercent
| SWord (ignore : bool) (width : list Z) (p : Z)
| SChars (ignore : bool) (width : list Z) (p : Z)
| SSet (ignore : bool) (width : list Z) (neg : bool) (items : list sitem) (dash : bool) (p : Z).
Definition sitem_text (i : sitem) : list Z := match i with SOne c => [c] | SRange a b => [a; 45; b] end.
Definition listed (items : list sitem) (dash : bool) (c : Z) : Prop :=
  Exists (fun i => match i with SOne d => c = d | SRange a b => a <= c <= b end) items \/ (dash = true /\ c = 45).
Definition in_set (neg : bool) (items : list sitem) (dash : bool) (c : Z) : Prop :=
  if neg then ~ listed items dash c else listed items dash c.
Definition modifier_text (k : intkind) : list Z :=
  match k with
  | IByte => [104; 104] | IShort => [104] | IInt => [] | ILong => [108] | ILongLong => [108; 108]
  | IIntMax => [106] | IPtrDiff => [116] | ISize => [122]
  end.
Definition spec_text (ig : bool) (w rest : list Z) : list Z := 37 :: (if ig then [42] else []) ++ map (fun d => 48 + d) w ++ rest.
Definition dtext (d : directive) : list Z :=
  match d with
  | SPercent => [37; 37]
  | SWord ig w _ => spec_text ig w [115]
  | SChars ig w _ => spec_text ig w [99]
  | SSet ig w neg items dash _ =>
      spec_text ig w (91 :: (if neg then [94] else []) ++ concat (map sitem_text items) ++ (if dash then [45] else []) ++ [93])
  | SLit c => [c] | SSpace => [32]
  | SInt ig w k c _ => 37 :: (if ig then [42] else []) ++ map (fun d => 48 + d) w ++ modifier_text k ++ [c]
  end.
Definition text_of (l : list directive) : list Z := concat (map dtext l).
Definition pointers (l : list directive) : list Z :=
  concat (map (fun d => match d with
    | SInt false _ _ _ p | SWord false _ p | SChars false _ p | SSet false _ _ _ _ p => [p] | _ => [] end) l).
Definition width (w : list Z) : option Z := match w with [] => None | _ => Some (dvalue 10 w) end.
Definition good_width (w : list Z) : Prop := Forall (fun x => 0 <= x < 10) w /\ (w <> [] -> 0 < dvalue 10 w < 2 ^ 64).
(* the characters of a scanlist: a bracket can only come first, alone; no hyphens, except
   one at the end *)
Definition set_char (c : Z) : Prop := 0 < c < 256 /\ c <> 45 /\ c <> 93.
Definition good_item (i : sitem) : Prop := match i with SOne c => set_char c | SRange a b => set_char a /\ set_char b /\ a <= b end.
Definition good_set (neg : bool) (items : list sitem) : Prop :=
  match items with
  | [] => False
  | i :: r => (i = SOne 93 \/ good_item i) /\ Forall good_item r /\ (neg = false -> hd 0 (sitem_text i) <> 94)
  end.
Definition good_directive (d : directive) : Prop :=
  match d with
  | SLit c => c <> 37 /\ ~ isspace c
  | SSpace | SPercent => True
  | SWord _ w _ | SChars _ w _ => good_width w
  | SSet _ w neg items _ _ => good_width w /\ good_set neg items
  | SInt _ w _ c _ =>
      In c [100; 105; 117; 111; 120; 88] /\ Forall (fun x => 0 <= x < 10) w /\ (w <> [] -> 0 < dvalue 10 w < 2 ^ 64)
  end.

Definition nbytes (k : intkind) : nat := match k with IByte => 1 | IShort => 2 | IInt => 4 | _ => 8 end.
Definition unsigned_conv (c : Z) : bool := negb ((c =? 100) || (c =? 105)).
(* v is representable in the type of the argument. *)
Definition fits (k : intkind) (c v : Z) : Prop :=
  if unsigned_conv c && match k with IPtrDiff => false | _ => true end
  then 0 <= v < 256 ^ Z.of_nat (nbytes k)
  else - (256 ^ Z.of_nat (nbytes k) / 2) <= v < 256 ^ Z.of_nat (nbytes k) / 2.

(* The combinations the code gets wrong (each refuted in Prop_Scanf.v): a sign; "0x" for
   %x; "0x0" for %i. *)
Definition plain_text (c : Z) (t : list Z) : Prop :=
  hd 0 t <> 43 /\ hd 0 t <> 45 /\
  ((c = 120 \/ c = 88) -> hd 0 t = 48 -> ~ is_x (nth 1 t 0)) /\
  (c = 105 -> hd 0 t = 48 -> is_x (nth 1 t 0) -> nth 2 t 0 <> 48).

(* The directives match a prefix of the input, and store these bytes, in order.  [fresh]
   and the premises marked (+) delimit what the code gets right: it loses track of the
   input when it ends right after a conversion or space that is not the last directive,
   and when a field width cuts a number unless the previous directive left no character
   pending; and %i takes "00x" for a prefix.  A %s ended by its width loses a character. *)
Inductive scans : bool -> list directive -> list Z -> list (Z * list Z) -> Prop :=
| sc_end fresh u : scans fresh [] u []
| sc_lit fresh c l u st : scans true l u st -> scans fresh (SLit c :: l) (c :: u) st
| sc_space fresh w x u l st : Forall isspace w -> ~ isspace x ->
    scans false l (x :: u) st -> scans fresh (SSpace :: l) (w ++ x :: u) st
| sc_int fresh ig wd k c p l w t rest v st :
    Forall isspace w -> item_of c (width wd) t rest v -> fits k c v ->
    plain_text c t ->                                                              (* + *)
    scans (if match width wd with Some n => n =? len t | None => false end then fresh else false) l rest st ->
    (width wd = Some (len t) -> fresh = true /\ ~ (c = 105 /\ hd 0 t = 48)) ->     (* + *)
    (width wd <> Some (len t) -> rest <> [] \/ l = []) ->                          (* + *)
    ~ (c = 105 /\ Forall (eq 48) t /\ is_x (hd 0 rest)) ->                         (* + *)
    scans fresh (SInt ig wd k c p :: l) (w ++ t ++ rest)
      ((if ig then [] else [(p, le_bytes (nbytes k) (v mod 256 ^ Z.of_nat (nbytes k)))]) ++ st)
| sc_percent fresh l w rest st : Forall isspace w -> scans false l rest st ->
    (rest <> [] \/ l = []) ->                                                      (* + *)
    scans fresh (SPercent :: l) (w ++ 37 :: rest) st
| sc_word fresh ig wd p l w t rest st :
    Forall isspace w -> t <> [] -> Forall (fun c => ~ isspace c) t -> (forall n, width wd = Some n -> len t <= n) ->
    (width wd = Some (len t) \/ rest = [] \/ isspace (hd 0 rest)) -> scans false l rest st ->
    (l = [] \/ (rest <> [] /\ width wd <> Some (len t))) ->                        (* + *)
    scans fresh (SWord ig wd p :: l) (w ++ t ++ rest) ((if ig then [] else [(p, t ++ [0])]) ++ st)
| sc_chars fresh ig wd p l t rest st :
    len t = match width wd with Some n => n | None => 1 end ->
    scans (match wd with [] => false | _ => fresh end) l rest st ->
    (wd = [] -> rest <> [] \/ l = []) -> (wd <> [] -> fresh = true \/ l = []) ->    (* + *)
    scans fresh (SChars ig wd p :: l) (t ++ rest) ((if ig then [] else [(p, t)]) ++ st)
| sc_set fresh ig wd neg items dash p l t rest st :
    t <> [] -> Forall (in_set neg items dash) t -> (forall n, width wd = Some n -> len t <= n) ->
    (width wd = Some (len t) \/ rest = [] \/ ~ in_set neg items dash (hd 0 rest)) ->
    scans (if match width wd with Some n => n =? len t | None => false end then fresh else false) l rest st ->
    (width wd = Some (len t) -> fresh = true \/ l = []) ->                         (* + *)
    (width wd <> Some (len t) -> rest <> [] \/ l = []) ->                          (* + *)
    scans fresh (SSet ig wd neg items dash p :: l) (t ++ rest) ((if ig then [] else [(p, t ++ [0])]) ++ st).

Inductive stores : mem -> list (Z * list Z) -> mem -> Prop :=
| st_nil m : stores m [] m
| st_cons m m1 m2 p l r : stored m m1 p l -> stores m1 r m2 -> stores m ((p, l) :: r) m2.
