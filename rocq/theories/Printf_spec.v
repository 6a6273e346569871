(* Specification for C42 and C43: what the C standard says a format prints, for formats
   made of text, %% and the conversions d i u o x X b B s c.  Only [numeral] (positional
   notation) is shared with the model. *)
From Verif Require Import Base Numeral Printf_model.

(* A width or precision: digits in the format, or '*' with the int argument. *)
Inductive field := FNum (ds : list Z) | FStar (v : Z).
Definition fvalue (f : field) : Z := match f with FNum ds => dvalue 10 ds | FStar v => v end.
Definition ffield (f : field) : list Z := match f with FNum ds => map (fun d => 48 + d) ds | FStar _ => [42] end.
Definition fargs (f : option field) : list Z := match f with Some (FStar v) => [v] | _ => [] end.

(* A conversion: flag characters, width, precision, length modifier, conversion
   character, argument. *)
Record dir := D {
  d_flags : list Z; d_width : option field; d_prec : option field;
  d_size : intkind; d_conv : Z; d_arg : Z }.

Definition modifier (k : intkind) : list Z :=
  match k with
  | IByte => [104; 104] | IShort => [104] | IInt => [] | ILong => [108] | ILongLong => [108; 108]
  | IIntMax => [106] | IPtrDiff => [116] | ISize => [122]
  end.
Definition body_of (d : dir) : list Z :=
  d_flags d ++
  (match d_width d with Some f => ffield f | None => [] end) ++
  (match d_prec d with Some f => 46 :: ffield f | None => [] end) ++
  modifier (d_size d) ++ [d_conv d].
Definition render (d : dir) : list Z := 37 :: body_of d.
Definition dargs (d : dir) : list Z :=
  if d_conv d =? 37 then [] else fargs (d_width d) ++ fargs (d_prec d) ++ [d_arg d].

(* A format: text and conversions in turn. *)
Definition format_of (l : list (list Z * dir)) (last : list Z) : list Z :=
  concat (map (fun x => fst x ++ render (snd x)) l) ++ last.
Definition args_of (l : list (list Z * dir)) : list Z := concat (map (fun x => dargs (snd x)) l).

Definition has (c : Z) (d : dir) : bool := existsb (Z.eqb c) (d_flags d).
Definition is_num (ds : list Z) : Prop := ds <> [] /\ Forall (fun x => 0 <= x < 10) ds /\ dvalue 10 ds < 2 ^ 31.
Definition is_int32 (v : Z) : Prop := - 2 ^ 31 <= v < 2 ^ 31.
Definition good_field (f : field) : Prop := match f with FNum ds => is_num ds | FStar v => is_int32 v end.
Definition int_conv (c : Z) : Prop := In c [100; 105; 117; 111; 120; 88; 98; 66].
Definition str_conv (c : Z) : Prop := c = 115 \/ c = 99.

(* Well-formed conversions. *)
Definition good_dir (d : dir) : Prop :=
  (int_conv (d_conv d) \/
   (str_conv (d_conv d) /\ d_size d = IInt /\ has 48 d = false /\ (d_conv d = 115 -> 0 < d_arg d < 2 ^ 64)) \/
   d = D [] None None IInt 37 0) /\
  Forall (fun c => In c [35; 48; 45; 32; 43]) (d_flags d) /\
  (forall f, d_width d = Some f -> good_field f /\ (forall ds, f = FNum ds -> hd 0 ds <> 0)) /\
  (forall f, d_prec d = Some f -> good_field f).
Definition good_text (t : list Z) : Prop := ~ In 37 t.

(* What the fields mean: a negative width argument is a '-' flag, a negative precision
   argument is no precision. *)
Definition the_width (d : dir) : Z := match d_width d with Some f => Z.abs (fvalue f) | None => 0 end.
Definition is_left (d : dir) : bool :=
  has 45 d || (match d_width d with Some f => fvalue f <? 0 | None => false end).
Definition the_prec (d : dir) : option Z :=
  match d_prec d with Some f => if fvalue f <? 0 then None else Some (fvalue f) | None => None end.

(* The value of the argument after conversion to the type of the length modifier. *)
Definition size_bits (k : intkind) : Z := match k with IByte => 8 | IShort => 16 | IInt => 32 | _ => 64 end.
Definition is_signed (c : Z) : bool := (c =? 100) || (c =? 105).
Definition converted (d : dir) (v : Z) : Prop :=
  let b := size_bits (d_size d) in
  (if is_signed (d_conv d) then - 2 ^ (b - 1) <= v < 2 ^ (b - 1) else 0 <= v < 2 ^ b) /\
  (2 ^ b | d_arg d - v).

Definition the_base (c : Z) : Z :=
  if c =? 111 then 8 else if (c =? 120) || (c =? 88) then 16 else if (c =? 98) || (c =? 66) then 2 else 10.
Definition digit_text (c d : Z) : Z := if d <? 10 then 48 + d else if c =? 88 then 65 + (d - 10) else 97 + (d - 10).
Definition rep (c n : Z) : list Z := repeat c (Z.to_nat n).

(* The digits of |v| (at least the precision), and the sign or prefix. *)
Definition the_digits (d : dir) (ds : list Z) (v : Z) : list Z :=
  let p := match the_prec d with Some p => p | None => 1 end in
  let t := if (p =? 0) && (v =? 0) then [] else rep 48 (p - len ds) ++ map (digit_text (d_conv d)) ds in
  if has 35 d && (d_conv d =? 111) then if hd 0 t =? 48 then t else 48 :: t else t.
Definition the_prefix (d : dir) (v : Z) : list Z :=
  if is_signed (d_conv d) then
    (if v <? 0 then [45] else if has 43 d then [43] else if has 32 d then [32] else [])
  else if has 35 d && negb (v =? 0) then
    (if d_conv d =? 120 then [48; 120] else if d_conv d =? 88 then [48; 88]
     else if d_conv d =? 98 then [48; 98] else if d_conv d =? 66 then [48; 66] else [])
  else [].
(* Padding to the field width. *)
Definition the_field (d : dir) (zeros : bool) (prefix digits : list Z) : list Z :=
  let k := the_width d - len (prefix ++ digits) in
  if is_left d then prefix ++ digits ++ rep 32 k
  else if zeros then prefix ++ rep 48 k ++ digits
  else rep 32 k ++ prefix ++ digits.

(* [o] is what the conversion prints. *)
Definition prints (m : mem) (d : dir) (o : list Z) : Prop :=
  if d_conv d =? 37 then o = [37]
  else if d_conv d =? 99 then o = the_field d false [] [d_arg d mod 256]
  else if d_conv d =? 115 then
    exists s, cstr m (d_arg d) s /\
      o = the_field d false [] (match the_prec d with Some p => firstn (Z.to_nat p) s | None => s end)
  else
    exists v ds, converted d v /\ numeral (the_base (d_conv d)) ds (Z.abs v) /\
      o = the_field d (has 48 d && match the_prec d with None => true | _ => false end) (the_prefix d v) (the_digits d ds v).
Inductive prints_all (m : mem) (last : list Z) : list (list Z * dir) -> list Z -> Prop :=
| pa_nil : prints_all m last [] last
| pa_cons t d o l os : prints m d o -> prints_all m last l os -> prints_all m last ((t, d) :: l) (t ++ o ++ os).

(* The argument of every %s is a string of fewer than n bytes. *)
Definition strings_at (m : mem) (l : list (list Z * dir)) (n : Z) : Prop :=
  forall t d, In (t, d) l -> d_conv d = 115 -> exists s, cstr m (d_arg d) s /\ len s < n.

(* The combinations the code gets wrong (each refuted in Prop_Printf.v):
   Q1 '0' with '-' or a negative width argument;  Q2 '0' with a negative precision argument;
   Q3 '+' with ' ';  Q4 a precision larger than the number of digits of a negative number;
   Q5 '0' with '+' or ' ' on a non-negative number;  Q6 '+' or ' ' on zero with precision 0;
   Q7 '0' with '#' on a nonzero number (o, x, X, b, B);  Q8 '#' with 'o' when the precision
   is the number of digits, or on zero with precision 0. *)
Definition no_quirk (d : dir) : Prop :=
  int_conv (d_conv d) ->
  (has 48 d = true -> d_prec d = None -> is_left d = false) /\
  (has 48 d = true -> d_prec d <> None -> the_prec d <> None) /\
  forall v ds, converted d v -> numeral (the_base (d_conv d)) ds (Z.abs v) ->
  (is_signed (d_conv d) = true ->
    (0 <= v -> has 43 d && has 32 d = false) /\
    (v < 0 -> forall p, the_prec d = Some p -> p <= len ds) /\
    (0 <= v -> has 48 d = true -> d_prec d = None -> has 43 d || has 32 d = false) /\
    (v = 0 -> the_prec d = Some 0 -> has 43 d || has 32 d = false)) /\
  (is_signed (d_conv d) = false -> has 35 d = true -> d_conv d <> 117 ->
    (v <> 0 -> d_prec d = None -> has 48 d = false) /\
    (d_conv d = 111 -> v <> 0 -> the_prec d <> Some (len ds)) /\
    (d_conv d = 111 -> v = 0 -> the_prec d <> Some 0)).
