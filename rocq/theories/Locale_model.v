(* Locales: /repo/src/header/locale/mod.rs 24-183, /repo/src/header/locale/data.rs, /repo/src/header/locale/constants.rs.
   Simplified: a LocaleData is its name and the contents of its fields (the pointers of lconv are set to the fields after every change,
   update_lconv_pointers); groupings are without the 0 at the end; characters are lists of one.  c_char is i8.  Space is ASCII space
   where str::trim means Unicode's.  The handles of locales are numbers; the contents of files are given as lines. *)
From Coq Require Import String.
From Verif Require Import Base Ctype_spec.
Open Scope string_scope.
Open Scope list_scope.
Open Scope Z_scope.

Definition text := list Z.
Inductive field :=
  | decimal_point | thousands_sep | grouping
  | int_curr_symbol | currency_symbol | mon_decimal_point | mon_thousands_sep | mon_grouping | positive_sign | negative_sign
  | int_frac_digits | frac_digits | p_cs_precedes | p_sep_by_space | n_cs_precedes | n_sep_by_space | p_sign_posn | n_sign_posn
  | int_p_cs_precedes | int_p_sep_by_space | int_n_cs_precedes | int_n_sep_by_space | int_p_sign_posn | int_n_sign_posn.
Inductive kind := Str | Group | Char.
Definition kind_of (f : field) : kind :=
  match f with
  | decimal_point | thousands_sep | int_curr_symbol | currency_symbol | mon_decimal_point | mon_thousands_sep | positive_sign | negative_sign => Str
  | grouping | mon_grouping => Group
  | _ => Char
  end.
Record locale := Loc { name : text; contents : field -> list Z }.
Definition CHAR_MAX : Z := 127.

(* PosixLocaleDef::parse 268-329.  raw: the last value of each keyword *)
Definition key (f : field) : string :=
  match f with
  | decimal_point => "decimal_point" | thousands_sep => "thousands_sep" | grouping => "grouping" | int_curr_symbol => "int_curr_symbol"
  | currency_symbol => "currency_symbol" | mon_decimal_point => "mon_decimal_point" | mon_thousands_sep => "mon_thousands_sep"
  | mon_grouping => "mon_grouping" | positive_sign => "positive_sign" | negative_sign => "negative_sign" | int_frac_digits => "int_frac_digits"
  | frac_digits => "frac_digits" | p_cs_precedes => "p_cs_precedes" | p_sep_by_space => "p_sep_by_space" | n_cs_precedes => "n_cs_precedes"
  | n_sep_by_space => "n_sep_by_space" | p_sign_posn => "p_sign_posn" | n_sign_posn => "n_sign_posn" | int_p_cs_precedes => "int_p_cs_precedes"
  | int_p_sep_by_space => "int_p_sep_by_space" | int_n_cs_precedes => "int_n_cs_precedes" | int_n_sep_by_space => "int_n_sep_by_space"
  | int_p_sign_posn => "int_p_sign_posn" | int_n_sign_posn => "int_n_sign_posn"
  end.
Definition fields : list field :=
  [decimal_point; thousands_sep; int_curr_symbol; currency_symbol; mon_decimal_point; mon_thousands_sep; positive_sign; negative_sign; grouping; mon_grouping;
   int_frac_digits; frac_digits; p_cs_precedes; p_sep_by_space; n_cs_precedes; n_sep_by_space; p_sign_posn; n_sign_posn;
   int_p_cs_precedes; int_p_sep_by_space; int_n_cs_precedes; int_n_sep_by_space; int_p_sign_posn; int_n_sign_posn].
Definition text_eqb (a b : text) : bool := if list_eq_dec Z.eq_dec a b then true else false.
Definition field_of (k : text) : option field := find (fun f => text_eqb k (codes (key f))) fields.
Definition field_eq_dec (f g : field) : {f = g} + {f <> g}.
Proof. decide equality. Defined.
Definition space (c : Z) : bool := (c =? 32) || (c =? 9) || (c =? 10) || (c =? 12) || (c =? 13).
(* split_ascii_whitespace; cur: the word begun, backwards *)
Fixpoint words_from (cur : text) (l : text) : list text :=
  match l with
  | [] => match cur with [] => [] | _ => [rev cur] end
  | c :: l => if space c then match cur with [] => words_from [] l | _ => rev cur :: words_from [] l end else words_from (c :: cur) l
  end.
Definition words (l : text) : list text := words_from [] l.
(* 287-298: the value, and the lines after it *)
Fixpoint value (parts : list text) (lines : list text) : text * list text :=
  match parts with
  | [] => ([], lines)
  | chunk :: _ =>
      if last chunk 0 =? 92 then
        match lines with
        | [] => (removelast chunk, [])
        | l :: ls => let (v, r) := value (words l) ls in (removelast chunk ++ v, r)
        end
      else (chunk, lines)
  end.
Fixpoint parse (fuel : nat) (lines : list text) (raw : field -> option text) : field -> option text :=
  match fuel, lines with
  | S fuel, line :: lines =>
      match words line with
      | [] => parse fuel lines raw
      | k :: parts =>
          if hd 0 k =? 35 then parse fuel lines raw
          else
            let (val, lines) := value parts lines in
            let raw := match val, field_of k with
                       | _ :: _, Some f => fun g => if field_eq_dec g f then Some val else raw g
                       | _, _ => raw
                       end in
            parse fuel lines raw
      end
  | _, _ => raw
  end.
(* parse_int 338-346: i8 from_str *)
Definition digit (c : Z) : bool := (48 <=? c) && (c <=? 57).
Definition parse_int (v : text) : option Z :=
  let number ds := match ds with [] => None | _ => if forallb digit ds then Some (fold_left (fun a c => a * 10 + (c - 48)) ds 0) else None end in
  match v with
  | 45 :: ds => match number ds with Some 0 => Some 0 | _ => None end
  | 43 :: ds => match number ds with Some n => if n <=? 127 then Some n else None | None => None end
  | ds => match number ds with Some n => if n <=? 127 then Some n else None | None => None end
  end.
Fixpoint split_at (sep : Z) (cur : text) (l : text) : list text :=
  match l with [] => [rev cur] | c :: l => if c =? sep then rev cur :: split_at sep [] l else split_at sep (c :: cur) l end.
Definition or_max (o : option Z) : Z := match o with Some n => n | None => CHAR_MAX end.
Definition parse_int_group (v : text) : list Z := map (fun w => or_max (parse_int w)) (split_at 59 [] v).
(* parse_str 349-368: up to the closing quotation mark, with nothing after it; or to the end *)
Fixpoint quoted (l : text) : option text :=
  match l with
  | [] => Some []
  | c :: l => if c =? 34 then match l with [] => Some [] | _ => None end else match quoted l with Some r => Some (c :: r) | None => None end
  end.
Definition parse_str (v : text) : option text :=
  match v with c :: l => if c =? 34 then match quoted l with Some r => if existsb (Z.eqb 0) r then None else Some r | None => None end else None | [] => None end.
(* LocaleData::new 96-132 *)
Definition new_data (n : text) (raw : field -> option text) : locale :=
  Loc n (fun f => match kind_of f, raw f with
                  | Str, Some v => match parse_str v with Some r => r | None => [] end
                  | Str, None => []
                  | Group, Some v => parse_int_group v
                  | Group, None => []
                  | Char, Some v => [or_max (parse_int v)]
                  | Char, None => [CHAR_MAX]
                  end).
Definition posix : locale := new_data (codes "C") (fun _ => None).
(* posix_lconv 41-73 *)
Definition posix_lconv (f : field) : list Z := match f with decimal_point => codes "." | _ => match kind_of f with Char => [CHAR_MAX] | _ => [] end end.

Definition LC_MONETARY : Z := 3.
Definition LC_NUMERIC : Z := 4.
Definition LC_ALL : Z := 6.
(* copy_category 151-189 *)
Definition copied (category : Z) (f : field) : bool :=
  if category =? LC_NUMERIC then match f with decimal_point | thousands_sep | grouping | frac_digits => true | _ => false end
  else if category =? LC_MONETARY then match f with decimal_point | thousands_sep | grouping | frac_digits => false | _ => true end
  else false.
Definition copy_category (self other : locale) (category : Z) : locale :=
  if category =? LC_ALL then other else Loc (name self) (fun f => if copied category f then contents other f else contents self f).

(* global: the names and the data; thread: the handle of each thread's locale, 0 for none; heap: the locales by handle; next: not yet used *)
Record world := World { global : option (list text * locale); thread : Z -> Z; heap : Z -> option locale; next : Z }.
Definition GLOBAL : Z := -1.
(* files: the lines of the file of a name, or an error *)
Definition load (files : text -> option (list text)) (n : text) : option locale :=
  if text_eqb n [] || text_eqb n (codes "C") || text_eqb n (codes "POSIX") then Some posix
  else match files n with Some lines => Some (new_data n (parse (List.length lines) lines (fun _ => None))) | None => None end.
Fixpoint set_nth (l : list text) (n : nat) (v : text) : list text :=
  match l, n with [], _ => [] | _ :: l, O => v :: l | x :: l, S n => x :: set_nth l n v end.
Definition as_usize (n : Z) : Z := n mod 2 ^ 64.
Definition get_name (names : list text) (category : Z) : option text := if as_usize category <? len names then nth_error names (Z.to_nat (as_usize category)) else None.
Definition setlocale (files : text -> option (list text)) (utf8 : text -> bool) (w : world) (category : Z) (loc : option text) : world * option text :=
  let g := match global w with Some g => g | None => (repeat (codes "C") 7, posix) end in
  let w := World (Some g) (thread w) (heap w) (next w) in
  match loc with
  | None => (w, get_name (fst g) category)
  | Some n =>
      let n := if utf8 n then n else codes "C" in
      match load files n with
      | Some l =>
          let data := copy_category (snd g) l category in
          match get_name (fst g) category with
          | Some _ => (World (Some (set_nth (fst g) (Z.to_nat (as_usize category)) n, data)) (thread w) (heap w) (next w), Some n)
          | None => (World (Some (fst g, data)) (thread w) (heap w) (next w), None)
          end
      | None => (w, None)
      end
  end.
(* t: the calling thread *)
Definition uselocale (w : world) (t : Z) (newloc : Z) : world * Z :=
  let old := if thread w t =? 0 then GLOBAL else thread w t in
  (if newloc =? 0 then w
   else World (global w) (fun u => if u =? t then (if newloc =? GLOBAL then 0 else newloc) else thread w u) (heap w) (next w), old).
(* what the lconv returned holds; Fault: the locale has been freed *)
Definition localeconv (w : world) (t : Z) : res (field -> list Z) :=
  let current := snd (uselocale w t 0) in
  if (current =? GLOBAL) || (current =? 0) then Ok match global w with Some g => contents (snd g) | None => posix_lconv end
  else match heap w current with Some l => Ok (contents l) | None => Fault end.
Definition allocate (w : world) (l : locale) : world * Z :=
  (World (global w) (thread w) (fun h => if h =? next w then Some l else heap w h) (next w + 1), next w).
Definition newlocale (files : text -> option (list text)) (w : world) (mask : Z) (n : text) (base : Z) : res (world * Z) :=
  match load files n with
  | None => Ok (w, 0)
  | Some l =>
      if (base =? GLOBAL) || (base =? 0) then Ok (allocate w l)
      else match heap w base with
           | None => Fault
           | Some b =>
               let l := if Z.land mask 16 =? 0 then copy_category l b LC_NUMERIC else l in
               let l := if Z.land mask 8 =? 0 then copy_category l b LC_MONETARY else l in
               Ok (allocate w l)
           end
  end.
Definition freelocale (w : world) (loc : Z) : res world :=
  if (loc =? 0) || (loc =? GLOBAL) then Ok w
  else match heap w loc with Some _ => Ok (World (global w) (thread w) (fun h => if h =? loc then None else heap w h) (next w)) | None => Fault end.
Definition duplocale (w : world) (loc : Z) : res (world * Z) :=
  if loc =? 0 then Ok (w, 0)
  else if loc =? GLOBAL then Ok (allocate w posix)
  else match heap w loc with Some l => Ok (allocate w l) | None => Fault end.
