(* crypt: /repo/src/header/crypt/mod.rs 60-120, md5.rs 125-147, sha.rs 55-140, blowfish.rs 14-90, pbkdf2.rs 40-64, scrypt.rs 11-113, argon2.rs,
   /repo/src/header/unistd/mod.rs 240-244 (crypt).  The hash functions themselves (inner_md5 and those of other crates, with their
   Base64 text) are given.  A setting that is not UTF-8 is EINVAL in crypt_r: settings here are UTF-8.  Slicing a str elsewhere than between
   characters panics. *)
From Coq Require Import String.
From Verif Require Import Base Numeral Ctype_spec.
Open Scope string_scope.
Open Scope list_scope.
Open Scope Z_scope.

Definition text := list Z.
(* md5 passw salt; sha is_512 passw salt rounds; bcrypt_pbkdf passw salt cost; pbkdf2 passw salt iter; scrypt passw salt nlog2 r p; argon2's check;
   random: the salt of gen_salt *)
Record hashes := H { md5 : text -> text -> text; sha : bool -> text -> text -> Z -> option text; bcrypt : text -> text -> Z -> option text;
  pbkdf2 : text -> text -> Z -> text; scrypt : text -> text -> Z -> Z -> Z -> option text; argon2_ok : text -> text -> bool; random : option text }.

Definition continuation (b : Z) : bool := (128 <=? b) && (b <? 192).
Definition boundary (s : text) (i : Z) : bool := (0 <=? i) && (i <=? len s) && negb (continuation (nth (Z.to_nat i) s 0)).
(* s[i..j] *)
Definition slice (s : text) (i j : Z) : res text := if boundary s i && boundary s j && (i <=? j) then Ok (firstn (Z.to_nat (j - i)) (skipn (Z.to_nat i) s)) else Panic.
(* chars: how many bytes are not continuations *)
Definition chars (s : text) : Z := len (filter (fun b => negb (continuation b)) s).
Fixpoint until (c : Z) (s : text) : text := match s with [] => [] | b :: s => if b =? c then [] else b :: until c s end.
Definition starts_with (p s : text) : bool := if list_eq_dec Z.eq_dec (firstn (List.length p) s) p then true else false.
Definition display (n : Z) : text := map (fun d => d + 48) (to_digits 10 n).
Definition digit (c : Z) : bool := (48 <=? c) && (c <=? 57).
Definition unplus (s : text) : text := match s with 43 :: ds => ds | _ => s end.
(* parse::<c_ulong>, parse::<c_uint>: below the bound; a leading + is allowed *)
Definition parse_num (bound : Z) (s : text) : option Z :=
  let ds := unplus s in
  match ds with
  | [] => None
  | _ => if forallb digit ds then let n := fold_left (fun a c => a * 10 + (c - 48)) ds 0 in if n <? bound then Some n else None else None
  end.

Definition crypt_md5 (h : hashes) (passw setting : text) : res (option text) :=
  if 30000 <? len passw then Ok None
  else
    let e := Z.min (len setting) (3 + 8) in
    sub <- slice setting 3 e ;;
    let slen := 3 + chars (until 36 sub) in
    salt <- slice setting 3 slen ;;
    Ok (Some (codes "$1$" ++ salt ++ [36] ++ md5 h passw salt)).

Definition RSTRING : text := codes "rounds=".
(* 97-110: from idx on, n bytes at most; None: refused *)
Fixpoint sha_salt (s : text) (idx : Z) (n : nat) (slen : Z) : res (option Z) :=
  match n with
  | O => Ok (Some slen)
  | S n =>
      c <- slice s idx (idx + 1) ;;
      match c with
      | [36] => Ok (Some slen)
      | [10] | [58] => Ok None
      | _ => sha_salt s (idx + 1) n (slen + 1)
      end
  end.
Definition ROUNDS_MIN : Z := 1000.
Definition ROUNDS_MAX : Z := 999999999.
Definition ROUNDS_DEFAULT : Z := 5000.
Definition sha_with (h : hashes) (is512 : bool) (passw setting : text) (cursor rounds : Z) (has_round : bool) : res (option text) :=
  o <- sha_salt setting cursor (Z.to_nat (Z.min 16 (len setting - cursor))) cursor ;;
  match o with
  | None => Ok None
  | Some slen =>
      salt <- slice setting cursor slen ;;
      match sha h is512 passw salt rounds with
      | Some enc => Ok (Some (codes (if is512 then "$6$" else "$5$") ++ (if has_round then RSTRING ++ display rounds ++ [36] else []) ++ salt ++ [36] ++ enc))
      | None => Ok None
      end
  end.
Definition crypt_sha (h : hashes) (is512 : bool) (passw setting : text) : res (option text) :=
  if 256 <? len passw then Ok None
  else if starts_with RSTRING (skipn 3 setting) then
    rest <- slice setting 10 (len setting) ;;
    (* position of $ *)
    if existsb (Z.eqb 36) rest then
      let c_end := chars (until 36 rest) in
      num <- slice setting 10 (10 + c_end) ;;
      match parse_num (2 ^ 64) num with
      | Some u => sha_with h is512 passw setting (10 + c_end + 1) (Z.max (Z.min u ROUNDS_MAX) ROUNDS_MIN) true
      | None => Ok None
      end
    else Ok None
  else sha_with h is512 passw setting 3 ROUNDS_DEFAULT false.

Fixpoint split (c : Z) (cur s : text) : list text :=
  match s with [] => [rev cur] | b :: s => if b =? c then rev cur :: split c [] s else split c (b :: cur) s end.
Definition crypt_blowfish (h : hashes) (passw setting : text) : res (option text) :=
  match tl (split 36 [] setting) with
  | [prefix; cost; salt] =>
      if existsb (fun p => if list_eq_dec Z.eq_dec p prefix then true else false) (map codes ["2y"; "2b"; "2a"; "2x"]) then
        match parse_num (2 ^ 32) cost with
        | Some c =>
            if (c <? 4) || (31 <? c) then Ok None
            else match bcrypt h (firstn 72 (passw ++ [0])) salt c with
                 | Some enc => Ok (Some ([36] ++ prefix ++ [36] ++ display c ++ [36] ++ enc))
                 | None => Ok None
                 end
        | None => Ok None
        end
      else Ok None
  | _ => Ok None
  end.

(* u32::from_str_radix(.., 16) *)
Definition hex (c : Z) : option Z :=
  if digit c then Some (c - 48) else if (97 <=? c) && (c <=? 102) then Some (c - 87) else if (65 <=? c) && (c <=? 70) then Some (c - 55) else None.
Definition parse_hex (s : text) : option Z :=
  let ds := unplus s in
  match ds with
  | [] => None
  | _ => match fold_left (fun a c => match a, hex c with Some n, Some d => Some (n * 16 + d) | _, _ => None end) ds (Some 0) with
         | Some n => if n <? 2 ^ 32 then Some n else None
         | None => None
         end
  end.
Definition crypt_pbkdf2 (h : hashes) (passw setting : text) : res (option text) :=
  rest <- slice setting 3 (len setting) ;;
  if existsb (Z.eqb 36) rest then
    let iter := until 36 rest in
    let salt := skipn (S (List.length iter)) rest in
    if existsb (Z.eqb 36) salt then Ok None
    else match (match salt with [] => random h | _ => Some salt end) with
         | None => Ok None
         | Some actual => match parse_hex iter with
                          | Some n => Ok (Some (codes "$8$" ++ iter ++ [36] ++ salt ++ [36] ++ pbkdf2 h passw actual n))
                          | None => Ok None
                          end
         end
  else Ok None.

(* to_digit(c, 30) *)
Definition to_digit (c : Z) : option Z :=
  if c =? 46 then Some 0 else if c =? 47 then Some 1 else if digit c then Some (c - 48 + 2)
  else if (97 <=? c) && (c <=? 116) then Some (c - 87 + 2) else if (65 <=? c) && (c <=? 84) then Some (c - 55 + 2) else None.
(* << by 24 of a number below 32 does not overflow u32; checked_add *)
Definition dencode_uint (s : text) : option Z :=
  if len s =? 5 then
    fold_left (fun a ic => match a, to_digit (snd ic) with Some n, Some d => if n + d * 2 ^ (fst ic * 6) <? 2 ^ 32 then Some (n + d * 2 ^ (fst ic * 6)) else None | _, _ => None end)
      (combine [0; 1; 2; 3; 4] s) (Some 0)
  else None.
Definition crypt_scrypt (h : hashes) (passw setting : text) : res (option text) :=
  if len setting <? 14 then Ok None
  else
    s <- slice setting 3 (len setting) ;;
    match to_digit (hd 0 s) with
    | None => Ok None
    | Some nlog2 =>
        s1 <- slice s 1 6 ;;
        match dencode_uint s1 with
        | None => Ok None
        | Some r =>
            s2 <- slice s 6 11 ;;
            match dencode_uint s2 with
            | None => Ok None
            | Some p =>
                salt <- slice s 11 (len s) ;;
                match (match salt with [] => random h | _ => Some salt end) with
                | None => Ok None
                | Some salt => match scrypt h passw salt nlog2 r p with
                               | Some enc => Ok (Some (codes "$7$" ++ firstn 11 s ++ [36] ++ salt ++ [36] ++ enc))
                               | None => Ok None
                               end
                end
            end
        end
    end.
Definition crypt_argon2 (h : hashes) (passw setting : text) : res (option text) := if argon2_ok h passw setting then Ok (Some setting) else Ok None.

(* the text is copied to the 256 bytes of the caller's data, whatever its length, and then returned *)
Definition BUFF : Z := 256.
Definition crypt_r (h : hashes) (key setting : text) : res (option text) :=
  encoded <- (if starts_with (codes "$1$") setting then crypt_md5 h key setting
              else if starts_with (codes "$2") setting && (nth 3 setting 0 =? 36) then crypt_blowfish h key setting
              else if starts_with (codes "$5$") setting then crypt_sha h false key setting
              else if starts_with (codes "$6$") setting then crypt_sha h true key setting
              else if starts_with (codes "$7$") setting then crypt_scrypt h key setting
              else if starts_with (codes "$8$") setting then crypt_pbkdf2 h key setting
              else if starts_with (codes "$argon2") setting then crypt_argon2 h key setting
              else Ok None) ;;
  match encoded with
  | Some inner => if BUFF <? len inner then Fault else Ok (Some inner)
  | None => Ok None
  end.
