(* Model of the shadow password file (src/header/shadow/mod.rs), with the conventions of
   Pwd_model and Grp_model. *)
From Verif Require Import Base String_model Sort_model Pwd_model Grp_model.

(* shadow/mod.rs:86-99 *)
Record spwd := { sp_namp : Z; sp_pwdp : Z; sp_lstchg : Z; sp_min : Z; sp_max : Z; sp_warn : Z; sp_inact : Z; sp_expire : Z; sp_flag : Z }.
(* core: FromStr for an integer type with values from [lo] to [hi] *)
Fixpoint parse_run (lo hi : Z) (neg : bool) (acc : Z) (l : list Z) : option Z :=
  match l with
  | [] => Some acc
  | c :: r =>
      if (48 <=? c) && (c <=? 57) then
        let v := if neg then acc * 10 - (c - 48) else acc * 10 + (c - 48) in
        if (lo <=? v) && (v <=? hi) then parse_run lo hi neg v r else None
      else None
  end.
Definition parse_int (lo hi : Z) (l : list Z) : option Z :=
  match l with
  | [] => None
  | c :: r =>
      if (c =? 45) && (lo <? 0) then match r with [] => None | _ => parse_run lo hi true 0 r end
      else if c =? 43 then match r with [] => None | _ => parse_run lo hi false 0 r end
      else parse_run lo hi false 0 l
  end.
(* shadow/mod.rs:123-128 *)
Definition to_long (l : list Z) : Z := match parse_int (- 2 ^ 63) (2 ^ 63 - 1) l with Some v => v | None => -1 end.
Definition to_ulong (l : list Z) : Z := match parse_int 0 (2 ^ 64 - 1) l with Some v => v | None => 0 end.
Fixpoint starts_with (l n : list Z) {struct n} : bool :=
  match n, l with [], _ => true | x :: n, y :: l => (x =? y) && starts_with l n | _ :: _, [] => false end.

Section Shadow.
  Variable o : os.
  Variable utf8 : list Z -> bool.
  (* shadow/mod.rs:130-183 *)
  Definition parse_spwd (m : mem) (line : list Z) (d : dest) : res (mem * (spwd + error)) :=
    match split_at (separator o) [] line with
    | n :: p :: t =>
        let need := len n + 1 + len p + 1 in
        let '(a, size) := match d with Owned a => (a, need) | Borrowed a size => (a, size) end in
        if size <? need then Ok (m, inr BufTooSmall)
        else
          m <- st_bytes m a (n ++ [0]) ;;
          m <- st_bytes m (a + len n + 1) (p ++ [0]) ;;
          let f k := to_long (nth k t []) in
          Ok (m, inl {| sp_namp := a; sp_pwdp := a + len n + 1; sp_lstchg := f 0%nat; sp_min := f 1%nat; sp_max := f 2%nat;
                        sp_warn := f 3%nat; sp_inact := f 4%nat; sp_expire := f 5%nat; sp_flag := to_ulong (nth 6 t []) |})
    | _ => Ok (m, inr Invalid)
    end.
  (* the name as a str, or a NUL; shadow/mod.rs:190-194, 218 *)
  Definition as_str (n : list Z) : list Z := if utf8 n then n else [0].
  (* shadow/mod.rs:192-199 *)
  Fixpoint nam_loop (fuel : nat) (n : list Z) (m : mem) (file : list Z) (box : Z) : res (mem * option spwd) :=
    match fuel with
    | O => OutOfFuel
    | S f =>
        match next_line file with
        | None => Ok (m, None)
        | Some (l, rest) =>
            if utf8 l && starts_with (chop l) (as_str n) then
              ' (m, r) <- parse_spwd m (chop l) (Owned box) ;;
              match r with inl s => Ok (m, Some s) | inr _ => nam_loop f n m rest box end
            else nam_loop f n m rest box
        end
    end.
  (* shadow/mod.rs:187-201 *)
  Definition getspnam (fuel : nat) (m : mem) (file : option (list Z)) (n : list Z) (box : Z) : res (mem * option spwd) :=
    match file with None => Ok (m, None) | Some f => nam_loop fuel n m f box end.
  (* shadow/mod.rs:220-240 *)
  Fixpoint nam_r_loop (fuel : nat) (n : list Z) (m : mem) (file : list Z) (buf size : Z) : res (mem * (option spwd * Z)) :=
    match fuel with
    | O => OutOfFuel
    | S f =>
        match next_line file with
        | None => Ok (m, (None, ENOENT))
        | Some (l, rest) =>
            if utf8 l && starts_with (chop l) (as_str n) then
              ' (m, r) <- parse_spwd m (chop l) (Borrowed buf size) ;;
              Ok (m, match r with inl s => (Some s, 0) | inr BufTooSmall => (None, ERANGE) | inr Invalid => (None, ENOENT) end)
            else nam_r_loop f n m rest buf size
        end
    end.
  (* shadow/mod.rs:205-242: *result and the return value *)
  Definition getspnam_r (fuel : nat) (m : mem) (file : option (list Z)) (n : list Z) (buf size : Z) : res (mem * (option spwd * Z)) :=
    match file with None => Ok (m, (None, ENOENT)) | Some f => nam_r_loop fuel n m f buf size end.
  (* shadow/mod.rs:246-260 *)
  Definition setspent (file reader : option (list Z)) : option (list Z) := match file with Some f => Some f | None => reader end.
  Definition endspent (reader : option (list Z)) : option (list Z) := None.
  (* shadow/mod.rs:264-281 *)
  Definition getspent (m : mem) (file reader : option (list Z)) (box : Z) : res (mem * option (list Z) * option spwd) :=
    match (match reader with None => setspent file None | _ => reader end) with
    | None => Ok (m, None, None)
    | Some r =>
        match next_line r with
        | None => Ok (m, Some r, None)
        | Some (l, rest) =>
            if utf8 l then
              ' (m, s) <- parse_spwd m (chop l) (Owned box) ;;
              Ok (m, Some rest, match s with inl s => Some s | inr _ => None end)
            else Ok (m, Some rest, None)
        end
    end.
End Shadow.
