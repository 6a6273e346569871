(* Model of the group database (src/header/grp/mod.rs), with the same conventions as
   Pwd_model.  Whether a line is valid UTF-8 (String::from_utf8 in read_line) is a
   parameter.  Pointers are eight bytes, least significant first. *)
From Verif Require Import Base String_model Sort_model Word_mem Pwd_model.

(* grp/mod.rs:91-103 *)
Record group := { gr_name : Z; gr_passwd : Z; gr_gid : Z; gr_mem : Z }.
(* grp/mod.rs:105-114: the errors that the callers tell apart *)
Inductive error := BufTooSmall | Invalid.
Definition ENOENT := 2. Definition EINVAL := 22. Definition ERANGE := 34.

(* io/mod.rs:2005-2024 Lines: the newline and then one carriage return go *)
Definition chop (l : list Z) : list Z :=
  if last l 0 =? 10 then let l := removelast l in if last l 0 =? 13 then removelast l else l else l.
(* core: <[T]>::split *)
Fixpoint split_at (sep : Z) (cur : list Z) (l : list Z) : list (list Z) :=
  match l with [] => [rev cur] | b :: r => if b =? sep then rev cur :: split_at sep [] r else split_at sep (b :: cur) r end.
Definition nonempty (l : list Z) : bool := match l with [] => false | _ => true end.
(* grp/mod.rs:215-241: the offset of every member and the bytes behind the array; the code
   fills the array in place *)
Fixpoint member_offsets (cur : Z) (ms : list (list Z)) : list Z :=
  match ms with [] => [] | f :: ms => cur :: member_offsets (cur + len f + 1) ms end.
(* grp/mod.rs:169-244 *)
Definition encode (sep : Z) (line : list Z) : option (list Z) :=
  match split_at 0 [] (map (fun b => if b =? sep then 0 else b) line ++ [0]) with
  | name :: passwd :: gid :: members :: _ =>
      match parse_i32 gid with
      | Some gid =>
          let vec := le_bytes 4 (gid mod 2 ^ 32) ++ name ++ [0] ++ passwd ++ [0] in
          let ms := filter nonempty (split_at 44 [] members) in
          let offs := member_offsets (len vec + 8 * (len ms + 1)) ms in
          Some (vec ++ concat (map (le_bytes 8) offs) ++ le_bytes 8 0 ++ concat (map (fun f => f ++ [0]) ms))
      | None => None
      end
  | _ => None
  end.
Definition to_i32 (v : Z) : Z := (v + 2147483648) mod 4294967296 - 2147483648.
(* grp/mod.rs:148-157 *)
Fixpoint adjust (k : nat) (m : mem) (a base : Z) : res mem :=
  match k with
  | O => Ok m
  | S k =>
      w <- ld_word m a ;;
      if w =? 0 then Ok m
      else m <- st_bytes m a (le_bytes 8 ((w + base) mod 2 ^ 64)) ;; adjust k m (a + 8) base
  end.
(* grp/mod.rs:130-165 *)
Definition split_group (m : mem) (p : Z) (slice : list Z) : res (mem * option group) :=
  if len slice <? 4 then Panic
  else
    gid <- ld_le 4 m p ;;
    match parts 4 [] (skipn 4 slice) with
    | (n, _) :: (pw, _) :: (a, _) :: _ =>
        m <- adjust (Z.to_nat 4096) m (p + a) p ;;
        Ok (m, Some {| gr_name := p + n; gr_passwd := p + pw; gr_gid := to_i32 gid; gr_mem := p + a |})
    | _ => Ok (m, None)
    end.

Section Grp.
  Variable o : os.
  Variable utf8 : list Z -> bool.
  (* grp/mod.rs:167-262 *)
  Definition parse_grp (m : mem) (line : list Z) (d : dest) : res (mem * (group + error)) :=
    match encode (separator o) line with
    | None => Ok (m, inr Invalid)
    | Some buf =>
        let '(p, size) := match d with Owned p => (p, len buf) | Borrowed p size => (p, size) end in
        if size <? len buf then Ok (m, inr BufTooSmall)
        else
          m <- st_bytes m p buf ;;
          slice <- ld_bytes (Z.to_nat size) m p ;;
          ' (m, g) <- split_group m p slice ;;
          Ok (m, match g with Some g => inl g | None => inr Invalid end)
    end.
  (* the next line: None at the end of the file *)
  Definition next_line (file : list Z) : option (list Z * list Z) :=
    match read_line file with ([], _) => None | (l, rest) => Some (l, rest) end.
  Inductive outcome := Found (g : group) | Failed (e : error) | Missing.
  (* the loop of grp/mod.rs:274-287, 303-325, 350-390, 409-440 *)
  Fixpoint grp_loop (fuel : nat) (matches : mem -> group -> res bool) (m : mem) (file : list Z) (d : dest) : res (mem * outcome) :=
    match fuel with
    | O => OutOfFuel
    | S f =>
        match next_line file with
        | None => Ok (m, Missing)
        | Some (l, rest) =>
            if utf8 l then
              ' (m, r) <- parse_grp m (chop l) d ;;
              match r with
              | inr e => Ok (m, Failed e)
              | inl g => b <- matches m g ;; if (b : bool) then Ok (m, Found g) else grp_loop f matches m rest d
              end
            else Ok (m, Failed Invalid)
        end
    end.
  Definition has_gid (gid : Z) (m : mem) (g : group) : res bool := Ok (gr_gid g =? gid).
  (* grp/mod.rs:313-320, 424-431 *)
  Definition has_name (fuel : nat) (name : Z) (m : mem) (g : group) : res bool :=
    a <- strlen fuel m (gr_name g) ;; b <- strlen fuel m name ;;
    c <- strncmp fuel m (gr_name g) name (Z.min a b) ;; Ok (c =? 0).
  Definition found (r : outcome) : option group := match r with Found g => Some g | _ => None end.
  (* grp/mod.rs:270-290 *)
  Definition getgrgid (fuel : nat) (m : mem) (file : option (list Z)) (box gid : Z) : res (mem * option group) :=
    match file with
    | None => Ok (m, None)
    | Some f => ' (m, r) <- grp_loop fuel (has_gid gid) m f (Owned box) ;; Ok (m, found r)
    end.
  (* grp/mod.rs:298-328 *)
  Definition getgrnam (fuel : nat) (m : mem) (file : option (list Z)) (box name : Z) : res (mem * option group) :=
    match file with
    | None => Ok (m, None)
    | Some f => ' (m, r) <- grp_loop fuel (has_name fuel name) m f (Owned box) ;; Ok (m, found r)
    end.
  (* grp/mod.rs:337-393: what *result becomes, and the return value *)
  Definition getgrgid_r (fuel : nat) (m : mem) (file : option (list Z)) (gid buf size : Z) : res (mem * (option group * Z)) :=
    match file with
    | None => Ok (m, (None, ENOENT))
    | Some f =>
        ' (m, r) <- grp_loop fuel (has_gid gid) m f (Borrowed buf size) ;;
        Ok (m, match r with Found g => (Some g, 0) | Failed BufTooSmall => (None, ERANGE) | Failed Invalid => (None, EINVAL) | Missing => (None, 0) end)
    end.
  (* grp/mod.rs:402-443: *result stays [old] unless a group is found *)
  Definition getgrnam_r (fuel : nat) (m : mem) (file : option (list Z)) (name buf size : Z) (old : option group) : res (mem * (option group * Z)) :=
    match file with
    | None => Ok (m, (old, ENOENT))
    | Some f =>
        ' (m, r) <- grp_loop fuel (has_name fuel name) m f (Borrowed buf size) ;;
        Ok (m, match r with Found g => (Some g, 0) | Failed _ => (old, EINVAL) | Missing => (old, ENOENT) end)
    end.
  (* grp/mod.rs:451-478; the static LINE_READER is None or the rest of the file *)
  Definition getgrent (m : mem) (file : option (list Z)) (reader : option (list Z)) (box : Z) : res (mem * option (list Z) * option group) :=
    match reader, file with
    | None, None => Ok (m, None, None)
    | Some r, _ | None, Some r =>
        match next_line r with
        | None => Ok (m, Some r, None)
        | Some (l, rest) =>
            if utf8 l then
              ' (m, g) <- parse_grp m (chop l) (Owned box) ;;
              Ok (m, Some rest, match g with inl g => Some g | inr _ => None end)
            else Ok (m, Some rest, None)
        end
    end.
  (* grp/mod.rs:486-505 *)
  Definition endgrent (reader : option (list Z)) : option (list Z) := None.
  Definition setgrent (file : option (list Z)) (reader : option (list Z)) : option (list Z) :=
    match file with Some f => Some f | None => reader end.

  (* core: str::trim, for ASCII white space *)
  Definition space (b : Z) : bool := (b =? 32) || ((9 <=? b) && (b <=? 13)).
  Fixpoint drop_space (l : list Z) : list Z := match l with b :: r => if space b then drop_space r else l | [] => [] end.
  Definition trim (l : list Z) : list Z := rev (drop_space (rev (drop_space l))).
  Fixpoint eqb_list (a b : list Z) : bool :=
    match a, b with [], [] => true | x :: a, y :: b => (x =? y) && eqb_list a b | _, _ => false end.
  (* grp/mod.rs:535-570: the group ids found, or a failed read (None) *)
  Fixpoint list_loop (fuel : nat) (user : list Z) (file : list Z) : res (option (list Z)) :=
    match fuel with
    | O => OutOfFuel
    | S f =>
        match next_line file with
        | None => Ok (Some [])
        | Some (l, rest) =>
            if utf8 l then
              let ps := split_at (separator o) [] (chop l) in
              match parse_i32 (nth 2 ps [45; 49]) with
              | None => Panic
              | Some gid =>
                  r <- list_loop f user rest ;;
                  Ok (match r with
                      | None => None
                      | Some gs => Some (if existsb (eqb_list user) (map trim (split_at 44 [] (nth 3 ps []))) then gid :: gs else gs)
                      end)
              end
            else Ok None
        end
    end.
  (* grp/mod.rs:512-583: return value, *ngroups, and the ids written to groups.  The
     count stays below 2^31. *)
  Definition getgrouplist (fuel : nat) (file : option (list Z)) (user : list Z) (group ngroups : Z) : res (Z * Z * list Z) :=
    match file with
    | None => Ok (0, ngroups, [])
    | Some f =>
        if utf8 user then
          r <- list_loop fuel user f ;;
          Ok (match r with
              | None => (0, ngroups, [])
              | Some gs => (if ngroups <? len gs then -1 else len gs, len gs, firstn (Z.to_nat ngroups) gs)
              end)
        else Ok (0, ngroups, [])
    end.
End Grp.
