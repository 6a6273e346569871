(* Model of the user database (src/header/pwd/mod.rs, linux.rs, redox.rs).
   The file is the list of its bytes; File::open gives it or fails, and it does not change
   while it is read.  A BufReader is the part of the file not read yet (reads succeed).
   The box that holds the current line when no buffer is given is at an address that is a
   parameter; the box of a line that did not match is free again and may be reused.  The
   static passwd that into_global fills is its value.  core::str::from_utf8 in [parsed] is
   left out: integer parsing rejects every byte it could reject. *)
From Verif Require Import Base String_model Sort_model.

Inductive os := Linux | Redox.
(* pwd/mod.rs:34-39 *)
Definition separator (o : os) : Z := match o with Linux => 58 | Redox => 59 end.
(* pwd/mod.rs:45-56 *)
Record passwd := { pw_name : Z; pw_passwd : Z; pw_uid : Z; pw_gid : Z; pw_gecos : Z; pw_dir : Z; pw_shell : Z }.
(* pwd/mod.rs:121-124 *)
Inductive cause := Eof | Other.

(* io/mod.rs:398-424: read_until newline; what was read and the rest *)
Fixpoint read_line (file : list Z) : list Z * list Z :=
  match file with
  | [] => ([], [])
  | b :: r => if b =? 10 then ([b], r) else let '(l, r) := read_line r in (b :: l, r)
  end.
(* core: <i32 as FromStr>::from_str *)
Fixpoint parse_digits (neg : bool) (acc : Z) (l : list Z) : option Z :=
  match l with
  | [] => Some acc
  | c :: r =>
      if (48 <=? c) && (c <=? 57) then
        let v := if neg then acc * 10 - (c - 48) else acc * 10 + (c - 48) in
        if (- 2147483648 <=? v) && (v <=? 2147483647) then parse_digits neg v r else None
      else None
  end.
Definition parse_i32 (l : list Z) : option Z :=
  match l with
  | [] => None
  | c :: r =>
      if c =? 45 then match r with [] => None | _ => parse_digits true 0 r end
      else if c =? 43 then match r with [] => None | _ => parse_digits false 0 r end
      else parse_digits false 0 l
  end.
(* core: <[u8]>::split_mut at NULs; each part with its offset *)
Fixpoint parts (start : Z) (cur : list Z) (buf : list Z) : list (Z * list Z) :=
  match buf with
  | [] => [(start, rev cur)]
  | b :: r => if b =? 0 then (start, rev cur) :: parts (start + len cur + 1) [] r else parts start (b :: cur) r
  end.
(* pwd/mod.rs:153-166: separators become NULs, the newline becomes or is followed by one *)
Definition terminate (sep : Z) (line : list Z) : list Z :=
  let buf := map (fun b => if b =? sep then 0 else b) line in
  if last buf 0 =? 10 then removelast buf ++ [0] else buf ++ [0].
(* linux.rs:4-15, redox.rs:4-15; [x] is the address of the literal c"x" *)
Definition split (o : os) (x base : Z) (buf : list Z) : option passwd :=
  match o, parts 0 [] buf with
  | Linux, (n, _) :: (p, _) :: (_, u) :: (_, g) :: (ge, _) :: (d, _) :: (s, _) :: _ =>
      match parse_i32 u, parse_i32 g with
      | Some u, Some g => Some {| pw_name := base + n; pw_passwd := base + p; pw_uid := u; pw_gid := g;
                                  pw_gecos := base + ge; pw_dir := base + d; pw_shell := base + s |}
      | _, _ => None
      end
  | Redox, (n, _) :: (_, u) :: (_, g) :: (ge, _) :: (d, _) :: (s, _) :: _ =>
      match parse_i32 u, parse_i32 g with
      | Some u, Some g => Some {| pw_name := base + n; pw_passwd := x; pw_uid := u; pw_gid := g;
                                  pw_gecos := base + ge; pw_dir := base + d; pw_shell := base + s |}
      | _, _ => None
      end
  | _, _ => None
  end.
(* pwd/mod.rs:71-81: a box of the line's length, or a caller's buffer *)
Inductive dest := Owned (p : Z) | Borrowed (p size : Z).

Section Pwd.
  Variable o : os.
  Variable x : Z.                                  (* address of c"x" *)
  (* pwd/mod.rs:141-191 *)
  Definition getpwent_r (m : mem) (file : list Z) (d : dest) : res (mem * list Z * (passwd + cause)) :=
    let '(line, rest) := read_line file in
    match line with
    | [] => Ok (m, rest, inr Eof)
    | _ =>
        let buf := terminate (separator o) line in
        let '(p, size) := match d with Owned p => (p, len buf) | Borrowed p size => (p, size) end in
        if size <? len buf then Ok (m, rest, inr Other)         (* errno = ERANGE *)
        else
          m <- st_bytes m p buf ;;
          slice <- ld_bytes (Z.to_nat size) m p ;;
          match split o x p slice with
          | Some pw => Ok (m, rest, inl pw)
          | None => Ok (m, rest, inr Other)
          end
    end.
  (* pwd/mod.rs:193-210 *)
  Fixpoint pwd_loop (fuel : nat) (matches : mem -> passwd -> res bool) (m : mem) (file : list Z) (d : dest) : res (mem * (passwd + cause)) :=
    match fuel with
    | O => OutOfFuel
    | S f =>
        ' (m, rest, r) <- getpwent_r m file d ;;
        match r with
        | inr c => Ok (m, inr c)
        | inl pw => b <- matches m pw ;; if (b : bool) then Ok (m, inl pw) else pwd_loop f matches m rest d
        end
    end.
  Definition pwd_lookup (fuel : nat) (matches : mem -> passwd -> res bool) (m : mem) (file : option (list Z)) (d : dest) : res (mem * (passwd + cause)) :=
    match file with None => Ok (m, inr Other) | Some f => pwd_loop fuel matches m f d end.
  (* pwd/mod.rs:212-233: the result pointer (and what out holds), and the return value *)
  Definition mux (r : passwd + cause) : option passwd * Z :=
    match r with inl pw => (Some pw, 0) | inr Eof => (None, 0) | inr Other => (None, -1) end.
  Definition by_name (fuel : nat) (name : Z) (m : mem) (pw : passwd) : res bool :=
    c <- strcmp fuel m (pw_name pw) name ;; Ok (c =? 0).
  Definition by_uid (uid : Z) (m : mem) (pw : passwd) : res bool := Ok (pw_uid pw =? uid).
  Definition ok (r : passwd + cause) : option passwd := match r with inl pw => Some pw | inr _ => None end.
  (* pwd/mod.rs:266-270 *)
  Definition getpwnam (fuel : nat) (m : mem) (file : option (list Z)) (box name : Z) : res (mem * option passwd) :=
    ' (m, r) <- pwd_lookup fuel (by_name fuel name) m file (Owned box) ;; Ok (m, ok r).
  (* pwd/mod.rs:274-293 *)
  Definition getpwnam_r (fuel : nat) (m : mem) (file : option (list Z)) (name buf size : Z) : res (mem * (option passwd * Z)) :=
    ' (m, r) <- pwd_lookup fuel (by_name fuel name) m file (Borrowed buf size) ;; Ok (m, mux r).
  (* pwd/mod.rs:297-301 *)
  Definition getpwuid (fuel : nat) (m : mem) (file : option (list Z)) (box uid : Z) : res (mem * option passwd) :=
    ' (m, r) <- pwd_lookup fuel (by_uid uid) m file (Owned box) ;; Ok (m, ok r).
  (* pwd/mod.rs:305-324 *)
  Definition getpwuid_r (fuel : nat) (m : mem) (file : option (list Z)) (uid buf size : Z) : res (mem * (option passwd * Z)) :=
    ' (m, r) <- pwd_lookup fuel (by_uid uid) m file (Borrowed buf size) ;; Ok (m, mux r).
  (* pwd/mod.rs:244-262; the static READER is None or the rest of the file *)
  Definition getpwent (m : mem) (file : option (list Z)) (reader : option (list Z)) (box : Z) : res (mem * option (list Z) * option passwd) :=
    match reader, file with
    | None, None => Ok (m, None, None)
    | Some r, _ | None, Some r => ' (m, rest, r) <- getpwent_r m r (Owned box) ;; Ok (m, Some rest, ok r)
    end.
  (* pwd/mod.rs:236-240, 328-333 *)
  Definition endpwent (reader : option (list Z)) : option (list Z) := None.
  Definition setpwent (file : list Z) (reader : option (list Z)) : option (list Z) :=
    match reader with Some _ => Some file | None => None end.
End Pwd.
