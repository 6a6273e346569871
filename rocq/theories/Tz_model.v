(* Model of the TZ parser behind tzset: src/header/time/posix_tz.rs, and the part of tzset that uses it
   (src/header/time/mod.rs 690-708).  Strings are ASCII. *)
From Coq Require Import String.
From Verif Require Import Base Ctype_spec Numeral Utf8_model.
Open Scope string_scope.
Open Scope list_scope.
Open Scope Z_scope.

Definition alpha (c : Z) : bool := ((65 <=? c) && (c <=? 90)) || ((97 <=? c) && (c <=? 122)).
(** split at the first character satisfying f (find, then slicing) *)
Fixpoint break (f : Z -> bool) (l : list Z) : list Z * list Z :=
  match l with
  | [] => ([], [])
  | c :: t => if f c then ([], l) else let (a, b) := break f t in (c :: a, b)
  end.
(** str::split(char) *)
Fixpoint split (sep : Z) (l : list Z) : list (list Z) :=
  match l with
  | [] => [[]]
  | c :: t =>
    if c =? sep then [] :: split sep t
    else match split sep t with x :: r => (c :: x) :: r | [] => [[c]] end
  end.

(** str::parse::<i32>() *)
Definition digit (c : Z) : bool := (48 <=? c) && (c <=? 57).
Definition parse_i32 (l : list Z) : option Z :=
  let num (neg : bool) (d : list Z) :=
    match d with
    | [] => None
    | _ => if forallb digit d then
             let v := dvalue 10 (map (fun c => c - 48) d) in
             let v := if neg then - v else v in
             if (-2147483648 <=? v) && (v <=? 2147483647) then Some v else None
           else None
    end in
  match l with
  | 45 :: d => num true d
  | 43 :: d => num false d
  | d => num false d
  end.

(** 114-140 time_to_seconds *)
Definition time_to_seconds (s : list Z) : option Z :=
  match split 58 s with
  | [] => Some 0
  | h :: r =>
    match parse_i32 h with
    | None => None
    | Some h =>
      let hours := to_i32 (to_i32 (h * 60) * 60) in
      let neg := hours <? 0 in
      let res := to_i32 (Z.abs hours) in
      let fin v := Some (if neg then to_i32 (v * -1) else v) in
      match r with
      | [] => fin res
      | m :: r =>
        match parse_i32 m with
        | None => None
        | Some m =>
          let res := to_i32 (res + to_i32 (m * 60)) in
          match r with
          | [] => fin res
          | s :: _ => match parse_i32 s with None => None | Some s => fin (to_i32 (res + s)) end
          end
        end
      end
    end
  end.

(** 89-112 collect_tz_and_offset *)
Definition collect (l : list Z) : list Z * option Z * list Z :=
  let (std, rest) := break (fun c => negb (alpha c)) l in
  let (off, rem) := break alpha rest in
  (if 3 <=? len std then std else [], time_to_seconds off, rem).

(** The fields tzset reads *)
Record posix_tz := Ptz { p_std : list Z; p_dst : list Z; p_daylight : bool; p_timezone : option Z }.
Definition clamp (v : Z) : Z := Z.max (-86400) (Z.min 86400 v).
(** 42-87 parse *)
Definition tz_parse (l : list Z) : posix_tz :=
  match l with
  | [] => Ptz (codes "UTC") (codes "UTC") false None
  | _ =>
    let parts := split 44 l in
    let '(std, off, rem) := collect (hd [] parts) in
    let rules := match parts with _ :: _ :: _ => true | _ => false end in
    match std with
    | [] => Ptz [] [] rules None
    | _ =>
      let '(dst, _, _) := collect rem in
      let day := match dst with [] => false | _ => true end in
      let dst' := if negb day && (match off with Some _ => true | None => false end) && negb rules then std else dst in
      Ptz std dst' (day || rules) (Some (clamp (match off with Some v => v | None => 0 end)))
    end
  end.

(** tzset for a TZ value that is not a name of the time-zone database: tzname[0], tzname[1], daylight, timezone *)
Definition tzset (tz : list Z) : list Z * list Z * Z * Z :=
  let p := tz_parse tz in
  (p_std p, p_dst p, if p_daylight p then 1 else 0, match p_timezone p with Some v => v | None => 0 end).
