(* Model of src/header/getopt/mod.rs and src/header/unistd/getopt.rs.
   Simplifications: argv is the list of its argc pointers (reading past them faults), the
   long-option table is a list without its terminator; the ints written through longindex
   and flag pointers are kept as a log instead of in memory; the static empty string
   assigned to CURRENT_OPT is represented by NULL, which the code treats the same; optind
   does not overflow; text sent to stderr is collected in a list. *)
From Verif Require Import Base String_model Inet_model.

(* getopt/mod.rs:26-31 *)
Record longopt := LO { lo_name : Z; lo_arg : Z; lo_flag : Z; lo_val : Z }.
(* unistd/getopt.rs:14-26 and CURRENT_OPT, getopt/mod.rs:16 *)
Record gst := GS { optarg : Z; optind : Z; optopt : Z; cur : Z; err : list Z; ints : list (Z * Z) }.

Definition arg (argv : list Z) (i : Z) : res Z :=
  if i <? 0 then Fault else match nth_error argv (Z.to_nat i) with Some p => Ok p | None => Fault end.
(* a c_char (i8) converted to c_int *)
Definition schar (c : Z) : Z := if c <? 128 then c else c - 256.

(* getopt/mod.rs:226-246; Some true: OptArg, Some false: Flag *)
Fixpoint find_option (fuel : nat) (m : mem) (ch o : Z) : res (option bool) :=
  match fuel with
  | O => OutOfFuel
  | S f =>
      b <- ld m o ;;
      if b =? 0 then Ok None
      else if b =? ch then d <- ld m (o + 1) ;; Ok (Some (d =? 58))
      else find_option f m ch (o + 1)
  end.

(* ": option requries an argument -- " and ": illegal option -- " *)
Definition msg_requires : list Z :=
  [58; 32; 111; 112; 116; 105; 111; 110; 32; 114; 101; 113; 117; 114; 105; 101; 115; 32; 97; 110; 32; 97; 114; 103; 117; 109; 101; 110; 116; 32; 45; 45; 32].
Definition msg_illegal : list Z :=
  [58; 32; 105; 108; 108; 101; 103; 97; 108; 32; 111; 112; 116; 105; 111; 110; 32; 45; 45; 32].
(* ": option '--" and "' requires an argument\n" *)
Definition msg_long1 : list Z := [58; 32; 111; 112; 116; 105; 111; 110; 32; 39; 45; 45].
Definition msg_long2 : list Z :=
  [39; 32; 114; 101; 113; 117; 105; 114; 101; 115; 32; 97; 110; 32; 97; 114; 103; 117; 109; 101; 110; 116; 10].

(* getopt/mod.rs:166-171 *)
Definition print_error (fuel : nat) (m : mem) (argv : list Z) (s : gst) (desc : list Z) (c : Z) : res gst :=
  p <- arg argv 0 ;; name <- read_str fuel m p ;;
  Ok (GS (optarg s) (optind s) (optopt s) (cur s) (err s ++ name ++ desc ++ [c; 10]) (ints s)).
(* getopt/mod.rs:159-164 *)
Definition update_current_opt (m : mem) (s : gst) (ca : Z) : res gst :=
  b <- ld m (ca + 1) ;;
  Ok (GS (optarg s) (if b =? 0 then optind s + 1 else optind s) (optopt s) (ca + 1) (err s) (ints s)).

(* getopt/mod.rs:153-219 *)
Definition parse_arg (fuel : nat) (m : mem) (argc : Z) (argv : list Z) (ca optstring opterr : Z) (s : gst) : res (gst * Z) :=
  c <- ld m ca ;;
  k <- find_option fuel m c optstring ;;
  match k with
  | Some false => s <- update_current_opt m s ca ;; Ok (s, schar c)
  | Some true =>
      d <- ld m (ca + 1) ;;
      if d =? 0 then
        let s := GS (optarg s) (optind s + 2) (optopt s) NULL (err s) (ints s) in
        if argc <? optind s then
          let s := GS (optarg s) (optind s) (schar c) NULL (err s) (ints s) in
          o <- ld m optstring ;;
          if o =? 58 then Ok (s, 58)
          else
            s <- (if negb (opterr =? 0) then print_error fuel m argv s msg_requires c else Ok s) ;;
            Ok (s, 63)
        else
          p <- arg argv (optind s - 1) ;;
          Ok (GS p (optind s) (optopt s) NULL (err s) (ints s), schar c)
      else Ok (GS (ca + 1) (optind s + 1) (optopt s) NULL (err s) (ints s), schar c)
  | None =>
      s <- (if negb (opterr =? 0) then print_error fuel m argv s msg_illegal c else Ok s) ;;
      s <- update_current_opt m s ca ;;
      Ok (GS (optarg s) (optind s) (schar c) (cur s) (err s) (ints s), 63)
  end.

(* getopt/mod.rs:85-91: the length up to '=' or NUL *)
Fixpoint name_end (fuel : nat) (m : mem) (p n : Z) : res Z :=
  match fuel with
  | O => OutOfFuel
  | S f => c <- ld m (p + n) ;; if (c =? 0) || (c =? 61) then Ok n else name_end f m p (n + 1)
  end.
(* getopt/mod.rs:98-141: the entry matched *)
Definition take_long (fuel : nat) (m : mem) (argc : Z) (argv : list Z) (ca e optstring longindex i : Z) (o : longopt) (s : gst) : res (gst * Z) :=
  let s := GS (optarg s) (optind s + 1) (optopt s) (cur s) (err s)
             (if longindex =? NULL then ints s else ints s ++ [(longindex, i)]) in
  let fin (s : gst) :=
    if lo_flag o =? NULL then Ok (s, lo_val o)
    else Ok (GS (optarg s) (optind s) (optopt s) (cur s) (err s) (ints s ++ [(lo_flag o, lo_val o)]), 0) in
  let set_arg (s : gst) (p : Z) := GS p (optind s) (optopt s) (cur s) (err s) (ints s) in
  if lo_arg o =? 2 then
    c <- ld m (ca + e) ;; if c =? 61 then fin (set_arg s (ca + e + 1)) else fin s
  else if lo_arg o =? 1 then
    c <- ld m (ca + e) ;;
    if c =? 61 then fin (set_arg s (ca + e + 1))
    else if optind s <? argc then
      p <- arg argv (optind s) ;;
      fin (GS p (optind s + 1) (optopt s) (cur s) (err s) (ints s))
    else
      c <- ld m optstring ;;
      if c =? 58 then Ok (s, 58)
      else
        p <- arg argv 0 ;; name <- read_str fuel m p ;; text <- read_str fuel m ca ;;
        Ok (GS (optarg s) (optind s) (optopt s) (cur s) (err s ++ name ++ msg_long1 ++ text ++ msg_long2) (ints s), 63)
  else fin s.
(* getopt/mod.rs:79-144: None when no entry matches *)
Fixpoint long_loop (fuel : nat) (m : mem) (argc : Z) (argv : list Z) (ca optstring longindex i : Z) (tab : list longopt) (s : gst)
  : res (option (gst * Z)) :=
  match tab with
  | [] => Ok None
  | o :: tab =>
      e <- name_end fuel m ca 0 ;;
      r <- strncmp fuel m ca (lo_name o) e ;;
      if r =? 0 then r <- take_long fuel m argc argv ca e optstring longindex i o s ;; Ok (Some r)
      else long_loop fuel m argc argv ca optstring longindex (i + 1) tab s
  end.

(* strcmp(p, "--") == 0 *)
Definition is_dashes (m : mem) (p : Z) : res bool :=
  a <- ld m p ;;
  if negb (a =? 45) then Ok false
  else b <- ld m (p + 1) ;;
       if negb (b =? 45) then Ok false else c <- ld m (p + 2) ;; Ok (c =? 0).

(* getopt/mod.rs:37-151 *)
Definition getopt_long (fuel : nat) (m : mem) (argv : list Z) (optstring : Z) (longopts : option (list longopt)) (longindex opterr : Z) (s : gst)
  : res (gst * Z) :=
  let argc := len argv in
  let s := if optind s =? 0 then GS NULL 1 (optopt s) NULL (err s) (ints s)
           else GS NULL (optind s) (optopt s) (cur s) (err s) (ints s) in
  fresh <- (if cur s =? NULL then Ok true else b <- ld m (cur s) ;; Ok (b =? 0)) ;;
  if fresh : bool then
    if argc <=? optind s then Ok (s, -1)
    else
      ca <- arg argv (optind s) ;;
      if ca =? NULL then Ok (s, -1)
      else
        a <- ld m ca ;;
        if negb (a =? 45) then Ok (s, -1)
        else
          b <- ld m (ca + 1) ;;
          if b =? 0 then Ok (s, -1)
          else
            dd <- is_dashes m ca ;;
            if dd : bool then Ok (GS (optarg s) (optind s + 1) (optopt s) (cur s) (err s) (ints s), -1)
            else
              match longopts with
              | Some tab =>
                  if b =? 45 then
                    r <- long_loop fuel m argc argv (ca + 2) optstring longindex 0 tab s ;;
                    match r with
                    | Some r => Ok r
                    | None => parse_arg fuel m argc argv (ca + 1) optstring opterr s
                    end
                  else parse_arg fuel m argc argv (ca + 1) optstring opterr s
              | None => parse_arg fuel m argc argv (ca + 1) optstring opterr s
              end
  else parse_arg fuel m argc argv (cur s) optstring opterr s.
(* unistd/getopt.rs:29-36 *)
Definition getopt (fuel : nat) (m : mem) (argv : list Z) (optstring opterr : Z) (s : gst) : res (gst * Z) :=
  getopt_long fuel m argv optstring None NULL opterr s.
