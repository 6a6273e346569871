(* Pseudo-terminals: /repo/src/header/pty/mod.rs 18-165, /repo/src/header/utmp/mod.rs 11-38,
   /repo/src/header/stdlib/mod.rs 526-529 (grantpt), 945-1027 (ptsname, ptsname_r), 1680-1689 (unlockpt).
   Descriptor tables are those of Popen_model.  The kernel's answers (the numbers and files opened, the terminal's
   number, errors) are parameters.  Setting attributes and window size (76-82), whose results openpty ignores, is
   left out, as is setsid. *)
From Verif Require Import Base Sort_model Numeral Popen_model.

Definition EINVAL : Z := 22.
Definition ERANGE : Z := 34.
Definition PATH_MAX : Z := 4096.
Definition TTY_NAME_MAX : Z := 32.
(* "/scheme/pty/" *)
Definition prefix : list Z := [47; 115; 99; 104; 101; 109; 101; 47; 112; 116; 121; 47].
(* format!("{}") of a c_int *)
Definition display (n : Z) : list Z := if n <? 0 then 45 :: map (Z.add 48) (to_digits 10 (- n)) else map (Z.add 48) (to_digits 10 n).
(* stdlib 995-1027; pty: what TIOCGPTN stores, or errno *)
Definition ptsname_r (m : mem) (pty : Z + Z) (name namesize : Z) : res (mem * Z) :=
  if name =? NULL then Ok (m, EINVAL)
  else
    match pty with
    | inr e => Ok (m, e)
    | inl n =>
        let inner := prefix ++ display n in
        if namesize <? len inner + 1 then Ok (m, ERANGE)
        else
          m <- st_bytes m name inner ;;
          m <- st m (name + len inner) 0 ;;
          Ok (m, 0)
    end.
(* stdlib 969-979; buffer is the address of PTS_BUFFER.  The pointer, or errno. *)
Definition ptsname (m : mem) (pty : Z + Z) (buffer : Z) : res (mem * (Z + Z)) :=
  ' (m, ret) <- ptsname_r m pty buffer TTY_NAME_MAX ;;
  Ok (m, if negb (ret =? 0) then inr ret else inl buffer).

(* a path *)
Fixpoint path_at (fuel : nat) (m : mem) (p : Z) : res (list Z) :=
  match fuel with
  | O => OutOfFuel
  | S fuel => b <- ld m p ;; if b =? 0 then Ok [] else l <- path_at fuel m (p + 1) ;; Ok (b :: l)
  end.
(* pty 18-54.  openpt: number and file of the master; unlock: errno of unlockpt; pty: as above; open: number and file
   of the slave.  The numbers opened, or errno. *)
Definition openpty_inner (fuel : nat) (t : tab) (m : mem) (name : Z) (openpt : (Z * Z) + Z) (unlock : option Z) (pty : Z + Z)
  (open : list Z -> (Z * Z) + Z) : res (tab * mem * (Z * Z + Z)) :=
  match openpt with
  | inr e => Ok (t, m, inr e)
  | inl (master, fm) =>
      let t := put t master (Some (fm, false)) in
      match unlock with
      | Some e => Ok (close t master, m, inr e)
      | None =>
          ' (m, ret) <- ptsname_r m pty name PATH_MAX ;;
          if ret <? 0 then Ok (close t master, m, inr ret)
          else
            path <- path_at fuel m name ;;
            match open path with
            | inr e => Ok (close t master, m, inr e)
            | inl (slave, fs) => Ok (put t slave (Some (fs, false)), m, inl (master, slave))
            end
      end
  end.
(* pty 58-89; tmp is the address of tmp_name.  amaster and aslave are the result. *)
Definition openpty (fuel : nat) (t : tab) (m : mem) (namep tmp : Z) (openpt : (Z * Z) + Z) (unlock : option Z) (pty : Z + Z)
  (open : list Z -> (Z * Z) + Z) : res (tab * mem * (Z * Z + Z)) :=
  openpty_inner fuel t m (if negb (namep =? NULL) then namep else tmp) openpt unlock pty open.

(* utmp; sctty: errno of TIOCSCTTY.  dup2's results are ignored *)
Definition dup2' (t : tab) (a b : Z) : tab := match dup2 t a b with Some t => t | None => t end.
Definition login_tty (t : tab) (fd : Z) (sctty : option Z) : tab * option Z :=
  match sctty with
  | Some e => (t, Some e)
  | None =>
      let t := dup2' (dup2' (dup2' t fd 0) fd 1) fd 2 in
      (if 2 <? fd then close t fd else t, None)
  end.

(* a process: descriptors, blocked signals (None: all) and cancelability (false: disabled) *)
Record proc := Proc { tb : tab; mask : option Z; cancel : bool }.
Inductive fate := NoChild | Runs (p : proc) | Exits.     (* Exits: with 127, having been waited for *)
(* pty 93-165, after openpty has given m and s.  pipe: numbers and files, or errno; fork: the child, or errno *)
Definition forkpty (p : proc) (m s : Z) (pipe : (Z * Z * Z * Z) + Z) (fork : Z + Z) (sctty : option Z) : proc * (Z + Z) * fate :=
  let finish t r c := (Proc t (mask p) (cancel p), r, c) in
  match pipe with
  | inr e => finish (close (close (tb p) s) m) (inr e) NoChild
  | inl (r, w, fr, fw) =>
      let t := put (put (tb p) r (Some (fr, true))) w (Some (fw, true)) in
      (* 134-135, 150 *)
      let parent := close (close (close t s) w) r in
      match fork with
      | inr e => finish (close parent m) (inr e) NoChild
      | inl pid =>
          match login_tty (close (close t m) r) s sctty with
          | (_, Some e) => finish (close parent m) (inr e) Exits
          | (c, None) => finish parent (inl pid) (Runs (Proc (close c w) (mask p) (cancel p)))
          end
      end
  end.
