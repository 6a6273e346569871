(* sys/utsname.h: uname on Redox.  Paths, descriptors and the closing of the files are not modelled; the files do not change while they are read. *)
From Verif Require Import Base.

(* sys_utsname/mod.rs 16-38: struct utsname, its members one after the other *)
Definition UTSLENGTH : Z := 65.
Definition sysname (u : Z) : Z := u.
Definition nodename (u : Z) : Z := u + 65.
Definition release (u : Z) : Z := u + 130.
Definition version (u : Z) : Z := u + 195.
Definition machine (u : Z) : Z := u + 260.
Definition domainname (u : Z) : Z := u + 325.
Definition EIO : Z := 5.

(* The files /etc/hostname and /scheme/sys/uname, None if they cannot be opened; the answers to the reads of the former: an error, or at most how many
   bytes (one at least, if there are any and there is room); and which byte strings are UTF-8. *)
Record system := System { hostname : option (list Z); reads : nat -> option Z; about : option (list Z); utf8 : list Z -> bool }.

Fixpoint puts (m : mem) (p : Z) (l : list Z) : res mem :=
  match l with [] => Ok m | c :: l => m <- st m p c ;; puts m (p + 1) l end.

(* platform/redox/mod.rs 1664-1671: the loop; the file is at [rest], [read] bytes are in name.  The result None is the error of a read.
   subslice (out.rs 166-170) panics if read is beyond 64. *)
Fixpoint host_loop (s : system) (fuel : nat) (i : nat) (m : mem) (name read : Z) (rest : list Z) : res (mem * option Z) :=
  match fuel with
  | O => OutOfFuel
  | S fuel =>
      if UTSLENGTH - 1 <? read then Panic else
      match reads s i with
      | None => Ok (m, None)
      | Some k =>
          let n := Z.min (Z.max 1 k) (Z.min (UTSLENGTH - 1 - read) (len rest)) in
          if n =? 0 then Ok (m, Some read)
          else m <- puts m (name + read) (firstn (Z.to_nat n) rest) ;; host_loop s fuel (S i) m name (read + n) (skipn (Z.to_nat n) rest)
      end
  end.
(* platform/redox/mod.rs 1657-1674: gethostname, for a name of UTSLENGTH bytes; true if it succeeds.  66 turns of the loop are enough (Uname_proofs). *)
Definition gethostname (s : system) (m : mem) (name : Z) : res (mem * bool) :=
  match hostname s with
  | None => Ok (m, false)
  | Some h =>
      ' (m, r) <- host_loop s 66 0 m name 0 h ;;
      match r with None => Ok (m, false) | Some read => m <- st m (name + read) 0 ;; Ok (m, true) end
  end.

(* io/mod.rs, read_until: up to the next newline and with it *)
Fixpoint until (c : list Z) : list Z * list Z :=
  match c with
  | [] => ([], [])
  | x :: c => if x =? 10 then ([x], c) else let '(a, b) := until c in (x :: a, b)
  end.
(* the string without its last character, if that is x *)
Definition pop (x : Z) (l : list Z) : option (list Z) :=
  match rev l with [] => None | y :: r => if y =? x then Some (rev r) else None end.
(* io/mod.rs 2008-2023 with 323-345: Lines::next; None at the end of the file, Some None for an error *)
Definition next_line (s : system) (c : list Z) : option (option (list Z) * list Z) :=
  match c with
  | [] => None
  | _ =>
      let '(raw, rest) := until c in
      if utf8 s raw then
        Some (Some match pop 10 raw with
                   | None => raw
                   | Some l => match pop 13 l with None => l | Some l => l end
                   end, rest)
      else Some (None, rest)
  end.
(* platform/redox/mod.rs 1697-1709: read_line; None is EIO *)
Definition read_line (s : system) (m : mem) (dst : Z) (c : list Z) : res (mem * option (list Z)) :=
  match next_line s c with
  | Some (Some line, c) =>
      let line := line ++ [0] in
      if UTSLENGTH <? len line then Ok (m, None)
      else m <- puts m dst (firstn (Z.to_nat (Z.min (len line) UTSLENGTH)) line) ;; Ok (m, Some c)
  | _ => Ok (m, None)
  end.
(* platform/redox/mod.rs 1656-1732 and sys_utsname/mod.rs 47-51: memory, result and errno if it is set *)
Definition uname (s : system) (m : mem) (u : Z) : res (mem * Z * option Z) :=
  ' (m, ok) <- gethostname s m (nodename u) ;;
  if negb ok then Ok (m, -1, Some EIO) else
  match about s with
  | None => Ok (m, -1, Some EIO)
  | Some c =>
      ' (m, c) <- read_line s m (sysname u) c ;;
      match c with None => Ok (m, -1, Some EIO) | Some c =>
      ' (m, c) <- read_line s m (release u) c ;;
      match c with None => Ok (m, -1, Some EIO) | Some c =>
      ' (m, c) <- read_line s m (machine u) c ;;
      match c with None => Ok (m, -1, Some EIO) | Some c =>
      ' (m, c) <- read_line s m (version u) c ;;
      match c with None => Ok (m, -1, Some EIO) | Some _ =>
      m <- puts m (domainname u) (repeat 0 (Z.to_nat UTSLENGTH)) ;;
      Ok (m, 0, None)
      end end end end
  end.
