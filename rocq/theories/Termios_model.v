(* Terminals: /repo/src/header/termios/mod.rs 100-340, /repo/src/header/termios/constants.rs and redox.rs (the numbers),
   /repo/src/header/unistd/mod.rs 1253-1279 (tcgetpgrp, tcsetpgrp), /repo/src/header/sys_ioctl/redox/mod.rs 94-160 (ioctl_inner),
   /repo/src/header/sys_ioctl/constants.rs.  The terminal's driver, not of /repo, gets verbs with a value (TtyCall); assumed is
   that it keeps the attributes, process group and size written last, or refuses a verb with an errno.  c_cc has 32 entries. *)
From Verif Require Import Base.

Record termios := Tio { iflag : Z; oflag : Z; cflag : Z; lflag : Z; cc : list Z }.
Record winsize := Win { rows : Z; cols : Z; xpixel : Z; ypixel : Z }.
Inductive value := Attr (t : termios) | Int (n : Z) | Size (w : winsize).
Inductive verb := Termios | Flush | SendBreak | Flow | Pgrp | Winsize.
(* the driver; written: what it was told, in order *)
Record tty := Tty { attr : termios; pgrp : Z; size : winsize; written : list (verb * value) }.
Definition keep (k : tty) (v : verb) (x : value) : tty :=
  let w := written k ++ [(v, x)] in
  match v, x with
  | Termios, Attr t => Tty t (pgrp k) (size k) w
  | Pgrp, Int n => Tty (attr k) n (size k) w
  | Winsize, Size s => Tty (attr k) (pgrp k) s w
  | _, _ => Tty (attr k) (pgrp k) (size k) w
  end.
Definition EINVAL : Z := 22.
Definition TCGETS : Z := 21505.
Definition TCSETS : Z := 21506.
Definition TCSETSW : Z := 21507.
Definition TCSETSF : Z := 21508.
Definition TCSBRK : Z := 21513.
Definition TCXONC : Z := 21514.
Definition TCFLSH : Z := 21515.
Definition TIOCGPGRP : Z := 21519.
Definition TIOCSPGRP : Z := 21520.
Definition TIOCGWINSZ : Z := 21523.
Definition TIOCSWINSZ : Z := 21524.

(* requests that write; the caller's structure or word is x.  None: not one of them (EINVAL at the end of the function) *)
Definition verb_of (request : Z) : option verb :=
  if (request =? TCSETS) || (request =? TCSETSW) || (request =? TCSETSF) then Some Termios
  else if request =? TCFLSH then Some Flush
  else if request =? TCSBRK then Some SendBreak
  else if request =? TCXONC then Some Flow
  else if request =? TIOCSPGRP then Some Pgrp
  else if request =? TIOCSWINSZ then Some Winsize
  else None.
Definition ioctl_write (refuse : verb -> option Z) (k : tty) (request : Z) (x : value) : tty * (Z + Z) :=
  match verb_of request with
  | None => (k, inr EINVAL)
  | Some v => match refuse v with Some e => (k, inr e) | None => (keep k v x, inl 0) end
  end.
(* requests that read *)
Definition ioctl_read (refuse : verb -> option Z) (k : tty) (request : Z) : value + Z :=
  if request =? TCGETS then match refuse Termios with Some e => inr e | None => inl (Attr (attr k)) end
  else if request =? TIOCGPGRP then match refuse Pgrp with Some e => inr e | None => inl (Int (pgrp k)) end
  else if request =? TIOCGWINSZ then match refuse Winsize with Some e => inr e | None => inl (Size (size k)) end
  else inr EINVAL.

(* termios/mod.rs *)
Definition tcgetattr refuse k : value + Z := ioctl_read refuse k TCGETS.
Definition tcsetattr refuse k (actions : Z) (t : termios) : tty * (Z + Z) :=
  if (actions =? 0) || (actions =? 1) || (actions =? 2) then ioctl_write refuse k (TCSETS + actions) (Attr t) else (k, inr EINVAL).
Definition cfgetispeed (t : termios) : Z := 0.
Definition cfgetospeed (t : termios) : Z := 0.
Definition cfsetispeed (t : termios) (speed : Z) : termios * (Z + Z) := (t, inr EINVAL).
Definition cfsetospeed (t : termios) (speed : Z) : termios * (Z + Z) := (t, inr EINVAL).
Definition tcflush refuse k (queue : Z) : tty * (Z + Z) :=
  if (queue =? 0) || (queue =? 1) || (queue =? 2) then ioctl_write refuse k TCFLSH (Int queue) else (k, inr EINVAL).
(* dangling_mut::<c_void>() is the address 1 *)
Definition tcdrain refuse k : tty * (Z + Z) := ioctl_write refuse k TCSBRK (Int 1).
Definition tcsendbreak refuse k (duration : Z) : tty * (Z + Z) := ioctl_write refuse k TCSBRK (Int 0).
Definition tcflow refuse k (action : Z) : tty * (Z + Z) :=
  if (action =? 2) || (action =? 3) || (action =? 0) || (action =? 1) then ioctl_write refuse k TCXONC (Int action) else (k, inr EINVAL).
Definition tcgetwinsize refuse k : value + Z := ioctl_read refuse k TIOCGWINSZ.
Definition tcsetwinsize refuse k (w : winsize) : tty * (Z + Z) := ioctl_write refuse k TIOCSWINSZ (Size w).
(* unistd *)
Definition tcgetpgrp refuse k : value + Z := ioctl_read refuse k TIOCGPGRP.
Definition tcsetpgrp refuse k (pgid : Z) : tty * (Z + Z) :=
  match ioctl_write refuse k TIOCSPGRP (Int pgid) with (k, inl _) => (k, inl pgid) | (k, inr e) => (k, inr e) end.

(* cfmakeraw 326-339; !(..) as u32 *)
Definition IGNBRK : Z := 1.
Definition BRKINT : Z := 2.
Definition PARMRK : Z := 8.
Definition ISTRIP : Z := 32.
Definition INLCR : Z := 64.
Definition IGNCR : Z := 128.
Definition ICRNL : Z := 256.
Definition IXON : Z := 512.
Definition OPOST : Z := 1.
Definition ECHO : Z := 8.
Definition ECHONL : Z := 16.
Definition ISIG : Z := 128.
Definition ICANON : Z := 256.
Definition IEXTEN : Z := 1024.
Definition CSIZE : Z := 768.
Definition CS8 : Z := 768.
Definition PARENB : Z := 4096.
Definition VMIN : nat := 16.
Definition VTIME : nat := 17.
Definition but (x l : Z) : Z := Z.land x (Z.land (Z.lnot l) (2 ^ 32 - 1)).
Fixpoint set_nth (l : list Z) (n : nat) (v : Z) : list Z :=
  match l, n with [], _ => [] | _ :: l, O => v :: l | x :: l, S n => x :: set_nth l n v end.
Definition cfmakeraw (t : termios) : termios :=
  Tio (but (iflag t) (Z.lor IGNBRK (Z.lor BRKINT (Z.lor PARMRK (Z.lor ISTRIP (Z.lor INLCR (Z.lor IGNCR (Z.lor ICRNL IXON))))))))
      (but (oflag t) OPOST)
      (Z.lor (but (cflag t) (Z.lor CSIZE PARENB)) CS8)
      (but (lflag t) (Z.lor ECHO (Z.lor ECHONL (Z.lor ICANON (Z.lor ISIG IEXTEN)))))
      (set_nth (set_nth (cc t) VMIN 1) VTIME 0).
(* FIONBIO 96-104: the status flags afterwards; nonblock is the bit O_NONBLOCK *)
Definition fionbio (nonblock flags arg : Z) : Z := if arg =? 0 then Z.land flags (Z.lnot nonblock) else Z.lor flags nonblock.
