(* Diagnostics: /repo/src/header/errno/mod.rs 181-344 (STR_ERROR, STRERROR_MAX), /repo/src/header/string/mod.rs 386-423 (strerror_l,
   strerror, strerror_r) and 617-624 (strsignal), /repo/src/header/signal/mod.rs 810-895 (SIGNAL_STRINGS, psignal),
   /repo/src/header/stdio/mod.rs 1082-1102 (perror), /repo/src/header/err/mod.rs, /repo/src/platform/mod.rs 91-110 (FileWriter) and
   146-176 (StringWriter).  Texts are lists of bytes without the terminator.  What vfprintf makes of the caller's format is given
   (C42, C43), and so is the program's name; streams deliver what is printed (C39). *)
From Coq Require Import String.
From Verif Require Import Base Numeral Ctype_spec.
Open Scope string_scope.
Open Scope list_scope.
Open Scope Z_scope.

Definition STR_ERROR : list string :=
  ["Success"; "Operation not permitted"; "No such file or directory"; "No such process"; "Interrupted system call"; "I/O error";
   "No such device or address"; "Argument list too long"; "Exec format error"; "Bad file number"; "No child processes";
   "Try again"; "Out of memory"; "Permission denied"; "Bad address"; "Block device required"; "Device or resource busy";
   "File exists"; "Cross-device link"; "No such device"; "Not a directory"; "Is a directory"; "Invalid argument";
   "File table overflow"; "Too many open files"; "Not a typewriter"; "Text file busy"; "File too large"; "No space left on device";
   "Illegal seek"; "Read-only file system"; "Too many links"; "Broken pipe"; "Math argument out of domain of func";
   "Math result not representable"; "Resource deadlock would occur"; "File name too long"; "No record locks available";
   "Function not implemented"; "Directory not empty"; "Too many symbolic links encountered"; "Operation would block";
   "No message of desired type"; "Identifier removed"; "Channel number out of range"; "Level 2 not synchronized"; "Level 3 halted";
   "Level 3 reset"; "Link number out of range"; "Protocol driver not attached"; "No CSI structure available"; "Level 2 halted";
   "Invalid exchange"; "Invalid request descriptor"; "Exchange full"; "No anode"; "Invalid request code"; "Invalid slot";
   "Resource deadlock would occur"; "Bad font file format"; "Device not a stream"; "No data available"; "Timer expired";
   "Out of streams resources"; "Machine is not on the network"; "Package not installed"; "Object is remote";
   "Link has been severed"; "Advertise error"; "Srmount error"; "Communication error on send"; "Protocol error";
   "Multihop attempted"; "RFS specific error"; "Not a data message"; "Value too large for defined data type";
   "Name not unique on network"; "File descriptor in bad state"; "Remote address changed";
   "Can not access a needed shared library"; "Accessing a corrupted shared library"; ".lib section in a.out corrupted";
   "Attempting to link in too many shared libraries"; "Cannot exec a shared library directly"; "Illegal byte sequence";
   "Interrupted system call should be restarted"; "Streams pipe error"; "Too many users"; "Socket operation on non-socket";
   "Destination address required"; "Message too long"; "Protocol wrong type for socket"; "Protocol not available";
   "Protocol not supported"; "Socket type not supported"; "Operation not supported on transport endpoint";
   "Protocol family not supported"; "Address family not supported by protocol"; "Address already in use";
   "Cannot assign requested address"; "Network is down"; "Network is unreachable"; "Network dropped connection because of reset";
   "Software caused connection abort"; "Connection reset by peer"; "No buffer space available";
   "Transport endpoint is already connected"; "Transport endpoint is not connected";
   "Cannot send after transport endpoint shutdown"; "Too many references: cannot splice"; "Connection timed out";
   "Connection refused"; "Host is down"; "No route to host"; "Operation already in progress"; "Operation now in progress";
   "Stale NFS file handle"; "Structure needs cleaning"; "Not a XENIX named type file"; "No XENIX semaphores available";
   "Is a named type file"; "Remote I/O error"; "Quota exceeded"; "No medium found"; "Wrong medium type"; "Operation Canceled";
   "Required key not available"; "Key has expired"; "Key has been revoked"; "Key was rejected by service"; "Owner died";
   "State not recoverable"].
Definition SIGNAL_STRINGS : list string :=
  ["Unknown signal"; "Hangup"; "Interrupt"; "Quit"; "Illegal instruction"; "Trace/breakpoint trap"; "Aborted"; "Bus error";
   "Arithmetic exception"; "Killed"; "User defined signal 1"; "Segmentation fault"; "User defined signal 2"; "Broken pipe";
   "Alarm clock"; "Terminated"; "Stack fault"; "Child process status"; "Continued"; "Stopped (signal)"; "Stopped";
   "Stopped (tty input)"; "Stopped (tty output)"; "Urgent I/O condition"; "CPU time limit exceeded"; "File size limit exceeded";
   "Virtual timer expired"; "Profiling timer expired"; "Window changed"; "I/O possible"; "Power failure"; "Bad system call"].

(* {} of a c_int *)
Definition display (n : Z) : list Z := if n <? 0 then 45 :: map (fun d => d + 48) (to_digits 10 (- n)) else map (fun d => d + 48) (to_digits 10 n).
(* STRERROR_MAX: ten digits in c_int::MAX *)
Definition longest (l : list string) : Z := fold_left (fun m s => if m <? len (codes s) + 1 then len (codes s) + 1 else m) l (len (codes "Unknown error: ") + 10 + 1).
Definition STRERROR_MAX : Z := longest STR_ERROR.
(* StringWriter: what has been written, and the room left *)
Definition sw_write (w : list Z * Z) (b : list Z) : list Z * Z :=
  let (out, room) := w in if 1 <? room then (out ++ firstn (Z.to_nat (Z.min (len b) (room - 1))) b, room - Z.min (len b) (room - 1)) else w.
Definition as_usize (n : Z) : Z := n mod 2 ^ 64.
(* get(i): None when i is not below the length *)
Definition get (l : list string) (i : Z) : option (list Z) := if i <? len l then Some (codes (nth (Z.to_nat i) l "")) else None.
(* the text strerror leaves in STRERROR_BUF *)
Definition strerror (errnum : Z) : list Z :=
  let w := ([], STRERROR_MAX) in
  fst match get STR_ERROR (as_usize errnum) with
      | Some e => sw_write w e
      | None => sw_write (sw_write w (codes "Unknown error ")) (display errnum)
      end.
(* strerror_r by several threads: each fills the one STRERROR_BUF and then copies from it (C13 has the copying) *)
Definition thread := Z.
Inductive step := Fill (t : thread) (errnum : Z) | Copy (t : thread).
Definition shared := (list Z * (thread -> list Z))%type.
Definition do_step (s : shared) (e : step) : shared :=
  match e with
  | Fill t n => (strerror n, snd s)
  | Copy t => (fst s, fun u => if u =? t then fst s else snd s u)
  end.

Definition strsignal (signum : Z) : list Z := match get SIGNAL_STRINGS (as_usize signum) with Some s => s | None => codes (nth 0 SIGNAL_STRINGS "") end.

(* the files are numbered; 2 is stderr.  errno; ERROR_SINK and ON_EXIT (None: null); calls of the callback and of exit, in order *)
Inductive event := Callback (f arg : Z) | Exit (code : Z).
Record world := World { errno : Z; sink : option Z; on_exit : option Z; file : Z -> list Z; events : list event }.
Definition stderr : Z := 2.
Definition print (w : world) (f : Z) (b : list Z) : world :=
  World (errno w) (sink w) (on_exit w) (fun g => if g =? f then file w g ++ b else file w g) (events w).
Definition with_errno (w : world) (e : Z) : world := World e (sink w) (on_exit w) (file w) (events w).
(* fprintf, fputs and vfprintf can change errno: errs tells to what *)
Definition fprint (errs : Z -> Z) (w : world) (f : Z) (b : list Z) : world := with_errno (print w f b) (errs (errno w)).

Definition psignal (errs : Z -> Z) (w : world) (sig : Z) (prefix : option (list Z)) : world :=
  let description := match (if sig <? 0 then None else get SIGNAL_STRINGS sig) with Some s => s | None => codes (nth 0 SIGNAL_STRINGS "") end in
  let old_errno := errno w in
  let w := match prefix with
           | None => fprint errs w stderr (description ++ [10])
           | Some p => fprint errs w stderr (p ++ codes ": " ++ description ++ [10])
           end in
  with_errno w old_errno.

(* perror; write_fmt writes the parts one by one, errors of write are not looked at.  takes: how many of the bytes a write takes *)
Definition write_str (takes : list Z -> nat) (w : world) (b : list Z) : world := print w 2 (firstn (takes b) b).
Definition perror (utf8 : list Z -> bool) (takes : list Z -> nat) (w : world) (s : option (list Z)) : world :=
  let err := errno w in
  let err_str := if (0 <=? err) && (err <? len STR_ERROR) then codes (nth (Z.to_nat err) STR_ERROR "") else codes "Unknown error" in
  let plain := write_str takes (write_str takes w err_str) [10] in
  match s with
  | Some p => if utf8 p && negb (len p =? 0)
              then write_str takes (write_str takes (write_str takes (write_str takes w p) (codes ": ")) err_str) [10]
              else plain
  | None => plain
  end.

(* err.h *)
Definition err_set_file (w : world) (fp : option Z) : world :=
  World (errno w) (Some match fp with None => stderr | Some f => f end) (on_exit w) (file w) (events w).
Definition err_set_exit (w : world) (ef : option Z) : world := World (errno w) (sink w) ef (file w) (events w).
(* message: what vfprintf prints; None when fmt is null *)
Definition display_message (errs : Z -> Z) (prog : list Z) (w : world) (code : option Z) (message : option (list Z)) : world :=
  let w := match sink w with None => World (errno w) (Some stderr) (on_exit w) (file w) (events w) | Some _ => w end in
  let f := match sink w with Some f => f | None => stderr end in
  let w := fprint errs w f prog in
  let w := match message with Some m => fprint errs (fprint errs w f (codes ": ")) f m | None => w end in
  let w := match code with Some c => fprint errs w f (codes ": " ++ strerror c) | None => w end in
  fprint errs w f [10].
Definition err_exit (errs : Z -> Z) prog (w : world) (eval : Z) (code : option Z) message : world :=
  let w := display_message errs prog w code message in
  let w := match on_exit w with
           | Some f => World (errno w) (sink w) (on_exit w) (file w) (events w ++ [Callback f match code with Some c => c | None => errno w end])
           | None => w
           end in
  World (errno w) (sink w) (on_exit w) (file w) (events w ++ [Exit eval]).
(* verr, verrc, verrx, vwarn, vwarnc, vwarnx do the same *)
Definition err errs prog w eval message : world := err_exit errs prog w eval (Some (errno w)) message.
Definition errc errs prog w eval code message : world := err_exit errs prog w eval (Some code) message.
Definition errx errs prog w eval message : world := err_exit errs prog w eval None message.
Definition warn errs prog w message : world := display_message errs prog w (Some (errno w)) message.
Definition warnc errs prog w code message : world := display_message errs prog w (Some code) message.
Definition warnx errs prog w message : world := display_message errs prog w None message.
