(* Diagnostics: what the messages are. *)
From Coq Require Import String.
From Verif Require Import Base Numeral Ctype_spec Diag_model.
Open Scope string_scope.
Open Scope list_scope.
Open Scope Z_scope.

(* a few of the texts, by the names POSIX gives the numbers *)
Definition meanings : list (Z * string) :=
  [(1, "Operation not permitted"); (2, "No such file or directory"); (4, "Interrupted system call"); (9, "Bad file number"); (11, "Try again");
   (12, "Out of memory"); (13, "Permission denied"); (17, "File exists"); (20, "Not a directory"); (21, "Is a directory"); (22, "Invalid argument");
   (28, "No space left on device"); (32, "Broken pipe"); (34, "Math result not representable"); (36, "File name too long");
   (38, "Function not implemented"); (39, "Directory not empty"); (75, "Value too large for defined data type"); (84, "Illegal byte sequence");
   (88, "Socket operation on non-socket"); (98, "Address already in use"); (104, "Connection reset by peer"); (110, "Connection timed out");
   (111, "Connection refused"); (113, "No route to host"); (115, "Operation now in progress"); (125, "Operation Canceled"); (131, "State not recoverable")].
Definition signals : list (Z * string) :=
  [(1, "Hangup"); (2, "Interrupt"); (3, "Quit"); (4, "Illegal instruction"); (6, "Aborted"); (7, "Bus error"); (8, "Arithmetic exception"); (9, "Killed");
   (11, "Segmentation fault"); (13, "Broken pipe"); (14, "Alarm clock"); (15, "Terminated"); (17, "Child process status"); (18, "Continued");
   (19, "Stopped (signal)"); (20, "Stopped"); (28, "Window changed"); (31, "Bad system call")].
(* parts with ": " between them *)
Fixpoint joined (l : list (list Z)) : list Z :=
  match l with [] => [] | [x] => x | x :: l => x ++ codes ": " ++ joined l end.
Definition opt {A} (o : option A) : list A := match o with Some x => [x] | None => [] end.
(* one line more in file f, other files as before *)
Definition told (w w' : world) (f : Z) (line : list Z) : Prop := file w' f = file w f ++ line ++ [10] /\ forall g, g <> f -> file w' g = file w g.
(* the file diagnostics go to *)
Definition chosen (w : world) : Z := match sink w with Some f => f | None => 2 end.
Definition digits_of (ds : list Z) : list Z := map (fun d => d + 48) ds.
