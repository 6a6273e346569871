(* syslog: src/header/sys_syslog/mod.rs 73-145, logger.rs 33-290, redox.rs; the BufWriter of src/io/buffered.rs 340-513,
   which has no Drop: what is in its buffer when it is dropped is lost.
   Simplified: the log device accepts every write whole, so that the retry of 106-118 is not reached; identities are
   UTF-8; the text of the message after printf, the date and the process number are given. *)
From Coq Require Import String.
From Verif Require Import Base Ctype_spec Numeral.
Open Scope string_scope.
Open Scope list_scope.
Open Scope Z_scope.

(* 35-43; the file: what was written to it, and the buffer of the writer when there is one; standard error *)
Record logger := { ident : list Z; opt : Z; mask : Z; writer : option (list Z); device : list Z; stderr : list Z }.

Definition FacilityMask : Z := 1023.            (* 0x3ff *)
Definition PriorityMask : Z := Z.lnot FacilityMask.
(* 46-53; User | UpToDebug *)
Definition init : logger :=
  {| ident := []; opt := 4; mask := Z.lor 8 (2 ^ (7 + 1) - 1); writer := None; device := []; stderr := [] |}.

(* mod.rs 78-81: 1 << p, an i32; the shift amount is taken modulo 32 *)
Definition LOG_MASK (p : Z) : Z := let v := 2 ^ (p mod 32) in if v =? 2147483648 then -2147483648 else v.

(* logger.rs 264-290; all the bits of an i32 are named, so that from_bits does not fail *)
Definition with_mask (self m : Z) : Z := Z.lor (Z.land m FacilityMask) (Z.land self PriorityMask).
Definition with_facility (self f : Z) : Z := Z.lor (Z.land self FacilityMask) (Z.land f PriorityMask).
Definition should_log (self priority : Z) : bool :=
  let b := LOG_MASK priority in Z.land (Z.land self FacilityMask) b =? b.

Definition set_writer (l : logger) (w : option (list Z)) (d : list Z) : logger :=
  {| ident := ident l; opt := opt l; mask := mask l; writer := w; device := d; stderr := stderr l |}.
Definition set_ident (l : logger) (i : list Z) : logger :=
  {| ident := i; opt := opt l; mask := mask l; writer := writer l; device := device l; stderr := stderr l |}.
(* 126-160: the identity is kept with a NUL after it *)
Definition identity (progname : option (list Z)) (i : option (list Z)) : list Z :=
  match i with
  | Some i => i ++ [0]
  | None => match progname with Some n => n ++ [0] | None => [0] end
  end.
(* 134-138 *)
Definition identity_cstr (progname : option (list Z)) (i : option (list Z)) : list Z :=
  identity progname (match i with Some [] => None | _ => i end).
(* 163-176; opening succeeds as open_ok says *)
Definition open_logger (open_ok : bool) (l : logger) : logger * bool :=
  if open_ok then (set_writer l (Some []) (device l), true) else (l, false).
Definition maybe_open_logger (open_ok : bool) (l : logger) : logger * bool :=
  match writer l with None => open_logger open_ok l | Some _ => (l, true) end.
(* buffered.rs 492-509 *)
Definition CAP : Z := 8192.
Definition buf_write (pending device data : list Z) : list Z * list Z :=
  let (pending, device) := if CAP <? len pending + len data then ([], device ++ pending) else (pending, device) in
  if CAP <=? len data then (pending, device ++ data) else (pending ++ data, device).

(* a string up to its NUL, as %s prints it *)
Fixpoint upto_nul (l : list Z) : list Z := match l with [] => [] | c :: l => if c =? 0 then [] else c :: upto_nul l end.

(* 55-124: fmt is the format, text what printf makes of it *)
Definition write_log (progname : option (list Z)) (pid : list Z) (open_ok : bool) (l : logger) (priority : Z) (fmt text date : list Z) : logger :=
  match fmt with
  | [] => l
  | _ =>
      let l := match ident l with [] => set_ident l (identity progname None) | _ => l end in
      let prefix := codes "<" ++ map (fun d => 48 + d) (to_digits 10 priority) ++ codes ">" ++ date ++ codes " " ++ ident l ++
                    (if Z.testbit (opt l) 0 then pid else []) ++ codes ": " in
      let rest := text ++ [10; 0] in
      let (l, ok) := maybe_open_logger open_ok l in
      let l := if ok then
                 match writer l with
                 | Some p => let (p, d) := buf_write p (device l) (prefix ++ rest) in set_writer l (Some p) d
                 | None => l
                 end
               else l in
      if Z.testbit (opt l) 5 then
        {| ident := ident l; opt := opt l; mask := mask l; writer := writer l; device := device l;
           stderr := stderr l ++ upto_nul (ident l) ++ codes ": " ++ upto_nul rest |}
      else l
  end.

Inductive op :=
| Openlog (ident : option (list Z)) (opt facility : Z)
| Closelog
| Setlogmask (m : Z)
| Syslog (priority : Z) (fmt text date : list Z).

Section Run.
Variable progname : option (list Z).
Variable pid : list Z.
Variable open_ok : bool.
(* mod.rs 83-145; the value returned (setlogmask), else 0 *)
Definition step (l : logger) (o : op) : logger * Z :=
  match o with
  | Openlog i op f =>
      let l := {| ident := identity_cstr progname i; opt := Z.land op 63; mask := with_facility (mask l) f;
                  writer := writer l; device := device l; stderr := stderr l |} in
      (if Z.testbit (opt l) 3 then fst (open_logger open_ok l) else l, 0)
  | Closelog => (set_writer l None (device l), 0)
  | Setlogmask m =>
      ((if m =? 0 then l
        else {| ident := ident l; opt := opt l; mask := with_mask (mask l) m; writer := writer l; device := device l; stderr := stderr l |}),
       mask l)
  | Syslog p fmt text date => (if should_log (mask l) p then write_log progname pid open_ok l p fmt text date else l, 0)
  end.
Fixpoint run (l : logger) (ops : list op) : logger * list Z :=
  match ops with
  | [] => (l, [])
  | o :: ops => let (l, r) := step l o in let (l, rs) := run l ops in (l, r :: rs)
  end.
End Run.
