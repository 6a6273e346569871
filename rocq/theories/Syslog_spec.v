(* What a user of syslog relies on (POSIX.1-2024, closelog). *)
From Coq Require Import ZArith String List Bool.
From Verif Require Import Base Ctype_spec Numeral.
Import ListNotations.
Open Scope string_scope.
Open Scope list_scope.
Open Scope Z_scope.

(* what openlog and setlogmask left: the identity (None: the name of the program), the options, the facility for messages
   that name none, the mask *)
Record settings := { s_ident : option (list Z); s_opt : Z; s_facility : Z; s_mask : Z }.
(* at the start: LOG_USER, all severities *)
Definition at_start : settings := {| s_ident := None; s_opt := 0; s_facility := 8; s_mask := 255 |}.
Definition openlog_sets (s : settings) (ident : option (list Z)) (opt facility : Z) : settings :=
  {| s_ident := match ident with Some [] => None | _ => ident end; s_opt := opt; s_facility := facility; s_mask := s_mask s |}.
Definition setlogmask_sets (s : settings) (m : Z) : settings :=
  if m =? 0 then s else {| s_ident := s_ident s; s_opt := s_opt s; s_facility := s_facility s; s_mask := m |}.
(* the severity of a priority, and whether the mask lets it through *)
Definition severity (p : Z) : Z := p mod 8.
Definition passes (s : settings) (p : Z) : bool := Z.testbit (s_mask s) (severity p).
Definition named (progname : list Z) (s : settings) : list Z := match s_ident s with Some i => i | None => progname end.
(* the record of a message, with its priority (facility included), date, identity and process *)
Definition record_of (progname pid : list Z) (s : settings) (p : Z) (text date : list Z) : list Z :=
  let p := if p <? 8 then s_facility s + p else p in
  codes "<" ++ map (fun d => 48 + d) (to_digits 10 p) ++ codes ">" ++ date ++ codes " " ++ named progname s ++
  (if Z.testbit (s_opt s) 0 then pid else []) ++ codes ": " ++ text ++ [10].
(* with LOG_PERROR, what standard error gets *)
Definition stderr_of (progname : list Z) (s : settings) (text : list Z) : list Z :=
  if Z.testbit (s_opt s) 5 then named progname s ++ codes ": " ++ text ++ [10] else [].
