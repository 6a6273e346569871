(* Model of signal dispositions: redox-rt/src/signal.rs (sigaction_inner, convert_old),
   src/platform/redox/signal.rs and src/header/signal/mod.rs (Redox).
   A function pointer is its address; DH is the address of default_handler.  The lock and
   the signal guard are not modelled: one call at a time.  sa_restorer, always stored as
   None, is left out. *)
From Verif Require Import Base Signal_model.

(* src/header/signal/mod.rs:79-96; sa_flags as u32 *)
Record act := Act { sa_handler : Z; sa_flags : Z; sa_mask : Z }.
Definition SIG_DFL : Z := 0.       (* mod.rs:41-51 *)
Definition SIG_IGN : Z := 1.
Definition SIG_HOLD : Z := 2.
Definition SIG_ERR : Z := -1.
(* redox-rt/src/signal.rs:583-600 *)
Definition SA_SIGINFO : Z := 33554432.
Definition SA_ONSTACK : Z := 67108864.
Definition SA_RESTART : Z := 134217728.
Definition SA_NODEFER : Z := 268435456.
Definition SA_RESETHAND : Z := 536870912.
Definition SIG_SPECIFIC : Z := 1073741824.
Definition IGNORED : Z := 2147483648.
Definition SA_NOCLDWAIT : Z := 2.
Definition STORED_FLAGS : Z := 4261412864.       (* 0xfe00_0000 *)
Definition MASK_DONTCARE : Z := 2 ^ 64 - 1.       (* signal.rs:400 *)

(* The 64 RawActions (first, user_data), the words of the calling thread, and the
   process-wide pending set. *)
Record pst := P { acts : Z -> Z * Z; wd : words; pp : Z }.
Inductive kind := KIgnore | KDefault | KHandled (h : Z).

(* signal.rs:402-424 *)
Definition convert_old (DH : Z) (a : Z * Z) : kind * Z * Z :=
  let handler := Z.land (fst a) (not64 (Z.shiftl STORED_FLAGS 32)) in
  let flags := Z.land (Z.shiftr (fst a) 32) STORED_FLAGS in
  let kind := if handler =? DH then KDefault else if negb (Z.land flags IGNORED =? 0) then KIgnore else KHandled handler in
  (kind, flags, snd a).

Definition clear_word (sig : Z) (s : words) : words :=
  let idx := (sig - 1) mod 32 in
  if (sig - 1) / 32 =? 0 then W (Z.land (w0 s) (not64 (Z.shiftl 1 idx))) (w1 s)
  else W (w0 s) (Z.land (w1 s) (not64 (Z.shiftl 1 idx))).
Definition discard (sig : Z) (st : pst) : pst := P (acts st) (clear_word sig (wd st)) (Z.land (pp st) (not64 (sig_bit sig))).
Definition store (sig mask flags handler : Z) (st : pst) : pst :=
  P (fun n => if n =? sig then (Z.lor handler (Z.shiftl (Z.land flags STORED_FLAGS) 32), mask) else acts st n) (wd st) (pp st).

(* signal.rs:433-531; None: EINVAL.  The old action is computed whether or not it is asked
   for.  u8::try_from, platform/redox/signal.rs:106, is the test on negative and large sig. *)
Definition sigaction_inner (DH sig : Z) (new : option (kind * Z * Z)) (st : pst) : option ((kind * Z * Z) * pst) :=
  if (sig <? 0) || (255 <? sig) then None
  else if (sig =? 0) || (sig =? 32) || (65 <=? sig) then None
  else if (sig =? 9) || (sig =? 19) then
    match new with Some _ => None | None => Some (KDefault, 0, 0, st) end
  else
    let old := convert_old DH (acts st sig) in
    match new with
    | None => Some (old, st)
    | Some (k, flags, mask) =>
        match k with
        | KIgnore => Some (old, store sig MASK_DONTCARE IGNORED 0 (discard sig st))
        | KDefault =>
            if (sig =? 23) || (sig =? 28) then Some (old, store sig MASK_DONTCARE IGNORED DH (discard sig st))
            else if (sig =? 20) || (sig =? 22) || (sig =? 21) then Some (old, store sig MASK_DONTCARE SIG_SPECIFIC DH st)
            else if sig =? 17 then Some (old, store sig MASK_DONTCARE (Z.lor IGNORED (Z.land flags SIG_SPECIFIC)) DH (discard sig st))
            else Some (old, store sig mask flags DH st)
        | KHandled h => Some (old, store sig mask flags h st)
        end
    end.

(* platform/redox/signal.rs:101-180 *)
Definition to_kind (a : act) : kind * Z * Z :=
  (if sa_handler a =? SIG_DFL then KDefault else if sa_handler a =? SIG_IGN then KIgnore else KHandled (sa_handler a), sa_flags a, sa_mask a).
Definition of_kind (k : kind * Z * Z) : act :=
  let '(k, flags, mask) := k in
  match k with KIgnore => Act SIG_IGN 0 0 | KDefault => Act SIG_DFL 0 0 | KHandled h => Act h flags mask end.
Definition sigaction (DH sig : Z) (new : option act) (st : pst) : option (act * pst) :=
  match sigaction_inner DH sig (match new with None => None | Some a => Some (to_kind a) end) st with
  | None => None
  | Some (old, st) => Some (of_kind old, st)
  end.

(* header/signal/mod.rs:536-552: signal *)
Definition signal_fn (DH sig func : Z) (st : pst) : Z * pst :=
  match sigaction DH sig (Some (Act func SA_RESTART 0)) st with
  | None => (SIG_ERR, st)
  | Some (old, st) => (sa_handler old, st)
  end.
(* mod.rs:484-495: siginterrupt.  c_int::try_from(!SA_RESTART): the usize is
   2^64 - 1 - SA_RESTART *)
Definition siginterrupt (DH sig flag : Z) (st : pst) : res (Z * pst) :=
  match sigaction DH sig None st with
  | Some (sa, st) =>
      if negb (flag =? 0) then
        if not64 SA_RESTART <=? 2147483647 then
          match sigaction DH sig (Some (Act (sa_handler sa) (Z.land (sa_flags sa) (not64 SA_RESTART)) (sa_mask sa))) st with
          | None => Ok (-1, st) | Some (_, st) => Ok (0, st) end
        else Panic
      else
        match sigaction DH sig (Some (Act (sa_handler sa) (Z.lor (sa_flags sa) SA_RESTART) (sa_mask sa))) st with
        | None => Ok (-1, st) | Some (_, st) => Ok (0, st) end
  | None => if negb (flag =? 0) then Panic else Ok (-1, st)     (* sa is uninitialised here *)
  end.
(* mod.rs:457-465 *)
Definition sigignore (DH sig : Z) (st : pst) : Z * pst :=
  match sigaction DH sig (Some (Act SIG_IGN 0 0)) st with None => (-1, st) | Some (_, st) => (0, st) end.
(* mod.rs:429-437 and 656-664 *)
Definition hold_with (env : nat -> Z * Z) (how sig : Z) (st : pst) : Z * pst :=
  let '(set, r) := sigaddset (fst (sigemptyset 0)) sig in
  if r <? 0 then (-1, st)
  else match sigprocmask env (pp st) how (Some set) (wd st) with
       | None => (-1, st)
       | Some (_, w, _) => (0, P (acts st) w (pp st))
       end.
Definition sighold env := hold_with env SIG_BLOCK.
Definition sigrelse env := hold_with env SIG_UNBLOCK.
(* mod.rs:685-737 *)
Definition sigset_fn (DH : Z) (env : nat -> Z * Z) (sig func : Z) (st : pst) : Z * pst :=
  let '(set, r) := sigaddset (fst (sigemptyset 0)) sig in
  if r <? 0 then (SIG_ERR, st)
  else
    let fin (old : act) (how : Z) (st : pst) :=
      match sigprocmask env (pp st) how (Some set) (wd st) with
      | None => (SIG_ERR, st)
      | Some (oset, w, _) => (if sigismember oset sig =? 1 then SIG_HOLD else sa_handler old, P (acts st) w (pp st))
      end in
    if func =? SIG_HOLD then
      match sigaction DH sig None st with None => (SIG_ERR, st) | Some (old, st) => fin old SIG_BLOCK st end
    else
      match sigaction DH sig (Some (Act func 0 0)) st with None => (SIG_ERR, st) | Some (old, st) => fin old SIG_UNBLOCK st end.

(* signal.rs:142-160: the action taken when a signal is delivered, SA_RESETHAND *)
Definition take_action (DH sig : Z) (st : pst) : (kind * Z * Z) * pst :=
  let '(k, flags, mask) := convert_old DH (acts st sig) in
  ((k, flags, mask),
   if negb (Z.land flags SA_RESETHAND =? 0)
   then match sigaction_inner DH sig (Some (KDefault, 0, 0)) st with None => st | Some (_, st) => st end
   else st).

(* signal.rs:631-650: setup_sighandler *)
Definition setup_actions (DH : Z) : Z -> Z * Z := fun sig =>
  let bits := if (sig =? 20) || (sig =? 21) || (sig =? 22) then SIG_SPECIFIC
              else if (sig =? 17) || (sig =? 23) || (sig =? 28) then IGNORED else 0 in
  (Z.lor (Z.shiftl bits 32) DH, 0).
(* signal.rs:998-1018: get_sigignmask_to_inherit *)
Fixpoint inherit_loop (DH : Z) (k : nat) (st : pst) : Z :=
  match k with
  | O => 0
  | S k =>
      let mask := inherit_loop DH k st in
      match sigaction_inner DH (Z.of_nat k + 1) None st with
      | Some (KIgnore, _, _, _) => Z.lor mask (Z.shiftl 1 (Z.of_nat k))
      | _ => mask
      end
  end.
Definition sigignmask_to_inherit (DH : Z) (st : pst) : Z := inherit_loop DH 64 st.
(* signal.rs:967-997: apply_inherited_sigignmask *)
Fixpoint apply_loop (DH inherited : Z) (k : nat) (st : pst) : pst :=
  match k with
  | O => st
  | S k =>
      let st := apply_loop DH inherited k st in
      if Z.testbit inherited (Z.of_nat k)
      then match sigaction_inner DH (Z.of_nat k + 1) (Some (KIgnore, IGNORED, 0)) st with None => st | Some (_, st) => st end
      else st
  end.
