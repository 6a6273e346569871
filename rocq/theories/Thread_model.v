(* Model of the life of threads: src/pthread/mod.rs create, new_thread_shim, join, detach,
   exit_current_thread, dealloc_thread, cancel, set_cancel_state, testcancel and
   terminate_from_main_thread, on Redox, with sync/waitval.rs inlined.

   One shared access per step (Conc.v).  The mutex that pthread_create waits for is
   "started"; the registry OS_TID_TO_PTHREAD is updated in one step (its lock is that of
   C29).  Mapping memory and cloning succeed; a thread's number stands for its pthread_t
   and its os_tid, and is not used again.  What a thread does between calls, and its
   cleanup handlers and key destructors, is not modelled; they call none of these
   functions.  A signal sent by cancel is recorded in [sent] and has no further effect. *)
From Coq Require Import ZArith List Bool.
From Verif Require Import Conc.
Import ListNotations.
Open Scope Z_scope.

Definition EDEADLK := 35.
(* header/pthread/mod.rs:48 *)
Definition CANCELED := -1.
Inductive result := Nothing | Created (u : tid) | Joined (u : tid) (v : option Z) | JoinError (e : Z) | OldState (b : bool).

(* where a thread is; names as in the functions *)
Inductive pcs :=
  | NotYet | Starting | Running | Gone
  | CWait (u : tid) | CInsert (u : tid)
  | JLoad (u : tid) | JWait (u : tid) | JAsleep (u : tid) | JRead (u : tid) | JRemove (u : tid) (v : option Z) | JUnmap (u : tid) (v : option Z)
  | KLoad (u : tid) | KKill (u : tid)
  | SLoad (old : bool) | TLoad
  | XClean (v : Z) | XFlags (v : Z) | XRemove | XUnmap | XWrite (v : Z) | XStore | XWake | XStatus.

(* For every thread: the fields of its TCB (flags, the Waitval's state and value, the two
   cancellation flags), whether the page of its TCB and its stack are mapped and the stack
   is the caller's, whether it has unlocked its creator's mutex, where it is, and the
   result of its last call.  [bad]: a TCB has been used that is not mapped.  Ghosts: [ret]
   the value it ended with, [claimed] someone has joined or detached it, [known] its
   creation has returned. *)
Record tstate := TS {
  pc : tid -> pcs; res : tid -> result;
  det : tid -> bool; word : tid -> Z; cell : tid -> option Z; enabled : tid -> bool; queued : tid -> bool;
  live : tid -> bool; stack : tid -> bool; users : tid -> bool; started : tid -> bool;
  reg : list tid; sent : list tid; bad : bool;
  ret : tid -> option Z; claimed : tid -> bool; known : tid -> bool }.
Definition set_pc s t p := TS (setf (pc s) t p) (res s) (det s) (word s) (cell s) (enabled s) (queued s) (live s) (stack s) (users s) (started s) (reg s) (sent s) (bad s) (ret s) (claimed s) (known s).
Definition set_res s t r := TS (pc s) (setf (res s) t r) (det s) (word s) (cell s) (enabled s) (queued s) (live s) (stack s) (users s) (started s) (reg s) (sent s) (bad s) (ret s) (claimed s) (known s).
Definition set_det s t b := TS (pc s) (res s) (setf (det s) t b) (word s) (cell s) (enabled s) (queued s) (live s) (stack s) (users s) (started s) (reg s) (sent s) (bad s) (ret s) (claimed s) (known s).
Definition set_word s t b := TS (pc s) (res s) (det s) (setf (word s) t b) (cell s) (enabled s) (queued s) (live s) (stack s) (users s) (started s) (reg s) (sent s) (bad s) (ret s) (claimed s) (known s).
Definition set_cell s t b := TS (pc s) (res s) (det s) (word s) (setf (cell s) t b) (enabled s) (queued s) (live s) (stack s) (users s) (started s) (reg s) (sent s) (bad s) (ret s) (claimed s) (known s).
Definition set_enabled s t b := TS (pc s) (res s) (det s) (word s) (cell s) (setf (enabled s) t b) (queued s) (live s) (stack s) (users s) (started s) (reg s) (sent s) (bad s) (ret s) (claimed s) (known s).
Definition set_queued s f := TS (pc s) (res s) (det s) (word s) (cell s) (enabled s) f (live s) (stack s) (users s) (started s) (reg s) (sent s) (bad s) (ret s) (claimed s) (known s).
Definition set_live s t b := TS (pc s) (res s) (det s) (word s) (cell s) (enabled s) (queued s) (setf (live s) t b) (stack s) (users s) (started s) (reg s) (sent s) (bad s) (ret s) (claimed s) (known s).
Definition set_stack s t b u := TS (pc s) (res s) (det s) (word s) (cell s) (enabled s) (queued s) (live s) (setf (stack s) t b) (setf (users s) t u) (started s) (reg s) (sent s) (bad s) (ret s) (claimed s) (known s).
Definition set_started s t b := TS (pc s) (res s) (det s) (word s) (cell s) (enabled s) (queued s) (live s) (stack s) (users s) (setf (started s) t b) (reg s) (sent s) (bad s) (ret s) (claimed s) (known s).
Definition set_reg s r := TS (pc s) (res s) (det s) (word s) (cell s) (enabled s) (queued s) (live s) (stack s) (users s) (started s) r (sent s) (bad s) (ret s) (claimed s) (known s).
Definition set_sent s l := TS (pc s) (res s) (det s) (word s) (cell s) (enabled s) (queued s) (live s) (stack s) (users s) (started s) (reg s) l (bad s) (ret s) (claimed s) (known s).
Definition set_bad s b := TS (pc s) (res s) (det s) (word s) (cell s) (enabled s) (queued s) (live s) (stack s) (users s) (started s) (reg s) (sent s) b (ret s) (claimed s) (known s).
Definition set_ret s t v := TS (pc s) (res s) (det s) (word s) (cell s) (enabled s) (queued s) (live s) (stack s) (users s) (started s) (reg s) (sent s) (bad s) (setf (ret s) t v) (claimed s) (known s).
Definition set_claimed s t b := TS (pc s) (res s) (det s) (word s) (cell s) (enabled s) (queued s) (live s) (stack s) (users s) (started s) (reg s) (sent s) (bad s) (ret s) (setf (claimed s) t b) (known s).
Definition set_known s t b := TS (pc s) (res s) (det s) (word s) (cell s) (enabled s) (queued s) (live s) (stack s) (users s) (started s) (reg s) (sent s) (bad s) (ret s) (claimed s) (setf (known s) t b).

(* the TCB of [u] is used *)
Definition touch (s : tstate) (u : tid) : tstate := set_bad s (bad s || negb (live s u)).
(* pthread/mod.rs:26-55, tcb.rs:97-108: only the main thread, thread 0 *)
Definition t_init : tstate :=
  TS (fun t => if t =? 0 then Running else NotYet) (fun _ => Nothing) (fun _ => false) (fun _ => 0) (fun _ => None)
     (fun _ => false) (fun _ => false) (fun t => t =? 0) (fun t => t =? 0) (fun _ => false) (fun _ => false) [] [] false
     (fun _ => None) (fun _ => false) (fun t => t =? 0).
(* BTreeMap::remove *)
Definition remove_reg (l : list tid) (u : tid) : list tid := filter (fun x => negb (x =? u)) l.
Definition wake (f : tid -> pcs) (u : tid) : tid -> pcs :=
  fun t => match f t with JAsleep w => if w =? u then JLoad w else JAsleep w | p => p end.
Definition wake_all (s : tstate) (u : tid) : tstate :=
  TS (wake (pc s) u) (res s) (det s) (word s) (cell s) (enabled s) (queued s) (live s) (stack s) (users s) (started s) (reg s) (sent s) (bad s) (ret s) (claimed s) (known s).

Inductive tact :=
  | ACreate (u : tid) (detached userstack : bool) | AJoin (u : tid) | ADetach (u : tid) | ACancel (u : tid)
  | ASetCancel (b : bool) | ATestCancel | AExit (v : Z) | ATerminate | AStep | ASpurious.
Definition t_exec (s : tstate) (l : tid * tact) : option tstate :=
  let t := fst l in
  match pc s t, snd l with
  (* pthread/mod.rs:113-213 create; the new TCB as in tcb.rs:80-115 *)
  | Running, ACreate u d us =>
      match pc s u with
      | NotYet =>
          let s := set_live (set_cell (set_word (set_det s u d) u 0) u None) u true in
          let s := set_queued (set_enabled s u false) (setf (queued s) u false) in
          let s := set_claimed (set_started (set_stack s u true us) u false) u d in
          Some (set_pc (set_pc s u Starting) t (CWait u))
      | _ => None
      end
  | CWait u, AStep => if started s u then Some (set_pc s t (CInsert u)) else None
  | CInsert u, AStep => Some (set_known (set_res (set_pc (set_reg s (u :: remove_reg (reg s) u)) t Running) t (Created u)) u true)
  (* pthread/mod.rs:216-256 *)
  | Starting, AStep => Some (set_pc (set_started (touch s t) t true) t Running)
  (* pthread/mod.rs:257-277, waitval.rs:37-43, pthread/mod.rs:334-352 *)
  | Running, AJoin u => if u =? t then Some (set_res s t (JoinError EDEADLK)) else Some (set_claimed (set_pc s t (JLoad u)) u true)
  | JLoad u, AStep => let s := touch s u in Some (set_pc s t (if word s u =? 0 then JWait u else JRead u))
  | JWait u, AStep => let s := touch s u in Some (set_pc s t (if word s u =? 0 then JAsleep u else JLoad u))
  | JAsleep u, ASpurious => Some (set_pc s t (JLoad u))
  | JRead u, AStep => Some (set_pc (touch s u) t (JRemove u (cell s u)))
  | JRemove u v, AStep => Some (set_pc (set_reg (touch s u) (remove_reg (reg s) u)) t (JUnmap u v))
  | JUnmap u v, AStep => Some (set_res (set_pc (set_live (touch s u) u false) t Running) t (Joined u v))
  (* pthread/mod.rs:279-284 *)
  | Running, ADetach u => Some (set_claimed (set_res (set_det (touch s u) u true) t Nothing) u true)
  (* pthread/mod.rs:365-374 *)
  | Running, ACancel u => Some (set_pc (set_queued (touch s u) (setf (queued s) u true)) t (KLoad u))
  | KLoad u, AStep => let s := touch s u in Some (if enabled s u then set_pc s t (KKill u) else set_res (set_pc s t Running) t Nothing)
  | KKill u, AStep => Some (set_res (set_pc (set_sent (touch s u) (u :: sent s)) t Running) t Nothing)
  (* pthread/mod.rs:388-415 *)
  | Running, ASetCancel b =>
      let s' := set_enabled (touch s t) t b in
      Some (if b then set_pc s' t (SLoad (enabled s t)) else set_res s' t (OldState (enabled s t)))
  | SLoad old, AStep => let s := touch s t in Some (if queued s t then set_pc s t (XClean CANCELED) else set_res (set_pc s t Running) t (OldState old))
  (* pthread/mod.rs:290-298 *)
  | Running, ATestCancel => let s := touch s t in Some (if queued s t then set_pc s t TLoad else set_res s t Nothing)
  | TLoad, AStep => let s := touch s t in Some (if enabled s t then set_pc s t (XClean CANCELED) else set_res (set_pc s t Running) t Nothing)
  (* pthread/mod.rs:300-332, waitval.rs:31-35 *)
  | Running, AExit v => Some (set_pc s t (XClean v))
  | XClean v, AStep => Some (set_ret (set_pc s t (XFlags v)) t (Some v))
  | XFlags v, AStep => let s := touch s t in Some (set_pc s t (if det s t then XRemove else XWrite v))
  | XRemove, AStep => Some (set_pc (set_reg (touch s t) (remove_reg (reg s) t)) t XUnmap)
  | XUnmap, AStep => Some (set_pc (set_live (touch s t) t false) t XStatus)
  | XWrite v, AStep => Some (set_pc (set_cell (touch s t) t (Some v)) t XStore)
  | XStore, AStep => Some (set_pc (set_word (touch s t) t 1) t XWake)
  | XWake, AStep => Some (set_pc (wake_all s t) t XStatus)
  | XStatus, AStep => Some (set_pc (set_stack s t false (users s t)) t Gone)
  (* pthread/mod.rs:60-64, from exit() *)
  | Running, ATerminate =>
      let s' := set_bad (set_sent s (filter (enabled s) (reg s) ++ sent s)) (bad s || existsb (fun u => negb (live s u)) (reg s)) in
      Some (set_queued s' (fun u => if existsb (Z.eqb u) (reg s) then true else queued s u))
  | _, _ => None
  end.
