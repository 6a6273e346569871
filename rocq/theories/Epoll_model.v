(* epoll: /repo/src/platform/redox/epoll.rs, /repo/src/header/sys_epoll/mod.rs.  The descriptor is one
   of the kernel's event scheme, to which records are written and from which they are read.  The
   crate redox_syscall, which is not in /repo, has the record (three words: id, flags, data) and the
   constants EVENT_READ and EVENT_WRITE; EVENT_TIMEOUT_ID is a parameter, tid.  The wait under a signal mask
   (114-118) is the subject of C57 and left out; so is epoll_create1, which opens a path. *)
From Verif Require Import Base Sort_model String_model Word_mem.

Record event := Ev { id : Z; flags : Z; data : Z }.
Definition EVENT_READ : Z := 1.
Definition EVENT_WRITE : Z := 2.
(* sys_epoll 28-57 *)
Definition EPOLLIN : Z := 1.
Definition EPOLLOUT : Z := 4.
Definition EPOLL_CTL_ADD : Z := 1.
Definition EPOLL_CTL_DEL : Z := 2.
Definition EPOLL_CTL_MOD : Z := 3.
Definition EINVAL : Z := 22.

(* 17-35 *)
Definition epoll_to_event_flags (epoll : Z) : Z :=
  Z.lor (if Z.land epoll EPOLLIN =? 0 then 0 else EVENT_READ) (if Z.land epoll EPOLLOUT =? 0 then 0 else EVENT_WRITE).
(* 37-49; contains, of a flag of one bit *)
Definition event_flags_to_epoll (f : Z) : Z :=
  Z.lor (if Z.land f EVENT_READ =? EVENT_READ then EPOLLIN else 0) (if Z.land f EVENT_WRITE =? EVENT_WRITE then EPOLLOUT else 0).

(* 56-91: the record written, or errno.  epoll_event is events at 0, data at 8 and _pad at 16
   (sys_epoll 84-99). *)
Definition ctl_record (m : mem) (op fd event : Z) : res (Epoll_model.event + Z) :=
  if (op =? EPOLL_CTL_ADD) || (op =? EPOLL_CTL_MOD) then
    ev <- ld_le 4 m event ;;
    d <- ld_le 8 m (event + 8) ;;
    Ok (inl (Ev (fd mod 2 ^ 64) (epoll_to_event_flags ev) d))
  else if op =? EPOLL_CTL_DEL then Ok (inl (Ev (fd mod 2 ^ 64) 0 0))
  else Ok (inr EINVAL).
(* the kernel answers a record written with None or an errno *)
Definition epoll_ctl (kernel : Epoll_model.event -> option Z) (m : mem) (op fd event : Z) : res (Z + Z) :=
  r <- ctl_record m op fd event ;;
  Ok (match r with inl e => match kernel e with None => inl 0 | Some e => inr e end | inr e => inr e end).

(* 151-163 *)
Definition register_timeout (tid timeout : Z) : event + Z :=
  if timeout <? 0 then inr EINVAL else inl (Ev tid EVENT_READ timeout).

(* the record the kernel stores *)
Definition event_bytes (e : event) : list Z := le_bytes 8 (id e) ++ le_bytes 8 (flags e) ++ le_bytes 8 (data e).
(* *target_ptr = epoll_event::new(..); the padding at 4..8, which may hold anything, is left *)
Definition store_epoll (m : mem) (a ev d : Z) : res mem :=
  m <- st_bytes m a (le_bytes 4 ev) ;; st_bytes m (a + 8) (le_bytes 8 d ++ le_bytes 8 0).
(* 125-145: n records are left, at p; target is where the next goes *)
Fixpoint translate (tid : Z) (n : nat) (m : mem) (p target count : Z) : res (mem * Z) :=
  match n with
  | O => Ok (m, count)
  | S n =>
      i <- ld_le 8 m p ;;
      f <- ld_le 8 m (p + 8) ;;
      d <- ld_le 8 m (p + 16) ;;
      if i =? tid then translate tid n m (p + 24) target count
      else
        m <- store_epoll m target (event_flags_to_epoll f) d ;;
        translate tid n m (p + 24) (target + 24) (count + 1)
  end.

(* 93-148, without a signal mask.  write: the kernel's answer to the timeout; read: what the kernel then
   delivers into room for so many records, or errno. *)
Definition epoll_pwait (tid : Z) (write : event -> option Z) (read : Z -> list event + Z) (m : mem) (events maxevents timeout : Z) :
  res (mem * (Z + Z)) :=
  if maxevents <=? 0 then Ok (m, inr EINVAL) else
  let timer := if timeout =? -1 then None
               else match register_timeout tid timeout with inl e => write e | inr e => Some e end in
  match timer with
  | Some e => Ok (m, inr e)
  | None =>
      match read maxevents with
      | inr e => Ok (m, inr e)
      | inl evs =>
          m <- st_bytes m events (concat (map event_bytes evs)) ;;
          ' (m, count) <- translate tid (length evs) m events events 0 ;;
          Ok (m, inl count)
      end
  end.

(* The kernel's event queue, as far as time goes; this is an assumption, not code of /repo.  ready t are the
   records of descriptors to be had at time t (milliseconds); a timeout written is due at its
   deadline and stays until it has been read.  A read ends when there is something to deliver. *)
Record queue := Queue { now : Z; deadlines : list Z; ready : Z -> list event }.
Definition delivers (tid : Z) (k : queue) (n : Z) (evs : list event) (t : Z) : Prop :=
  now k <= t /\ evs <> [] /\ len evs <= n /\
  (forall e, In e evs -> In e (ready k t) \/ id e = tid /\ exists d, In d (deadlines k) /\ d <= t) /\
  forall t', now k <= t' < t -> ready k t' = [] /\ forall d, In d (deadlines k) -> t' < d.
(* the queue after epoll_pwait has registered its timeout *)
Definition registered (k : queue) (timeout : Z) : queue :=
  if timeout =? -1 then k else Queue (now k) (deadlines k ++ [now k + timeout]) (ready k).
(* likewise an assumption: the record written last for a descriptor counts, no flags take it out *)
Definition register (t : Z -> option (Z * Z)) (e : event) : Z -> option (Z * Z) :=
  fun k => if k =? id e then if flags e =? 0 then None else Some (flags e, data e) else t k.
(* and the flags of a record delivered are those registered that happened *)
Definition happened (r w : bool) : Z := (if r then EVENT_READ else 0) + (if w then EVENT_WRITE else 0).
