(* Model of select/pselect (src/header/sys_select/mod.rs:43-171) and poll/ppoll
   (src/header/poll/mod.rs:64-235), which are written over epoll.  The three epoll calls
   are parameters: [ctl] is EPOLL_CTL_ADD given what was added before, [wait] is
   epoll_pwait given the added descriptors and the timeout.  An fd_set is a predicate on
   descriptors (the cbitset crate).  epoll_create1 is taken to succeed; the signal mask is
   passed on unread. *)
From Verif Require Import Base.

(* sys_epoll/mod.rs:25-38; poll/mod.rs:25-44 *)
Definition EPOLLIN := 1. Definition EPOLLPRI := 2. Definition EPOLLOUT := 4. Definition EPOLLERR := 8.
Definition EPOLLHUP := 16. Definition EPOLLNVAL := 32. Definition EPOLLRDNORM := 64. Definition EPOLLRDBAND := 128.
Definition EPOLLWRNORM := 256. Definition EPOLLWRBAND := 512.
Definition EPERM := 1. Definition EINTR := 4. Definition EBADF := 9. Definition EEXIST := 17. Definition EINVAL := 22.
Definition FD_SETSIZE := 1024.
Definition C_INT_MAX := 2147483647.
Definition to_int (x : Z) : Z := (x + 2147483648) mod 4294967296 - 2147483648.
Definition in_int (x : Z) : bool := (- 2147483648 <=? x) && (x <=? C_INT_MAX).

(* an added descriptor: fd, events, data *)
Definition added : Type := (Z * Z * Z)%type.
Section Kernel.
  Variable ctl : list added -> Z -> Z -> option Z.              (* None, or an errno *)
  Variable wait : list added -> Z -> list (Z * Z) + Z.          (* (events, data) list, or an errno *)

  Definition fdset := Z -> bool.
  Record sets := { rd : option fdset; wr : option fdset; ex : option fdset }.
  Definition has (s : option fdset) (fd : Z) : bool := match s with Some f => f fd | None => false end.
  Definition put (s : option fdset) (fd : Z) (b : bool) : option fdset :=
    match s with Some f => Some (fun x => if x =? fd then b else f x) | None => None end.
  Record outcome := { ret : Z; err : Z; out : sets; waited : option Z }.

  (* sys_select/mod.rs:70-91 *)
  Definition wanted (s : sets) (fd : Z) : Z :=
    let e := if has (rd s) fd then EPOLLIN else 0 in
    let e := if has (wr s) fd then Z.lor e EPOLLOUT else e in
    if has (ex s) fd then Z.lor e EPOLLERR else e.
  (* sys_select/mod.rs:100-117; removing a bit that is clear changes nothing *)
  Definition remove (s : sets) (fd : Z) : sets :=
    {| rd := put (rd s) fd false; wr := put (wr s) fd false; ex := put (ex s) fd false |}.
  (* sys_select/mod.rs:69-119 *)
  Fixpoint add_all (k : nat) (fd : Z) (s : sets) (l : list added) (not_epoll : Z) : (sets * list added * Z) + (sets * Z) :=
    match k with
    | O => inl (s, l, not_epoll)
    | S k =>
        let ev := wanted s fd in
        if 0 <? ev then
          match ctl l fd ev with
          | Some e => if e =? EPERM then add_all k (fd + 1) s l (not_epoll + 1) else inr (s, e)
          | None => add_all k (fd + 1) (remove s fd) (l ++ [(fd, ev, fd)]) not_epoll
          end
        else add_all k (fd + 1) s l not_epoll
    end.
  (* sys_select/mod.rs:122-138; tv_sec and tv_usec are i64 *)
  Definition timeval_ms (sec usec : Z) : Z :=
    let s := to_int sec * 1000 in
    let u := Z.quot (to_int usec) 1000 in
    if in_int s && in_int (s + u) then s + u else C_INT_MAX.
  (* sys_select/mod.rs:153-178: one event *)
  Definition report (st : sets * Z) (e : Z * Z) : sets * Z :=
    let '(s, n) := st in
    let '(ev, fd) := e in
    if (0 <=? fd) && (fd <? FD_SETSIZE) then
      let '(r, n) := if (0 <? Z.land ev EPOLLIN) && (match rd s with Some _ => true | None => false end)
                     then (put (rd s) fd true, n + 1) else (rd s, n) in
      let '(w, n) := if (0 <? Z.land ev EPOLLOUT) && (match wr s with Some _ => true | None => false end)
                     then (put (wr s) fd true, n + 1) else (wr s, n) in
      let '(x, n) := if (0 <? Z.land ev EPOLLERR) && (match ex s with Some _ => true | None => false end)
                     then (put (ex s) fd true, n + 1) else (ex s, n) in
      ({| rd := r; wr := w; ex := x |}, n)
    else (s, n).
  (* sys_select/mod.rs:43-171; timeout: None for a null pointer *)
  Definition select_epoll (nfds : Z) (s : sets) (timeout : option (Z * Z)) : outcome :=
    if (nfds <? 0) || (FD_SETSIZE <? nfds) then {| ret := -1; err := EINVAL; out := s; waited := None |}
    else
      match add_all (Z.to_nat nfds) 0 s [] 0 with
      | inr (s, e) => {| ret := -1; err := e; out := s; waited := None |}
      | inl (s, l, not_epoll) =>
          let ms := if 0 <? not_epoll then 0
                    else match timeout with Some (sec, usec) => timeval_ms sec usec | None => -1 end in
          match wait l ms with
          | inr e => {| ret := -1; err := e; out := s; waited := Some ms |}
          | inl evs =>
              let '(s, n) := fold_left report (firstn 32 evs) (s, not_epoll) in
              {| ret := n; err := 0; out := s; waited := Some ms |}
          end
      end.
  (* sys_select/mod.rs:188-238 *)
  Definition select := select_epoll.
  (* sys_select/mod.rs:251-296: nanoseconds to microseconds *)
  Definition pselect (nfds : Z) (s : sets) (timeout : option (Z * Z)) : outcome :=
    select_epoll nfds s (match timeout with Some (sec, nsec) => Some (sec, Z.quot nsec 1000) | None => None end).

  (* poll/mod.rs:65-76 *)
  Definition event_map : list (Z * Z) :=
    [(1, EPOLLIN); (2, EPOLLPRI); (4, EPOLLOUT); (8, EPOLLERR); (16, EPOLLHUP); (32, EPOLLNVAL); (64, EPOLLRDNORM);
     (256, EPOLLWRNORM); (128, EPOLLRDBAND); (512, EPOLLWRBAND)].
  Definition POLLNVAL := 32.
  Record pollfd := { fd : Z; events : Z; revents : Z }.
  Definition set_revents (p : pollfd) (r : Z) : pollfd := {| fd := fd p; events := events p; revents := r |}.
  (* poll/mod.rs:101-105, 142-146 *)
  Definition to_epoll (ev : Z) : Z :=
    fold_left (fun acc pe => if 0 <? Z.land ev (fst pe) then Z.lor acc (snd pe) else acc) event_map 0.
  Definition from_epoll (ev r : Z) : Z :=
    fold_left (fun acc pe => if 0 <? Z.land ev (snd pe) then Z.lor acc (fst pe) else acc) event_map r.
  (* poll/mod.rs:89-119 *)
  Fixpoint poll_add (ps : list pollfd) (i : Z) (l : list added) (closed : Z) : list pollfd * (list added * Z + Z) :=
    match ps with
    | [] => ([], inl (l, closed))
    | p :: ps =>
        let p := set_revents p 0 in
        if fd p <? 0 then let '(qs, r) := poll_add ps (i + 1) l closed in (p :: qs, r)
        else
          let ev := to_epoll (events p) in
          match ctl l (fd p) ev with
          | None => let '(qs, r) := poll_add ps (i + 1) (l ++ [(fd p, ev, i)]) closed in (p :: qs, r)
          | Some e =>
              if e =? EBADF then
                let '(qs, r) := poll_add ps (i + 1) l (closed + 1) in (set_revents p (Z.lor 0 POLLNVAL) :: qs, r)
              else (p :: ps, inr e)
          end
    end.
  (* poll/mod.rs:138-148 *)
  Fixpoint poll_set (ps : list pollfd) (i : nat) (ev : Z) : list pollfd :=
    match ps, i with
    | [], _ => []
    | p :: ps, O => set_revents p (from_epoll ev (revents p)) :: ps
    | p :: ps, S i => p :: poll_set ps i ev
    end.
  Definition poll_report (ps : list pollfd) (e : Z * Z) : list pollfd := poll_set ps (Z.to_nat (snd e)) (fst e).
  Record poll_outcome := { pret : Z; perr : Z; pout : list pollfd; pwaited : option Z }.
  (* poll/mod.rs:161-167 *)
  Definition count (ps : list pollfd) : Z := len (filter (fun p => 0 <? revents p) ps).
  (* poll/mod.rs:64-168 *)
  Definition poll (ps : list pollfd) (timeout : Z) : poll_outcome :=
    match poll_add ps 0 [] 0 with
    | (ps, inr e) => {| pret := -1; perr := e; pout := ps; pwaited := None |}
    | (ps, inl (l, closed)) =>
        if (0 <? closed) && (closed =? len ps) then {| pret := closed; perr := 0; pout := ps; pwaited := None |}
        else
          match wait l timeout with
          | inl evs =>
              let ps := fold_left poll_report (firstn 32 evs) ps in
              {| pret := count ps; perr := 0; pout := ps; pwaited := Some timeout |}
          | inr e =>
              if (e =? EINTR) && (0 <? closed) then {| pret := count ps; perr := 0; pout := ps; pwaited := Some timeout |}
              else {| pret := -1; perr := e; pout := ps; pwaited := Some timeout |}
          end
    end.
  (* poll/mod.rs:205-235 *)
  Definition ppoll_ms (tmo : option (Z * Z)) : Z :=
    match tmo with
    | None => -1
    | Some (sec, nsec) =>
        if C_INT_MAX / 1000 <? sec then C_INT_MAX
        else to_int (to_int (to_int sec * 1000) + Z.quot (to_int nsec) 1000000)
    end.
  Definition ppoll (ps : list pollfd) (tmo : option (Z * Z)) : poll_outcome := poll ps (ppoll_ms tmo).
End Kernel.
