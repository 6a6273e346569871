(* What select and poll report about descriptors, and what the kernel's epoll promises. *)
From Verif Require Import Base Select_model.

(* A descriptor is closed, always ready (a regular file, which epoll refuses), or has a
   set of current conditions. *)
Inductive condition := Closed | Always | Now (mask : Z).
Definition world := Z -> condition.

(* epoll_ctl(2) *)
Definition epoll_add (w : world) (l : list added) (fd ev : Z) : option Z :=
  match w fd with
  | Closed => Some EBADF
  | Always => Some EPERM
  | Now _ => if existsb (fun a => fst (fst a) =? fd) l then Some EEXIST else None
  end.
(* The events epoll reports for an added descriptor: those asked for, and errors and
   hang-ups always. *)
Definition epoll_events (w : world) (fd ev : Z) : Z :=
  match w fd with Now m => Z.land m (Z.lor ev (Z.lor EPOLLERR EPOLLHUP)) | _ => 0 end.
(* epoll_wait(2) with room for 32: events of distinct added descriptors; all of them unless
   there is no room. *)
Definition epoll_result (w : world) (l : list added) (evs : list (Z * Z)) : Prop :=
  NoDup (map snd evs) /\ (length evs <= 32)%nat /\
  (forall ev d, In (ev, d) evs -> ev <> 0 /\ exists fd want, In (fd, want, d) l /\ ev = epoll_events w fd want) /\
  ((length evs < 32)%nat -> forall fd want d, In (fd, want, d) l -> epoll_events w fd want <> 0 -> In (epoll_events w fd want, d) evs).

(* A kernel whose epoll_wait succeeds and reports the current conditions. *)
Definition epoll_good (w : world) (wait : list added -> Z -> list (Z * Z) + Z) : Prop :=
  forall l ms, NoDup (map snd l) -> exists evs, wait l ms = inl evs /\ epoll_result w l evs.
(* One such kernel. *)
Definition epoll_scan (w : world) (l : list added) (ms : Z) : list (Z * Z) + Z :=
  inl (firstn 32 (filter (fun e => negb (fst e =? 0)) (map (fun a => (epoll_events w (fst (fst a)) (snd (fst a)), snd a)) l))).

(* POSIX select: reading would not block (data, end of file or an error), writing would
   not block, an exceptional condition is pending. *)
Definition can_read (c : condition) : bool :=
  match c with Closed => false | Always => true | Now m => Z.testbit m 0 || Z.testbit m 4 || Z.testbit m 3 end.
Definition can_write (c : condition) : bool :=
  match c with Closed => false | Always => true | Now m => Z.testbit m 2 || Z.testbit m 3 end.
Definition exceptional (c : condition) : bool :=
  match c with Closed => false | Always => true | Now m => Z.testbit m 3 || Z.testbit m 1 end.
Definition bits (s : option fdset) (nfds : Z) : Z :=
  len (filter (has s) (map Z.of_nat (seq 0 (Z.to_nat nfds)))).
(* the set a member of which is reported *)
Definition selected (nfds : Z) (s : option fdset) (ok : condition -> bool) (w : world) (s' : option fdset) : Prop :=
  match s, s' with
  | None, None => True
  | Some f, Some f' => forall x, f' x = if (0 <=? x) && (x <? nfds) then f x && ok (w x) else f x
  | _, _ => False
  end.
Definition watched (s : sets) (fd : Z) : bool := has (rd s) fd || has (wr s) fd || has (ex s) fd.

Definition descriptors (nfds : Z) : list Z := map Z.of_nat (seq 0 (Z.to_nat nfds)).
(* what the code gets right: no urgent data; a hang-up or error leaves reading possible;
   an error leaves writing possible and is asked for if the third set is given *)
Definition calm (s : sets) (w : world) (x : Z) : Prop :=
  match w x with
  | Closed => False
  | Always => (if has (rd s) x then 1 else 0) + (if has (wr s) x then 1 else 0) + (if has (ex s) x then 1 else 0) = 1
  | Now m => Z.testbit m 1 = false /\ (Z.testbit m 4 = true -> Z.testbit m 0 = true) /\
      (Z.testbit m 3 = true -> Z.testbit m 0 = true /\ Z.testbit m 2 = true /\ (ex s = None \/ has (ex s) x = true))
  end.
(* epoll has something to report about the descriptor *)
Definition busy (s : sets) (w : world) (x : Z) : bool :=
  watched s x && match w x with
                 | Now m => (has (rd s) x && Z.testbit m 0) || (has (wr s) x && Z.testbit m 2) || Z.testbit m 3 || Z.testbit m 4
                 | _ => false
                 end.
(* POSIX: wait until one of the conditions holds or the timeout is over.  [ms] is the
   timeout given to epoll, [us] the one asked for: rounded up, not down. *)
Definition waits_for (ms us : Z) : Prop := us <= ms * 1000 < us + 1000.

(* POSIX poll: the conditions asked for, and errors, hang-ups and invalid descriptors. *)
Definition poll_answer (w : world) (fd ev : Z) : Z :=
  if fd <? 0 then 0
  else match w fd with
       | Closed => 32
       | Always => Z.land ev 5                     (* readable and writable *)
       | Now m => Z.land m (Z.lor ev 24)
       end.
(* the non-negative descriptors *)
Definition valid_fds (ps : list pollfd) : list Z := filter (fun x => 0 <=? x) (map fd ps).
Definition answered (w : world) (p : pollfd) : bool := negb (poll_answer w (fd p) (events p) =? 0).
