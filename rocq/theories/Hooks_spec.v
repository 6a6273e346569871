(* What C75, C76 and C77 ask for. *)
From Coq Require Import ZArith List Bool.
From Verif Require Import Base Hooks_model.
Import ListNotations.
Open Scope Z_scope.

(** * C75.  The calls of pthread_atfork made in the process, oldest first: the thread, and prepare, parent, child *)
Definition reg := (Z * (option Z * option Z * option Z))%type.
Definition by_thread (t : Z) (h : list reg) : list reg := filter (fun r => fst r =? t) h.
Fixpoint given {A} (f : A -> option Z) (h : list A) : list Z :=
  match h with [] => [] | r :: h => match f r with Some x => x :: given f h | None => given f h end end.
Definition prepares := given (fun r : reg => fst (fst (snd r))).
Definition parents := given (fun r : reg => snd (fst (snd r))).
Definition children := given (fun r : reg => snd (snd r)).
(** the handlers run before the fork, after it in the parent (also if it failed), and in the child *)
Definition wanted (h : list reg) (r : forked) : list Z * list Z * option (list Z) :=
  (rev (prepares h), parents h, match r with FFail => None | FOk => Some (children h) end).
Fixpoint after (s : fstate) (h : list reg) : fstate :=
  match h with [] => s | (t, (a, b, c)) :: h => after (atfork s t a b c) h end.

(** * C76.  A thread's stack of handlers: (place of the entry, routine, argument), newest first *)
Definition frame := (Z * Z * Z)%type.
Definition place (e : frame) : Z := fst (fst e).
Section cleanup_spec.
Variable body : Z -> Z -> list cop.
Variable pend : bool.
(** Runs a program on the stack [top]; [below]: the places in use elsewhere.  Result: the calls made, oldest
    first, the stack, and whether the thread is to exit.  None: not a correct program (it pops what it did not
    push, or puts an entry where one is in use), or not enough fuel. *)
Fixpoint sexec (fuel : nat) (below : list Z) (top : list frame) (l : list cop) {struct fuel} : option (list (Z * Z) * list frame * bool) :=
  match fuel with
  | O => None
  | S fuel =>
    match l with
    | [] => Some ([], top, false)
    | Push p r a :: l =>
      if (p =? 0) || existsb (Z.eqb p) (map place top ++ below) then None
      else sexec fuel below ((p, r, a) :: top) l
    | Pop e :: l =>
      match top with
      | [] => None
      | (p, r, a) :: top =>
        if e then
          match sexec fuel (p :: map place top ++ below) [] (body r a) with
          | Some (c1, t1, true) => Some ((r, a) :: c1, t1 ++ top, true)
          | Some (c1, [], false) =>
            match sexec fuel below top l with
            | Some (c2, t2, ex) => Some ((r, a) :: c1 ++ c2, t2, ex)
            | None => None
            end
          | _ => None
          end
        else sexec fuel below top l
      end
    | Test :: l => if pend then Some ([], top, true) else sexec fuel below top l
    end
  end.
End cleanup_spec.
(** At the end the handlers are run from the newest, each removed first, and further cancellation is ignored. *)
Fixpoint sunwind (body : Z -> Z -> list cop) (fuel : nat) (used : list Z) (st : list frame) : option (list (Z * Z)) :=
  match st with
  | [] => Some []
  | (p, r, a) :: st =>
    match sexec body false fuel used [] (body r a) with
    | Some (c1, [], false) => match sunwind body fuel used st with Some c2 => Some ((r, a) :: c1 ++ c2) | None => None end
    | _ => None
    end
  end.
Definition sthread (body : Z -> Z -> list cop) (pend : bool) (fuel : nat) (l : list cop) : option (list (Z * Z)) :=
  match sexec body pend fuel [] [] l with
  | Some (c1, st, _) => match sunwind body fuel (map place st) st with Some c2 => Some (c1 ++ c2) | None => None end
  | None => None
  end.
Definition no_test (l : list cop) : Prop := ~ In Test l.

(** * C77.  The functions waiting, oldest first; each is called when its object, or everything, is finalized *)
Definition concerns (d : Z) (e : xfunc) : bool := (d =? 0) || (d =? xdso e).
Fixpoint xwanted (w : list xfunc) (ops : list xop) : list (list (Z * Z)) :=
  match ops with
  | [] => []
  | XReg None _ _ :: ops => xwanted w ops
  | XReg (Some f) a d :: ops => xwanted (w ++ [XF f a d]) ops
  | XFin d :: ops =>
    rev (map (fun e => (xf e, xarg e)) (filter (concerns d) w)) ::
    xwanted (filter (fun e => negb (concerns d e)) w) ops
  end.
