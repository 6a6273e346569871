(* Specification for C60-C62: signal dispositions. *)
From Verif Require Import Base Signal_model Signal_spec Sigaction_model.

Definition valid (n : Z) : Prop := signal n /\ n <> 32.
Definition settable (n : Z) : Prop := valid n /\ unblockable n = false.
(* Functions lie in the lower part of the address space. *)
Definition address (h : Z) : Prop := 0 <= h < 2 ^ 57.
Definition FLAGS : Z := 2113929216.   (* SA_SIGINFO|ONSTACK|RESTART|NODEFER|RESETHAND|NOCLDSTOP *)
(* An action a program can ask for: SIG_DFL, SIG_IGN or a function of its own. *)
Definition an_act (DH : Z) (a : act) : Prop :=
  address (sa_handler a) /\ sa_handler a <> DH /\ Z.land (sa_flags a) FLAGS = sa_flags a.
Definition installed (a : act) : act :=
  if (sa_handler a =? SIG_DFL) || (sa_handler a =? SIG_IGN) then Act (sa_handler a) 0 0 else a.

(* d gives the action of every signal, as sigaction reports it. *)
Definition disposition (DH : Z) (st : pst) (d : Z -> act) : Prop :=
  forall n, valid n -> sigaction DH n None st = Some (d n, st).
Definition update (d : Z -> act) (sig : Z) (a : act) : Z -> act := fun n => if n =? sig then a else d n.

(* Setting the action discards a pending signal: it is then ignored. *)
Definition discards (sig h : Z) : bool :=
  (h =? SIG_IGN) || ((h =? SIG_DFL) && ((sig =? 17) || (sig =? 23) || (sig =? 28))).   (* SIGCHLD, SIGURG, SIGWINCH *)
(* The masks and the pending signals, except that sig is discarded if b. *)
Definition kept (sig : Z) (b : bool) (st st' : pst) : Prop :=
  good (wd st') /\
  forall n, signal n -> blocked (wd st') n = blocked (wd st) n /\
    pending (wd st') n = pending (wd st) n && negb (b && (n =? sig)) /\
    member (pp st') n = member (pp st) n && negb (b && (n =? sig)).

(* The states a process reaches: it starts with setup_actions, the words and the pending set
   change in any way, and sigaction is called. *)
Inductive reached (DH : Z) : pst -> Prop :=
| r_setup w q : good w -> reached DH (P (setup_actions DH) w q)
| r_words st w q : reached DH st -> good w -> reached DH (P (acts st) w q)
| r_action st sig a old st' : reached DH st -> an_act DH a -> sigaction DH sig (Some a) st = Some (old, st') -> reached DH st'.
