(* What a user of terminals relies on (POSIX.1-2024 <termios.h>; cfmakeraw(3)); flags are given by their bits. *)
From Verif Require Import Base Termios_model.

Definition u32 (x : Z) : Prop := 0 <= x < 2 ^ 32.
Definition proper (t : termios) : Prop := u32 (iflag t) /\ u32 (oflag t) /\ u32 (cflag t) /\ u32 (lflag t) /\ length (cc t) = 32%nat.
(* y is x with the bits of off cleared and those of on set *)
Definition switched (off on : list Z) (x y : Z) : Prop :=
  forall i, 0 <= i -> (In i on -> Z.testbit y i = true) /\ (~ In i on -> In i off -> Z.testbit y i = false) /\ (~ In i on -> ~ In i off -> Z.testbit y i = Z.testbit x i).
Definition raw (t t' : termios) : Prop :=
  switched [0; 1; 3; 5; 6; 7; 8; 9] [] (iflag t) (iflag t') /\      (* IGNBRK BRKINT PARMRK ISTRIP INLCR IGNCR ICRNL IXON *)
  switched [0] [] (oflag t) (oflag t') /\                           (* OPOST *)
  switched [8; 9; 12] [8; 9] (cflag t) (cflag t') /\                (* CSIZE PARENB; CS8 *)
  switched [3; 4; 8; 7; 10] [] (lflag t) (lflag t') /\              (* ECHO ECHONL ICANON ISIG IEXTEN *)
  length (cc t') = length (cc t) /\ nth 16 (cc t') 0 = 1 /\ nth 17 (cc t') 0 = 0 /\
  forall i, i <> 16%nat -> i <> 17%nat -> nth i (cc t') 0 = nth i (cc t) 0.
