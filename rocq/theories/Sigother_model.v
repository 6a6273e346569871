(* The signal trampolines of the other architectures, registers only, from the interruption of a program to its resumption.
   arm: redox-rt/src/arch/aarch64.rs 157-390; x86: redox-rt/src/arch/i686.rs 142-281.
   Choosing the signal is left open: which registers it changes is listed, the values are arbitrary.  The handler (`inner`) changes what the calling convention lets
   it change, to arbitrary values, and leaves the saved registers on the stack.  The paths for spurious signals, the critical sections that arch_pre mends, the
   control registers of the floating point units and riscv64 are not modelled. *)
From Verif Require Import Base.

Definition put (f : Z -> Z) (i v : Z) : Z -> Z := fun x => if x =? i then v else f x.
Definition within (i : Z) (l : list Z) : bool := existsb (Z.eqb i) l.

(* aarch64: x holds x0 to x30, v holds v0 to v31 *)
Record arm := Arm { x : Z -> Z; sp : Z; pc : Z; nzcv : Z; v : Z -> Z }.
(* Tmp: copied to the thread's area (166-171); Old: saved by the kernel (sc_saved_pc, sc_saved_x0) *)
Inductive source64 := Tmp (i : Z) | Reg (i : Z) | OldX0 | OldPc | OldSp | Nzcv.
(* 166-169 *)
Definition copied : list Z := [1; 2; 3; 4; 5; 6; 7; 8].
(* 173-322: the registers that choosing the signal uses *)
Definition used : list Z := [0; 1; 2; 3; 4; 5; 6; 8].
(* 327-353, in order: the word at the lower address first *)
Definition stores : list (source64 * source64) :=
  [(OldPc, OldX0); (OldSp, Nzcv); (Tmp 1, Tmp 2); (Tmp 4, Tmp 3); (Tmp 6, Tmp 5); (Tmp 8, Tmp 7); (Reg 10, Reg 9); (Reg 12, Reg 11); (Reg 14, Reg 13); (Reg 16, Reg 15);
   (Reg 18, Reg 17); (Reg 20, Reg 19); (Reg 22, Reg 21); (Reg 24, Reg 23); (Reg 26, Reg 25); (Reg 28, Reg 27); (Reg 30, Reg 29)].
(* 364-378, in order *)
Definition loads : list (Z * Z) :=
  [(30, 29); (28, 27); (26, 25); (24, 23); (22, 21); (20, 19); (18, 17); (16, 15); (14, 13); (12, 11); (10, 9); (8, 7); (6, 5); (4, 3); (2, 1)].
Definition read64 (c : arm) (f : Z -> Z) (s : source64) : Z :=
  match s with Tmp i => if within i copied then x c i else 0 | Reg i => f i | OldX0 => x c 0 | OldPc => pc c | OldSp => sp c | Nzcv => nzcv c end.
Fixpoint load (l : list (Z * Z)) (stack : list (Z * Z)) (f : Z -> Z) : (Z -> Z) * list (Z * Z) :=
  match l, stack with
  | (a, b) :: l, (p, q) :: stack => load l stack (put (put f a p) b q)
  | _, _ => (f, stack)
  end.
(* chosen: what choosing the signal leaves in the registers it uses; after: what the handler leaves.  No instruction before 332 changes the flags. *)
Definition sigentry_arm (c : arm) (chosen : Z -> Z) (after : arm) : arm :=
  let f i := if within i used then chosen i else x c i in
  let frame := rev (map (fun '(a, b) => (read64 c f a, read64 c f b)) stores) in
  match load loads frame (x after) with
  (* 380-390: msr nzcv; mov sp; ldp x18, x0; br x18 *)
  | (f, (s, n) :: (p, r) :: _) => Arm (put (put f 18 p) 0 r) s p n (v after)
  | (f, _) => Arm f 0 0 0 (v after)
  end.

(* i686: r holds eax ecx edx ebx esp ebp esi edi as 0 to 7; xmm holds xmm0 to xmm7, upper the upper halves of ymm0 to ymm7;
   tags: the bit of each x87 register that is set when it is in use, as fxsave stores them; top: the x87 stack pointer *)
Record x86 := X86 { r : Z -> Z; eip : Z; eflags : Z; xmm : Z -> Z; upper : Z -> Z; tags : Z; top : Z }.
Definition eax := 0. Definition ecx := 1. Definition edx := 2. Definition ebx := 3. Definition esp := 4. Definition ebp := 5. Definition esi := 6. Definition edi := 7.
(* the standard signals of the thread and of the process, a realtime signal of the thread, one taken with a system call *)
Inductive origin := Thread | Process | Realtime | Dequeued.
Inductive word := T (i : Z) | R (i : Z) | Eip | Eflags.
(* 144-150 *)
Definition copied32 : list Z := [esp; eax; edx; ecx; ebx; edi; esi].
(* 151-231 *)
Definition used32 (o : origin) : list Z := match o with Dequeued => [eax; ecx; edx; ebx; esi; edi] | _ => [eax; ecx; edx] end.
(* 167-170 and 212-215: an MMX instruction marks all x87 registers as in use and resets the stack pointer (Intel SDM volume 1, 9.5.1); there is no emms *)
Definition mmx (o : origin) : bool := match o with Dequeued => false | _ => true end.
(* 241-251, in order *)
Definition pushes32 : list word := [T esp; Eip; Eflags; T edx; T ecx; T eax; T ebx; T edi; T esi; R ebp].
(* 265-281, in order *)
Definition pops32 : list word := [R ebp; R esi; R edi; R ebx; R eax; R ecx; R edx; Eflags; Eip; R esp].
Definition read32 (c : x86) (f : Z -> Z) (w : word) : Z := match w with T i => if within i copied32 then r c i else 0 | R i => f i | Eip => eip c | Eflags => eflags c end.
Fixpoint pop32 (l : list word) (stack : list Z) (c : x86) : x86 :=
  match l, stack with
  | w :: l, a :: stack =>
      pop32 l stack (match w with
                     | R i | T i => X86 (put (r c) i a) (eip c) (eflags c) (xmm c) (upper c) (tags c) (top c)
                     | Eip => X86 (r c) a (eflags c) (xmm c) (upper c) (tags c) (top c)
                     | Eflags => X86 (r c) (eip c) a (xmm c) (upper c) (tags c) (top c)
                     end)
  | _, _ => c
  end.
Definition sigentry_x86 (c : x86) (o : origin) (chosen : Z -> Z) (after : x86) : x86 :=
  let f i := if within i (used32 o) then chosen i else r c i in
  let t := if mmx o then 255 else tags c in
  let p := if mmx o then 0 else top c in
  let frame := rev (map (read32 c f) pushes32) in
  (* 254 and 262: fxsave, fxrstor *)
  pop32 pops32 frame (X86 (r after) (eip after) (eflags after) (xmm c) (upper after) t p).
