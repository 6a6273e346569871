(* The signal trampoline: redox-rt/src/arch/x86_64.rs 178-396 (__relibc_internal_sigentry), from the interruption of a program to its resumption, registers only.
   Choosing the signal (189-252) is left open: which registers it changes is listed, the values are arbitrary.  The handler (`inner`) changes what the calling
   convention lets it change, to arbitrary values, and leaves the saved registers on the stack.  The kernel has saved rip and rflags (sc_saved_rip, sc_saved_rflags)
   and changed nothing else.  The x87 registers, which fxsave64 saves too, and the critical sections that arch_pre mends are not modelled. *)
From Verif Require Import Base.

Inductive gp := RAX | RCX | RDX | RBX | RSP | RBP | RSI | RDI | R8 | R9 | R10 | R11 | R12 | R13 | R14 | R15.
Definition num (r : gp) : Z :=
  match r with RAX => 0 | RCX => 1 | RDX => 2 | RBX => 3 | RSP => 4 | RBP => 5 | RSI => 6 | RDI => 7 | R8 => 8 | R9 => 9 | R10 => 10 | R11 => 11 | R12 => 12 | R13 => 13 | R14 => 14 | R15 => 15 end.
Definition is (a b : gp) : bool := num a =? num b.
Definition among (r : gp) (l : list gp) : bool := existsb (is r) l.
(* lo and hi: the lower and the upper half of ymm0 to ymm15 *)
Record cpu := Cpu { g : gp -> Z; rip : Z; flags : Z; lo : Z -> Z; hi : Z -> Z }.
Definition set (f : gp -> Z) (r : gp) (v : Z) : gp -> Z := fun x => if is x r then v else f x.
Definition setv (f : Z -> Z) (i v : Z) : Z -> Z := fun x => if x =? i then v else f x.

(* 180-187: copied to the thread's area *)
Definition saved : list gp := [RSP; RAX; RDX; RDI; RSI; R8; R10; R12].
(* where the signal came from: the thread's or the process' word of standard signals, a realtime signal to the thread, one taken with a system call *)
Inductive source := Thread | Process | Realtime | Dequeued.
(* 189-252: the registers that choosing it changes; the instruction syscall changes rcx and r11 *)
Definition changed (s : source) : list gp :=
  match s with
  | Thread | Process | Realtime => [RAX; RDX; RDI]
  | Dequeued => [RAX; RDX; RDI; RSI; R8; R10; R12; RCX; R11]
  end.
Inductive operand := Tmp (r : gp) | Reg (r : gp) | Rip | Flags.
(* 288-306, in order *)
Definition pushes : list operand :=
  [Tmp RSP; Rip; Flags; Tmp RDI; Tmp RSI; Tmp RDX; Reg RCX; Tmp RAX; Tmp R8; Reg R9; Tmp R10; Reg R11; Reg RBX; Reg RBP; Tmp R12; Reg R13; Reg R14; Reg R15].
(* 364-390, in order *)
Definition pops : list operand :=
  [Reg R15; Reg R14; Reg R13; Reg R12; Reg RBP; Reg RBX; Reg R11; Reg R10; Reg R9; Reg R8; Reg RAX; Reg RCX; Reg RDX; Reg RSI; Reg RDI; Flags; Rip; Reg RSP].
(* 315-330: register and slot of vextractf128; 345-360: of vinsertf128 *)
Definition extracts : list (Z * Z) := [(0, 15); (1, 14); (2, 13); (3, 12); (4, 11); (5, 10); (6, 9); (7, 8); (8, 7); (9, 6); (10, 5); (11, 4); (12, 3); (13, 2); (14, 1); (15, 0)].
Definition inserts : list (Z * Z) := [(0, 15); (1, 14); (2, 13); (2, 12); (2, 11); (2, 10); (2, 9); (2, 8); (2, 7); (2, 6); (2, 5); (2, 4); (2, 3); (2, 2); (2, 1); (2, 0)].
(* the registers the handler has to leave as they are *)
Definition preserved : list gp := [RBX; RSP; RBP; R12; R13; R14; R15].

Definition value (tmp : gp -> Z) (c : cpu) (f : gp -> Z) (o : operand) : Z := match o with Tmp r => tmp r | Reg r => f r | Rip => rip c | Flags => flags c end.
Fixpoint pop (l : list operand) (stack : list Z) (c : cpu) : cpu :=
  match l, stack with
  | o :: l, v :: stack =>
      pop l stack (match o with
                   | Reg r | Tmp r => Cpu (set (g c) r v) (rip c) (flags c) (lo c) (hi c)
                   | Rip => Cpu (g c) v (flags c) (lo c) (hi c)
                   | Flags => Cpu (g c) (rip c) v (lo c) (hi c)
                   end)
  | _, _ => c
  end.
(* avx: supports_avx; chosen: what choosing the signal leaves in the registers it changes; start: the stack chosen; after: what the handler leaves *)
Definition sigentry (avx : bool) (c : cpu) (s : source) (chosen : gp -> Z) (start : Z) (after : cpu) : cpu :=
  let tmp r := if among r saved then g c r else 0 in
  let f r := if among r (changed s) then chosen r else g c r in
  (* 260-267: mov ecx, eax; and ecx, 63; lea rdx *)
  let f := set (set f RCX (f RAX mod 64)) RDX start in
  let f := set f RSP start in
  let frame := rev (map (value tmp c f) pushes) in
  (* 308 and 315-330 *)
  let slots := fold_left (fun t '(i, k) => setv t k (hi c i)) extracts (fun _ => 0) in
  (* 336: call inner *)
  let f r := if among r preserved then f r else g after r in
  let h := if avx then fold_left (fun h '(i, k) => setv h i (slots k)) inserts (hi after) else hi after in
  (* 340, 345-360, 364-394 *)
  pop pops frame (Cpu f (rip after) (flags after) (lo c) h).
