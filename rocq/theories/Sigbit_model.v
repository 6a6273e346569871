(* Which signal the trampolines of x86_64 and i686 handle, with the words of pending and allowed signals afterwards:
   redox-rt/src/arch/x86_64.rs 189-252, redox-rt/src/arch/i686.rs 151-222.
   The words do not change meanwhile and `lock btr` finds the process' bit still set (otherwise the code starts again or goes on to the realtime signals).
   A realtime signal of the process is then dequeued with a system call, which is left out: only its number is given. *)
From Verif Require Import Base.

Inductive arch := X86_64 | I686.
(* std, rt: the thread's words for the signals 0 to 31 and 32 to 63 (sc_word): pending in the lower half, allowed in the upper; proc: pending for the process;
   by_thread, by_process: sender_infos of the thread and the process; inf: sa_tmp_id_inf.
   redox-rt/src/signal.rs 936-941 has the thread's array end before the realtime signals: what the code then reads behind it counts as belonging to it here. *)
Record words := Words { std : Z; rt : Z; proc : Z; by_thread : Z -> Z; by_process : Z -> Z; inf : Z }.
Definition low (a : Z) : Z := Z.land a (Z.ones 32).
Definition high (a : Z) : Z := Z.land (Z.shiftr a 32) (Z.ones 32).
(* the instruction bsf: the lowest bit set of 32, none when the zero flag is set *)
Definition bsf (a : Z) : option Z := find (Z.testbit a) (map Z.of_nat (seq 0 32)).
Inductive pick := Thread (sig : Z) (after : words) | Process (sig : Z) (after : words) | Dequeue (sig : Z) | Spurious.
(* x86_64.rs 246-252, i686.rs 210-220: the sender, and btr at the bit of the signal *)
Definition take (s : words) (k : Z) : words :=
  Words (if k <? 32 then Z.clearbit (std s) k else std s) (if k <? 32 then rt s else Z.clearbit (rt s) (k - 32)) (proc s) (by_thread s) (by_process s) (by_thread s k).
Definition choose (a : arch) (s : words) : pick :=
  (* x86_64.rs 192-197, i686.rs 153-157 *)
  match bsf (Z.land (low (std s)) (high (std s))) with
  | Some k => Thread k (take s k)
  | None =>
      (* x86_64.rs 202-210, i686.rs 160-175 *)
      match bsf (Z.land (low (proc s)) (high (std s))) with
      | Some k => Process k (Words (std s) (rt s) (Z.clearbit (proc s) k) (by_thread s) (by_process s) (by_process s k))
      | None =>
          (* x86_64.rs 214-219, i686.rs 177-183 *)
          match bsf (Z.land (Z.lor (high (proc s)) (low (rt s))) (high (rt s))) with
          | None => Spurious
          | Some i =>
              (* x86_64.rs 221-225 asks whether the thread's bit is set, i686.rs 186-187 whether the process' is *)
              let thread := match a with X86_64 => Z.testbit (low (rt s)) i | I686 => negb (Z.testbit (high (proc s)) i) end in
              if thread then Thread (i + 32) (take s (i + 32)) else Dequeue (i + 32)
          end
      end
  end.
