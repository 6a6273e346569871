(* Which signal the trampoline of aarch64 handles, redox-rt/src/arch/aarch64.rs 174-313, with the words of pending and allowed signals afterwards.
   Exclusive loads and stores succeed (otherwise the code starts again).  Process-directed realtime signals, which are dequeued with a system call, are left out. *)
From Verif Require Import Base.

(* std, rt: the thread's words for the signals 0 to 31 and 32 to 63: pending in the lower half, allowed in the upper; proc: pending for the process, all 64;
   senders: sc_sender_infos; inf: sa_tmp_id_inf *)
Record words := Words { std : Z; rt : Z; proc : Z; senders : Z -> Z; inf : Z }.
Definition low32 (a : Z) : Z := Z.land a (Z.ones 32).
(* clz and sub from 31: the number of the highest bit set *)
Definition highest (a : Z) : Z := Z.log2 a.
(* rbit and clz: the number of the lowest bit set *)
Definition lowest (a : Z) : Z := Z.log2 (Z.land a (- a)).
Inductive pick := Picked (sig : Z) (after : words) | Dequeue | Spurious.
Definition choose (s : words) : pick :=
  (* 176-181 *)
  let x4 := Z.land (std s) (Z.shiftr (std s) 32) in
  if negb (x4 =? 0) then
    (* 291-309: the index is that of x1, all pending signals; 301-303 compute the new mask in x4, 306 stores x1, the index *)
    let x1 := highest (low32 (std s)) in
    Picked x1 (Words x1 (rt s) (proc s) (senders s) (senders s x1))
  else
    (* 185-191 *)
    let w3 := low32 (Z.land (low32 (proc s)) (low32 (Z.shiftr (std s) 32))) in
    if negb (w3 =? 0) then
      (* 196-216; the sender, loaded at 208-210, is not stored *)
      let x3 := highest w3 in
      Picked x3 (Words (std s) (rt s) (proc s - Z.shiftl 1 x3) (senders s) (inf s))
    else
      (* 221-241 *)
      let x2 := Z.lor (rt s) (Z.shiftr (proc s) 32) in
      let x2 := Z.land x2 (Z.shiftr x2 32) in
      if x2 =? 0 then Spurious else
      let i := lowest x2 in
      let x3 := Z.shiftr (rt s) i in
      if Z.testbit x3 0 then
        (* 270-287: the number from x3, the shifted word; the bit removed is numbered by the word; 287 stores the word left, not the sender; 356 passes 32 bits on *)
        let x2 := (rt s - Z.shiftl 1 (rt s mod 64)) mod 2 ^ 64 in
        Picked (low32 (x3 + 32)) (Words (std s) x2 (proc s) (senders s) x2)
      else Dequeue.
