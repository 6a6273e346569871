(* What POSIX says about record locks. *)
From Coq Require Import ZArith List Bool.
Open Scope Z_scope.

Inductive whence := Set_ | Cur | End_.
(* the bytes a request means, in a file of size bytes whose offset is pos; None if it begins
   before the file *)
Definition base (w : whence) (pos size : Z) : Z := match w with Set_ => 0 | Cur => pos | End_ => size end.
Definition first (w : whence) (start len pos size : Z) : Z := base w pos size + start + (if len <? 0 then len else 0).
Definition section (w : whence) (start len pos size : Z) (x : Z) : Prop :=
  let s := base w pos size + start in
  if len <? 0 then s + len <= x < s else if len =? 0 then s <= x else s <= x < s + len.
