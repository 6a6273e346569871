(* What C166 says, without the model's stack: the program finds its registers as they were. *)
From Verif Require Import Base Sigother_model.
Definition resumed_arm (c d : arm) : Prop :=
  (forall i, 0 <= i < 31 -> x d i = x c i) /\ sp d = sp c /\ pc d = pc c /\ nzcv d = nzcv c /\ (forall i, 0 <= i < 32 -> v d i = v c i).
Definition resumed_x86 (c d : x86) : Prop :=
  (forall i, 0 <= i < 8 -> r d i = r c i) /\ eip d = eip c /\ eflags d = eflags c /\ (forall i, 0 <= i < 8 -> xmm d i = xmm c i /\ upper d i = upper c i) /\ tags d = tags c /\ top d = top c.
