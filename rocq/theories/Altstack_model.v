(* signal.h: sigaltstack (src/header/signal/mod.rs 346-352, src/platform/redox/signal.rs 187-222, redox-rt/src/signal.rs 64-90, 696-762) and the choice of the stack when a
   signal is delivered (redox-rt/src/arch/x86_64.rs 253-281).  One thread; addresses are below 2^64, overflow wraps.  current_sp is an argument. *)
From Verif Require Import Base.

Definition MAX : Z := 18446744073709551615.
Definition EPERM : Z := 1.
Definition ENOMEM : Z := 12.
Definition EINVAL : Z := 22.
Definition SS_ONSTACK : Z := 1.
Definition SS_DISABLE : Z := 2.
Definition MIN_SIGALTSTACK_SIZE : Z := 2048.
Record stack_t := Stack { ss_sp : Z; ss_flags : Z; ss_size : Z }.
(* rt signal 696-706 *)
Inductive altstack := Disabled | Enabled (onstack : bool) (base size : Z).
(* arch/x86_64.rs 41-42; rt signal 653-654: the first values *)
Record area := Area { top : Z; bottom : Z }.
Definition initial : area := Area MAX 0.
(* rt signal 708-718 *)
Definition get_sigaltstack (a : area) (sp : Z) : altstack :=
  if (bottom a =? 0) && (top a =? MAX) then Disabled
  else Enabled ((bottom a <=? sp) && (sp <=? top a)) (bottom a) ((top a - bottom a) mod (MAX + 1)).
(* rt signal 67-90 *)
Definition of_altstack (s : altstack) : stack_t :=
  match s with Disabled => Stack 0 SS_DISABLE 0 | Enabled on base size => Stack base (if on then SS_ONSTACK else 0) size end.
(* PartialEq *)
Definition same (a b : altstack) : bool :=
  match a, b with Disabled, Disabled => true | Enabled o p n, Enabled o' p' n' => Bool.eqb o o' && (p =? p') && (n =? n') | _, _ => false end.
(* rt signal 720-760: the area and the former stack, or errno *)
Definition rt_sigaltstack (a : area) (sp : Z) (new : option altstack) : area * (altstack + Z) :=
  let old := get_sigaltstack a sp in
  if (match old with Enabled true _ _ => true | _ => false end) && (match new with Some n => negb (same n old) | None => false end) then (a, inr EPERM) else
  match new with
  | None => (a, inl old)
  | Some Disabled => (Area MAX 0, inl old)
  | Some (Enabled true _ _) => (a, inr EINVAL)
  | Some (Enabled false base size) => if size <? MIN_SIGALTSTACK_SIZE then (a, inr ENOMEM) else (Area ((base + size) mod (MAX + 1)) base, inl old)
  end.
(* platform signal 191-208 *)
Definition convert (s : stack_t) : altstack + Z :=
  if ss_flags s <? 0 then inr EINVAL else
  if negb (ss_flags s =? Z.land (ss_flags s) (Z.lor SS_DISABLE SS_ONSTACK)) then inr EINVAL else
  if Z.land (ss_flags s) SS_DISABLE =? SS_DISABLE then inl Disabled else inl (Enabled false (ss_sp s) (ss_size s)).
(* platform signal 187-222; ss and old_ss: None for null pointers, *old_ss is the value before.  The value after, and 0 or errno. *)
Definition sigaltstack (a : area) (sp : Z) (ss old_ss : option stack_t) : area * option stack_t * Z :=
  match (match ss with None => inl None | Some s => match convert s with inl n => inl (Some n) | inr e => inr e end end) with
  | inr e => (a, old_ss, e)
  | inl new =>
      match rt_sigaltstack a sp new with
      | (a, inr e) => (a, old_ss, e)
      | (a, inl old) => (a, match old_ss with None => None | Some _ => Some (of_altstack old) end, 0)
      end
  end.

(* arch/x86_64.rs 253-281: where the handler's frame starts; onstack: SA_ONSTACK is set for the signal *)
Definition delivered (a : area) (onstack : bool) (sp : Z) : Z :=
  let p := (sp - 128) / 16 * 16 in
  if onstack then
    let p := if top a <? p then top a else p in
    if p <=? bottom a then top a else p
  else p.
