(* Specification for C165: the alternate stack of a thread, None or its first address and size. *)
From Verif Require Import Base Altstack_model.

Definition alt := option (Z * Z).
(* executing on it; the stack pointer is at its end when it is empty *)
Definition on (s : alt) (sp : Z) : bool := match s with None => false | Some (b, n) => (b <=? sp) && (sp <=? b + n) end.
(* what is reported about it *)
Definition report (s : alt) (sp : Z) : stack_t := match s with None => Stack 0 2 0 | Some (b, n) => Stack b (if on s sp then 1 else 0) n end.
(* what a call asks for *)
Inductive request := Nothing | Wrong | Disable | Use (b n : Z).
Definition asks (ss : option stack_t) : request :=
  match ss with
  | None => Nothing
  | Some s => if (ss_flags s =? 0) || (ss_flags s =? 1) then Use (ss_sp s) (ss_size s) else if (ss_flags s =? 2) || (ss_flags s =? 3) then Disable else Wrong
  end.
(* the stack afterwards and 0 or the error *)
Definition effect (s : alt) (sp : Z) (r : request) : alt * Z :=
  match r with
  | Nothing => (s, 0)
  | Wrong => (s, 22)
  | Disable => if on s sp then (s, 1) else (None, 0)
  | Use b n => if on s sp then (s, 1) else if n <? 2048 then (s, 12) else (Some (b, n), 0)
  end.
(* a stack is memory, neither at address 0 nor to the end of the address space *)
Definition sensible (ss : option stack_t) : Prop := match ss with None => True | Some s => 0 < ss_sp s /\ 0 <= ss_size s /\ ss_sp s + ss_size s < MAX end.
(* calls, each with the stack pointer and the two arguments *)
Definition calls := list (Z * option stack_t * option stack_t).
Fixpoint results (a : area) (l : calls) : list (option stack_t * Z) :=
  match l with [] => [] | (sp, ss, old) :: l => let '(a, o, r) := sigaltstack a sp ss old in (o, r) :: results a l end.
Fixpoint expected (s : alt) (l : calls) : list (option stack_t * Z) :=
  match l with
  | [] => []
  | (sp, ss, old) :: l => let '(s', r) := effect s sp (asks ss) in (match old with None => None | Some o => Some (if r =? 0 then report s sp else o) end, r) :: expected s' l
  end.
Definition is_area (s : alt) (a : area) : Prop := match s with None => a = initial | Some (b, n) => a = Area (b + n) b /\ 0 < b /\ 2048 <= n /\ b + n < MAX end.
