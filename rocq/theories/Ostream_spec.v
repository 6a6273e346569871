(* Specification for C39. *)
From Coq Require Import ZArith List Bool.
From Verif Require Import Ostream_model.
Import ListNotations.
Open Scope Z_scope.

(* What a call was given. *)
Definition given (o : op) : list Z :=
  match o with
  | OpFwrite _ items => concat items
  | OpFputs b => b
  | OpPutc c => [c mod 256]
  | OpPuts b => b ++ [10]
  | OpFlush => []
  end.

(* [acc] is what a call with result v accepted: a prefix of what it was given,
   all of it if it reports success, and for fwrite as many complete items as reported. *)
Definition accepts (o : op) (v : Z) (acc : list Z) : Prop :=
  (exists rest, given o = acc ++ rest) /\
  match o with
  | OpFwrite size items =>
      v = Z.of_nat (length acc / size) /\ (v = Z.of_nat (length items) <-> acc = concat items)
  | OpFputs b => (v = 0 /\ acc = b) \/ (v = -1 /\ acc <> b)
  | OpPutc c => (v = c /\ acc = [c mod 256]) \/ (v = EOF /\ acc = [])
  | OpPuts b => v = 0 \/ v = -1
  | OpFlush => v = 0 \/ v = EOF
  end.

Definition valid_op (o : op) : Prop :=
  match o with
  | OpFwrite size items => (0 < size)%nat /\ forall i, In i items -> length i = size
  | _ => True
  end.

(* Was the j-th write(2) a failure (an error or no progress)? *)
Definition bad (orc : nat -> wres) (j : nat) : Prop := orc j = WErr \/ orc j = WOk 0.

(* Results and accepted bytes of a sequence of calls. *)
Inductive all_accept : list op -> list Z -> list (list Z) -> Prop :=
| aa_nil : all_accept [] [] []
| aa_cons o l v vs a acs : accepts o v a -> all_accept l vs acs -> all_accept (o :: l) (v :: vs) (a :: acs).

(* The results that mean success. *)
Definition success (o : op) : Z :=
  match o with OpFwrite _ items => Z.of_nat (length items) | OpPutc c => c | _ => 0 end.
