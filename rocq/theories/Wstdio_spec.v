(* Specification for C120 and C121. *)
From Coq Require Import ZArith List Bool.
From Verif Require Import Base Utf8_spec Wstdio_model.
From Verif Require Istream_model Ostream_model Ostream_spec.
Import ListNotations.
Open Scope Z_scope.

(* From now on no read(2) fails or reports an end of file that is not there. *)
Definition healthy (orc : nat -> Istream_model.rres) (w : wis) : Prop :=
  forall j, (Istream_model.reads (ist w) <= j)%nat -> orc j <> Istream_model.RErr /\ orc j <> Istream_model.RN 0.
Definition no_char (l : list Z) : Prop := forall c, ~ starts_with_char l c.

(* What the stream has accepted: what the descriptor has received and what is buffered. *)
Definition accepted (w : wos) : list Z := Ostream_model.out (Ostream_model.sdev (ost w)) ++ Ostream_model.wbuf (Ostream_model.swr (ost w)).
Definition ncalls (w : wos) : nat := Ostream_model.calls (Ostream_model.sdev (ost w)).
(* From now on no write(2) fails. *)
Definition fine (orc : nat -> Ostream_model.wres) (w : wos) : Prop := forall j, (ncalls w <= j)%nat -> ~ Ostream_spec.bad orc j.
(* The arguments of fputwc are wchar_t. *)
Definition wchar_args (l : list woop) : Prop := forall c, In (WoPutwc c) l -> -2147483648 <= c < 2147483648.
