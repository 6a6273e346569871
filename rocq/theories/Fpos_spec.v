(* Specification for C82: a file is a sequence of bytes with a position. *)
From Coq Require Import ZArith List Bool Lia.
From Verif Require Import Base Istream_model Ostream_model Ostream_spec Fpos_model.
Import ListNotations.
Open Scope Z_scope.

(* What the last calls did; a stream may go from writing to reading after fflush or a
   seek, from reading to writing after a seek or a read that met the end (C 7.21.5.3). *)
Inductive phase := Idle | Reading | AtEnd | Writing.
Record afile := AF { cont : list Z; pos : nat; pushed : list Z; ph : phase }.

(* The bytes d stored at position p: outside them nothing changes, a gap is filled with 0. *)
Definition put (F : list Z) (p : nat) (d F' : list Z) : Prop :=
  match d with
  | [] => F' = F
  | _ => length F' = Nat.max (length F) (p + length d) /\
         forall i, nth i F' 0 = if ((p <=? i) && (i <? p + length d))%nat then nth (i - p) d 0 else nth i F 0
  end.

Definition tell (a : afile) : Z := Z.of_nat (pos a) - Z.of_nat (length (pushed a)).

Inductive astep : afile -> fop -> Z * list Z -> afile -> Prop :=
| s_getc_pushed F p c u h : astep (AF F p (c :: u) h) (FIn IGetc) (c, []) (AF F p u Reading)
| s_getc F p h c : nth_error F p = Some c -> astep (AF F p [] h) (FIn IGetc) (c, []) (AF F (S p) [] Reading)
| s_getc_end F p h : (length F <= p)%nat -> astep (AF F p [] h) (FIn IGetc) (-1, []) (AF F p [] AtEnd)
| s_fread F p u h size n p' u' (d e : list Z) : u ++ skipn p F = d ++ e ->
    length d = Nat.min (size * n) (length (u ++ skipn p F)) ->
    u' = skipn (length d) u -> p' = (p + (length d - length u))%nat ->
    astep (AF F p u h) (FIn (IFread size n)) (Z.of_nat (length d / size), d)
          (AF F p' u' (if (length d <? size * n)%nat then AtEnd else Reading))
| s_ungetc F p u h c : astep (AF F p u h) (FIn (IUngetc c)) (c, []) (AF F p (c mod 256 :: u) Reading)
| s_clearerr F p u h : astep (AF F p u h) (FIn IClearerr) (0, []) (AF F p u h)
| s_write F p h o F' : o <> OpFlush -> put F p (given o) F' ->
    astep (AF F p [] h) (FOut o) (success o, []) (AF F' (p + length (given o)) [] Writing)
| s_flush F p u h : astep (AF F p u h) (FOut OpFlush) (0, []) (AF F p u (match h with Writing => Idle | _ => h end))
| s_seek F p u h d w t : t = match w with SEEK_SET => 0 | SEEK_CUR => tell (AF F p u h) | SEEK_END => Z.of_nat (length F) end + d ->
    0 <= t -> astep (AF F p u h) (FSeek d w) (0, []) (AF F (Z.to_nat t) [] Idle)
| s_seek_bad F p u h d w t : t = match w with SEEK_SET => 0 | SEEK_CUR => tell (AF F p u h) | SEEK_END => Z.of_nat (length F) end + d ->
    t < 0 -> astep (AF F p u h) (FSeek d w) (-1, []) (AF F p u h)
| s_tell a : astep a FTell (tell a, []) a.
Inductive arun : afile -> list fop -> list (Z * list Z) -> afile -> Prop :=
| ar_nil a : arun a [] [] a
| ar_cons a o v a1 l vs a2 : astep a o v a1 -> arun a1 l vs a2 -> arun a (o :: l) (v :: vs) a2.

(* When C allows a call. *)
Definition allowed (h : phase) (u : list Z) (o : fop) : Prop :=
  match o with
  | FIn (IGetc | IFread _ _ | IUngetc _) => h <> Writing
  | FIn IClearerr => True
  | FIn _ => False
  | FOut OpFlush => True
  | FOut o => h <> Reading /\ u = [] /\ valid_op o
  | FSeek _ _ | FTell => True
  end.
(* The code moves fseek(..., SEEK_CUR) past pushed-back bytes. *)
Definition no_cur (u : list Z) (o : fop) : Prop := match o with FSeek _ SEEK_CUR => u = [] | _ => True end.
(* l is a sequence of calls that C allows. *)
Inductive allowed_run (P : list Z -> fop -> Prop) : afile -> list fop -> Prop :=
| al_nil a : allowed_run P a []
| al_cons a o l : allowed (ph a) (pushed a) o -> P (pushed a) o ->
    (forall v a', astep a o v a' -> allowed_run P a' l) -> allowed_run P a (o :: l).

(* No read(2) and no write(2) fails; they may be short. *)
Definition rgood (rorc : nat -> rres) : Prop := forall j, exists n, rorc j = RN n /\ n <> O.
Definition wgood (worc : nat -> wres) : Prop := forall j, ~ bad worc j.
