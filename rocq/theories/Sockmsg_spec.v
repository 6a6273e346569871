(* Messages with descriptors. *)
From Coq Require Import ZArith List.
From Verif Require Import Base Uio_spec.
Import ListNotations.
Open Scope Z_scope.

(* the areas of a message, in order *)
Definition spots (iovs : list (Z * Z)) : list Z := flat_map (fun v => area (fst v) (snd v)) iovs.

(* x in k bytes, least significant first *)
Fixpoint num (k : nat) (x : Z) : list Z := match k with O => [] | S k => x mod 256 :: num k (x / 256) end.
(* the space a control message takes: a header of 16 bytes and the data, in multiples of 8 *)
Definition space (fds : list Z) : Z := 16 + (4 * len fds + 7) / 8 * 8.
(* Control messages (level SOL_SOCKET, type SCM_RIGHTS) with their descriptors, one after the
   other at a. *)
Fixpoint controls (m : mem) (a : Z) (l : list (list Z)) : Prop :=
  match l with
  | [] => True
  | fds :: l =>
      bytes_at m a (num 8 (16 + 4 * len fds) ++ num 4 1 ++ num 4 1 ++ concat (map (num 4) fds)) /\
      controls m (a + space fds) l
  end.
Definition total (l : list (list Z)) : Z := fold_right (fun x a => space x + a) 0 l.
(* the last need not be padded *)
Fixpoint needed (l : list (list Z)) : Z :=
  match l with
  | [] => 0
  | [fds] => 16 + 4 * len fds
  | fds :: l => space fds + needed l
  end.

(* What the scheme is told and tells: the length of the data and the data; for each control message
   level, type and the number of descriptors. *)
Definition payload_stream (d : list Z) : list Z := num 8 (len d) ++ d.
Definition rights_stream (l : list (list Z)) : list Z :=
  concat (map (fun fds => num 4 1 ++ num 4 1 ++ num 8 8 ++ num 8 (len fds)) l).

(* the control messages that fit in n bytes, those before the first that does not *)
Fixpoint fitting (n : Z) (l : list (list Z)) : list (list Z) :=
  match l with
  | [] => []
  | fds :: l => if space fds <=? n then fds :: fitting (n - space fds) l else []
  end.
Definition descriptor (x : Z) : Prop := 0 <= x < 2 ^ 31.
(* none is left out *)
Definition all_fit (n : Z) (l : list (list Z)) : bool := (length l <=? length (fitting n l))%nat.
(* areas of some length have an address *)
Definition good_iovs (iovs : list (Z * Z)) : Prop := Forall (fun v => 0 <= snd v /\ (0 < snd v -> fst v <> 0)) iovs.
