(* Directory streams: /repo/src/header/dirent/mod.rs 54-163 (DIR::next_dirent, seek, rewind)
   and readdir, telldir, seekdir, rewinddir (258-260, 279-282, 369-385).
   The buffer is a list of records with their lengths instead of bytes, so the checks of
   adversarial records (119-134, platform/redox/mod.rs 557-567) do not occur; a buffer of
   zeros, which a failed getdents leaves behind, is None: a record length of zero makes
   dent_reclen_offset look at index 0 - 1, which wraps around and gives EIO.  The kernel is
   a parameter: what its n-th getdents answers, given the position and the size of the
   buffer.  Not modelled: failing allocation of a larger buffer. *)
From Coq Require Import ZArith List Bool.
From Verif Require Import Base.
Import ListNotations.
Open Scope Z_scope.

Record ent := E { e_len : Z; e_next : Z; e_name : list Z }.
Inductive answer := GOk (l : list ent) | GErr (e : Z).
Definition EINVAL := 22. Definition EIO := 5.
(* d_pend: records not yet delivered; d_used: bytes of the buffer in use; d_cap: its size *)
Record dir := Dir { d_pend : option (list ent); d_used : Z; d_cap : Z; d_opaque : Z; d_calls : nat }.
Definition total (l : list ent) : Z := fold_right (fun e n => e_len e + n) 0 l.
(* 64-74 *)
Definition opened (calls : nat) : dir := Dir (Some []) 0 512 0 calls.

Inductive got := GEntry (e : ent) | GEnd | GFail (errno : Z).
(* 95-111: fill the empty buffer; Some: the records read *)
Fixpoint fill (fuel : nat) (gd : nat -> Z -> Z -> answer) (d : dir) : res (dir * (list ent + Z)) :=
  match fuel with
  | O => OutOfFuel
  | S f =>
      match gd (d_calls d) (d_opaque d) (d_cap d) with
      | GOk l => Ok (Dir (Some l) (total l) (d_cap d) (d_opaque d) (S (d_calls d)), inl l)
      | GErr e =>
          if e =? EINVAL then fill f gd (Dir (d_pend d) (d_used d) (2 * d_cap d) (d_opaque d) (S (d_calls d)))
          else Ok (Dir (if d_used d <? d_cap d then None else Some []) (d_used d) (d_cap d) (d_opaque d) (S (d_calls d)), inr e)
      end
  end.
(* 118-140 *)
Definition deliver (d : dir) (l : list ent) : dir * got :=
  match l with
  | [] => (d, GEnd)
  | e :: r => (Dir (Some r) (d_used d) (d_cap d) (e_next e) (d_calls d), GEntry e)
  end.
(* 92-141 *)
Definition readdir (fuel : nat) (gd : nat -> Z -> Z -> answer) (d : dir) : res (dir * got) :=
  match d_pend d with
  | None => Ok (d, GFail EIO)
  | Some (e :: r) => Ok (deliver d (e :: r))
  | Some [] =>
      ' (d1, r) <- fill fuel gd d ;;
      match r with
      | inl l => Ok (deliver d1 l)
      | inr e => Ok (d1, GFail e)
      end
  end.
(* 142-149 and 150-158; dir_seek succeeds on Redox *)
Definition seek (d : dir) (off : Z) : dir := Dir (Some []) 0 (d_cap d) off (d_calls d).
(* 369-377: a negative offset is EINVAL *)
Definition seekdir (d : dir) (off : Z) : dir := if off <? 0 then d else seek d off.
Definition rewinddir (d : dir) : dir := seek d 0.
(* 382-385: u64 as c_long *)
Definition telldir (d : dir) : Z := if d_opaque d <? 2 ^ 63 then d_opaque d else d_opaque d - 2 ^ 64.

Inductive op := Read | Tell | Seek (off : Z) | Rewind.
Inductive out := ORead (g : got) | OTell (z : Z) | ONone.
Definition exec (fuel : nat) (gd : nat -> Z -> Z -> answer) (d : dir) (o : op) : res (dir * out) :=
  match o with
  | Read => ' (d1, g) <- readdir fuel gd d ;; Ok (d1, ORead g)
  | Tell => Ok (d, OTell (telldir d))
  | Seek off => Ok (seekdir d off, ONone)
  | Rewind => Ok (rewinddir d, ONone)
  end.
Fixpoint run (fuel : nat) (gd : nat -> Z -> Z -> answer) (d : dir) (ops : list op) : res (dir * list out) :=
  match ops with
  | [] => Ok (d, [])
  | o :: r =>
      ' (d1, x) <- exec fuel gd d o ;;
      ' (d2, xs) <- run fuel gd d1 r ;;
      Ok (d2, x :: xs)
  end.

(* scandir: 287-366.  The entries readdir gives until it returns null; last: whether null
   came with an error.  The filter returns whether it accepts the entry and the errno it
   leaves, 0 for none set.  None: -1.  The comparison function must be given. *)
Fixpoint collect (filter : option (ent -> bool * Z)) (l : list ent) (errno : Z) : list ent * Z :=
  match l with
  | [] => ([], errno)
  | e :: r =>
      match filter with
      | None => let '(k, n) := collect filter r errno in (e :: k, n)
      | Some f =>
          let '(ok, n) := f e in
          let errno := if n =? 0 then errno else n in
          let '(k, n) := collect filter r errno in (if ok then e :: k else k, n)
      end
  end.
Definition scandir (filter : option (ent -> bool * Z)) (sort : list ent -> list ent) (l : list ent) (last : Z) : option (list ent) :=
  let '(k, n) := collect filter l 0 in
  let n := if last =? 0 then n else last in
  if n =? 0 then Some (sort k) else None.
