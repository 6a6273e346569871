(* unistd.h: getgroups (src/header/unistd/mod.rs 587-601, src/platform/redox/mod.rs 581-627), with setgrent, getgrent and endgrent (src/header/grp/mod.rs 445-498).
   A line of the group file is read as Grp_model says and is here the group it describes, or Broken.  getpwuid is a parameter: the name of a user, if known.
   The array is the list of its cells.  The count fits in an int. *)
From Verif Require Import Base.

Definition name := list Z.
Inductive line := Entry (gid : Z) (members : list name) | Broken.
Definition EINVAL : Z := 22.
Definition ENOENT : Z := 2.
(* grp/mod.rs LINE_READER: the lines not yet read *)
Definition reader := option (list line).
(* grp 445-471; file: None if it cannot be opened *)
Definition getgrent (file : reader) (r : reader) : reader * option (Z * list name) :=
  let r := match r with None => file | Some l => Some l end in
  match r with
  | None => (None, None)
  | Some [] => (Some [], None)
  | Some (Broken :: l) => (Some l, None)
  | Some (Entry g ms :: l) => (Some l, Some (g, ms))
  end.
(* grp 479-483 *)
Definition endgrent (r : reader) : reader := None.
(* grp 492-498 *)
Definition setgrent (file r : reader) : reader := match file with None => r | Some l => Some l end.

Fixpoint same (a b : name) : bool := match a, b with [], [] => true | x :: a, y :: b => (x =? y) && same a b | _, _ => false end.
(* redox 603-610 *)
Fixpoint found (user : name) (members : list name) : bool := match members with [] => false | x :: r => if same x user then true else found user r end.
Fixpoint write (l : list Z) (i : nat) (v : Z) : list Z := match l, i with [], _ => [] | _ :: l, O => v :: l | x :: l, S i => x :: write l i v end.
(* redox 599-618: the loop *)
Fixpoint scan (fuel : nat) (file r : reader) (user : name) (cells : list Z) (count : nat) : res (reader * list Z * nat) :=
  match fuel with
  | O => OutOfFuel
  | S f =>
      match getgrent file r with
      | (r, None) => Ok (r, cells, count)
      | (r, Some (g, ms)) =>
          if found user ms then
            scan f file r user (if negb (len cells =? 0) && (Z.of_nat count <? len cells) then write cells count g else cells) (S count)
          else scan f file r user cells count
      end
  end.
(* redox 581-627 and unistd 589-601; the result, or errno *)
Definition getgroups (fuel : nat) (passwd : Z -> option name) (euid : Z) (file r : reader) (size : Z) (cells : list Z) : res (reader * list Z * (Z + Z)) :=
  if size <? 0 then Ok (r, cells, inr EINVAL) else
  match passwd euid with
  | None => Ok (r, cells, inr ENOENT)
  | Some user =>
      ' (r, cells, count) <- scan fuel file (setgrent file r) user cells 0 ;;
      let r := endgrent r in
      if negb (len cells =? 0) && (len cells <? Z.of_nat count) then Ok (r, cells, inr EINVAL) else Ok (r, cells, inl (Z.of_nat count))
  end.
