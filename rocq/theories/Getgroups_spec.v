(* Specification for C163: the groups of a user. *)
From Verif Require Import Base Getgroups_model.

(* the ids of the groups the user is a member of, in the order of the file *)
Inductive groups_of (user : name) : list line -> list Z -> Prop :=
| g_nil : groups_of user [] []
| g_in g ms l r : In user ms -> groups_of user l r -> groups_of user (Entry g ms :: l) (g :: r)
| g_out g ms l r : ~ In user ms -> groups_of user l r -> groups_of user (Entry g ms :: l) r
| g_broken l r : groups_of user l r -> groups_of user (Broken :: l) r.
Definition all_entries (l : list line) : Prop := ~ In Broken l.
(* what getgroups is to do with n cells: the result, and the cells after it if it is not an error *)
Definition answer (gids : list Z) (n : Z) : Z + Z := if (n =? 0) || (len gids <=? n) then inl (len gids) else inr 22.
Definition filled (gids cells : list Z) : list Z := match cells with [] => [] | _ => gids ++ skipn (length gids) cells end.
(* the program that goes through the groups and calls getgroups for each: whether n rounds end it *)
Fixpoint rounds (n : nat) (fuel : nat) (passwd : Z -> option name) (euid : Z) (file r : reader) : bool :=
  match n with
  | O => false
  | S n =>
      match getgrent file r with
      | (_, None) => true
      | (r, Some _) => match getgroups fuel passwd euid file r 0 [] with Ok (r, _, _) => rounds n fuel passwd euid file r | _ => true end
      end
  end.
