(* getsubopt: /repo/src/header/stdlib/mod.rs 466-517.
   optionp is passed as the pointer it holds and returned as a result, like *valuep; the
   key list is the list of its pointers (its NULL terminator is the end of the list).  The
   null checks of optionp, keylistp and valuep themselves (470-476) are omitted. *)
From Coq Require Import ZArith List Bool.
From Verif Require Import Base String_model.
Import ListNotations.
Open Scope Z_scope.

(* 478-494: the memory, the new *optionp *)
Fixpoint cut (fuel : nat) (m : mem) (cursor : Z) : res (mem * Z) :=
  match fuel with
  | O => OutOfFuel
  | S f =>
      c <- ld m cursor ;;
      if c =? 0 then Ok (m, cursor)
      else if c =? 44 then m1 <- st m cursor 0 ;; Ok (m1, cursor + 1)
      else cut f m (cursor + 1)
  end.
(* 496-516: the index and *valuep *)
Fixpoint search (fuel : nat) (m : mem) (start i : Z) (keys : list Z) : res (Z * Z) :=
  match keys with
  | [] => Ok (-1, start)
  | token :: r =>
      n <- strlen fuel m token ;;
      d <- strncmp fuel m start token n ;;
      if d =? 0 then
        c <- ld m (start + n) ;;
        if c =? 61 then Ok (i, start + n + 1)
        else if c =? 0 then Ok (i, NULL)
        else search fuel m start (i + 1) r
      else search fuel m start (i + 1) r
  end.
Record subopt := SO { so_mem : mem; so_option : Z; so_value : Z; so_ret : Z }.
(* None: *optionp is null, -1 and nothing stored *)
Definition getsubopt (fuel : nat) (m : mem) (start : Z) (keys : list Z) : res (option subopt) :=
  if start =? NULL then Ok None
  else
    ' (m1, next) <- cut fuel m start ;;
    ' (i, v) <- search fuel m1 start 0 keys ;;
    Ok (Some (SO m1 next v i)).
