(** Model of getenv/setenv/putenv/unsetenv (stdlib/mod.rs).
    The environ array is a list of string pointers (its NULL terminator implicit); the
    Vec behind it and the pointer comparison with OUR_ENVIRON (1032, 1695) are not
    modelled: both branches leave the same sequence of pointers. *)
From Verif Require Import Base String_model.

(** core::ptr::copy_nonoverlapping: overlapping ranges are undefined behaviour *)
Definition copy_nonoverlapping (m : mem) (src dst n : Z) : res mem :=
  if (0 <? n) && (src <? dst + n) && (dst <? src + n) then Fault
  else copy_fwd (Z.to_nat n) m dst src.

(** mod.rs:427-450: the inner loop for one environ item *)
Fixpoint match_item (fuel : nat) (m : mem) (item search : Z) : res (option Z) :=
  match fuel with
  | O => OutOfFuel
  | S f =>
      s <- ld m search ;;
      let end_of_query := (s =? 0) || (s =? 61) in
      c <- ld m item ;;
      if c =? 0 then Ok None
      else if (c =? 61) || end_of_query then
        if (c =? 61) && end_of_query then Ok (Some (item + 1)) else Ok None
      else if negb (c =? s) then Ok None
      else match_item f m (item + 1) (search + 1)
  end.
(** mod.rs:425-454; [i] counts items already passed *)
Fixpoint find_env (fuel : nat) (m : mem) (environ : list Z) (search : Z) (i : nat) : res (option (nat * Z)) :=
  match environ with
  | [] => Ok None
  | item :: rest =>
      r <- match_item fuel m item search ;;
      match r with
      | Some v => Ok (Some (i, v))
      | None => find_env fuel m rest search (S i)
      end
  end.
(** mod.rs:458-462 *)
Definition getenv (fuel : nat) (m : mem) (environ : list Z) (name : Z) : res Z :=
  r <- find_env fuel m environ name 0 ;;
  Ok (match r with Some (_, v) => v | None => NULL end).

(** mod.rs:1290-1301 *)
Definition copy_kv (m : mem) (existing key value key_len value_len : Z) : res mem :=
  m1 <- copy_nonoverlapping m key existing key_len ;;
  m2 <- st m1 (existing + key_len) 61 ;;
  m3 <- copy_nonoverlapping m2 value (existing + key_len + 1) value_len ;;
  st m3 (existing + key_len + 1 + value_len) 0.

Definition write_slot (environ : list Z) (i : nat) (p : Z) : list Z :=
  firstn i environ ++ p :: skipn (S i) environ.

(** mod.rs:1305-1344; [alloc] is the pointer platform::alloc returns *)
Definition setenv (fuel : nat) (m : mem) (environ : list Z) (key value overwrite alloc : Z)
    : res (mem * list Z) :=
  key_len <- strlen fuel m key ;;
  value_len <- strlen fuel m value ;;
  r <- find_env fuel m environ key 0 ;;
  match r with
  | Some (i, existing) =>
      if overwrite =? 0 then Ok (m, environ)
      else
        existing_len <- strlen fuel m existing ;;
        if value_len <=? existing_len then
          m1 <- copy_nonoverlapping m value existing value_len ;;
          m2 <- st m1 (existing + value_len) 0 ;;
          Ok (m2, environ)
        else
          m1 <- copy_kv m alloc key value key_len value_len ;;
          Ok (m1, write_slot environ i alloc)
  | None =>
      m1 <- copy_kv m alloc key value key_len value_len ;;
      Ok (m1, environ ++ [alloc])
  end.

(** mod.rs:1054-1066 (and put_new_env, 1029-1050) *)
Definition putenv (fuel : nat) (m : mem) (environ : list Z) (insert : Z) : res (list Z) :=
  if insert =? NULL then Panic
  else
    r <- find_env fuel m environ insert 0 ;;
    Ok (match r with Some (i, _) => write_slot environ i insert | None => environ ++ [insert] end).

(** mod.rs:1693-1723 *)
Definition unsetenv (fuel : nat) (m : mem) (environ : list Z) (key : Z) : res (list Z) :=
  r <- find_env fuel m environ key 0 ;;
  Ok (match r with Some (i, _) => firstn i environ ++ skipn (S i) environ | None => environ end).
