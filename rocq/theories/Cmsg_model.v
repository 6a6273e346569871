(* sys/socket.h: walking through control messages with the macros programs use (src/header/sys_socket/cbindgen.toml 30-45) and with the functions of the same
   names (src/header/sys_socket/mod.rs 99-169, in Sockmsg_model).  msg_control and msg_controllen are arguments; 64-bit, overflow wraps. *)
From Verif Require Import Base String_model Sockmsg_model.

(* cbindgen.toml 32: (cmsg_len + 7) & ~7 *)
Definition MACRO_LEN (n : Z) : Z := (n + 7) mod 2 ^ 64 / 8 * 8.
(* cbindgen.toml 36 *)
Definition MACRO_DATA (cmsg : Z) : Z := cmsg + 16.
(* cbindgen.toml 37-39; the difference of the pointers is converted to size_t *)
Definition MACRO_NXTHDR (m : mem) (control controllen cmsg : Z) : res Z :=
  n <- ld_le 8 m cmsg ;;
  if n <? 16 then Ok 0 else
  if (control + controllen - cmsg) mod 2 ^ 64 <=? (MACRO_LEN n + 16) mod 2 ^ 64 then Ok 0 else Ok ((cmsg + MACRO_LEN n) mod 2 ^ 64).
(* cbindgen.toml 40 *)
Definition MACRO_FIRSTHDR (control controllen : Z) : Z := if 16 <=? controllen then control else 0.

(* for (c = CMSG_FIRSTHDR(msg); c; c = CMSG_NXTHDR(msg, c)): the values of c *)
Fixpoint walk (next : mem -> Z -> Z -> Z -> res Z) (fuel : nat) (m : mem) (control controllen cmsg : Z) : res (list Z) :=
  match fuel with
  | O => OutOfFuel
  | S f =>
      if cmsg =? 0 then Ok [] else
      n <- next m control controllen cmsg ;;
      r <- walk next f m control controllen n ;;
      Ok (cmsg :: r)
  end.
Definition macro_walk (fuel : nat) (m : mem) (control controllen : Z) : res (list Z) :=
  walk MACRO_NXTHDR fuel m control controllen (MACRO_FIRSTHDR control controllen).
Definition function_walk (fuel : nat) (m : mem) (control controllen : Z) : res (list Z) :=
  walk CMSG_NXTHDR fuel m control controllen (CMSG_FIRSTHDR control controllen).
