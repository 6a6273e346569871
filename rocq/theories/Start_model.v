(* The start of a program, /repo/src/start.rs 12-70, 112-240, and /repo/src/platform/mod.rs
   286-320.  The stack is memory of 8-byte words, the strings memory of bytes; a Vec of pointers
   is the list of its elements.  Left out: thread and descriptor setup, constructors. *)
From Verif Require Import Base String_model Env_model Libgen_model Start_spec.

Definition ldw (w : words) (a : Z) : res Z := match w a with Some v => Ok v | None => Fault end.
(* start.rs 19-36 *)
Definition argv_of (sp : Z) : Z := sp + 8.
Definition envp_of (sp argc : Z) : Z := argv_of sp + 8 * (argc + 1).
Fixpoint skip_null (fuel : nat) (w : words) (a : Z) : res Z :=
  match fuel with
  | O => OutOfFuel
  | S f => p <- ldw w a ;; if p =? 0 then Ok a else skip_null f w (a + 8)
  end.
Definition auxv_of (fuel : nat) (w : words) (sp argc : Z) : res Z :=
  e <- skip_null fuel w (envp_of sp argc) ;; Ok (e + 8).

(* 43-49: i of len passed *)
Fixpoint lengths_of (fuel : nat) (m : mem) (w : words) (array : Z) (n : nat) : res (list Z) :=
  match n with
  | O => Ok []
  | S n =>
      item <- ldw w array ;;
      l <- strlen fuel m item ;;
      r <- lengths_of fuel m w (array + 8) n ;;
      Ok (l + 1 :: r)
  end.
(* 56-67 *)
Fixpoint copy_all (m : mem) (w : words) (array : Z) (lengths : list Z) (buf offset : Z) : res (mem * list Z) :=
  match lengths with
  | [] => Ok (m, [0])
  | l :: r =>
      let dest := buf + offset in
      item <- ldw w array ;;
      m <- copy_nonoverlapping m item dest l ;;
      ' (m, v) <- copy_all m w (array + 8) r buf (offset + l) ;;
      Ok (m, dest :: v)
  end.
(* 38-70: alloc is the allocator, from a size to a block *)
Definition copy_string_array (fuel : nat) (m : mem) (w : words) (array len : Z) (alloc : Z -> Z) : res (mem * list Z) :=
  lengths <- lengths_of fuel m w array (Z.to_nat len) ;;
  copy_all m w array lengths (alloc (fold_right Z.add 0 lengths)) 0.
Fixpoint count_null (fuel : nat) (w : words) (envp len : Z) : res Z :=
  match fuel with
  | O => OutOfFuel
  | S f => p <- ldw w (envp + 8 * len) ;; if p =? 0 then Ok len else count_null f w envp (len + 1)
  end.

Record program := P { argc : Z; argv : list Z; environ : list Z; name : Z; short_name : rptr }.
(* 181-206: env is environ as the loader left it, None if null.  The vector of arguments always
   has a first element, the null if nothing else *)
Definition start (fuel : nat) (m : mem) (w : words) (sp : Z) (env : option (list Z)) (alloc : Z -> Z) (alloc2 : Z -> Z) : res (mem * program) :=
  n <- ldw w sp ;;
  ' (m, v) <- copy_string_array fuel m w (argv_of sp) n alloc ;;
  let first := match v with p :: _ => p | [] => 0 end in
  ' (m, short) <- basename fuel m first ;;
  match env with
  | Some e => Ok (m, P n v e first short)
  | None =>
      l <- count_null fuel w (envp_of sp n) 0 ;;
      ' (m, e) <- copy_string_array fuel m w (envp_of sp n) l alloc2 ;;
      Ok (m, P n v e first short)
  end.

(* platform/mod.rs 286-320 *)
Fixpoint get_auxv_raw (fuel : nat) (w : words) (a kind : Z) : res (option Z) :=
  match fuel with
  | O => OutOfFuel
  | S f =>
      k <- ldw w a ;;
      if k =? 0 then Ok None
      else
        v <- ldw w (a + 8) ;;
        if k =? kind then Ok (Some v) else get_auxv_raw f w (a + 16) kind
  end.
