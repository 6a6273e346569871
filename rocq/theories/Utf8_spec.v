(** UTF-8 as in RFC 3629, independent of the model. *)
From Verif Require Import Base.

(** Unicode scalar values: code points other than surrogates. *)
Definition scalar (c : Z) : Prop := 0 <= c <= 55295 \/ 57344 <= c <= 1114111.

Definition utf8 (c : Z) : list Z :=
  if c <? 128 then [c]
  else if c <? 2048 then [192 + c / 64; 128 + c mod 64]
  else if c <? 65536 then [224 + c / 4096; 128 + c / 64 mod 64; 128 + c mod 64]
  else [240 + c / 262144; 128 + c / 4096 mod 64; 128 + c / 64 mod 64; 128 + c mod 64].

(** [bs] starts with the encoding of [c]. *)
Definition starts_with_char (bs : list Z) (c : Z) : Prop :=
  scalar c /\ exists post, bs = utf8 c ++ post.
(** [bs] is the beginning of some character, cut short (the empty list included). *)
Definition truncated_char (bs : list Z) : Prop :=
  exists c post, scalar c /\ post <> [] /\ utf8 c = bs ++ post.

Definition utf8_str (cs : list Z) : list Z := flat_map utf8 cs.
(** a wide string: non-zero scalar values *)
Definition wide (cs : list Z) : Prop := Forall (fun c => scalar c /\ c <> 0) cs.

(** The longest prefix of [cs] whose encoding fits in [n] bytes. *)
Definition fits (cs : list Z) (n : Z) (pre : list Z) : Prop :=
  exists post, cs = pre ++ post /\ len (utf8_str pre) <= n /\
    match post with [] => True | c :: _ => n < len (utf8_str pre) + len (utf8 c) end.
