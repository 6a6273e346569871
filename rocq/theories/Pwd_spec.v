(* The user database: one line per user, fields between separators. *)
From Verif Require Import Base Numeral Pwd_model.

Record user := { u_name : list Z; u_passwd : list Z; u_uid : Z; u_gid : Z; u_gecos : list Z; u_dir : list Z; u_shell : list Z }.
Definition decimal (n : Z) : list Z := map (fun d => 48 + d) (to_digits 10 n).
(* passwd(5); on Redox the password is elsewhere *)
Definition fields (o : os) (u : user) : list (list Z) :=
  match o with
  | Linux => [u_name u; u_passwd u; decimal (u_uid u); decimal (u_gid u); u_gecos u; u_dir u; u_shell u]
  | Redox => [u_name u; decimal (u_uid u); decimal (u_gid u); u_gecos u; u_dir u; u_shell u]
  end.
Fixpoint join (sep : Z) (fs : list (list Z)) : list Z :=
  match fs with [] => [] | [f] => f | f :: fs => f ++ sep :: join sep fs end.
Definition line (sep : Z) (fs : list (list Z)) : list Z := join sep fs ++ [10].
Definition text (o : os) (us : list user) : list Z := concat (map (fun u => line (separator o) (fields o u)) us).
(* the last line may lack its newline *)
Definition database (o : os) (us : list user) (file : list Z) : Prop := file = text o us \/ file ++ [10] = text o us.
Definition clean (sep : Z) (f : list Z) : Prop := Forall (fun b => is_byte b /\ b <> 0 /\ b <> 10 /\ b <> sep) f.
Definition valid (o : os) (u : user) : Prop :=
  Forall (clean (separator o)) [u_name u; u_passwd u; u_gecos u; u_dir u; u_shell u] /\
  0 <= u_uid u < 2 ^ 32 /\ 0 <= u_gid u < 2 ^ 32.
Definition small_ids (u : user) : Prop := u_uid u < 2 ^ 31 /\ u_gid u < 2 ^ 31.
(* the structure describes the user *)
Definition describes (o : os) (m : mem) (pw : passwd) (u : user) : Prop :=
  cstr m (pw_name pw) (u_name u) /\
  cstr m (pw_passwd pw) (match o with Linux => u_passwd u | Redox => [120] end) /\
  pw_uid pw = u_uid u /\ pw_gid pw = u_gid u /\
  cstr m (pw_gecos pw) (u_gecos u) /\ cstr m (pw_dir pw) (u_dir u) /\ cstr m (pw_shell pw) (u_shell u).
(* the first user with the property, or none *)
Definition first_user (P : user -> Prop) (us : list user) (r : option user) : Prop :=
  match r with
  | Some u => exists pre post, us = pre ++ u :: post /\ P u /\ Forall (fun v => ~ P v) pre
  | None => Forall (fun v => ~ P v) us
  end.
Definition fits (o : os) (n : Z) (u : user) : Prop := len (line (separator o) (fields o u)) <= n.
Definition same_outside (m m' : mem) (a n : Z) : Prop := forall y, ~ (a <= y < a + n) -> m' y = m y.
(* a database of users whose lines fit the [cap] bytes at [p] *)
Definition premises (o : os) (x : Z) (m : mem) (us : list user) (file : list Z) (p cap : Z) : Prop :=
  database o us file /\ Forall (valid o) us /\ Forall small_ids us /\ Forall (fits o cap) us /\ mapped m p cap /\ cap <= USIZE_MAX /\
  (o = Redox -> cstr m x [120] /\ disjoint x 2 p cap).
(* [n] successive calls of getpwent: memory and result after each *)
Fixpoint walk (o : os) (x : Z) (file : list Z) (p : Z) (n : nat) (m : mem) (reader : option (list Z)) : res (list (mem * option passwd) * option (list Z)) :=
  match n with
  | O => Ok ([], reader)
  | S n => ' (m, reader, r) <- getpwent o x m (Some file) reader p ;;
           ' (l, reader) <- walk o x file p n m reader ;; Ok ((m, r) :: l, reader)
  end.
