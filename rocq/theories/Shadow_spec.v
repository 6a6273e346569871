(* The shadow password file: shadow(5). *)
From Verif Require Import Base Pwd_model Pwd_spec Grp_spec Shadow_model.

Record secret := { s_name : list Z; s_passwd : list Z; s_days : list (option Z) (* last change, min, max, warn, inactive, expire *); s_flag : option Z }.
Definition number (v : option Z) : list Z := match v with Some n => decimal n | None => [] end.
Definition sline (sep : Z) (s : secret) : list Z := join sep ([s_name s; s_passwd s] ++ map number (s_days s) ++ [number (s_flag s)]).
Definition valid_secret (o : os) (s : secret) : Prop :=
  clean (separator o) (s_name s) /\ clean (separator o) (s_passwd s) /\ length (s_days s) = 6%nat /\
  Forall (fun v => match v with Some n => 0 <= n < 2 ^ 63 | None => True end) (s_days s) /\
  match s_flag s with Some n => 0 <= n < 2 ^ 64 | None => True end.
(* an empty number is -1; an empty flag is unspecified *)
Definition tells (m : mem) (r : spwd) (s : secret) : Prop :=
  cstr m (sp_namp r) (s_name s) /\ cstr m (sp_pwdp r) (s_passwd s) /\
  [sp_lstchg r; sp_min r; sp_max r; sp_warn r; sp_inact r; sp_expire r] = map (fun v => match v with Some n => n | None => -1 end) (s_days s) /\
  match s_flag s with Some n => sp_flag r = n | None => True end.
Definition need (s : secret) : Z := len (s_name s) + 1 + len (s_passwd s) + 1.
(* a file of lines; the last may lack its newline *)
Definition file_of (ls : list (list Z)) (file : list Z) : Prop :=
  let t := concat (map (fun l => l ++ [10]) ls) in file = t \/ (file ++ [10] = t /\ last ls [] <> []).
Definition a_line (utf8 : list Z -> bool) (l : list Z) : Prop := ~ In 10 l /\ last l 0 <> 13 /\ utf8 l = true /\ utf8 (l ++ [10]) = true.
(* the first line that is an entry for [n] *)
Definition entry_for (o : os) (n : list Z) (s : secret) (l : list Z) : Prop := l = sline (separator o) s /\ s_name s = n /\ valid_secret o s.
Inductive lookup (o : os) (n : list Z) : list (list Z) -> option secret -> Prop :=
  | lookup_here s l ls : entry_for o n s l -> lookup o n (l :: ls) (Some s)
  | lookup_next l ls r : (forall s, ~ entry_for o n s l) -> lookup o n ls r -> lookup o n (l :: ls) r
  | lookup_none : lookup o n [] None.
(* lines that begin with [n] are entries for [n] *)
Definition distinct_names (o : os) (n : list Z) (ls : list (list Z)) : Prop := Forall (fun l => prefix n l -> exists s, entry_for o n s l) ls.
Definition sfits (o : os) (n : list Z) (ls : list (list Z)) (cap : Z) : Prop :=
  forall s, In (sline (separator o) s) ls -> s_name s = n -> valid_secret o s -> need s <= cap.
Fixpoint swalk (o : os) (utf8 : list Z -> bool) (file : list Z) (p : Z) (n : nat) (m : mem) (reader : option (list Z)) : res (list (mem * option spwd) * option (list Z)) :=
  match n with
  | O => Ok ([], reader)
  | S n => ' (m, reader, r) <- getspent o utf8 m (Some file) reader p ;;
           ' (l, reader) <- swalk o utf8 file p n m reader ;; Ok ((m, r) :: l, reader)
  end.
