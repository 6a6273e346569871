(* The group database: name, password, number and members of each group. *)
From Verif Require Import Base Word_mem Pwd_model Pwd_spec Grp_model.

Record grp := { g_name : list Z; g_passwd : list Z; g_gid : Z; g_members : list (list Z) }.
Definition gline (o : os) (g : grp) : list Z :=
  line (separator o) [g_name g; g_passwd g; decimal (g_gid g); join 44 (g_members g)].
Definition gtext (o : os) (gs : list grp) : list Z := concat (map (gline o) gs).
(* the last line may lack its newline *)
Definition gdatabase (o : os) (gs : list grp) (file : list Z) : Prop := file = gtext o gs \/ file ++ [10] = gtext o gs.
(* members are names without commas or line breaks *)
Definition member (o : os) (f : list Z) : Prop := clean (separator o) f /\ f <> [] /\ ~ In 44 f /\ ~ In 13 f.
Definition valid_group (o : os) (g : grp) : Prop :=
  clean (separator o) (g_name g) /\ clean (separator o) (g_passwd g) /\ 0 <= g_gid g < 2 ^ 32 /\ Forall (member o) (g_members g).
(* what the code can represent *)
Definition modest (g : grp) : Prop := g_gid g < 2 ^ 31 /\ (length (g_members g) <= Z.to_nat 4096)%nat.
(* room for the strings and the array of pointers *)
Definition room (g : grp) : Z :=
  4 + len (g_name g) + 1 + len (g_passwd g) + 1 + 8 * (len (g_members g) + 1) + len (concat (map (fun f => f ++ [0]) (g_members g))).
Definition lists (m : mem) (a : Z) (names : list (list Z)) : Prop :=
  exists ptrs, Forall2 (cstr m) ptrs names /\ Forall (fun q => 0 < q < 2 ^ 64) ptrs /\
               bytes_at m a (concat (map (le_bytes 8) ptrs) ++ le_bytes 8 0).
Definition shows (m : mem) (s : group) (g : grp) : Prop :=
  cstr m (gr_name s) (g_name g) /\ cstr m (gr_passwd s) (g_passwd g) /\ gr_gid s = g_gid g /\ lists m (gr_mem s) (g_members g).
Definition first_group (P : grp -> Prop) (gs : list grp) (r : option grp) : Prop :=
  match r with
  | Some g => exists pre post, gs = pre ++ g :: post /\ P g /\ Forall (fun h => ~ P h) pre
  | None => Forall (fun h => ~ P h) gs
  end.
Definition prefix (a b : list Z) : Prop := exists t, b = a ++ t.
Definition gpremises (o : os) (utf8 : list Z -> bool) (m : mem) (gs : list grp) (file : list Z) (p cap : Z) : Prop :=
  gdatabase o gs file /\ Forall (valid_group o) gs /\ Forall modest gs /\ Forall (fun g => room g <= cap) gs /\
  mapped m p cap /\ 0 < p /\ p + cap <= USIZE_MAX /\
  Forall (fun g => utf8 (gline o g) = true /\ (forall l, l ++ [10] = gline o g -> utf8 l = true)) gs.
(* the groups a user belongs to: the one given, and those that list the user *)
Definition groups_of (gs : list grp) (user : list Z) (group : Z) : list Z :=
  group :: map g_gid (filter (fun g => if in_dec (list_eq_dec Z.eq_dec) user (g_members g) then true else false) gs).
(* no white space in the members' names *)
Definition plain (g : grp) : Prop := Forall (Forall (fun b => b <> 32 /\ ~ 9 <= b <= 13)) (g_members g).
(* no group is named by a proper prefix of [n] or an extension of it *)
Definition no_prefixes (n : list Z) (gs : list grp) : Prop := Forall (fun g => prefix (g_name g) n \/ prefix n (g_name g) -> g_name g = n) gs.
(* [n] successive calls of getgrent: memory and result after each *)
Fixpoint gwalk (o : os) (utf8 : list Z -> bool) (file : list Z) (p : Z) (n : nat) (m : mem) (reader : option (list Z)) : res (list (mem * option group) * option (list Z)) :=
  match n with
  | O => Ok ([], reader)
  | S n => ' (m, reader, r) <- getgrent o utf8 m (Some file) reader p ;;
           ' (l, reader) <- gwalk o utf8 file p n m reader ;; Ok ((m, r) :: l, reader)
  end.
