(* Specification for C45 and C46: the options of an argument list (POSIX getopt; GNU
   getopt_long). *)
From Verif Require Import Base Getopt_model.

(* c is an option letter of the option string O; k: it takes an argument. *)
Definition letter (O : list Z) (c : Z) (k : bool) : Prop :=
  c <> 58 /\ exists a b, O = a ++ c :: b /\ ~ In c a /\ (k = true <-> hd 0 b = 58).
Definition unknown (O : list Z) (c : Z) : Prop := c = 58 \/ ~ In c O.
(* An argument that is not an option. *)
Definition operand (s : list Z) : Prop := hd 0 s <> 45 \/ s = [45].

(* What one call reports: result, optarg (pointer), optopt if it is set, optind
   afterwards, the ints stored (longindex, flag). *)
Record event := Ev { e_ret : Z; e_arg : Z; e_opt : option Z; e_ind : Z; e_ints : list (Z * Z) }.
Definition missing (O : list Z) : Z := if hd 0 O =? 58 then 58 else 63.

(* Long options: name, has_arg, flag pointer, value. *)
Record lopt := L { l_name : list Z; l_arg : Z; l_flag : Z; l_val : Z }.
Definition prefix (t s : list Z) : Prop := exists r, s = t ++ r.
(* The name text t selects entry number k, o: an exact match, or else the only entry that
   t begins. *)
Definition selects (T : list lopt) (t : list Z) (k : nat) (o : lopt) : Prop :=
  nth_error T k = Some o /\
  (l_name o = t \/
   prefix t (l_name o) /\ forall j o', nth_error T j = Some o' -> prefix t (l_name o') -> j = k).
(* + the code takes the first entry that t begins *)
Definition none_before (T : list lopt) (t : list Z) (k : nat) : Prop :=
  forall j o, (j < k)%nat -> nth_error T j = Some o -> ~ prefix t (l_name o).

Definition long_ints (li : Z) (k : nat) (o : lopt) : list (Z * Z) :=
  (if li =? NULL then [] else [(li, Z.of_nat k)]) ++ (if l_flag o =? NULL then [] else [(l_flag o, l_val o)]).
Definition long_ret (o : lopt) : Z := if l_flag o =? NULL then l_val o else 0.

Section Options.
Variables (O : list Z) (T : option (list lopt)) (li : Z).   (* option string, long options, longindex *)

(* The events for the arguments from index i on, and the final optind.  With [Some (p, cs)]
   the scan is inside argument i, at the letters cs, which are at address p; the arguments
   listed (address, text) are then those after i. *)
Inductive opts : Z -> option (Z * list Z) -> list (Z * list Z) -> list event -> Z -> Prop :=
| o_end i : opts i None [] [] i
| o_operand i p s r : operand s -> opts i None ((p, s) :: r) [] i
| o_dashes i p r : opts i None ((p, [45; 45]) :: r) [] (i + 1)
| o_letters i p c cs r ev f : (c <> 45 \/ T = None /\ cs <> []) ->
    opts i (Some (p + 1, c :: cs)) r ev f -> opts i None ((p, 45 :: c :: cs) :: r) ev f
| o_flag i p c cs r ev f : letter O c false -> c < 128 ->
    opts (match cs with [] => i + 1 | _ => i end) (match cs with [] => None | _ => Some (p + 1, cs) end) r ev f ->
    opts i (Some (p, c :: cs)) r (Ev c NULL None (match cs with [] => i + 1 | _ => i end) [] :: ev) f
| o_unknown i p c cs r ev f : unknown O c -> c < 128 ->
    (c = 58 -> ~ In 58 O) ->                                                       (* + *)
    opts (match cs with [] => i + 1 | _ => i end) (match cs with [] => None | _ => Some (p + 1, cs) end) r ev f ->
    opts i (Some (p, c :: cs)) r (Ev 63 NULL (Some c) (match cs with [] => i + 1 | _ => i end) [] :: ev) f
| o_attached i p c cs r ev f : letter O c true -> c < 128 -> cs <> [] ->
    opts (i + 1) None r ev f ->
    opts i (Some (p, c :: cs)) r (Ev c (p + 1) None (i + 1) [] :: ev) f
| o_next i p c q s r ev f : letter O c true -> c < 128 ->
    opts (i + 2) None r ev f ->
    opts i (Some (p, [c])) ((q, s) :: r) (Ev c q None (i + 2) [] :: ev) f
| o_missing i p c : letter O c true -> c < 128 ->
    opts i (Some (p, [c])) [] [Ev (missing O) NULL (Some c) (i + 2) []] (i + 2)
| l_plain i p t r k o tab ev f : T = Some tab -> t <> [] -> selects tab t k o -> none_before tab t k -> ~ In 61 t ->
    l_arg o = 0 \/ l_arg o = 2 ->
    opts (i + 1) None r ev f ->
    opts i None ((p, 45 :: 45 :: t) :: r) (Ev (long_ret o) NULL None (i + 1) (long_ints li k o) :: ev) f
| l_value i p t v r k o tab ev f : T = Some tab -> selects tab t k o -> none_before tab t k -> ~ In 61 t ->
    l_arg o = 1 \/ l_arg o = 2 ->
    opts (i + 1) None r ev f ->
    opts i None ((p, 45 :: 45 :: t ++ 61 :: v) :: r)
      (Ev (long_ret o) (p + 2 + len t + 1) None (i + 1) (long_ints li k o) :: ev) f
| l_next i p t q s r k o tab ev f : T = Some tab -> t <> [] -> selects tab t k o -> none_before tab t k -> ~ In 61 t ->
    l_arg o = 1 ->
    opts (i + 2) None r ev f ->
    opts i None ((p, 45 :: 45 :: t) :: (q, s) :: r) (Ev (long_ret o) q None (i + 2) (long_ints li k o) :: ev) f
| l_missing i p t k o tab : T = Some tab -> t <> [] -> selects tab t k o -> none_before tab t k -> ~ In 61 t ->
    l_arg o = 1 ->
    opts i None [(p, 45 :: 45 :: t)]
      [Ev (missing O) NULL None (i + 1) (if li =? NULL then [] else [(li, Z.of_nat k)])] (i + 1).
End Options.

(* A program calling getopt until it returns -1: the events, and optind at the end. *)
Inductive history (call : gst -> res (gst * Z)) : gst -> list event -> Z -> Prop :=
| h_end s s' f : call s = Ok (s', -1) -> optind s' = f -> history call s [] f
| h_step s s' e ev f : call s = Ok (s', e_ret e) -> optarg s' = e_arg e -> optind s' = e_ind e ->
    (forall c, e_opt e = Some c -> optopt s' = c) -> ints s' = ints s ++ e_ints e ->
    history call s' ev f -> history call s (e :: ev) f.

(* getopt starts over: optind is 0, or it is 1 and nothing was parsed before. *)
Definition start (s : gst) : Prop := optind s = 0 \/ optind s = 1 /\ cur s = NULL.
(* argv: the program name and the arguments, as strings in memory. *)
Definition args_at (fuel : nat) (m : mem) (argv : list Z) (prog : list Z) (args : list (Z * list Z)) : Prop :=
  exists ap, argv = ap :: map fst args /\ Forall (fun a => 0 < fst a) args /\
  Forall (fun a => cstr m (fst a) (snd a) /\ (length (snd a) < fuel)%nat) ((ap, prog) :: args).
(* the long-option table in memory *)
Definition same_opt (m : mem) (o : longopt) (l : lopt) : Prop :=
  cstr m (lo_name o) (l_name l) /\ lo_arg o = l_arg l /\ lo_flag o = l_flag l /\ lo_val o = l_val l.
Definition table_at (m : mem) (tp : option (list longopt)) (T : option (list lopt)) : Prop :=
  match T, tp with None, None => True | Some t, Some p => Forall2 (same_opt m) p t | _, _ => False end.
(* an ASCII option character, and not the ':' of the option string *)
Definition plain_opt (O : list Z) (c : Z) : Prop := 0 < c < 128 /\ (c = 58 -> ~ In 58 O).
