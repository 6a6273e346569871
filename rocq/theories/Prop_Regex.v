From Coq Require Import String.
From Verif Require Import Base Sort_model Ctype_spec Regex_model Regex_proofs.
Open Scope string_scope.
Open Scope list_scope.
Open Scope Z_scope.

(* C152 full: regexec matches the input with the pattern as compiled with regcomp's flags and with its own flags: it returns 0 if there is a match and
   REG_NOMATCH if not; on a match the first nmatch entries of pmatch are the offsets of the subexpressions, and those of subexpressions not
   taking part -1; nothing else is stored, and nothing at all if the pattern was compiled with REG_NOSUB.  regerror stores the text of an error,
   cut to the buffer and always terminated, and returns the size the whole text needs; different errors have different texts.
   Missing: patterns compiled with REG_NOSUB (refuted), the -1 (refuted: offsets are unsigned), texts cut (refuted).  The matching itself is a crate's. *)
Theorem C152_regexec_partial : forall (e : engine) pat cf ef r input nmatch pm,
  (forall k, 4 <= k -> Z.testbit cf k = false) -> (forall k, 0 <= k < 4 -> Z.testbit ef k = false) -> Z.testbit cf 2 = false -> 0 <= nmatch -> regcomp e pat cf = inl r ->
  exists t, compile e pat (Z.testbit cf 0) = inl t /\ re_nsub r = groups e t /\
    match matches e t (Z.testbit cf 1) (Z.testbit cf 3) (Z.testbit ef 4) (Z.testbit ef 5) input with
    | None => regexec r input nmatch false pm ef = (pm, 1)
    | Some first => exists pm', regexec r input nmatch false pm ef = (pm', 0) /\
        forall i, (0 <= i < nmatch -> pm' i = match nth_error first (Z.to_nat i) with Some (Some p) => p | _ => (2 ^ 64 - 1, 2 ^ 64 - 1) end) /\
          (~ 0 <= i < nmatch -> pm' i = pm i)
    end.
Proof. intros e pat cf ef r input nmatch pm A B _. exact (regexec_ok e pat cf ef r input nmatch pm A B). Qed.
Print Assumptions C152_regexec_partial.
Theorem C152_null : forall (e : engine) (r : regex_t e) input nmatch pm ef, fst (regexec r input nmatch true pm ef) = pm.
Proof. exact regexec_null. Qed.
Print Assumptions C152_null.
(* an engine: the pattern is found at the start or is not found *)
Definition prefixes : engine := E (list Z) (fun p x => if len p =? 0 then inr LeadingRepetition else inl p) (fun p => 1)
  (fun p i nl ns ne s => if ns then None else if list_eq_dec Z.eq_dec (firstn (List.length p) s) p then Some [Some (0, len p); None] else None).
Example C152_regexec_case : exists r, regcomp prefixes (codes "ab") 1 = inl r /\
  snd (regexec r (codes "abc") 3 false (fun _ => (7, 7)) 0) = 0 /\ snd (regexec r (codes "abc") 3 false (fun _ => (7, 7)) 16) = 1 /\
  fst (regexec r (codes "abc") 3 false (fun _ => (7, 7)) 0) 0 = (0, 2) /\ fst (regexec r (codes "abc") 3 false (fun _ => (7, 7)) 0) 3 = (7, 7) /\
  regcomp prefixes [] 0 = inr 14.
Proof. eexists. split; [reflexivity|]. vm_compute. repeat split. Qed.
(* REG_NOSUB: pmatch, which is then to be ignored, is written nevertheless *)
Theorem C152_nosub_refuted : exists (e : engine) r, regcomp e (codes "ab") 4 = inl r /\ fst (regexec r (codes "abc") 1 false (fun _ => (7, 7)) 0) 0 = (0, 2).
Proof. exists prefixes. eexists. split; [reflexivity|]. vm_compute. reflexivity. Qed.
Print Assumptions C152_nosub_refuted.
(* a subexpression not taking part has offsets that are not negative *)
Theorem C152_negative_refuted : exists (e : engine) r, regcomp e (codes "ab") 0 = inl r /\ 0 <= fst (fst (regexec r (codes "abc") 2 false (fun _ => (7, 7)) 0) 1).
Proof. exists prefixes. eexists. split; [reflexivity|]. vm_compute. discriminate. Qed.
Print Assumptions C152_negative_refuted.

Theorem C152_regerror_partial : forall c, exists t, Forall is_char t /\ forall m out max, 0 <= max -> mapped m out max ->
  exists m', regerror m c out max = Ok (m', len t + 1) /\ (len t < max -> stored m m' out (t ++ [0])) /\ (max <= len t -> stored m m' out (firstn (Z.to_nat max) t)).
Proof. exact regerror_fits. Qed.
Print Assumptions C152_regerror_partial.
Example C152_regerror_case : mapped (mem_of 100 (repeat 1 9)) 100 9 /\ exists m', regerror (mem_of 100 (repeat 1 9)) 1 100 9 = Ok (m', 9) /\ bytes_at m' 100 (codes "No match" ++ [0]).
Proof.
  split.
  - intros x X. unfold mem_of. destruct (Z.leb_spec 100 x); [|lia]. destruct (nth_error (repeat 1 9) (Z.to_nat (x - 100))) eqn:N; [eauto|].
    apply nth_error_None in N. rewrite repeat_length in N. lia.
  - eexists. split; [vm_compute; reflexivity|vm_compute; repeat split].
Qed.
Theorem C152_messages : forall m c d out m1 m2 t1 t2 max, 0 <= c <= 14 -> 0 <= d <= 14 -> c <> d -> mapped m out max -> 100 <= max ->
  regerror m c out max = Ok (m1, t1) -> regerror m d out max = Ok (m2, t2) -> ~ (forall x, m1 x = m2 x /\ t1 = t2).
Proof.
  intros m c d out m1 m2 t1 t2 max C D N MP M E1 E2 X.
  destruct (regerror_ok m c out max ltac:(lia) MP) as (m1' & E1' & S1). destruct (regerror_ok m d out max ltac:(lia) MP) as (m2' & E2' & S2).
  rewrite E1 in E1'. injection E1' as -> T1. rewrite E2 in E2'. injection E2' as -> T2.
  apply N. apply messages_differ; [exact C|exact D|].
  assert (L : len (message c) = len (message d)) by (rewrite <- T1, <- T2; apply (X 0)).
  assert (LM : forall k, 0 <= k <= 14 -> len (message k) <= 100).
  { intros k K. rewrite <- (Z2Nat.id k) by lia. assert (KK : (Z.to_nat k < 15)%nat) by lia. revert KK. generalize (Z.to_nat k). clear. intros n KK.
    do 15 (destruct n as [|n]; [vm_compute; discriminate|]). lia. }
  pose proof (LM c C) as LC. pose proof (LM d D) as LD. unfold len in LC, LD, L.
  destruct S1 as (B1 & _), S2 as (B2 & _). rewrite firstn_all2 in B1, B2 by lia.
  apply (nth_ext _ _ 0 0); [lia|]. intros n Hn.
  assert (G : forall mm a l k, bytes_at mm a l -> (k < List.length l)%nat -> mm (a + Z.of_nat k) = Some (nth k l 0)).
  { clear. intros mm a l. revert a. induction l as [|b l IH]; intros a k B K; [cbn in K; lia|]. cbn [bytes_at] in B. destruct B as (B0 & B).
    destruct k as [|k]; [rewrite Z.add_0_r; exact B0|]. cbn [nth]. rewrite <- (IH (a + 1)); [f_equal; lia|exact B|cbn [List.length] in K; lia]. }
  pose proof (G _ _ _ n B1 Hn) as Y1. pose proof (G _ _ _ n B2 ltac:(lia)) as Y2. destruct (X (out + Z.of_nat n)) as (XX & _). rewrite Y1, Y2 in XX. congruence.
Qed.
Print Assumptions C152_messages.
Example C152_messages_case : message 9 <> message 10. Proof. vm_compute. discriminate. Qed.
(* cut, the text has no end *)
Theorem C152_end_refuted : exists m', regerror (mem_of 100 (repeat 1 8)) 1 100 4 = Ok (m', 9) /\ bytes_at m' 100 (codes "No m" ++ [1]).
Proof. eexists. split; [vm_compute; reflexivity|vm_compute; repeat split]. Qed.
Print Assumptions C152_end_refuted.
(* a pattern refused is neither success nor REG_NOMATCH *)
Theorem C152_regcomp_errors : forall e pat cf c, regcomp e pat cf = inr c -> 2 <= c <= 14.
Proof. intros e pat cf c. unfold regcomp. destruct (compile e pat _) as [t|err]; [discriminate|]. intros X. injection X as <-. destruct err; cbn; lia. Qed.
Print Assumptions C152_regcomp_errors.
Example C152_regcomp_case : regcomp prefixes [] 8 = inr 14. Proof. reflexivity. Qed.
