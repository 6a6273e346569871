(* Diagnostics: proofs. *)
From Coq Require Import String.
From Verif Require Import Base Numeral Ctype_spec Diag_model Diag_spec.
Open Scope string_scope.
Open Scope list_scope.
Open Scope Z_scope.

Lemma sw_fits out room b : len b < room -> sw_write (out, room) b = (out ++ b, room - len b).
Proof.
  intro F. unfold sw_write. destruct (Z.ltb_spec 1 room).
  - rewrite Z.min_l by lia. unfold len. rewrite Nat2Z.id, firstn_all. reflexivity.
  - assert (L : len b = 0) by (unfold len in *; lia). destruct b; [|unfold len in L; cbn in L; lia]. rewrite app_nil_r. f_equal. unfold len. cbn. lia.
Qed.
Lemma as_usize_small n : 0 <= n < 2 ^ 64 -> as_usize n = n.
Proof. intro H. unfold as_usize. apply Z.mod_small. exact H. Qed.
Lemma as_usize_neg n : - 2 ^ 31 <= n < 0 -> as_usize n = n + 2 ^ 64.
Proof. intro H. unfold as_usize. symmetry. apply (Z.mod_unique _ _ (-1)); lia. Qed.
Lemma max_eq : STRERROR_MAX = 48.
Proof. vm_compute. reflexivity. Qed.
Lemma table_ok : forallb (fun s => (1 <=? len (codes s)) && (len (codes s) <? 48) && forallb (fun c => (32 <=? c) && (c <? 127)) (codes s)) STR_ERROR = true.
Proof. vm_compute. reflexivity. Qed.
Lemma entry n : 0 <= n < 132 -> In (nth (Z.to_nat n) STR_ERROR "") STR_ERROR.
Proof. intro N. apply nth_In. change (List.length STR_ERROR) with 132%nat. lia. Qed.
Lemma known_eq n : 0 <= n < 132 -> strerror n = codes (nth (Z.to_nat n) STR_ERROR "").
Proof.
  intro N. unfold strerror. rewrite as_usize_small by lia. unfold get. change (len STR_ERROR) with 132. rewrite (proj2 (Z.ltb_lt n 132)) by lia.
  rewrite max_eq. rewrite sw_fits; [reflexivity|].
  pose proof (proj1 (forallb_forall _ _) table_ok (nth (Z.to_nat n) STR_ERROR "") (entry n N)) as T.
  apply andb_prop in T. destruct T as [T _]. apply andb_prop in T. destruct T as [_ T]. apply Z.ltb_lt in T. exact T.
Qed.
Lemma known_ok n : 0 <= n < 132 -> 0 < len (strerror n) < STRERROR_MAX /\ Forall (fun c => 32 <= c < 127) (strerror n).
Proof.
  intro N. rewrite known_eq by exact N. rewrite max_eq.
  pose proof (proj1 (forallb_forall _ _) table_ok (nth (Z.to_nat n) STR_ERROR "") (entry n N)) as T.
  apply andb_prop in T. destruct T as [T F]. apply andb_prop in T. destruct T as [T0 T1]. apply Z.leb_le in T0. apply Z.ltb_lt in T1. split; [lia|].
  apply Forall_forall. intros c C. pose proof (proj1 (forallb_forall _ _) F c C) as G. apply andb_prop in G. destruct G as [G0 G1].
  apply Z.leb_le in G0. apply Z.ltb_lt in G1. lia.
Qed.
Lemma digits_len n ds : numeral 10 ds n -> n <= 2 ^ 31 -> len (digits_of ds) <= 10.
Proof. intros D N. unfold digits_of, len. rewrite map_length. apply (numeral_len 10 ds n 10); [lia|exact D|lia|]. apply Z.le_lt_trans with (2 ^ 31); [exact N|reflexivity]. Qed.
Lemma unknown_eq n : - 2 ^ 31 <= n < 2 ^ 31 -> n < 0 \/ 132 <= n -> strerror n = codes "Unknown error " ++ display n.
Proof.
  intros R N. unfold strerror.
  assert (G : get STR_ERROR (as_usize n) = None).
  { unfold get. change (len STR_ERROR) with 132. destruct N as [N|N]; [rewrite as_usize_neg by lia|rewrite as_usize_small by lia]; rewrite (proj2 (Z.ltb_ge _ 132)); lia || reflexivity. }
  rewrite G, max_eq. change (len (codes "Unknown error ")) with 14.
  assert (L : len (display n) <= 11).
  { unfold display. destruct (Z.ltb_spec n 0).
    - unfold len. cbn [List.length]. pose proof (digits_len (- n) (to_digits 10 (- n)) (to_digits_numeral 10 (- n) ltac:(lia) ltac:(lia)) ltac:(lia)) as D. unfold digits_of, len in D. lia.
    - pose proof (digits_len n (to_digits 10 n) (to_digits_numeral 10 n ltac:(lia) ltac:(lia)) ltac:(lia)) as D. unfold digits_of in D. lia. }
  rewrite (sw_fits [] 48 (codes "Unknown error ")) by reflexivity. rewrite sw_fits; [reflexivity|]. change (len (codes "Unknown error ")) with 14. lia.
Qed.
Lemma map_48_inj a b : digits_of a = digits_of b -> a = b.
Proof. unfold digits_of. revert b. induction a as [|x a IH]; intros [|y b] E; cbn in E; try discriminate; [reflexivity|]. injection E as E1 E2. f_equal; [lia|apply IH; exact E2]. Qed.
Lemma unknown_ok n : - 2 ^ 31 <= n < 2 ^ 31 -> n < 0 \/ 132 <= n ->
  exists ds, numeral 10 ds (Z.abs n) /\ strerror n = codes "Unknown error " ++ (if n <? 0 then codes "-" else []) ++ digits_of ds.
Proof.
  intros R N. rewrite unknown_eq by assumption. unfold display. destruct (Z.ltb_spec n 0).
  - exists (to_digits 10 (- n)). split; [rewrite Z.abs_neq by lia; apply to_digits_numeral; lia|]. reflexivity.
  - exists (to_digits 10 n). split; [rewrite Z.abs_eq by lia; apply to_digits_numeral; lia|]. reflexivity.
Qed.
Lemma print_told w f a : file (print w f a) f = file w f ++ a.
Proof. cbn. rewrite Z.eqb_refl. reflexivity. Qed.
Lemma print_other w f a g : g <> f -> file (print w f a) g = file w g.
Proof. intro N. cbn. rewrite (proj2 (Z.eqb_neq g f) N). reflexivity. Qed.
Lemma fprint_told errs w f a : file (fprint errs w f a) f = file w f ++ a.
Proof. apply (print_told w f a). Qed.
Lemma fprint_other errs w f a g : g <> f -> file (fprint errs w f a) g = file w g.
Proof. apply (print_other w f a g). Qed.

Lemma message_ok errs prog w code message :
  told w (display_message errs prog w code message) (chosen w) (joined (prog :: opt message ++ map strerror (opt code))) /\
  events (display_message errs prog w code message) = events w /\ on_exit (display_message errs prog w code message) = on_exit w.
Proof.
  unfold display_message, chosen, told. destruct w as [e s x f v].
  destruct s as [k|]; cbv zeta; cbn [sink]; (split; [split|]).
  1, 4: destruct message as [m|]; destruct code as [c|]; cbn [opt map app joined]; rewrite !fprint_told; cbn [file]; rewrite ?app_nil_r, <- ?app_assoc; reflexivity.
  1, 3: intros g N; destruct message as [m|]; destruct code as [c|]; rewrite !fprint_other by exact N; reflexivity.
  all: destruct message as [m|]; destruct code as [c|]; split; reflexivity.
Qed.
