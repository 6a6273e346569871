(** Common vocabulary: results, byte-addressed memory, machine integers.
    Nothing in this file models a particular relibc function. *)
From Coq Require Export ZArith List Lia Bool.
From Coq Require Export ZifyBool ZifyNat.
Export ListNotations.
Open Scope Z_scope.
#[export] Set Warnings "-notation-overridden".
#[global] Arguments Z.mul : simpl never.
#[global] Arguments Z.add : simpl never.
#[global] Arguments Z.sub : simpl never.
#[global] Arguments Z.opp : simpl never.
#[global] Arguments Z.div : simpl never.
#[global] Arguments Z.modulo : simpl never.
#[global] Arguments Z.of_nat : simpl never.
#[global] Arguments Z.to_nat : simpl never.
#[global] Arguments Z.land : simpl never.
#[global] Arguments Z.lor : simpl never.
#[global] Arguments Z.shiftl : simpl never.
#[global] Arguments Z.shiftr : simpl never.
#[global] Arguments Z.pow : simpl never.

(** Outcome of running a modelled function.
    [Fault]     : an access to an unmapped byte (undefined behaviour in Rust/C);
    [Panic]     : a Rust panic / abort;
    [OutOfFuel] : the loop did not finish within the given number of steps. *)
Inductive res (A : Type) : Type :=
| Ok (a : A)
| Fault
| Panic
| OutOfFuel.
Arguments Ok {A} a.
Arguments Fault {A}.
Arguments Panic {A}.
Arguments OutOfFuel {A}.

Definition bind {A B} (r : res A) (k : A -> res B) : res B :=
  match r with
  | Ok a => k a
  | Fault => Fault
  | Panic => Panic
  | OutOfFuel => OutOfFuel
  end.
Notation "x <- e ;; k" := (bind e (fun x => k))
  (at level 61, e at next level, right associativity).
Notation "' p <- e ;; k" := (bind e (fun p => k))
  (at level 61, p pattern, e at next level, right associativity).

(** Memory: partial map from addresses to bytes. *)
Definition mem := Z -> option Z.

Definition ld (m : mem) (a : Z) : res Z :=
  match m a with Some b => Ok b | None => Fault end.

Definition upd (m : mem) (a v : Z) : mem :=
  fun x => if x =? a then Some v else m x.

Definition st (m : mem) (a v : Z) : res mem :=
  match m a with Some _ => Ok (upd m a v) | None => Fault end.

(** The null pointer. *)
Definition NULL : Z := 0.

(** [c as u8] for a C [int]. *)
Definition to_u8 (c : Z) : Z := c mod 256.

Definition USIZE_MAX : Z := 18446744073709551615.

(** ** Specification vocabulary for memory *)

(** The bytes [l] are stored at address [a]. *)
Fixpoint bytes_at (m : mem) (a : Z) (l : list Z) : Prop :=
  match l with
  | [] => True
  | b :: l' => m a = Some b /\ bytes_at m (a + 1) l'
  end.

Definition len {A} (l : list A) : Z := Z.of_nat (length l).

Definition is_byte (b : Z) : Prop := 0 <= b < 256.
Definition is_char (b : Z) : Prop := 0 < b < 256.   (* a non-NUL byte *)

(** A NUL-terminated string with content [s] is stored at [a]. *)
Definition cstr (m : mem) (a : Z) (s : list Z) : Prop :=
  Forall is_char s /\ bytes_at m a (s ++ [0]).

(** [l] is the string at [a] as seen by a function bounded by [n]: either [n] non-NUL
    bytes, or fewer than [n] of them followed by a NUL.  Nothing is assumed about
    memory beyond that. *)
Definition bstr (m : mem) (a n : Z) (l : list Z) : Prop :=
  Forall is_char l /\ bytes_at m a l /\
  (len l = n \/ len l < n /\ m (a + len l) = Some 0).

(** All of [a .. a+n) is mapped. *)
Definition mapped (m : mem) (a n : Z) : Prop :=
  forall x, a <= x < a + n -> exists b, m x = Some b.

(** [m'] is [m] with the bytes [l] stored at [a] and nothing else changed. *)
Definition stored (m m' : mem) (a : Z) (l : list Z) : Prop :=
  bytes_at m' a l /\ forall x, ~ (a <= x < a + len l) -> m' x = m x.

(** The two address ranges do not overlap. *)
Definition disjoint (a n b k : Z) : Prop := a + n <= b \/ b + k <= a.

(** ** Basic lemmas *)

Lemma len_nil : len (@nil Z) = 0.  Proof. reflexivity. Qed.
Lemma len_cons {A} (x : A) l : len (x :: l) = len l + 1.
Proof. unfold len. cbn [length]. lia. Qed.
Lemma len_app {A} (l k : list A) : len (l ++ k) = len l + len k.
Proof. unfold len. rewrite app_length. lia. Qed.
Lemma len_nonneg {A} (l : list A) : 0 <= len l.
Proof. unfold len. lia. Qed.

Lemma bytes_at_app m a l k :
  bytes_at m a (l ++ k) <-> bytes_at m a l /\ bytes_at m (a + len l) k.
Proof.
  revert a; induction l as [|b l IH]; intros a; cbn [bytes_at app].
  - rewrite len_nil, Z.add_0_r. tauto.
  - rewrite IH, len_cons. replace (a + 1 + len l) with (a + (len l + 1)) by lia. tauto.
Qed.

Lemma bytes_at_nth m a l :
  bytes_at m a l <->
  (forall i b, nth_error l i = Some b -> m (a + Z.of_nat i) = Some b).
Proof.
  revert a; induction l as [|c l IH]; intros a; cbn [bytes_at].
  - split; [intros _ [|i] b; discriminate | auto].
  - rewrite IH. split.
    + intros [H0 H1] [|i] b Hb; cbn in Hb.
      * injection Hb as <-. rewrite Z.add_0_r. exact H0.
      * specialize (H1 i b Hb). replace (a + Z.of_nat (S i)) with (a + 1 + Z.of_nat i) by lia.
        exact H1.
    + intros H. split.
      * specialize (H 0%nat c eq_refl). rewrite Z.add_0_r in H. exact H.
      * intros i b Hb. specialize (H (S i) b Hb).
        replace (a + 1 + Z.of_nat i) with (a + Z.of_nat (S i)) by lia. exact H.
Qed.

Lemma bytes_at_ext m m' a l :
  (forall x, a <= x < a + len l -> m' x = m x) ->
  bytes_at m a l -> bytes_at m' a l.
Proof.
  revert a; induction l as [|b l IH]; intros a He; cbn [bytes_at]; [auto|].
  intros [H0 H1]. rewrite len_cons in He. pose proof (len_nonneg l).
  split; [rewrite He by lia; exact H0|].
  apply IH; [|exact H1]. intros x Hx. apply He. lia.
Qed.

Lemma bytes_at_mapped m a l : bytes_at m a l -> mapped m a (len l).
Proof.
  revert a; induction l as [|b l IH]; intros a H x Hx.
  - rewrite len_nil in Hx. lia.
  - destruct H as [H0 H1]. rewrite len_cons in Hx.
    destruct (Z.eq_dec x a) as [->|Hne]; [eauto|].
    apply (IH (a + 1) H1). lia.
Qed.

Lemma mapped_sub m a n b k :
  mapped m a n -> a <= b -> b + k <= a + n -> mapped m b k.
Proof. intros H H1 H2 x Hx. apply H. lia. Qed.

Lemma upd_same m a v : upd m a v a = Some v.
Proof. unfold upd. rewrite Z.eqb_refl. reflexivity. Qed.
Lemma upd_other m a v x : x <> a -> upd m a v x = m x.
Proof. intros H. unfold upd. destruct (Z.eqb_spec x a); [contradiction|reflexivity]. Qed.

Lemma ld_ok m a b : m a = Some b -> ld m a = Ok b.
Proof. unfold ld. intros ->. reflexivity. Qed.

Lemma st_ok m a v : (exists b, m a = Some b) -> st m a v = Ok (upd m a v).
Proof. unfold st. intros [b ->]. reflexivity. Qed.

Lemma mapped_upd m a n x v : mapped m a n -> mapped (upd m x v) a n.
Proof.
  intros H y Hy. unfold upd. destruct (y =? x); eauto.
Qed.

Lemma bytes_at_upd_out m a l x v :
  ~ (a <= x < a + len l) -> bytes_at m a l -> bytes_at (upd m x v) a l.
Proof.
  intros Hx. apply bytes_at_ext. intros y Hy. apply upd_other. lia.
Qed.

Lemma stored_nil m a : stored m m a [].
Proof. split; [exact I|reflexivity]. Qed.

Lemma stored_cons m m' a b l :
  stored (upd m a b) m' (a + 1) l -> stored m m' a (b :: l).
Proof.
  intros [H1 H2]. pose proof (len_nonneg l). split.
  - cbn [bytes_at]. split; [|exact H1].
    rewrite H2 by lia. apply upd_same.
  - intros x Hx. rewrite len_cons in Hx. rewrite H2 by lia. apply upd_other. lia.
Qed.

Lemma stored_snoc m m' m'' a b l :
  stored m m' a l -> m'' = upd m' (a + len l) b -> stored m m'' a (l ++ [b]).
Proof.
  intros [H1 H2] ->. pose proof (len_nonneg l). split.
  - apply bytes_at_app. split.
    + apply bytes_at_upd_out; [lia|exact H1].
    + cbn. split; [apply upd_same|exact I].
  - intros x Hx. rewrite len_app, len_cons, len_nil in Hx. rewrite upd_other by lia. apply H2. lia.
Qed.

Lemma stored_app m m' m'' a l k :
  stored m m' a l -> stored m' m'' (a + len l) k -> stored m m'' a (l ++ k).
Proof.
  intros [H1 H2] [H3 H4]. pose proof (len_nonneg l). pose proof (len_nonneg k). split.
  - apply bytes_at_app. split; [|exact H3].
    eapply bytes_at_ext; [|exact H1]. intros x Hx. apply H4. lia.
  - intros x Hx. rewrite len_app in Hx. rewrite H4 by lia. apply H2. lia.
Qed.

Lemma stored_mapped m m' a l b n : stored m m' a l -> mapped m b n -> mapped m' b n.
Proof.
  intros [H1 H2] H x Hx.
  destruct (Z_lt_dec x a); [rewrite H2 by lia; auto|].
  destruct (Z_lt_dec x (a + len l)); [|rewrite H2 by lia; auto].
  apply (bytes_at_mapped _ _ _ H1). lia.
Qed.

Lemma stored_frame m m' a l b k :
  stored m m' a l -> disjoint a (len l) b (len k) -> bytes_at m b k -> bytes_at m' b k.
Proof.
  intros [H1 H2] Hd. apply bytes_at_ext. intros x Hx. apply H2. unfold disjoint in Hd. lia.
Qed.

Lemma cstr_cons m a c s : cstr m a (c :: s) <-> is_char c /\ m a = Some c /\ cstr m (a + 1) s.
Proof.
  unfold cstr. cbn [app bytes_at]. split.
  - intros [H1 [H2 H3]]. inversion H1; subst. auto.
  - intros [H1 [H2 [H3 H4]]]. auto.
Qed.

Lemma cstr_nil m a : cstr m a [] <-> m a = Some 0.
Proof. unfold cstr. cbn. intuition. Qed.

Lemma cstr_app m a s t : Forall is_char s -> 
  (cstr m a (s ++ t) <-> bytes_at m a s /\ cstr m (a + len s) t).
Proof.
  intros Hs. unfold cstr. rewrite Forall_app, <- app_assoc, bytes_at_app. tauto.
Qed.

Lemma cstr_end m a s : cstr m a s -> m (a + len s) = Some 0.
Proof. intros [_ H]. apply bytes_at_app in H. destruct H as [_ [H _]]. exact H. Qed.

Lemma cstr_bytes m a s : cstr m a s -> bytes_at m a s.
Proof. intros [_ H]. apply bytes_at_app in H. tauto. Qed.

Lemma cstr_ext m m' a s :
  (forall x, a <= x <= a + len s -> m' x = m x) -> cstr m a s -> cstr m' a s.
Proof.
  intros He [H1 H2]. split; [exact H1|]. eapply bytes_at_ext; [|exact H2].
  intros x Hx. apply He. rewrite len_app, len_cons, len_nil in Hx. lia.
Qed.

(** A memory holding exactly the bytes [l] at [a] and nothing else; used in
    the non-vacuity examples. *)
Definition mem_of (a : Z) (l : list Z) : mem :=
  fun x => if (a <=? x) then nth_error l (Z.to_nat (x - a)) else None.

Lemma mem_of_bytes a l : bytes_at (mem_of a l) a l.
Proof.
  apply bytes_at_nth. intros i b Hi. unfold mem_of.
  destruct (Z.leb_spec a (a + Z.of_nat i)); [|lia].
  replace (Z.to_nat (a + Z.of_nat i - a)) with i by lia. exact Hi.
Qed.

Definition mem_union (m1 m2 : mem) : mem :=
  fun x => match m1 x with Some b => Some b | None => m2 x end.

(** Exhaustive check over the 256 byte values, lifted to a quantified statement. *)
Definition all_bytes : list Z := map Z.of_nat (seq 0 256).

Lemma in_all_bytes b : is_byte b -> In b all_bytes.
Proof.
  intros H. unfold is_byte in H. apply in_map_iff. exists (Z.to_nat b). split; [lia|]. apply in_seq. lia.
Qed.

Lemma byte_sweep (P : Z -> bool) : forallb P all_bytes = true -> forall b, is_byte b -> P b = true.
Proof. intros H b Hb. rewrite forallb_forall in H. apply H, in_all_bytes, Hb. Qed.

Lemma byte_sweep2 (P : Z -> Z -> bool) :
  forallb (fun a => forallb (P a) all_bytes) all_bytes = true ->
  forall a b, is_byte a -> is_byte b -> P a b = true.
Proof.
  intros H a b Ha Hb. apply (byte_sweep (P a)); [|exact Hb].
  apply (byte_sweep (fun a => forallb (P a) all_bytes)); assumption.
Qed.
