(* Lemmas about Symlink_model. *)
From Verif Require Import Base Symlink_spec Symlink_model.

Lemma resolve_ok t q a : final t q a -> forall n p, links t p n q -> forall k, (n < k)%nat -> resolve_sym_links k t p = a.
Proof.
  intros F n p L. induction L as [p|p l n q TP NE L IH]; intros k K; (destruct k as [|k]; [lia|]); cbn [resolve_sym_links]; unfold open_absolute, read_link_content.
  - unfold final in F. destruct (t p); subst; [reflexivity|contradiction|reflexivity|reflexivity].
  - rewrite TP. apply IH; [exact F|lia].
Qed.
Lemma resolve_loop t : forall k p q, links t p k q -> resolve_sym_links k t p = Error 40.
Proof.
  induction k as [|k IH]; intros p q L; [reflexivity|]. inversion L as [|? l ? ? TP NE L']; subst.
  cbn [resolve_sym_links]. unfold open_absolute, read_link_content. rewrite TP. apply (IH _ _ L').
Qed.
Lemma empty_no p : steps p <> [] -> empty p = false.
Proof. intros N. unfold empty. destruct (steps p); [contradiction|]. apply andb_false_r. Qed.

Definition try_open (t : tree) (dir start : path) : answer :=
  match open_absolute t start with
  | Got fd => Opened fd
  | EXDEV => match read_link_content t start with inr e => Error e | inl l => match openat2_path dir l with inr e => Error e | inl q => resolve_sym_links SYMLOOP_MAX t q end end
  | Err e => Error e
  end.
Lemma try_ok t dir p n q a : links t p n q -> final t q a -> (n <= 64)%nat -> first_ok t dir p -> try_open t dir p = a.
Proof.
  intros L F N FO. unfold try_open, open_absolute, read_link_content, first_ok in *. inversion L as [|? l k ? TP NE L']; subst.
  - unfold final in F. destruct (t q); subst; [reflexivity|contradiction|reflexivity|reflexivity].
  - rewrite TP in *. unfold openat2_path. rewrite (empty_no l NE).
    replace (from dir l) with (from (tl p) l) by (unfold from; destruct FO as [-> | ->]; reflexivity).
    apply (resolve_ok t q a F k _ L'). unfold SYMLOOP_MAX. lia.
Qed.
Lemma try_loop t dir p q : links t p 65 q -> first_ok t dir p -> try_open t dir p = Error 40.
Proof.
  intros L FO. unfold try_open, open_absolute, read_link_content, first_ok in *. inversion L as [|? l k ? TP NE L']; subst.
  rewrite TP in *. unfold openat2_path. rewrite (empty_no l NE).
  replace (from dir l) with (from (tl p) l) by (unfold from; destruct FO as [-> | ->]; reflexivity).
  apply (resolve_loop t 64 _ q L').
Qed.
Lemma open_ok t cwd p n q a : steps p <> [] -> links t (from cwd p) n q -> final t q a -> (n <= 64)%nat -> first_ok t cwd (from cwd p) ->
  open t cwd p = a.
Proof. intros NE L F N FO. unfold open. rewrite (empty_no p NE). exact (try_ok t cwd _ n q a L F N FO). Qed.
Lemma openat_ok t cwd dir p n q a : steps p <> [] -> links t (from dir p) n q -> final t q a -> (n <= 64)%nat ->
  first_ok t (if absolute p then cwd else dir) (from dir p) -> openat t cwd dir p = a.
Proof.
  intros NE L F N FO. unfold openat. rewrite (empty_no p NE). destruct (absolute p) eqn:A; [|exact (try_ok t dir _ n q a L F N FO)].
  assert (E : from dir p = from cwd p) by (unfold from; rewrite A; reflexivity). rewrite E in *. exact (open_ok t cwd p n q a NE L F N FO).
Qed.
Lemma open_loop t cwd p q : steps p <> [] -> links t (from cwd p) 65 q -> first_ok t cwd (from cwd p) -> open t cwd p = Error 40.
Proof. intros NE L FO. unfold open. rewrite (empty_no p NE). exact (try_loop t cwd _ q L FO). Qed.

(* /d/l -> f, /d/f, /d/a -> /d/l, /d/b -> ../d/a, /d/c -> c *)
Definition eg_tree : tree := fun p =>
  match p with
  | [[102]; [100]] => File 7
  | [[108]; [100]] => Link (PN false [Name [102]])
  | [[97]; [100]] => Link (PN true [Name [100]; Name [108]])
  | [[98]; [100]] => Link (PN false [Up; Name [100]; Name [97]])
  | [[99]; [100]] => Link (PN false [Name [99]])
  | _ => Fail 2
  end.
Lemma eg_cycle : forall n, links eg_tree [[99]; [100]] n [[99]; [100]].
Proof. induction n as [|n IH]; [constructor|]. apply (links_S _ _ (PN false [Name [99]])); [reflexivity|discriminate|exact IH]. Qed.
