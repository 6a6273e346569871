From Coq Require Import ZArith List Bool Lia.
From Verif Require Import Base Hooks_model Hooks_spec.
Import ListNotations.
Open Scope Z_scope.

(** C75 *)
Lemma given_app : forall A (f : A -> option Z) a b, given f (a ++ b) = given f a ++ given f b.
Proof. induction a as [|x a IH]; cbn; intros; [reflexivity|]. rewrite IH. destruct (f x); reflexivity. Qed.

Lemma after_own : forall h s t, after s h t =
  FH (fh0 (s t) ++ prepares (by_thread t h)) (fh1 (s t) ++ parents (by_thread t h)) (fh2 (s t) ++ children (by_thread t h)).
Proof.
  induction h as [|[u [[a b] c]] h IH]; intros; cbn [after].
  - cbn. rewrite !app_nil_r. destruct (s t); reflexivity.
  - rewrite IH. unfold atfork, by_thread. cbn [filter fst]. rewrite (Z.eqb_sym u t).
    destruct (Z.eqb_spec t u) as [->|_]; [|reflexivity].
    cbn [fh0 fh1 fh2]. unfold prepares, parents, children. cbn [given fst snd].
    destruct a, b, c; cbn [push_hook]; rewrite <- ?app_assoc; reflexivity.
Qed.

Lemma fork_own : forall h t, do_fork (after f_init h) t FOk =
  (prepares (by_thread t h), parents (by_thread t h), Some (children (by_thread t h))).
Proof. intros. unfold do_fork. rewrite after_own. reflexivity. Qed.

Lemma by_one : forall t h, (forall r, In r h -> fst r = t) -> by_thread t h = h.
Proof.
  unfold by_thread. induction h as [|r h IH]; intros I; cbn; [reflexivity|].
  rewrite (I r (or_introl eq_refl)), Z.eqb_refl, IH; [reflexivity|]. intros x J. apply I. right. exact J.
Qed.

(** C77 *)
Lemma x_put_full : forall w e, x_put (map Some w) e = map Some (w ++ [e]).
Proof. induction w as [|x w IH]; intros; cbn; [reflexivity|]. rewrite IH. reflexivity. Qed.

Lemma x_loop_full : forall d w, exists l, x_loop d (map Some w) = (l, rev (map (fun e => (xf e, xarg e)) (filter (concerns d) w))) /\
  filter is_some l = map Some (filter (fun e => negb (concerns d e)) w).
Proof.
  induction w as [|x w (l & E & F)]; cbn; [exists []; auto|]. rewrite E.
  assert (X : x_hit d x = concerns d x) by (unfold x_hit, concerns; rewrite (Z.eqb_sym d (xdso x)); reflexivity). rewrite X.
  destruct (concerns d x); eexists; (split; [reflexivity|]); cbn; rewrite F; reflexivity.
Qed.

Lemma x_fin : forall d w, x_finalize d (map Some w) =
  (map Some (filter (fun e => negb (concerns d e)) w), rev (map (fun e => (xf e, xarg e)) (filter (concerns d) w))).
Proof.
  intros. unfold x_finalize. destruct (x_loop_full d w) as (l & -> & F). rewrite F.
  destruct (Z.eqb_spec d 0) as [->|_]; [|reflexivity]. f_equal.
  clear F. induction w as [|x w IH]; cbn; auto.
Qed.

Lemma x_run_wanted : forall ops w, x_run (fun _ _ => false) (map Some w) ops = Some (xwanted w ops).
Proof.
  induction ops as [|[[f|] a d|d] ops IH]; intros; cbn [x_run xwanted x_atexit]; [reflexivity| | |].
  - rewrite x_put_full. apply IH.
  - apply IH.
  - rewrite x_fin. rewrite IH. assert (N : forall l : list (Z * Z), existsb (fun _ => false) l = false) by (induction l; auto).
    rewrite N. reflexivity.
Qed.

Lemma x_run_some : forall cc ops l r, x_run cc l ops = Some r -> x_run (fun _ _ => false) l ops = Some r.
Proof.
  intros cc. induction ops as [|[f a d|d] ops IH]; intros l r E; cbn [x_run] in *; [exact E| |].
  - apply IH, E.
  - destruct (x_finalize d l) as [l1 calls]. destruct (existsb _ calls); [discriminate|].
    assert (N : existsb (fun c : Z * Z => false) calls = false) by (clear; induction calls; auto).
    rewrite N. destruct (x_run cc l1 ops) eqn:R; [|discriminate]. rewrite (IH _ _ R). exact E.
Qed.

Lemma x_ok : forall cc ops, (forall f a d, In (XReg (Some f) a d) ops -> cc f a = false) -> x_run cc [] ops = Some (xwanted [] ops).
Proof.
  intros cc ops0 H0.
  assert (G : forall ops w, (forall e, In e w -> cc (xf e) (xarg e) = false) ->
    (forall f a d, In (XReg (Some f) a d) ops -> cc f a = false) -> x_run cc (map Some w) ops = Some (xwanted w ops)).
  { induction ops as [|[[f|] a d|d] ops IH]; intros w W H; cbn [x_run xwanted x_atexit]; [reflexivity| | |].
    - rewrite x_put_full. apply IH.
      + intros e I. apply in_app_or in I as [I|[<-|[]]]; [apply W, I|]. cbn. apply (H f a d). left. reflexivity.
      + intros f' a' d' I. apply (H f' a' d'). right. exact I.
    - apply IH; [exact W|]. intros f' a' d' I. apply (H f' a' d'). right. exact I.
    - rewrite x_fin, IH.
      + destruct (existsb _ _) eqn:B; [|reflexivity]. apply existsb_exists in B as (c & I & B).
        apply in_rev, in_map_iff in I as (e & <- & I). apply filter_In in I as [I _]. cbn in B. rewrite (W _ I) in B. discriminate.
      + intros e I. apply filter_In in I as [I _]. apply W, I.
      + intros f' a' d' I. apply (H f' a' d'). right. exact I. }
  apply (G ops0 []); [intros ? []|exact H0].
Qed.

(** thread-local destructors *)
Lemma t_ok : forall body l, (forall d, In d l -> body d = []) -> t_thread body l = Ok (rev l).
Proof.
  intros body l H. unfold t_thread. assert (G : forall l, (forall d, In d l -> body d = []) -> t_finalize body l = Ok l).
  { induction l0 as [|d t IH]; intros G; cbn; [reflexivity|]. rewrite G by (left; reflexivity).
    rewrite IH by (intros; apply G; right; assumption). reflexivity. }
  apply G. intros d I. apply H, in_rev, I.
Qed.

(** C76 *)
Fixpoint chain (node : Z -> option (Z * Z * Z)) (h : Z) (st : list frame) (tail : Z) : Prop :=
  match st with
  | [] => h = tail
  | (p, r, a) :: st => h = p /\ p <> 0 /\ exists nx, node p = Some (r, a, nx) /\ chain node nx st tail
  end.

Lemma chain_frame : forall node node' st h tail, (forall q, In q (map place st) -> node' q = node q) ->
  chain node h st tail -> chain node' h st tail.
Proof.
  induction st as [|[[p r] a] st IH]; cbn; intros h tail F C; [exact C|].
  destruct C as (-> & P & nx & E & C). split; [reflexivity|]. split; [exact P|]. exists nx.
  split; [rewrite F by (left; reflexivity); exact E|]. apply IH; [|exact C]. intros q I. apply F. right. exact I.
Qed.

Lemma existsb_notin : forall p l, existsb (Z.eqb p) l = false -> ~ In p l.
Proof.
  intros p l E I. assert (existsb (Z.eqb p) l = true); [|congruence].
  apply existsb_exists. exists p. split; [exact I|apply Z.eqb_refl].
Qed.

Lemma c_mono : forall body cp f g s k r, (f <= g)%nat -> c_exec body cp f s k = Ok r -> c_exec body cp g s k = Ok r.
Proof.
  induction f as [|f IH]; intros g s k r L E; [discriminate|].
  destruct g as [|g]; [lia|]. assert (L' : (f <= g)%nat) by lia. cbn [c_exec] in *.
  destruct k as [[|[p q a|e|] l]|ptr].
  - exact E.
  - eapply IH; eassumption.
  - destruct (cnode s (chead s)) as [[[q a] prev]|]; [|exact E]. destruct e; [|eapply IH; eassumption].
    destruct (c_exec body cp f _ (Prog (body q a))) as [[s1 ex]| | |] eqn:B; cbn in E; try discriminate.
    rewrite (IH _ _ _ _ L' B). cbn. destruct ex; [exact E|]. eapply IH; eassumption.
  - destruct cp; eapply IH; eassumption.
  - destruct (ptr =? 0); [exact E|]. destruct (cnode s ptr) as [[[q a] prev]|]; [|exact E].
    destruct (c_exec body cp f _ (Prog (body q a))) as [[s1 ex]| | |] eqn:B; cbn in E; try discriminate.
    rewrite (IH _ _ _ _ L' B). cbn. destruct ex; [exact E|]. eapply IH; eassumption.
Qed.

Section sim.
Variable body : Z -> Z -> list cop.
Hypothesis quiet : forall r a, no_test (body r a).

Lemma s_noexit : forall sp f below top l c t ex, no_test l -> sexec body sp f below top l = Some (c, t, ex) -> ex = false.
Proof.
  induction f as [|f IH]; intros below top l c t ex N E; [discriminate|]. cbn in E.
  destruct l as [|[p r a|e|] l].
  - injection E as _ _ <-. reflexivity.
  - destruct (_ || _); [discriminate|]. eapply IH; [|exact E]. intros I. apply N. right. exact I.
  - assert (N' : no_test l) by (intros I; apply N; right; exact I).
    destruct top as [|[[p r] a] top]; [discriminate|]. destruct e; [|eapply IH; eassumption].
    destruct (sexec _ _ _ _ _ (body r a)) as [[[c1 t1] ex1]|] eqn:B; [|discriminate].
    pose proof (IH _ _ _ _ _ _ (quiet r a) B) as ->. destruct t1; [|discriminate].
    destruct (sexec _ _ _ below top l) as [[[c2 t2] ex2]|] eqn:B2; [|discriminate].
    injection E as _ _ <-. eapply IH; eassumption.
  - exfalso. apply N. left. reflexivity.
Qed.

Lemma sim : forall sp cp f below top l c t ex s tail, no_test l \/ sp = cp ->
  sexec body sp f below top l = Some (c, t, ex) -> chain (cnode s) (chead s) top tail ->
  (forall q, In q (map place top) -> ~ In q below) -> NoDup (map place top) ->
  exists s1, chain (cnode s1) (chead s1) t tail /\ clog s1 = rev c ++ clog s /\
    (forall q, In q below -> cnode s1 q = cnode s q) /\
    (forall q, In q (map place t) -> ~ In q below) /\ NoDup (map place t) /\
    if ex then forall g s2, c_exec body cp g s1 (Walk (chead s1)) = Ok (s2, true) -> c_exec body cp (f + g) s (Prog l) = Ok (s2, true)
    else c_exec body cp f s (Prog l) = Ok (s1, false).
Proof.
  intros sp cp. induction f as [|f IH]; intros below top l c t ex s tail N E C D ND; [discriminate|]. cbn in E.
  destruct l as [|[p r a|e|] l].
  - injection E as <- <- <-. exists s. split; [exact C|]. split; [reflexivity|]. split; [auto|]. split; [exact D|]. split; [exact ND|]. reflexivity.
  - destruct (Z.eqb_spec p 0) as [|P0]; [discriminate|]. cbn [orb] in E.
    destruct (existsb _ _) eqn:X in E; [discriminate|]. apply existsb_notin in X.
    assert (X1 : ~ In p (map place top)) by (intros I; apply X, in_or_app; left; exact I).
    assert (X2 : ~ In p below) by (intros I; apply X, in_or_app; right; exact I).
    assert (N' : no_test l \/ sp = cp) by (destruct N as [N|N]; [left; intros I; apply N; right; exact I|right; exact N]).
    destruct (IH _ _ _ _ _ _ (c_push s p r a) tail N' E) as (s1 & C1 & L1 & F1 & D1 & ND1 & R1).
    + cbn. split; [reflexivity|]. split; [exact P0|]. exists (chead s). rewrite Z.eqb_refl. split; [reflexivity|].
      eapply chain_frame; [|exact C]. intros q I. cbn. destruct (Z.eqb_spec q p) as [->|_]; [contradiction|reflexivity].
    + cbn. intros q [<-|I]; [exact X2|apply D, I].
    + cbn. constructor; [exact X1|exact ND].
    + exists s1. split; [exact C1|]. split; [exact L1|]. split.
      { intros q I. rewrite F1 by exact I. cbn. destruct (Z.eqb_spec q p) as [->|_]; [contradiction|reflexivity]. }
      split; [exact D1|]. split; [exact ND1|]. destruct ex; exact R1.
  - assert (N' : no_test l \/ sp = cp) by (destruct N as [N|N]; [left; intros I; apply N; right; exact I|right; exact N]).
    destruct top as [|[[p r] a] top]; [discriminate|].
    destruct C as (H & P0 & nx & Np & C). cbn [map place fst] in D, ND. apply NoDup_cons_iff in ND as [Np1 ND2].
    assert (D2 : forall q, In q (map place top) -> ~ In q below) by (intros q I; apply D; right; exact I).
    set (s0 := CS nx (cnode s) (clog s)).
    destruct e.
    + destruct (sexec _ _ _ _ _ (body r a)) as [[[c1 t1] ex1]|] eqn:B; [|discriminate].
      pose proof (s_noexit _ _ _ _ _ _ _ _ (quiet r a) B) as ->. destruct t1; [|discriminate].
      destruct (sexec _ _ _ below top l) as [[[c2 t2] ex2]|] eqn:B2; [|discriminate].
      injection E as <- <- <-.
      destruct (IH _ _ _ _ _ _ (called s0 r a) nx (or_introl (quiet r a)) B) as (s1 & C1 & L1 & F1 & _ & _ & R1); [reflexivity|intros ? []|constructor|].
      cbn in C1. destruct (IH _ _ _ _ _ _ s1 tail N' B2) as (s2 & C2 & L2 & F2 & D3 & ND3 & R2); [|exact D2|exact ND2|].
      { rewrite C1. eapply chain_frame; [|exact C]. intros q I. apply F1. right. apply in_or_app. left. exact I. }
      exists s2. split; [exact C2|]. split.
      { rewrite L2, L1. cbn. rewrite rev_app_distr, <- !app_assoc. reflexivity. }
      split. { intros q I. rewrite F2 by exact I. rewrite F1; [reflexivity|]. right. apply in_or_app. right. exact I. }
      split; [exact D3|]. split; [exact ND3|].
      destruct ex2.
      * intros g s3 W. cbn [plus c_exec]. rewrite H, Np. fold s0.
        rewrite (c_mono _ _ f (f + g) _ _ _ ltac:(lia) R1). cbn. apply R2, W.
      * cbn [c_exec]. rewrite H, Np. fold s0. rewrite R1. cbn. exact R2.
    + destruct (IH _ _ _ _ _ _ s0 tail N' E) as (s2 & C2 & L2 & F2 & D3 & ND3 & R2); [exact C|exact D2|exact ND2|].
      exists s2. split; [exact C2|]. split; [exact L2|]. split; [exact F2|]. split; [exact D3|]. split; [exact ND3|].
      destruct ex; [intros g s3 W; cbn [plus c_exec]; rewrite H, Np; apply R2, W|cbn [c_exec]; rewrite H, Np; exact R2].
  - destruct N as [N|<-]; [exfalso; apply N; left; reflexivity|]. destruct sp.
    + injection E as <- <- <-. exists s. split; [exact C|]. split; [reflexivity|]. split; [auto|]. split; [exact D|]. split; [exact ND|].
      intros g s2 W. cbn [plus c_exec]. eapply c_mono; [|exact W]. lia.
    + destruct (IH _ _ _ _ _ _ s tail (or_intror eq_refl) E C D ND) as (s1 & Y). exists s1.
      destruct Y as (C1 & L1 & F1 & D1 & ND1 & R1). repeat (split; [assumption|]). destruct ex; exact R1.
Qed.

Lemma unwind : forall cp f used st c s ptr, sunwind body f used st = Some c -> chain (cnode s) ptr st 0 ->
  incl (map place st) used ->
  exists s1, c_exec body cp (length st + S f) s (Walk ptr) = Ok (s1, true) /\ clog s1 = rev c ++ clog s.
Proof.
  intros cp f used. induction st as [|[[p r] a] st IH]; intros c s ptr E C I; cbn in E.
  - injection E as <-. cbn in C. subst ptr. exists s. cbn. auto.
  - destruct (sexec _ _ _ _ _ _) as [[[c1 t1] ex1]|] eqn:B; [|discriminate]. destruct t1; [|discriminate]. destruct ex1; [discriminate|].
    destruct (sunwind body f used st) as [c2|] eqn:B2; [|discriminate]. injection E as <-.
    destruct C as (-> & P0 & nx & Np & C).
    destruct (sim false cp _ _ _ _ _ _ _ (called s r a) (chead s) (or_introl (quiet r a)) B) as (s1 & C1 & L1 & F1 & _ & _ & R1); [reflexivity|intros ? []|constructor|].
    destruct (IH c2 s1 nx eq_refl) as (s2 & R2 & L2).
    + eapply chain_frame; [|exact C]. intros q J. apply F1, I. right. exact J.
    + intros q J. apply I. right. exact J.
    + exists s2. split.
      * cbn [length Nat.add c_exec].
        destruct (Z.eqb_spec p 0); [contradiction|]. rewrite Np.
        rewrite (c_mono _ _ f (length st + S f) _ _ _ ltac:(lia) R1). cbn. exact R2.
      * rewrite L2, L1. cbn. rewrite rev_app_distr, <- !app_assoc. reflexivity.
Qed.

Lemma c_thread_ok : forall pend f l c, sthread body pend f l = Some c ->
  exists g s, c_thread body pend g l = Ok s /\ rev (clog s) = c.
Proof.
  intros pend f l c E. unfold sthread in E.
  destruct (sexec _ _ _ _ _ l) as [[[c1 st] ex]|] eqn:B; [|discriminate].
  destruct (sunwind _ _ _ st) as [c2|] eqn:U; [|discriminate]. injection E as <-.
  destruct (sim pend pend _ _ _ _ _ _ _ c_init 0 (or_intror eq_refl) B) as (s1 & C1 & L1 & _ & _ & _ & R1); [reflexivity|intros ? []|constructor|].
  destruct (unwind pend f _ _ _ s1 (chead s1) U C1) as (s2 & R2 & L2); [intros ? I; exact I|].
  assert (L : rev (clog s2) = c1 ++ c2).
  { rewrite L2, L1. cbn. rewrite app_nil_r, rev_app_distr, !rev_involutive. reflexivity. }
  destruct ex.
  - exists (f + (length st + S f))%nat, s2. split; [|exact L]. unfold c_thread. rewrite (R1 _ _ R2). reflexivity.
  - exists (length st + S f)%nat, s2. split; [|exact L]. unfold c_thread.
    rewrite (c_mono _ _ f (length st + S f) _ _ _ ltac:(lia) R1). cbn. rewrite R2. reflexivity.
Qed.
End sim.
