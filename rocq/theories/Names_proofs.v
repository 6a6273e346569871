(* Proofs for C94 *)
From Coq Require Import ZArith List Bool Lia.
From Verif Require Import Base Sort_model Sort_proofs Names_model Names_spec.
Import ListNotations.
Open Scope Z_scope.

Lemma len_rep {A} (x : A) n : len (repeat x n) = Z.of_nat n.
Proof. unfold len. rewrite repeat_length. reflexivity. Qed.
Lemma stored_string m m1 m2 p name r : stored m m1 p name -> stored m1 m2 (p + len name) (0 :: r) ->
  Forall is_char name -> cstr m2 p name.
Proof.
  intros (A1 & A2) (B1 & B2) C. split; [exact C|]. apply bytes_at_app. split.
  - apply (bytes_at_ext m1); [|exact A1]. intros x X. apply B2. lia.
  - cbn in B1 |- *. split; [apply B1|exact I].
Qed.
Lemma stored2_only m m1 m2 p l r n : stored m m1 p l -> stored m1 m2 (p + len l) r -> len l + len r <= n -> only_in m m2 p n.
Proof. intros (_ & A) (_ & B) L x X. pose proof (len_nonneg l). pose proof (len_nonneg r). rewrite B, A by lia. reflexivity. Qed.

Lemma getcwd_ok m path buf size heap : buf <> NULL -> Forall is_char path -> mapped m buf size -> 0 <= size ->
  (len path < size -> exists m', getcwd m path buf size heap = Ok (m', Ret buf) /\ delivered m m' buf size path) /\
  (size < len path -> getcwd m path buf size heap = Ok (m, Err ERANGE)).
Proof.
  intros N C MP S0. unfold getcwd, sys_getcwd. destruct (Z.eqb_spec buf NULL); [contradiction|]. split; intro L.
  - pose proof (len_nonneg path). destruct (Z.ltb_spec size (len path)); [lia|].
    destruct (st_bytes_ok path m buf) as (m1 & -> & S1); [eapply mapped_sub; [exact MP|lia|lia]|]. cbn [bind].
    destruct (st_bytes_ok (repeat 0 (Z.to_nat (size - len path))) m1 (buf + len path)) as (m2 & -> & S2).
    { rewrite len_rep. eapply stored_mapped; [exact S1|]. eapply mapped_sub; [exact MP|lia|lia]. }
    cbn [bind]. exists m2. split; [reflexivity|].
    split; [|apply (stored2_only m m1 m2 _ _ _ _ S1 S2); rewrite len_rep; lia].
    destruct (Z.to_nat (size - len path)) as [|k] eqn:E; [lia|]. exact (stored_string _ _ _ _ _ _ S1 S2 C).
  - destruct (Z.ltb_spec size (len path)); [reflexivity|lia].
Qed.
Lemma getcwd_null m path size heap : Forall is_char path -> mapped m heap (len path + 1) -> len path < PATH_MAX ->
  exists m', getcwd m path NULL size heap = Ok (m', Ret heap) /\ delivered m m' heap (len path + 1) path.
Proof.
  intros C MP L. unfold getcwd, nul_index. rewrite Z.eqb_refl. destruct (Z.ltb_spec PATH_MAX (len path)); [lia|].
  destruct (Z.ltb_spec (len path) PATH_MAX); [|lia].
  destruct (st_bytes_ok (path ++ [0]) m heap) as (m1 & -> & S1); [rewrite len_app; exact MP|]. cbn [bind].
  exists m1. split; [reflexivity|]. destruct S1 as (A & B). rewrite len_app in B. split; [split; assumption|exact B].
Qed.
Lemma gethostname_ok node : forall r m name n, Forall is_char node -> mapped m name n -> 0 <= n ->
  exists m', gethostname m (node ++ 0 :: r) name n = Ok (m', 0) /\ only_in m m' name n /\
    (len node < n -> cstr m' name node) /\ (n <= len node -> bytes_at m' name (firstn (Z.to_nat n) node)).
Proof.
  induction node as [|c node IH]; intros r m name n F MP N; cbn [app gethostname].
  - destruct (Z.eqb_spec n 0) as [->|Z0].
    + exists m. split; [reflexivity|]. split; [intros x X; reflexivity|]. split; [intro HX; change (len (@nil Z)) with 0 in HX; lia|intro; exact I].
    + rewrite st_ok by (apply MP; lia). cbn. exists (upd m name 0). split; [reflexivity|].
      split; [intros x X; apply upd_other; lia|]. split; [intro; apply cstr_nil; apply upd_same|]. intro. change (len (@nil Z)) with 0 in *. lia.
  - destruct (Z.eqb_spec n 0) as [->|Z0].
    + exists m. split; [reflexivity|]. split; [intros x X; reflexivity|]. split; [pose proof (len_nonneg (c :: node)); lia|intro; exact I].
    + rewrite st_ok by (apply MP; lia). cbn [bind]. apply Forall_inv in F as FC. apply Forall_inv_tail in F. pose proof FC as FC'. red in FC.
      destruct (Z.eqb_spec c 0); [lia|].
      destruct (IH r (upd m name c) (name + 1) (n - 1) F) as (m' & E & O & A & B).
      { apply mapped_upd. eapply mapped_sub; [exact MP|lia|lia]. } { lia. }
      assert (NC : m' name = Some c) by (rewrite O by lia; apply upd_same).
      exists m'. split; [exact E|]. rewrite len_cons. split; [intros x X; rewrite O by lia; apply upd_other; lia|]. split; intro L.
      * apply cstr_cons. split; [exact FC'|]. split; [exact NC|]. apply A. lia.
      * replace (Z.to_nat n) with (S (Z.to_nat (n - 1))) by lia. cbn [firstn bytes_at]. split; [exact NC|]. apply B. lia.
Qed.
Lemma fpath_ok m name out k : mapped m out k -> 0 <= k ->
  (len name <= k -> exists m1, fpath m name out k = Ok (m1, inl (len name)) /\ stored m m1 out name) /\
  (k < len name -> exists m1, fpath m name out k = Ok (m1, inr ENAMETOOLONG) /\ only_in m m1 out k).
Proof.
  intros MP K. unfold fpath. split; intro L.
  - destruct (Z.leb_spec (len name) k); [|lia]. destruct (st_bytes_ok name m out) as (m1 & -> & S); [eapply mapped_sub; [exact MP|lia|lia]|].
    exists m1. split; [reflexivity|exact S].
  - destruct (Z.leb_spec (len name) k); [lia|].
    assert (LF : len (firstn (Z.to_nat k) name) = k) by (unfold len in *; rewrite firstn_length_le; lia).
    destruct (st_bytes_ok (firstn (Z.to_nat k) name) m out) as (m1 & -> & S); [rewrite LF; exact MP|].
    exists m1. split; [reflexivity|]. destruct S as (_ & S). rewrite LF in S. exact S.
Qed.
Lemma ttyname_ok m tty name size : Forall is_char tty -> mapped m name size -> len tty < size ->
  exists m', ttyname_r m tty name size = Ok (m', 0) /\ delivered m m' name size tty.
Proof.
  intros C MP L. pose proof (len_nonneg tty). unfold ttyname_r. destruct (Z.eqb_spec size 0); [lia|].
  destruct (fpath_ok m tty name (size - 1)) as (A & _); [eapply mapped_sub; [exact MP|lia|lia]|lia|].
  destruct A as (m1 & -> & S1); [lia|]. cbn [bind].
  rewrite st_ok by (apply (stored_mapped _ _ _ _ name size S1 MP); lia). cbn. eexists. split; [reflexivity|].
  assert (S2 : stored m1 (upd m1 (name + len tty) 0) (name + len tty) [0]).
  { split; [cbn; split; [apply upd_same|exact I]|]. intros x X. apply upd_other. change (len [0]) with 1 in X. lia. }
  split; [exact (stored_string _ _ _ _ _ _ S1 S2 C)|]. apply (stored2_only _ _ _ _ _ _ _ S1 S2). change (len [0]) with 1. lia.
Qed.
Lemma realpath_ok m f out : Forall is_char f -> mapped m out PATH_MAX ->
  (len f < PATH_MAX -> exists m', realpath m (inl f) out = Ok (m', Ret out) /\ delivered m m' out PATH_MAX f) /\
  (PATH_MAX <= len f -> exists m', realpath m (inl f) out = Ok (m', Err ENAMETOOLONG) /\ only_in m m' out PATH_MAX) /\
  forall e, realpath m (inr e) out = Ok (m, Err e).
Proof.
  intros C MP. pose proof (len_nonneg f). assert (P : 0 < PATH_MAX) by (vm_compute; reflexivity).
  destruct (fpath_ok m f out (PATH_MAX - 1)) as (A & B); [eapply mapped_sub; [exact MP|lia|lia]|lia|].
  unfold realpath. split; [|split]; [intro L|intro L|reflexivity].
  - destruct A as (m1 & -> & S1); [lia|]. cbn [bind].
    rewrite st_ok by (apply (stored_mapped _ _ _ _ out PATH_MAX S1 MP); lia). cbn [bind]. eexists. split; [reflexivity|].
    assert (S2 : stored m1 (upd m1 (out + len f) 0) (out + len f) [0]).
    { split; [cbn; split; [apply upd_same|exact I]|]. intros x X. apply upd_other. change (len [0]) with 1 in X. lia. }
    split; [exact (stored_string _ _ _ _ _ _ S1 S2 C)|]. apply (stored2_only _ _ _ _ _ _ _ S1 S2). change (len [0]) with 1. lia.
  - destruct B as (m1 & -> & O); [lia|]. cbn [bind]. exists m1. split; [reflexivity|]. intros x X. apply O. lia.
Qed.
