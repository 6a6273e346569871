From Verif Require Import Base Waitpid_model Waitpid_spec.
From Coq Require Import Arith.

Lemma bits : forall a b c : bool, let o := (if a then 1 else 0) + (if b then 2 else 0) + (if c then 8 else 0) in
  Z.testbit o 0 = a /\ Z.testbit o 1 = b /\ Z.testbit o 3 = c /\ Z.testbit (Z.lor o WUNTRACED) 0 = a /\ Z.testbit (Z.lor o WUNTRACED) 1 = true /\
  Z.testbit (Z.lor o WUNTRACED) 3 = c /\ (o <? 0) || negb (Z.land o (Z.lnot 11) =? 0) = false.
Proof. intros [] [] []; repeat split. Qed.
Lemma lor_bits : forall o, valid_options o -> Z.testbit (Z.lor o WUNTRACED) 0 = Z.testbit o 0 /\ Z.testbit (Z.lor o WUNTRACED) 1 = true /\
  Z.testbit (Z.lor o WUNTRACED) 3 = Z.testbit o 3.
Proof. intros o (a & b & c & ->). destruct (bits a b c) as (-> & _ & -> & -> & -> & -> & _). auto. Qed.
Lemma asked_wanted : forall o s, valid_options o -> (Z.testbit o 1 = true \/ ~ exists n, s = Stopped n) -> asked (Z.lor o WUNTRACED) s = true <-> wanted o s.
Proof.
  intros o s V H. destruct (lor_bits o V) as (_ & B1 & B3). destruct s; cbn [asked wanted]; rewrite ?B1, ?B3; try tauto.
  destruct H as [->|N]; [tauto|]. destruct N. eauto.
Qed.
Lemma wanted_asked : forall o s, valid_options o -> wanted o s -> asked (Z.lor o WUNTRACED) s = true.
Proof. intros o s V W. destruct (lor_bits o V) as (_ & B1 & B3). destruct s; cbn [asked wanted] in *; rewrite ?B1, ?B3; auto. Qed.
Lemma hits_meant : forall own arg c, - 2 ^ 31 <= arg < 2 ^ 31 -> hits own (target_of arg) c = true <-> meant own arg c.
Proof.
  intros own arg c B. unfold target_of, meant.
  destruct (Z.eqb_spec arg 0) as [->|]; cbn [hits]; [rewrite Z.eqb_refl, Z.eqb_eq; intuition lia|].
  destruct (Z.eqb_spec arg (-1)) as [->|]; cbn [hits]; [cbn; intuition lia|].
  destruct (Z.leb_spec 1 arg); cbn [hits].
  - destruct (Z.eqb_spec arg 0); [lia|]. cbn [orb]. rewrite Z.eqb_eq. intuition lia.
  - destruct (Z.eqb_spec (- arg) 0); [lia|]. rewrite Z.eqb_eq. intuition lia.
Qed.

(* pick *)
Lemma pick_none : forall own t f w, pick own t f w = None <-> forall c s, In c w -> hits own t c = true -> report c = Some s -> asked f s = false.
Proof.
  intros own t f. induction w as [|c w IH]; [cbn; split; [intros _ c s []|reflexivity]|]. cbn [pick]. split.
  - intros P. assert (Q : pick own t f w = None).
    { destruct (if hits own t c then report c else None) as [s|]; [destruct (asked f s); [discriminate P|]|];
      destruct (pick own t f w) as [[[? ?] ?]|]; [discriminate P|reflexivity|discriminate P|reflexivity]. }
    intros d s [->|I] H R; [|exact (proj1 IH Q d s I H R)]. rewrite H, R in P. destruct (asked f s); [discriminate P|reflexivity].
  - intros A. rewrite (proj2 IH) by (intros d s I; apply A; right; exact I).
    destruct (hits own t c) eqn:H; [|reflexivity]. destruct (report c) as [s|] eqn:R; [|reflexivity].
    rewrite (A c s (or_introl eq_refl) H R). reflexivity.
Qed.
Lemma pick_some : forall own t f w w' p s, pick own t f w = Some (w', p, s) ->
  exists a c b, w = a ++ c :: b /\ hits own t c = true /\ report c = Some s /\ asked f s = true /\ pid c = p /\
    w' = a ++ (if ended s then b else Child (pid c) (pgid c) None :: b).
Proof.
  intros own t f. induction w as [|c w IH]; intros w' p s P; [discriminate P|]. cbn [pick] in P.
  assert (Q : match pick own t f w with Some (w, p, s) => Some (c :: w, p, s) | None => None end = Some (w', p, s) ->
    exists a d b, c :: w = a ++ d :: b /\ hits own t d = true /\ report d = Some s /\ asked f s = true /\ pid d = p /\
    w' = a ++ (if ended s then b else Child (pid d) (pgid d) None :: b)).
  { intros X. destruct (pick own t f w) as [[[v q] r]|]; [|discriminate X]. injection X as <- -> ->.
    destruct (IH v p s eq_refl) as (a & d & b & -> & R). destruct R as (H & R & A & D & ->). exists (c :: a), d, b. repeat split; auto. }
  destruct (hits own t c) eqn:H; [|exact (Q P)]. destruct (report c) as [r|] eqn:R; [|exact (Q P)].
  destruct (asked f r) eqn:A; [|exact (Q P)]. injection P as <- <- <-. exists [], c, w. repeat split; auto.
Qed.

(* w came from w0 through tr *)
Definition from (w0 : list child) (tr : list happening) (w : list child) : Prop :=
  forall c, In c w -> exists c0, In c0 w0 /\ pid c0 = pid c /\ pgid c0 = pgid c /\
    (report c = latest (pid c) (report c0) tr \/ report c = None /\ forall s, latest (pid c) (report c0) tr = Some s -> ended s = false).
Lemma latest_app : forall p tr tr' s, latest p s (tr ++ tr') = latest p (latest p s tr) tr'.
Proof. intros p. induction tr as [|[q r|r] tr IH]; intros tr' s; [reflexivity| |]; cbn [app latest]; apply IH. Qed.
Lemma from_refl : forall w, from w [] w.
Proof. intros w c I. exists c. repeat split; auto. Qed.
Lemma from_change : forall w0 tr w p s, from w0 tr w -> from w0 (tr ++ [Change p s]) (change w p s).
Proof.
  intros w0 tr w p s F c I. unfold change in I. apply in_map_iff in I. destruct I as (d & E & I). destruct (F d I) as (c0 & I0 & P0 & G0 & R).
  exists c0. rewrite latest_app. cbn [latest]. destruct (Z.eqb_spec (pid d) p) as [Q|Q]; cbn [andb] in E.
  - rewrite Q in *. destruct (match report d with Some r => ended r | None => false end) eqn:N; cbn [negb] in E.
    + subst c. rewrite Q, Z.eqb_refl. repeat split; auto. destruct R as [R|[R _]]; [|rewrite R in N; discriminate N].
      left. rewrite R. rewrite <- R. destruct (report d) as [r|]; [|discriminate N]. rewrite N. reflexivity.
    + subst c. cbn [pid pgid report]. rewrite Z.eqb_refl. repeat split; auto. left.
      destruct R as [R|[R E]].
      * rewrite <- R. destruct (report d) as [r|]; [rewrite N|]; reflexivity.
      * destruct (latest p (report c0) tr) as [r|]; [rewrite (E r eq_refl)|]; reflexivity.
  - subst c. destruct (Z.eqb_spec p (pid d)); [lia|]. auto.
Qed.
Lemma from_interrupt : forall w0 tr w r, from w0 tr w -> from w0 (tr ++ [Interrupt r]) w.
Proof. intros w0 tr w r F c I. destruct (F c I) as (c0 & H). exists c0. rewrite latest_app. exact H. Qed.
Lemma from_pick : forall w0 tr own t f w w' p s, from w0 tr w -> pick own t f w = Some (w', p, s) -> from w0 tr w'.
Proof.
  intros w0 tr own t f w w' p s F P. apply pick_some in P. destruct P as (a & c & b & -> & H & R & A & D & ->). intros d I.
  apply in_app_or in I. destruct I as [I|I]; [apply F; apply in_or_app; auto|].
  assert (J : In d b \/ ended s = false /\ d = Child (pid c) (pgid c) None).
  { destruct (ended s); [auto|]. destruct I as [<-|I]; auto. }
  destruct J as [J|[N ->]]; [apply F; apply in_or_app; right; right; exact J|].
  destruct (F c) as (c0 & I0 & P0 & G0 & L); [apply in_or_app; right; left; reflexivity|]. exists c0. cbn [pid pgid report]. repeat split; auto.
  right. split; [reflexivity|]. intros s' E. destruct L as [L|[L _]]; [|congruence]. rewrite R in L. rewrite <- L in E. injection E as <-. exact N.
Qed.

(* call *)
Lemma call_ok : forall own t f w0 tr w t0, from w0 t0 w ->
  match call own t f w tr with
  | Reported w' tr' p s => exists t1 c, tr = t1 ++ tr' /\ from w0 (t0 ++ t1) w' /\ In c w0 /\ pid c = p /\ hits own t c = true /\ asked f s = true /\ latest p (report c) (t0 ++ t1) = Some s
  | Zero w' tr' | Failed w' tr' _ => exists t1, tr = t1 ++ tr' /\ from w0 (t0 ++ t1) w'
  | Interrupted w' tr' _ => exists t1, tr = t1 ++ tr' /\ from w0 (t0 ++ t1) w' /\ (length tr' < length tr)%nat
  | Blocked => True
  end.
Proof.
  intros own t f w0. induction tr as [|e tr IH]; intros w t0 F; cbn [call].
  - destruct (pick own t f w) as [[[w' p] s]|] eqn:P.
    + pose proof (from_pick _ _ _ _ _ _ _ _ _ F P) as F'. destruct (pick_some _ _ _ _ _ _ _ P) as (a & c & b & -> & H & R & A & D & _).
      destruct (F c) as (c0 & I0 & P0 & G0 & L); [apply in_or_app; right; left; reflexivity|].
      exists [], c0. split; [reflexivity|]. rewrite !(app_nil_r t0). split; [exact F'|]. split; [exact I0|]. split; [congruence|]. split; [unfold hits in *; rewrite P0, G0; exact H|].
      split; [exact A|]. subst p. destruct L as [L|[L _]]; congruence.
    + destruct (existsb _ w); [|exists []; rewrite !(app_nil_r t0); auto]. destruct (Z.testbit f 0); [exists []; rewrite !(app_nil_r t0); auto|exact I].
  - destruct (pick own t f w) as [[[w' p] s]|] eqn:P.
    + pose proof (from_pick _ _ _ _ _ _ _ _ _ F P) as F'. destruct (pick_some _ _ _ _ _ _ _ P) as (a & c & b & -> & H & R & A & D & _).
      destruct (F c) as (c0 & I0 & P0 & G0 & L); [apply in_or_app; right; left; reflexivity|].
      exists [], c0. split; [reflexivity|]. rewrite !(app_nil_r t0). split; [exact F'|]. split; [exact I0|]. split; [congruence|]. split; [unfold hits in *; rewrite P0, G0; exact H|].
      split; [exact A|]. subst p. destruct L as [L|[L _]]; congruence.
    + destruct (existsb _ w); [|exists []; rewrite !(app_nil_r t0); auto]. destruct (Z.testbit f 0); [exists []; rewrite !(app_nil_r t0); auto|].
      destruct e as [q r|r].
      * specialize (IH (change w q r) (t0 ++ [Change q r]) (from_change _ _ _ _ _ F)).
        assert (AE : forall t1, (t0 ++ [Change q r]) ++ t1 = t0 ++ Change q r :: t1) by (intros; rewrite <- app_assoc; reflexivity).
        destruct (call own t f (change w q r) tr); auto.
        -- destruct IH as (t1 & c & -> & F' & X). exists (Change q r :: t1), c. rewrite AE in *. split; [reflexivity|]. split; [exact F'|exact X].
        -- destruct IH as (t1 & -> & F'). exists (Change q r :: t1). rewrite AE in *. auto.
        -- destruct IH as (t1 & -> & F'). exists (Change q r :: t1). rewrite AE in *. auto.
        -- destruct IH as (t1 & -> & F' & L). exists (Change q r :: t1). rewrite AE in *. repeat split; auto. cbn in *. lia.
      * exists [Interrupt r]. split; [reflexivity|]. split; [apply from_interrupt; exact F|cbn; lia].
Qed.
Lemma sys_ok : forall own t f w0 fuel tr w t0 st, from w0 t0 w ->
  match sys_waitpid fuel own t f w tr st with
  | Ret w' tr' r st' => exists t1, tr = t1 ++ tr' /\ from w0 (t0 ++ t1) w' /\
      ((r = inl 0 \/ exists e, r = inr e) /\ st' = st \/
       exists c s, r = inl (pid c) /\ st' = encode s /\ In c w0 /\ hits own t c = true /\ asked f s = true /\ latest (pid c) (report c) (t0 ++ t1) = Some s)
  | _ => True
  end.
Proof.
  intros own t f w0. induction fuel as [|n IH]; intros tr w t0 st F; [exact I|]. cbn [sys_waitpid]. pose proof (call_ok own t f w0 tr w t0 F) as C.
  destruct (call own t f w tr) as [w' tr' p s|w' tr'|w' tr' e|w' tr' r|].
  - destruct C as (t1 & c & -> & F' & I0 & <- & H & A & L). exists t1. repeat split; auto. right. exists c, s. repeat split; auto.
  - destruct C as (t1 & -> & F'). exists t1. repeat split; auto.
  - destruct C as (t1 & -> & F'). exists t1. repeat split; eauto.
  - destruct C as (t1 & -> & F' & _). destruct r.
    + specialize (IH tr' w' (t0 ++ t1) st F'). destruct (sys_waitpid n own t f w' tr' st); auto. destruct IH as (t2 & -> & F2 & X).
      exists (t1 ++ t2). rewrite <- !app_assoc in *. repeat split; auto.
    + exists t1. repeat split; eauto.
  - exact I.
Qed.
Lemma encode_stopped : forall s, state_ok s -> wifstopped (encode s) = true -> exists n, s = Stopped n.
Proof.
  intros s K W. unfold wifstopped in W. change 255 with (Z.ones 8) in W. rewrite Z.land_ones in W by lia. change (2 ^ 8) with 256 in W. apply Z.eqb_eq in W.
  destruct s as [c|n core|n|]; cbn in *; [rewrite Z.mod_mul in W; lia| |eauto|discriminate W].
  destruct core; [|rewrite Z.mod_small in W; lia]. rewrite Z.mod_small in W; lia.
Qed.
Lemma loop_ok : forall own arg o w0 fuel tr w t0 st, valid_options o -> from w0 t0 w ->
  (forall c s t, In c w0 -> latest (pid c) (report c) t = Some s -> (exists t', t0 ++ tr = t ++ t') -> state_ok s) ->
  match loop fuel own false arg o w tr st with
  | Ret w' tr' r st' => exists t1, tr = t1 ++ tr' /\ from w0 (t0 ++ t1) w' /\
      ((r = inl 0 \/ exists e, r = inr e) \/
       exists c s, r = inl (pid c) /\ st' = encode s /\ In c w0 /\ hits own (target_of arg) c = true /\ wanted o s /\ latest (pid c) (report c) (t0 ++ t1) = Some s)
  | _ => True
  end.
Proof.
  intros own arg o w0. induction fuel as [|n IH]; intros tr w t0 st V F K; [exact I|]. cbn [loop].
  pose proof (sys_ok own (target_of arg) (Z.lor o WUNTRACED) w0 (S n) tr w t0 st F) as C.
  destruct (sys_waitpid (S n) own (target_of arg) (Z.lor o WUNTRACED) w tr st) as [w' tr' r st'| |]; auto.
  destruct C as (t1 & -> & F' & R). rewrite orb_false_r. destruct (negb (wifstopped st') || Z.testbit o 1) eqn:B.
  - exists t1. split; [reflexivity|]. split; [exact F'|]. destruct R as [[R _]|(c & s & -> & -> & I0 & H & A & L)]; [left; exact R|right].
    exists c, s. repeat split; auto. apply asked_wanted; auto. apply orb_true_iff in B. destruct B as [B|B]; [|auto]. right. intros [m ->].
    unfold wifstopped in B. cbn [encode] in B. change 255 with (Z.ones 8) in B. rewrite Z.land_ones in B by lia. change (2 ^ 8) with 256 in B.
    rewrite Z.add_comm, Z.mod_add in B by lia. discriminate B.
  - specialize (IH tr' w' (t0 ++ t1) st' V F').
    destruct (loop n own false arg o w' tr' st') as [w2 tr2 r2 st2| |]; auto.
    destruct IH as (t2 & -> & F2 & X).
    + intros c s t I0 L [t' E]. apply (K c s t I0 L). exists t'. rewrite <- E, <- app_assoc. reflexivity.
    + exists (t1 ++ t2). rewrite <- !app_assoc in *. auto.
Qed.

(* a call answered at once *)
Lemma nohang_ok : forall own arg o w tr n st, valid_options o -> - 2 ^ 31 <= arg < 2 ^ 31 -> nohang o -> wifstopped st = false ->
  Z.testbit o 1 = true \/ (forall c, In c w -> meant own arg c -> ~ stop_pending c) -> (forall c s, In c w -> report c = Some s -> state_ok s) ->
  exists w' r st', loop (S n) own false arg o w tr st = Ret w' tr r st' /\
    ((exists c s, In c w /\ meant own arg c /\ report c = Some s /\ wanted o s /\ r = inl (pid c) /\ st' = encode s) \/
     ((forall c s, In c w -> meant own arg c -> report c = Some s -> ~ wanted o s) /\ w' = w /\
      (r = inl 0 /\ (exists c, In c w /\ meant own arg c) \/ r = inr ECHILD /\ forall c, In c w -> ~ meant own arg c))).
Proof.
  intros own arg o w tr n st V B N S0 H K. destruct (lor_bits o V) as (B0 & B1 & B3). cbn [loop sys_waitpid].
  assert (CL : call own (target_of arg) (Z.lor o WUNTRACED) w tr = match pick own (target_of arg) (Z.lor o WUNTRACED) w with
    | Some (w, p, s) => Reported w tr p s | None => if existsb (hits own (target_of arg)) w then Zero w tr else Failed w tr ECHILD end).
  { unfold nohang in N. destruct tr; cbn [call]; rewrite B0, N; reflexivity. }
  rewrite CL. destruct (pick own (target_of arg) (Z.lor o WUNTRACED) w) as [[[w' p] s]|] eqn:P.
  - destruct (pick_some _ _ _ _ _ _ _ P) as (a & c & b & E & HI & R & A & D & _). assert (I0 : In c w) by (rewrite E; apply in_or_app; right; left; reflexivity).
    apply (hits_meant own arg c B) in HI.
    assert (W : wanted o s).
    { apply asked_wanted; auto. destruct H as [H|H]; [auto|]. right. intros [m ->]. apply (H c I0 HI). exists m. exact R. }
    assert (Q : negb (wifstopped (encode s)) || Z.testbit o 1 || false = true).
    { destruct (wifstopped (encode s)) eqn:WS; [|reflexivity]. destruct (encode_stopped s (K c s I0 R) WS) as [m ->]. cbn [wanted] in W. rewrite W. reflexivity. }
    rewrite Q. do 3 eexists. split; [reflexivity|]. left. exists c, s. subst p. auto 10.
  - rewrite pick_none in P.
    assert (NW : forall c s, In c w -> meant own arg c -> report c = Some s -> ~ wanted o s).
    { intros c s I0 M R W. apply (hits_meant own arg c B) in M. apply (wanted_asked o s V) in W. rewrite (P c s I0 M R) in W. discriminate W. }
    destruct (existsb (hits own (target_of arg)) w) eqn:X; rewrite S0; cbn [negb orb]; do 3 eexists; (split; [reflexivity|]); right; (split; [exact NW|]); (split; [reflexivity|]).
    + left. split; [reflexivity|]. apply existsb_exists in X. destruct X as (c & I0 & HI). exists c. split; [exact I0|]. apply hits_meant; auto.
    + right. split; [reflexivity|]. intros c I0 M. apply (hits_meant own arg c B) in M. rewrite <- not_true_iff_false in X. apply X. apply existsb_exists. eauto.
Qed.

(* waiting ends *)
Definition will_end (own : Z) (t : target) (w : list child) (tr : list happening) : Prop :=
  exists c, In c w /\ hits own t c = true /\ ((exists s, report c = Some s /\ ended s = true) \/ exists s, ended s = true /\ In (Change (pid c) s) tr).
Lemma will_end_change : forall own t w p s tr, will_end own t w (Change p s :: tr) -> will_end own t (change w p s) tr.
Proof.
  intros own t w p s tr (c & I0 & H & E).
  set (c' := if (pid c =? p) && negb (match report c with Some r => ended r | None => false end) then Child (pid c) (pgid c) (Some s) else c).
  assert (PC : pid c' = pid c /\ pgid c' = pgid c) by (unfold c'; destruct (_ && _); auto). destruct PC as [PC GC].
  exists c'. split; [unfold change; apply in_map_iff; exists c; split; [reflexivity|exact I0]|]. split; [unfold hits in *; rewrite PC, GC; exact H|]. rewrite PC.
  destruct E as [(r & R & E)|(r & E & [X|X])].
  - left. exists r. unfold c'. rewrite R, E, andb_false_r. auto.
  - injection X as -> ->. unfold c'. rewrite Z.eqb_refl. cbn [andb]. left. destruct (report c) as [q|] eqn:R; [destruct (ended q) eqn:Q|]; cbn [negb report]; eauto.
  - right. eauto.
Qed.
Definition pending (w : list child) : nat := length (filter (fun c => match report c with Some _ => true | None => false end) w).
Lemma pick_pending : forall own t f w w' p s, pick own t f w = Some (w', p, s) -> (pending w' < pending w)%nat.
Proof.
  intros own t f w w' p s P. apply pick_some in P. destruct P as (a & c & b & -> & _ & R & _ & _ & ->). unfold pending. rewrite !filter_app, !app_length.
  cbn [filter]. rewrite R. cbn [length]. destruct (ended s); cbn [filter report]; lia.
Qed.
Lemma pick_will_end : forall own t f w w' p s tr, pick own t f w = Some (w', p, s) -> ended s = false -> will_end own t w tr -> will_end own t w' tr.
Proof.
  intros own t f w w' p s tr P E (c & I0 & H & X). apply pick_some in P. destruct P as (a & d & b & -> & _ & R & _ & _ & ->). rewrite E.
  apply in_app_or in I0. destruct I0 as [I0|[->|I0]].
  - exists c. split; [apply in_or_app; auto|]. auto.
  - exists (Child (pid c) (pgid c) None). split; [apply in_or_app; right; left; reflexivity|]. split; [exact H|]. cbn [pid report].
    destruct X as [(s' & R' & E')|X]; [congruence|right; exact X].
  - exists c. split; [apply in_or_app; right; right; exact I0|]. auto.
Qed.
Definition oks (w : list child) (tr : list happening) : Prop := (forall c s, In c w -> report c = Some s -> state_ok s) /\ forall p s, In (Change p s) tr -> state_ok s.
Lemma oks_change : forall w p s tr, oks w (Change p s :: tr) -> oks (change w p s) tr.
Proof.
  intros w p s tr [A B]. split; [|intros q r I0; apply (B q r); right; exact I0]. intros c r I0 R. unfold change in I0. apply in_map_iff in I0. destruct I0 as (d & E & I0).
  destruct (_ && _) in E; subst c; [|exact (A d r I0 R)]. cbn in R. injection R as <-. apply (B p s). left. reflexivity.
Qed.
Lemma oks_pick : forall own t f w w' p s tr, pick own t f w = Some (w', p, s) -> oks w tr -> oks w' tr /\ state_ok s.
Proof.
  intros own t f w w' p s tr P [A B]. apply pick_some in P. destruct P as (a & d & b & -> & _ & R & _ & _ & ->). split; [split; [|exact B]|].
  - intros c r I0 RC. apply in_app_or in I0. destruct I0 as [I0|I0]; [apply (A c r); [apply in_or_app; auto|exact RC]|].
    destruct (ended s); [apply (A c r); [apply in_or_app; right; right; exact I0|exact RC]|].
    destruct I0 as [<-|I0]; [discriminate RC|]. apply (A c r); [apply in_or_app; right; right; exact I0|exact RC].
  - apply (A d s); [apply in_or_app; right; left; reflexivity|exact R].
Qed.
Lemma call_ends : forall own t f tr w, Z.testbit f 0 = false -> oks w tr -> will_end own t w tr ->
  match call own t f w tr with
  | Reported w' tr' p s => state_ok s /\ (ended s = true \/ will_end own t w' tr' /\ oks w' tr' /\ ((length tr' < length tr)%nat \/ length tr' = length tr /\ (pending w' < pending w)%nat))
  | Zero _ _ => False
  | Failed _ _ _ => False
  | Interrupted w' tr' _ => will_end own t w' tr' /\ oks w' tr' /\ (length tr' < length tr)%nat
  | Blocked => False
  end.
Proof.
  intros own t f. induction tr as [|e tr IH]; intros w B K WE.
  - cbn [call]. destruct (pick own t f w) as [[[w' p] s]|] eqn:P.
    + destruct (oks_pick _ _ _ _ _ _ _ _ P K) as [K' KS]. split; [exact KS|]. destruct (ended s) eqn:E; [auto|]. right. split; [eapply pick_will_end; eauto|]. split; [exact K'|].
      right. split; [reflexivity|]. eapply pick_pending. eauto.
    + destruct WE as (c & I0 & H & [(s & R & E)|(s & E & [])]). rewrite pick_none in P. specialize (P c s I0 H R). destruct s; discriminate.
  - cbn [call]. destruct (pick own t f w) as [[[w' p] s]|] eqn:P.
    + destruct (oks_pick _ _ _ _ _ _ _ _ P K) as [K' KS]. split; [exact KS|]. destruct (ended s) eqn:E; [auto|]. right. split; [eapply pick_will_end; eauto|]. split; [exact K'|].
      right. split; [reflexivity|]. eapply pick_pending. eauto.
    + assert (X : existsb (hits own t) w = true) by (destruct WE as (c & I0 & H & _); apply existsb_exists; eauto). rewrite X, B. destruct e as [q r|r].
      * specialize (IH (change w q r) B (oks_change _ _ _ _ K) (will_end_change _ _ _ _ _ _ WE)).
        destruct (call own t f (change w q r) tr); auto.
        -- destruct IH as (KS & [E|(W & K' & L)]); split; auto. right. split; [exact W|]. split; [exact K'|]. left. cbn. lia.
        -- destruct IH as (W & K' & L). cbn. auto with arith.
      * destruct WE as (c & I0 & H & E). split; [|split; [|cbn; lia]].
        -- exists c. split; [exact I0|]. split; [exact H|]. destruct E as [E|(s & E & [D|D])]; [auto|discriminate D|eauto].
        -- destruct K as [A C]. split; [exact A|]. intros p s D. apply (C p s). right. exact D.
Qed.
Lemma sys_ends : forall own t f fuel tr w st, Z.testbit f 0 = false -> oks w tr -> will_end own t w tr -> (length tr < fuel)%nat ->
  exists w' tr' r st', sys_waitpid fuel own t f w tr st = Ret w' tr' r st' /\
    (wifstopped st' = false \/ r = inr EINTR /\ st' = st /\ will_end own t w' tr' /\ oks w' tr' /\ (length tr' < length tr)%nat \/
     will_end own t w' tr' /\ oks w' tr' /\ ((length tr' < length tr)%nat \/ length tr' = length tr /\ (pending w' < pending w)%nat)).
Proof.
  intros own t f. induction fuel as [|n IH]; intros tr w st B K WE L; [lia|]. cbn [sys_waitpid].
  pose proof (call_ends own t f tr w B K WE) as C. destruct (call own t f w tr) as [w' tr' p s|w' tr'|w' tr' e|w' tr' r|]; try tauto.
  - destruct C as (KS & C). do 4 eexists. split; [reflexivity|]. destruct (wifstopped (encode s)) eqn:WS; [|auto]. right. right.
    destruct (encode_stopped s KS WS) as [m ->]. destruct C as [C|C]; [discriminate C|exact C].
  - destruct C as (W & K' & LT). destruct r.
    + destruct (IH tr' w' st B K' W ltac:(lia)) as (w2 & tr2 & r2 & st2 & -> & X). do 4 eexists. split; [reflexivity|].
      destruct X as [X|[(-> & -> & X & Y & LL)|(X & Y & LL)]]; [auto| |].
      * right. left. refine (conj eq_refl (conj eq_refl (conj X (conj Y _)))). lia.
      * right. right. refine (conj X (conj Y _)). left. lia.
    + do 4 eexists. split; [reflexivity|]. right. left. exact (conj eq_refl (conj eq_refl (conj W (conj K' LT)))).
Qed.
Lemma loop_ends : forall own arg o, Z.testbit (Z.lor o WUNTRACED) 0 = false -> forall a b tr w, (length tr <= a)%nat -> (pending w <= b)%nat -> oks w tr -> will_end own (target_of arg) w tr ->
  exists n, forall fuel st, (n <= fuel)%nat -> exists w' tr' r st', loop fuel own false arg o w tr st = Ret w' tr' r st'.
Proof.
  intros own arg o B. induction a as [a IHa] using lt_wf_ind. induction b as [b IHb] using lt_wf_ind. intros tr w LA LB K WE.
  (* one round; its outcome depends on the fuel and status only through the status *)
  assert (NX : forall w' tr', will_end own (target_of arg) w' tr' -> oks w' tr' -> ((length tr' < length tr)%nat \/ length tr' = length tr /\ (pending w' < pending w)%nat) ->
    exists n, forall fuel st, (n <= fuel)%nat -> exists w2 tr2 r2 st2, loop fuel own false arg o w' tr' st = Ret w2 tr2 r2 st2).
  { intros w' tr' W K' [L|[L P]].
    - destruct (Nat.eq_dec a 0) as [->|]; [lia|]. apply (IHa (length tr') ltac:(lia) (pending w') tr' w'); auto.
    - apply (IHb (pending w') ltac:(lia) tr' w'); auto; lia. }
  destruct (sys_waitpid (S (length tr)) own (target_of arg) (Z.lor o WUNTRACED) w tr 0) eqn:S0.
  2,3: destruct (sys_ends own (target_of arg) (Z.lor o WUNTRACED) (S (length tr)) tr w 0 B K WE ltac:(lia)) as (? & ? & ? & ? & E & _); rewrite E in S0; discriminate S0.
  assert (MONO : forall fuel t st, (length t < fuel)%nat -> forall v w1 t1 r1, (exists s0, sys_waitpid (S (length t)) own (target_of arg) (Z.lor o WUNTRACED) v t 0 = Ret w1 t1 r1 s0) ->
    exists s1, sys_waitpid fuel own (target_of arg) (Z.lor o WUNTRACED) v t st = Ret w1 t1 r1 s1).
  { clear. assert (Q : forall f1 f2 t s1 s2, (length t < f1)%nat -> (length t < f2)%nat -> forall v w1 t1 r1 x, sys_waitpid f1 own (target_of arg) (Z.lor o WUNTRACED) v t s1 = Ret w1 t1 r1 x ->
      exists y, sys_waitpid f2 own (target_of arg) (Z.lor o WUNTRACED) v t s2 = Ret w1 t1 r1 y).
    { induction f1 as [|f1 IH]; intros f2 t s1 s2 L1 L2 v w1 t1 r1 x E; [lia|]. destruct f2 as [|f2]; [lia|]. cbn [sys_waitpid] in *.
      pose proof (call_ok own (target_of arg) (Z.lor o WUNTRACED) v t v [] (from_refl v)) as C.
      destruct (call own (target_of arg) (Z.lor o WUNTRACED) v t) as [w' tr' p s|w' tr'|w' tr' e|w' tr' r|]; try (injection E as <- <- <- <-; eauto; fail); [|discriminate E].
      destruct r; [|injection E as <- <- <- <-; eauto]. destruct C as (t2 & -> & _ & L). eapply (IH f2 tr' s1 s2); [lia|lia|exact E]. }
    intros fuel t st L v w1 t1 r1 [s0 E]. eapply (Q (S (length t)) fuel); [lia|lia|exact E]. }
  rename w0 into w1, tr0 into t1.
  (* either this round ends it whatever the fuel and status, or the next rounds do *)
  destruct (sys_ends own (target_of arg) (Z.lor o WUNTRACED) (S (length tr)) tr w 0 B K WE ltac:(lia)) as (w2 & t2 & r2 & st2 & E & X).
  rewrite S0 in E. injection E as <- <- <- <-.
  destruct (sys_ends own (target_of arg) (Z.lor o WUNTRACED) (S (length tr)) tr w 127 B K WE ltac:(lia)) as (w3 & t3 & r3 & st3 & E3 & X3).
  assert (EQ : w3 = w1 /\ t3 = t1 /\ r3 = r).
  { destruct (MONO (S (length tr)) tr 127 ltac:(lia) w w1 t1 r (ex_intro _ _ S0)) as [s1 E1]. rewrite E1 in E3. injection E3 as <- <- <- _. auto. }
  destruct EQ as (-> & -> & ->).
  destruct X3 as [X3|X3].
  - (* never a stop: the status does not come from before *)
    exists (S (length tr)). intros fuel st L. destruct fuel as [|fuel]; [lia|]. cbn [loop].
    destruct (sys_ends own (target_of arg) (Z.lor o WUNTRACED) (S fuel) tr w st B K WE ltac:(lia)) as (w4 & t4 & r4 & st4 & E4 & X4).
    rewrite E4. assert (ST : wifstopped st4 = false).
    { assert (SI : forall f1 f2 t s1 s2, (length t < f1)%nat -> (length t < f2)%nat -> forall v w1 t1 r1 x, sys_waitpid f1 own (target_of arg) (Z.lor o WUNTRACED) v t s1 = Ret w1 t1 r1 x ->
        x = s1 \/ sys_waitpid f2 own (target_of arg) (Z.lor o WUNTRACED) v t s2 = Ret w1 t1 r1 x).
      { clear. induction f1 as [|f1 IH]; intros f2 t s1 s2 L1 L2 v w1 t1 r1 x E; [lia|]. destruct f2 as [|f2]; [lia|]. cbn [sys_waitpid] in *.
        pose proof (call_ok own (target_of arg) (Z.lor o WUNTRACED) v t v [] (from_refl v)) as C.
        destruct (call own (target_of arg) (Z.lor o WUNTRACED) v t) as [w' tr' p s|w' tr'|w' tr' e|w' tr' r|]; try (injection E as <- <- <- <-; auto; fail); [|discriminate E].
        destruct r; [|injection E as <- <- <- <-; auto]. destruct C as (t2 & -> & _ & L). apply (IH f2 tr' s1 s2); [lia|lia|exact E]. }
      destruct (SI (S (length tr)) (S fuel) tr 127 st ltac:(lia) ltac:(lia) w w1 t1 r st3 E3) as [->|E5]; [discriminate X3|]. rewrite E5 in E4. injection E4 as _ _ _ <-. exact X3. }
    rewrite ST. cbn. eauto.
  - assert (N : exists n, forall fuel st, (n <= fuel)%nat -> exists w2 tr2 r2 st2, loop fuel own false arg o w1 t1 st = Ret w2 tr2 r2 st2).
    { destruct X3 as [(_ & _ & W & K' & L)|(W & K' & L)]; apply NX; auto. }
    destruct N as [n N]. exists (S (n + length tr)). intros fuel st L. destruct fuel as [|fuel]; [lia|]. cbn [loop].
    destruct (MONO (S fuel) tr st ltac:(lia) w w1 t1 r (ex_intro _ _ S0)) as [s1 E1]. rewrite E1.
    destruct (negb (wifstopped s1) || Z.testbit o 1 || false); [eauto|]. apply N. lia.
Qed.

(* the other children *)
Definition happen (w : list child) (e : happening) : list child := match e with Change p s => change w p s | Interrupt _ => w end.
Definition after (w : list child) (tr : list happening) : list child := fold_left happen tr w.
Lemma after_app : forall w a b, after w (a ++ b) = after (after w a) b.
Proof. intros. apply fold_left_app. Qed.
Lemma call_keeps : forall own t f tr w,
  match call own t f w tr with
  | Reported w' tr' p s => exists t1, tr = t1 ++ tr' /\ forall c, In c (after w t1) -> pid c <> p -> In c w'
  | Zero w' tr' | Failed w' tr' _ => exists t1, tr = t1 ++ tr' /\ w' = after w t1
  | Interrupted w' tr' _ => exists t1, tr = t1 ++ tr' /\ w' = after w t1 /\ (length tr' < length tr)%nat
  | Blocked => True
  end.
Proof.
  assert (PK : forall own t f w w' p s, pick own t f w = Some (w', p, s) -> forall c, In c w -> pid c <> p -> In c w').
  { intros own t f w w' p s P c I0 D. apply pick_some in P. destruct P as (a & d & b & -> & _ & _ & _ & <- & ->). apply in_app_or in I0.
    apply in_or_app. destruct I0 as [I0|[->|I0]]; [auto|congruence|]. right. destruct (ended s); [exact I0|right; exact I0]. }
  intros own t f. induction tr as [|e tr IH]; intros w; cbn [call]; (destruct (pick own t f w) as [[[w' p] s]|] eqn:P; [exists []; split; [reflexivity|exact (PK _ _ _ _ _ _ _ P)]|]).
  - destruct (existsb _ w); [|exists []; auto]. destruct (Z.testbit f 0); [exists []; auto|exact I].
  - destruct (existsb _ w); [|exists []; auto]. destruct (Z.testbit f 0); [exists []; auto|]. destruct e as [q r|r].
    + specialize (IH (change w q r)). destruct (call own t f (change w q r) tr); auto; destruct IH as (t1 & -> & X); exists (Change q r :: t1); (split; [reflexivity|]); auto.
      destruct X as [-> X]. split; [reflexivity|cbn in *; lia].
    + exists [Interrupt r]. split; [reflexivity|]. split; [reflexivity|cbn; lia].
Qed.
Lemma sys_keeps : forall own t f fuel tr w st w' tr' r st', sys_waitpid fuel own t f w tr st = Ret w' tr' r st' ->
  exists t1, tr = t1 ++ tr' /\ forall c, In c (after w t1) -> r <> inl (pid c) -> In c w'.
Proof.
  intros own t f. induction fuel as [|n IH]; intros tr w st w' tr' r st' E; [discriminate E|]. cbn [sys_waitpid] in E. pose proof (call_keeps own t f tr w) as C.
  destruct (call own t f w tr) as [v u p s|v u|v u e|v u x|].
  - injection E as <- <- <- <-. destruct C as (t1 & -> & X). exists t1. split; [reflexivity|]. intros c I0 D. apply X; congruence.
  - injection E as <- <- <- <-. destruct C as (t1 & -> & ->). exists t1. auto.
  - injection E as <- <- <- <-. destruct C as (t1 & -> & ->). exists t1. auto.
  - destruct C as (t1 & -> & -> & _). destruct x; [|injection E as <- <- <- <-; exists t1; auto].
    destruct (IH _ _ _ _ _ _ _ E) as (t2 & -> & X). exists (t1 ++ t2). split; [apply app_assoc|]. rewrite after_app. exact X.
  - discriminate E.
Qed.
Definition good (P : state -> Prop) (w : list child) (tr : list happening) : Prop := (forall c s, In c w -> report c = Some s -> P s) /\ forall p s, In (Change p s) tr -> P s.
Lemma call_good : forall (P : state -> Prop) own t f tr w, good P w tr ->
  match call own t f w tr with
  | Reported _ _ _ s => P s
  | Interrupted w' tr' _ => good P w' tr'
  | _ => True
  end.
Proof.
  intros P own t f.
  assert (Q : forall w w' p s tr, pick own t f w = Some (w', p, s) -> good P w tr -> P s).
  { intros w w' p s tr E [G _]. apply pick_some in E. destruct E as (a & c & b & -> & _ & R & _). apply (G c s); [apply in_or_app; right; left; reflexivity|exact R]. }
  induction tr as [|e tr IH]; intros w G; cbn [call]; (destruct (pick own t f w) as [[[w' p] s]|] eqn:E; [exact (Q _ _ _ _ _ E G)|]).
  - destruct (existsb _ w); [|exact I]. destruct (Z.testbit f 0); exact I.
  - destruct (existsb _ w); [|exact I]. destruct (Z.testbit f 0); [exact I|]. destruct G as [A B]. destruct e as [q r|r].
    + apply IH. split; [|intros p s D; apply (B p s); right; exact D]. intros c s I0 R. unfold change in I0. apply in_map_iff in I0. destruct I0 as (d & X & I0).
      destruct (_ && _) in X; subst c; [|exact (A d s I0 R)]. cbn in R. injection R as <-. apply (B q r). left. reflexivity.
    + split; [exact A|]. intros p s D. apply (B p s). right. exact D.
Qed.
Lemma sys_good : forall (P : state -> Prop) own t f fuel tr w st w' tr' r st', good P w tr -> sys_waitpid fuel own t f w tr st = Ret w' tr' r st' ->
  st' = st \/ exists s, P s /\ st' = encode s.
Proof.
  intros P own t f. induction fuel as [|n IH]; intros tr w st w' tr' r st' G E; [discriminate E|]. cbn [sys_waitpid] in E. pose proof (call_good P own t f tr w G) as C.
  destruct (call own t f w tr) as [v u p s|v u|v u e|v u x|]; try (injection E as <- <- <- <-; eauto; fail); [|discriminate E].
  destruct x; [exact (IH _ _ _ _ _ _ _ C E)|injection E as <- <- <- <-; auto].
Qed.
Lemma loop_keeps : forall own arg o fuel tr w st w' tr' r st', wifstopped st = false ->
  Z.testbit o 1 = true \/ good (fun s => state_ok s /\ ~ exists n, s = Stopped n) w tr ->
  loop fuel own false arg o w tr st = Ret w' tr' r st' ->
  exists t1, tr = t1 ++ tr' /\ forall c, In c (after w t1) -> r <> inl (pid c) -> In c w'.
Proof.
  intros own arg o fuel tr w st w' tr' r st' S0 G E. destruct fuel as [|n]; [discriminate E|]. cbn [loop] in E.
  destruct (sys_waitpid (S n) own (target_of arg) (Z.lor o WUNTRACED) w tr st) as [v u x y| |] eqn:C; [|discriminate E|discriminate E].
  assert (Q : negb (wifstopped y) || Z.testbit o 1 || false = true).
  { destruct G as [->|G]; [rewrite orb_true_r; reflexivity|]. destruct (sys_good _ _ _ _ _ _ _ _ _ _ _ _ G C) as [->|(s & [K N] & ->)]; [rewrite S0; reflexivity|].
    destruct (wifstopped (encode s)) eqn:WS; [|reflexivity]. destruct N. exact (encode_stopped s K WS). }
  rewrite Q in E. injection E as <- <- <- <-. exact (sys_keeps _ _ _ _ _ _ _ _ _ _ _ C).
Qed.

(* a stop nobody asked for is reported over and over *)
Lemma spins : forall fuel own w p g n, 1 <= n <= 126 -> forall tr, w = [Child p g None] -> 0 < p < 2 ^ 31 ->
  loop fuel own false p 1 w tr (n * 256 + 127) = NoFuel.
Proof.
  intros fuel own w p g n N tr -> B. induction fuel as [|f IH]; [reflexivity|]. cbn [loop].
  assert (T : target_of p = Proc p).
  { unfold target_of. destruct (Z.eqb_spec p 0); [lia|]. destruct (Z.eqb_spec p (-1)); [lia|]. destruct (Z.leb_spec 1 p); [reflexivity|lia]. }
  rewrite T. change (Z.lor 1 WUNTRACED) with 3.
  assert (C : call own (Proc p) 3 [Child p g None] tr = Zero [Child p g None] tr).
  { assert (X : existsb (hits own (Proc p)) [Child p g None] = true) by (cbn; rewrite Z.eqb_refl, orb_true_r; reflexivity).
    destruct tr; unfold call; fold call; cbn [pick report]; (replace (if hits own (Proc p) (Child p g None) then None else None) with (@None state) by (destruct (hits own (Proc p) (Child p g None)); reflexivity)); rewrite X; reflexivity. }
  cbn [sys_waitpid]. rewrite C.
  assert (WS : wifstopped (n * 256 + 127) = true).
  { unfold wifstopped. change 255 with (Z.ones 8). rewrite Z.land_ones by lia. change (2 ^ 8) with 256. rewrite Z.add_comm, Z.mod_add by lia. reflexivity. }
  rewrite WS. change (Z.testbit 1 1) with false. cbn [negb orb]. exact IH.
Qed.
Lemma call_zero : forall own t f tr w w' tr', call own t f w tr = Zero w' tr' -> Z.testbit f 0 = true.
Proof.
  intros own t f. induction tr as [|e tr IH]; intros w w' tr' E; cbn [call] in E; (destruct (pick own t f w) as [[[v p] s]|]; [discriminate E|]);
    (destruct (existsb _ w); [|discriminate E]); (destruct (Z.testbit f 0); [reflexivity|]); [discriminate E|]. destruct e; [exact (IH _ _ _ E)|discriminate E].
Qed.
Lemma call_failed : forall own t f tr w w' tr' e, call own t f w tr = Failed w' tr' e -> e = ECHILD /\ existsb (hits own t) w' = false.
Proof.
  intros own t f. induction tr as [|x tr IH]; intros w w' tr' e E; cbn [call] in E; (destruct (pick own t f w) as [[[v p] s]|]; [discriminate E|]);
    (destruct (existsb _ w) eqn:X; [|injection E as <- <- <-; auto]); (destruct (Z.testbit f 0); [discriminate E|]); [discriminate E|]. destruct x; [exact (IH _ _ _ _ E)|discriminate E].
Qed.
Lemma sys_results : forall own t f fuel tr w st w' tr' r st', sys_waitpid fuel own t f w tr st = Ret w' tr' r st' ->
  match r with
  | inl p => p = 0 /\ Z.testbit f 0 = true \/ exists c s, pid c = p /\ hits own t c = true /\ st' = encode s
  | inr e => e = EINTR \/ e = ECHILD /\ existsb (hits own t) w' = false
  end.
Proof.
  intros own t f. induction fuel as [|n IH]; intros tr w st w' tr' r st' E; [discriminate E|]. cbn [sys_waitpid] in E. pose proof (call_ok own t f w tr w [] (from_refl w)) as C.
  destruct (call own t f w tr) as [v u p s|v u|v u e|v u x|] eqn:CL.
  - injection E as <- <- <- <-. right. destruct C as (_ & c & _ & _ & _ & P & H & _). eauto.
  - injection E as <- <- <- <-. left. split; [reflexivity|]. exact (call_zero _ _ _ _ _ _ _ CL).
  - injection E as <- <- <- <-. right. exact (call_failed _ _ _ _ _ _ _ _ CL).
  - destruct x; [exact (IH _ _ _ _ _ _ _ E)|]. injection E as <- <- <- <-. auto.
  - discriminate E.
Qed.
Lemma loop_results : forall own arg o fuel tr w st w' tr' r st', valid_options o -> - 2 ^ 31 <= arg < 2 ^ 31 -> loop fuel own false arg o w tr st = Ret w' tr' r st' ->
  match r with
  | inl p => p = 0 /\ nohang o \/ exists c, pid c = p /\ meant own arg c
  | inr e => e = EINTR \/ e = ECHILD /\ forall c, In c w' -> ~ meant own arg c
  end.
Proof.
  intros own arg o fuel tr w st w' tr' r st' V B. revert tr w st. induction fuel as [|n IH]; intros tr w st E; [discriminate E|]. cbn [loop] in E.
  destruct (sys_waitpid (S n) own (target_of arg) (Z.lor o WUNTRACED) w tr st) as [v u x y| |] eqn:C; [|discriminate E|discriminate E].
  destruct (negb (wifstopped y) || Z.testbit o 1 || false); [|exact (IH _ _ _ E)]. injection E as <- <- <- <-. apply sys_results in C. destruct (lor_bits o V) as (B0 & _).
  destruct x as [p|e].
  - rewrite B0 in C. destruct C as [C|(c & s & P & H & _)]; [auto|]. right. exists c. split; [exact P|]. apply hits_meant; auto.
  - destruct C as [C|[-> X]]; [auto|]. right. split; [reflexivity|]. intros c I0 M. apply (hits_meant own arg c B) in M. rewrite <- not_true_iff_false in X. apply X. apply existsb_exists. eauto.
Qed.
