(* C95, C96 *)
From Coq Require Import String ZArith List Bool Lia.
From Verif Require Import Base Ctype_spec Dirent_model Dirent_spec Dirent_proofs.
Import ListNotations.
Open Scope string_scope.
Open Scope list_scope.
Open Scope Z_scope.

(* C95 full: as below, also when getdents fails at times: readdir then reports the error,
   and the stream stays at its place.  Missing: failing getdents (refuted). *)
Theorem C95_readdir_partial all gd ops xs calls : positions all -> serves false all gd -> does all [] all ops xs ->
  exists fuel d, run fuel gd (opened calls) ops = Ok (d, xs).
Proof. intros P S D. exact (run_ok all gd P S [] all ops xs D eq_refl _ (opened_at all calls)). Qed.
Print Assumptions C95_readdir_partial.

(* a directory of three entries, the second longer than the first buffer, served one by one *)
Definition a1 := E 30 5 (codes "a"). Definition a2 := E 700 3 (codes "b"). Definition a3 := E 30 9 (codes "c").
Definition one (c : Z) (e : ent) : answer := if e_len e <=? c then GOk [e] else GErr EINVAL.
Definition gd3 (n : nat) (o c : Z) : answer :=
  if o =? 0 then one c a1 else if o =? 5 then one c a2 else if o =? 3 then one c a3 else GOk [].
Example C95_ex : positions [a1; a2; a3] /\ serves false [a1; a2; a3] gd3 /\
  does [a1; a2; a3] [] [a1; a2; a3] [Read; Tell; Read; Read; Read; Seek 5; Read; Rewind; Read]
    [ORead (GEntry a1); OTell 5; ORead (GEntry a2); ORead (GEntry a3); ORead GEnd; ONone; ORead (GEntry a2); ONone; ORead (GEntry a1)].
Proof.
  split; [repeat (constructor; [cbn; lia|]); constructor|]. split.
  - intros n p s c C A. assert (ONE : forall e s', s = e :: s' -> match one c e with GOk l => exists r, s = l ++ r /\ total l <= c /\ (l = [] -> s = [])
      | GErr e0 => e0 = EINVAL /\ (exists x r, s = x :: r /\ c < e_len x) \/ false = true /\ e0 <> EINVAL end).
    { intros e s' ->. unfold one. destruct (Z.leb_spec (e_len e) c); [exists s'; cbn; split; [reflexivity|split; [lia|discriminate]]|].
      left. split; [reflexivity|]. exists e, s'. split; [reflexivity|lia]. }
    destruct p as [|p1 [|p2 [|p3 [|p4 p]]]]; cbn [app] in A; [|injection A as ? A|injection A as ? ? A|injection A as ? ? ? A|discriminate]; subst; cbn.
    + eapply ONE. reflexivity.
    + eapply ONE. reflexivity.
    + eapply ONE. reflexivity.
    + exists []. split; [reflexivity|]. split; [|reflexivity]. cbn. lia.
  - apply d_entry, (d_tell _ [a1]), d_entry, d_entry, d_end. apply (d_seek _ _ _ [a1] [a2; a3]); [reflexivity|].
    apply d_entry, d_rewind, d_entry, d_nil.
Qed.

(* The first getdents fails with EINTR (4): from then on readdir fails with EIO, though the
   kernel would serve the directory. *)
Definition gd_once (n : nat) (o c : Z) : answer := match n with O => GErr 4 | _ => gd3 n o c end.
Theorem C95_error_refuted : serves true [a1; a2; a3] gd_once /\
  match run 3 gd_once (opened 0) [Read; Read; Read; Read] with
  | Ok (_, xs) => xs = [ORead (GFail 4); ORead (GFail EIO); ORead (GFail EIO); ORead (GFail EIO)]
  | _ => False
  end.
Proof.
  split; [|vm_compute; reflexivity]. intros n p s c C A. destruct n as [|n]; [right; split; [reflexivity|discriminate]|].
  destruct C95_ex as (_ & S & _). specialize (S n p s c C A). unfold gd_once, gd3 in *. 
  match goal with |- match ?x with _ => _ end => destruct x; [exact S|destruct S as [S|(S & _)]; [left; exact S|discriminate]] end.
Qed.
Print Assumptions C95_error_refuted.

(* C96 full: scandir returns the entries the filter accepts, in the order of the comparison
   function, whatever else the filter does.  sort is qsort (C18).
   Missing: a filter that sets errno (refuted). *)
Theorem C96_scandir_partial filter sort l : (forall f e, filter = Some f -> In e l -> snd (f e) = 0) ->
  scandir filter sort l 0 = Some (sort (List.filter (fun e => match filter with Some f => fst (f e) | None => true end) l)).
Proof. intro H. unfold scandir. rewrite (collect_ok filter l 0 H). reflexivity. Qed.
Print Assumptions C96_scandir_partial.
Theorem C96_error filter sort l last : last <> 0 -> scandir filter sort l last = None.
Proof. intro H. unfold scandir. destruct (collect filter l 0). destruct (Z.eqb_spec last 0); [contradiction|]. destruct (Z.eqb_spec last 0); [contradiction|reflexivity]. Qed.
Print Assumptions C96_error.
Definition not_b (e : ent) : bool * Z := (negb (e_next e =? 3), 0).
Example C96_ex : (forall f e, Some not_b = Some f -> In e [a1; a2; a3] -> snd (f e) = 0) /\
  scandir (Some not_b) (fun l => l) [a1; a2; a3] 0 = Some [a1; a3].
Proof. split; [intros f e [= <-] _; reflexivity|reflexivity]. Qed.
(* A filter that accepts everything but leaves ENOENT in errno, e.g. from a stat of its own. *)
Theorem C96_errno_refuted : scandir (Some (fun e => (true, 2))) (fun l => l) [a1] 0 = None.
Proof. reflexivity. Qed.
Print Assumptions C96_errno_refuted.
