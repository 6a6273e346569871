(* C116: asprintf.  What is printed is that of C43. *)
From Coq Require Import ZArith String List Bool Lia.
From Verif Require Import Base Ctype_spec Printf_model Cvec_model Cvec_spec Cvec_proofs.
Import ListNotations.
Open Scope string_scope.
Open Scope list_scope.
Open Scope Z_scope.

(* C116 full: asprintf stores the address of a new block that holds the whole output and a terminator and is of just
   that size, which the caller may free, and returns the length; no other block changes; without memory it returns -1. *)
Theorem C116_asprintf_partial : forall place move junk fuel m wm em h fmt args m1 out, good_allocator place move ->
  p_printf fuel m wm em fmt args = Ok (m1, Some (out, true)) -> len (concat out) < 2 ^ 31 ->
  exists h' p, vasprintf place move junk fuel m wm em h fmt args = Ok (m1, h', p, len (concat out)) /\
    p <> 0 /\ get h p = None /\ get h' p = Some (concat out ++ [0]) /\ forall q, q <> p -> get h' q = get h q.
Proof. intros place move junk fuel m wm em h fmt args m1 out G. exact (vasprintf_ok place move junk G fuel m wm em h fmt args m1 out). Qed.
Print Assumptions C116_asprintf_partial.
(* a format that is refused before anything is printed: -1, and an empty string that is to be freed all the same *)
Theorem C116_refused_partial : forall place move junk fuel m wm em h fmt args m1, good_allocator place move ->
  p_printf fuel m wm em fmt args = Ok (m1, None) ->
  exists h' p, vasprintf place move junk fuel m wm em h fmt args = Ok (m1, h', p, -1) /\
    p <> 0 /\ get h p = None /\ get h' p = Some [0] /\ forall q, q <> p -> get h' q = get h q.
Proof. intros place move junk fuel m wm em h fmt args m1 G. exact (vasprintf_none place move junk G fuel m wm em h fmt args m1). Qed.
Print Assumptions C116_refused_partial.

Definition top (h : heap) : Z := 1 + fold_right (fun x m => Z.max (fst x) m) 0 h.
Definition place1 (h : heap) (n : Z) : option Z := Some (top h).
Definition move1 (h : heap) (p n : Z) : option Z := Some (top h).
Example place1_ok : good_allocator place1 move1.
Proof.
  assert (T : forall h, top h <> 0 /\ get h (top h) = None).
  { intros h. assert (N : 0 <= fold_right (fun x m => Z.max (fst x) m) 0 h) by (induction h; cbn; lia). split; [unfold top; lia|].
    assert (H : forall k, fold_right (fun x m => Z.max (fst x) m) 0 h < k -> get h k = None); [|apply H; unfold top; lia].
    induction h as [|[p b] h IH]; intros k K; [reflexivity|]. cbn in *. destruct (Z.eqb_spec k p); [lia|]. apply IH; [|lia]. clear. induction h; cbn; lia. }
  split; [intros h n|intros h p n b _]; exists (top h); split; try reflexivity; split; try apply T. right. apply T.
Qed.
Example C116_case : exists out h', p_printf 9 (fun _ => None) (fun _ => None) [] (codes "xyz=%d;") [1234] = Ok (fun _ => None, Some (out, true)) /\ concat out = codes "xyz=1234;" /\
  vasprintf place1 move1 (fun _ _ => 170) 9 (fun _ => None) (fun _ => None) [] [(5, [1; 2])] (codes "xyz=%d;") [1234] = Ok (fun _ => None, h', 9, 9) /\
  get h' 9 = Some (codes "xyz=1234;" ++ [0]) /\ get h' 5 = Some [1; 2] /\
  p_printf 9 (fun _ => None) (fun _ => None) [] (codes "%Q") [] = Ok (fun _ => None, None).
Proof.
  eexists _, _. split; [vm_compute; reflexivity|]. split; [vm_compute; reflexivity|]. split; [vm_compute; reflexivity|].
  split; [vm_compute; reflexivity|]. split; vm_compute; reflexivity.
Qed.
(* without memory the program ends *)
Theorem C116_memory_refuted : forall move junk fuel m wm em h, vasprintf (fun _ _ => None) move junk (S fuel) m wm em h (codes "") [] = Panic.
Proof. intros. reflexivity. Qed.
Print Assumptions C116_memory_refuted.
