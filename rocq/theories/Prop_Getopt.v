(* C45, C46: getopt and getopt_long. *)
From Coq Require Import String ZArith List Bool Lia.
From Verif Require Import Base Ctype_spec Getopt_model Getopt_spec Getopt_proofs.
Import ListNotations.
Open Scope string_scope.
Open Scope list_scope.
Open Scope Z_scope.

(* Missing from C45: the letter ':' when the option string contains one, option bytes above
   127, and messages with an option string that begins with ':' (refuted below).  [opts]
   marks with (+) what it adds to POSIX. *)

(* The calls report the options of the argument list, one by one, and end with optind at
   the first operand. *)
Theorem C45_getopt_partial : forall fuel m argv ostr O prog opterr args ev f s,
  cstr m ostr O -> (length O < fuel)%nat -> args_at fuel m argv prog args -> start s ->
  opts O None NULL 1 None args ev f -> history (getopt fuel m argv ostr opterr) s ev f.
Proof. intros. unfold getopt. eapply run_start with (T := None); try eassumption. exact I. Qed.
Print Assumptions C45_getopt_partial.

(* Every argument list has such a report. *)
Theorem C45_report : forall O args, Forall (fun a => operand (snd a) \/ Forall (plain_opt O) (snd a)) args ->
  exists ev f, opts O None NULL 1 None args ev f.
Proof. intros O args F. apply opts_total. exact F. Qed.
Print Assumptions C45_report.

(* With opterr = 0 nothing is printed. *)
Theorem C45_silent : forall fuel m argv ostr s s' v, getopt fuel m argv ostr 0 s = Ok (s', v) -> err s' = err s.
Proof. exact silent. Qed.
Print Assumptions C45_silent.

(* Strings one after another from address 1000 on, and their addresses. *)
Fixpoint place (a : Z) (l : list string) : list Z :=
  match l with [] => [] | s :: l => a :: place (a + len (codes s) + 1) l end.
Definition strings (l : list string) : mem := mem_of 1000 (flat_map (fun s => codes s ++ [0]) l).
Definition at_ (l : list string) (i : nat) : Z := nth i (place 1000 l) 0.
Definition fresh : gst := GS NULL 1 0 NULL [] [].

(* "-:" with the option string "a:" is reported as the option ':'. *)
Theorem C45_colon_refuted : let l := ["a:"; "p"; "-:"] in
  unknown (codes "a:") 58 /\
  exists s, getopt 20 (strings l) [at_ l 1; at_ l 2] (at_ l 0) 0 fresh = Ok (s, 58) /\ optopt s = 0.
Proof. split; [left; reflexivity|]. eexists. vm_compute. auto. Qed.
Print Assumptions C45_colon_refuted.

(* The option character 0xFF, if listed, makes getopt return -1, the end of the options. *)
Theorem C45_byte255_refuted :
  let m := mem_of 1000 ([255; 0] ++ [112; 0] ++ [45; 255; 0] ++ [45; 255; 0]) in
  letter [255] 255 false /\ cstr m 1000 [255] /\
  exists s, getopt 20 m [1002; 1004; 1007] 1000 0 fresh = Ok (s, -1) /\ optind s = 2.
Proof.
  split; [|split].
  - split; [discriminate|]. exists [], []. split; [reflexivity|]. split; [intros []|]. split; discriminate.
  - split; [repeat constructor; lia|]. vm_compute. auto.
  - eexists. vm_compute. auto.
Qed.
Print Assumptions C45_byte255_refuted.

(* An option string beginning with ':' asks for no messages; an unknown option prints one. *)
Theorem C45_message_refuted : let l := [":a"; "p"; "-x"] in
  hd 0 (codes ":a") = 58 /\
  exists s, getopt 20 (strings l) [at_ l 1; at_ l 2] (at_ l 0) 1 fresh = Ok (s, 63) /\ err s = codes "p: illegal option -- x" ++ [10].
Proof. split; [reflexivity|]. eexists. vm_compute. auto. Qed.
Print Assumptions C45_message_refuted.

Definition l45 : list string := ["ab:c:"; "prog"; "-axb1"; "-c"; "val"; "-"; "rest"].
Definition m45 : mem := strings l45.
Definition args45 : list (Z * list Z) := map (fun i => (at_ l45 i, codes (nth i l45 ""))) [2; 3; 4; 5; 6]%nat.
Definition ev45 : list event :=
  [Ev 97 NULL None 1 []; Ev 63 NULL (Some 120) 1 []; Ev 98 (at_ l45 2 + 4) None 2 []; Ev 99 (at_ l45 4) None 4 []].
Lemma cstr45 : Forall (fun i => cstr m45 (at_ l45 i) (codes (nth i l45 ""))) [0; 1; 2; 3; 4; 5; 6]%nat.
Proof. repeat (apply Forall_cons; [split; [repeat constructor; cbn; lia|vm_compute; repeat split]|]). apply Forall_nil. Qed.
Example C45_case :
  cstr m45 (at_ l45 0) (codes "ab:c:") /\ args_at 30 m45 (at_ l45 1 :: map fst args45) (codes "prog") args45 /\ start fresh /\
  opts (codes "ab:c:") None NULL 1 None args45 ev45 4 /\
  Forall (fun a => operand (snd a) \/ Forall (plain_opt (codes "ab:c:")) (snd a)) args45 /\
  (exists s, getopt 30 m45 (at_ l45 1 :: map fst args45) (at_ l45 0) 0 fresh = Ok (s, 97)).
Proof.
  pose proof cstr45 as C. rewrite Forall_forall in C.
  split; [apply (C 0%nat); cbn; auto|]. split; [|split; [|split; [|split]]].
  - exists (at_ l45 1). split; [reflexivity|]. split; [repeat constructor|].
    repeat (apply Forall_cons; [split; [|cbn; lia]|]); [apply (C 1%nat)|apply (C 2%nat)|apply (C 3%nat)|apply (C 4%nat)|apply (C 5%nat)|apply (C 6%nat)|]; try (cbn; tauto). apply Forall_nil.
  - right. split; reflexivity.
  - assert (LA : letter (codes "ab:c:") 97 false) by (split; [discriminate|]; exists [], (codes "b:c:"); split; [reflexivity|]; split; [intros []|]; split; discriminate).
    assert (LB : letter (codes "ab:c:") 98 true) by (split; [discriminate|]; exists [97], (codes ":c:"); split; [reflexivity|]; split; [cbn; lia|]; split; reflexivity).
    assert (LC : letter (codes "ab:c:") 99 true) by (split; [discriminate|]; exists (codes "ab:"), [58]; split; [reflexivity|]; split; [cbn; lia|]; split; reflexivity).
    apply o_letters; [left; discriminate|]. apply o_flag; [exact LA|lia|]. apply o_unknown; [right; cbn; lia|lia|discriminate|].
    apply o_attached; [exact LB|lia|discriminate|]. apply o_letters; [left; discriminate|]. apply o_next; [exact LC|lia|]. apply o_operand. right. reflexivity.
  - repeat (apply Forall_cons; [right; repeat (apply Forall_cons; [split; [cbn; lia|intro X; vm_compute in X; discriminate X]|]); apply Forall_nil|]). apply Forall_nil.
  - eexists. vm_compute. reflexivity.
Qed.

(* Missing from C46: names that begin an earlier entry, ambiguous or unknown names, values
   for options without argument, messages (refuted below). *)
Theorem C46_getopt_long_partial : forall fuel m argv ostr O prog opterr li T tp args ev f s,
  cstr m ostr O -> (length O < fuel)%nat -> args_at fuel m argv prog args -> table_at m (Some tp) (Some T) -> start s ->
  opts O (Some T) li 1 None args ev f -> history (getopt_long fuel m argv ostr (Some tp) li opterr) s ev f.
Proof. intros. eapply run_start; eassumption. Qed.
Print Assumptions C46_getopt_long_partial.

Definition l46 : list string := [""; "prog"; "foobar"; "foo"; "--foo"; "--fo"; "--foo=1"; "--zip"].
Definition m46 : mem := strings l46.
Definition tp46 : list longopt := [LO (at_ l46 2) 0 NULL 7; LO (at_ l46 3) 0 NULL 8].
Definition T46 : list lopt := [L (codes "foobar") 0 NULL 7; L (codes "foo") 0 NULL 8].
Lemma table46 : table_at m46 (Some tp46) (Some T46).
Proof. repeat (apply Forall2_cons; [split; [split; [repeat constructor; cbn; lia|vm_compute; repeat split]|repeat split]|]). apply Forall2_nil. Qed.
(* "--foo" names the second entry exactly, but the first one, "foobar", is reported. *)
Theorem C46_exact_refuted :
  table_at m46 (Some tp46) (Some T46) /\ selects T46 (codes "foo") 1 (L (codes "foo") 0 NULL 8) /\
  exists s, getopt_long 30 m46 [at_ l46 1; at_ l46 4] (at_ l46 0) (Some tp46) NULL 0 fresh = Ok (s, 7).
Proof. split; [exact table46|]. split; [split; [reflexivity|left; reflexivity]|]. eexists. vm_compute. reflexivity. Qed.
Print Assumptions C46_exact_refuted.
(* "--fo" is ambiguous; it is accepted as the first entry. *)
Theorem C46_ambiguous_refuted :
  (~ exists k o, selects T46 (codes "fo") k o) /\
  exists s, getopt_long 30 m46 [at_ l46 1; at_ l46 5] (at_ l46 0) (Some tp46) NULL 0 fresh = Ok (s, 7).
Proof.
  split; [|eexists; vm_compute; reflexivity].
  intros (k & o & N & H). assert (U : forall j o', nth_error T46 j = Some o' -> prefix (codes "fo") (l_name o') -> j = k).
  { destruct H as [H|(_ & H)]; [|exact H]. destruct k as [|[|[]]]; cbn in N; inversion N; subst; discriminate. }
  assert (0%nat = k) by (eapply U; [reflexivity|exists (codes "obar"); reflexivity]).
  assert (1%nat = k) by (eapply U; [reflexivity|exists (codes "o"); reflexivity]). lia.
Qed.
Print Assumptions C46_ambiguous_refuted.
(* A value given to an option without argument is dropped instead of being an error. *)
Theorem C46_value_refuted :
  exists s, getopt_long 30 m46 [at_ l46 1; at_ l46 6] (at_ l46 0) (Some tp46) NULL 0 fresh = Ok (s, 7) /\ optarg s = NULL.
Proof. eexists. vm_compute. auto. Qed.
Print Assumptions C46_value_refuted.
(* An unknown long option is not one error: the calls report '-', 'z', 'i' and 'p'. *)
Theorem C46_unknown_refuted :
  let call := getopt_long 30 m46 [at_ l46 1; at_ l46 7] (at_ l46 0) (Some tp46) NULL 0 in
  exists s1 s2 s3 s4, call fresh = Ok (s1, 63) /\ optopt s1 = 45 /\ optind s1 = 1 /\ call s1 = Ok (s2, 63) /\ optopt s2 = 122 /\
    call s2 = Ok (s3, 63) /\ optopt s3 = 105 /\ call s3 = Ok (s4, 63) /\ optopt s4 = 112 /\ optind s4 = 2.
Proof. do 4 eexists. repeat (split; [vm_compute; reflexivity|]). reflexivity. Qed.
Print Assumptions C46_unknown_refuted.
(* A missing argument of a long option is reported on stderr even if opterr is 0. *)
Theorem C46_message_refuted :
  exists s, getopt_long 30 m46 [at_ l46 1; at_ l46 4] (at_ l46 0) (Some [LO (at_ l46 3) 1 NULL 8]) NULL 0 fresh = Ok (s, 63) /\
    err s = codes "prog: option '--foo' requires an argument" ++ [10].
Proof. eexists. vm_compute. auto. Qed.
Print Assumptions C46_message_refuted.

Definition k46 : list string := ["v"; "prog"; "file"; "verbose"; "--verb"; "--file=x"; "-v"; "--file"; "y"; "--"; "z"].
Definition mk46 : mem := strings k46.
Definition Tk46 : list lopt := [L (codes "file") 1 NULL 102; L (codes "verbose") 0 500 9].
Definition tk46 : list longopt := [LO (at_ k46 2) 1 NULL 102; LO (at_ k46 3) 0 500 9].
Definition args46 : list (Z * list Z) := map (fun i => (at_ k46 i, codes (nth i k46 ""))) [4; 5; 6; 7; 8; 9; 10]%nat.
Example C46_case :
  args_at 30 mk46 (at_ k46 1 :: map fst args46) (codes "prog") args46 /\ table_at mk46 (Some tk46) (Some Tk46) /\
  opts (codes "v") (Some Tk46) 600 1 None args46
    [Ev 0 NULL None 2 [(600, 1); (500, 9)]; Ev 102 (at_ k46 5 + 2 + 4 + 1) None 3 [(600, 0)]; Ev 118 NULL None 4 []; Ev 102 (at_ k46 8) None 6 [(600, 0)]] 7.
Proof.
  split; [|split].
  - exists (at_ k46 1). split; [reflexivity|]. split; [repeat constructor|].
    repeat (apply Forall_cons; [split; [split; [repeat constructor; cbn; lia|vm_compute; repeat split]|cbn; lia]|]). apply Forall_nil.
  - repeat (apply Forall2_cons; [split; [split; [repeat constructor; cbn; lia|vm_compute; repeat split]|repeat split]|]). apply Forall2_nil.
  - assert (S0 : selects Tk46 (codes "file") 0 (L (codes "file") 1 NULL 102)) by (split; [reflexivity|left; reflexivity]).
    assert (N0 : none_before Tk46 (codes "file") 0) by (intros j o J; lia).
    apply (l_plain (codes "v") (Some Tk46) 600 1 (at_ k46 4) (codes "verb") _ 1 (L (codes "verbose") 0 500 9) Tk46); auto; [discriminate| | |cbn; lia|].
    { split; [reflexivity|]. right. split; [exists (codes "ose"); reflexivity|]. intros [|[|[]]] o N (r & P); cbn in N; inversion N; subst; [discriminate P|reflexivity]. }
    { intros j o J N (r & P). destruct j as [|j]; [|lia]. injection N as <-. discriminate P. }
    apply (l_value (codes "v") (Some Tk46) 600 2 (at_ k46 5) (codes "file") (codes "x") _ 0 (L (codes "file") 1 NULL 102) Tk46); auto; [cbn; lia|].
    apply o_letters; [left; discriminate|]. apply o_flag; [|lia|].
    { split; [discriminate|]. exists [], []. split; [reflexivity|]. split; [intros []|]. split; discriminate. }
    apply (l_next (codes "v") (Some Tk46) 600 4 (at_ k46 7) (codes "file") (at_ k46 8) (codes "y") _ 0 (L (codes "file") 1 NULL 102) Tk46); auto; [discriminate|cbn; lia|].
    apply o_dashes.
Qed.
