(* C91, C92, C93 *)
From Coq Require Import String ZArith List Bool Lia.
From Verif Require Import Base Ctype_spec Fopen_model Fopen_spec Fopen_proofs.
Import ListNotations.
Open Scope string_scope.
Open Scope list_scope.
Open Scope Z_scope.

(* C91 *)
Theorem C91_fopen c u k nfd name y : mode c u -> opens c u (files k name) y ->
  match y with
  | None => fopen k nfd name (c :: u) = (k, None)
  | Some x => exists k' f, fopen k nfd name (c :: u) = (k', Some f) /\ opened c u k nfd name x k' f
  end.
Proof. exact (fopen_ok c u k nfd name y). Qed.
Print Assumptions C91_fopen.
Theorem C91_invalid k nfd name s : ~ letter (head s) -> fopen k nfd name s = (k, None).
Proof. exact (fopen_bad k nfd name s). Qed.
Print Assumptions C91_invalid.
Definition k0 : kernel := K (set (set (fun _ => None) 1 (Some [104; 105])) 2 (Some [120; 121; 122])) (fun _ => None).
Example C91_ex : mode 97 (codes "b+") /\ opens 97 (codes "b+") (files k0 1) (Some [104; 105]) /\
  mode 119 (codes "x") /\ opens 119 (codes "x") (files k0 1) None /\ ~ letter (head (codes "q")).
Proof.
  assert (N : forall u, suffix u -> mode 97 u) by (intros; split; [red; lia|split; [assumption|lia]]).
  assert (W : forall u, suffix u -> mode 119 u) by (intros; split; [red; lia|split; [assumption|lia]]).
  split; [apply N; repeat constructor; vm_compute; tauto|].
  split; [apply o_append; [reflexivity|vm_compute; intuition discriminate]|].
  split; [apply W; repeat constructor; vm_compute; tauto|].
  split; [apply o_exists; [lia|vm_compute; auto]|vm_compute; intuition discriminate].
Qed.

(* C92 full: as for fopen, the stream keeping its descriptor, pending output written to the
   old file first, input of the old file forgotten; for every mode.
   Missing: mode a, e (refuted), a stream with unread input (refuted). *)
Theorem C92_freopen_partial c u k nfd name f k1 y : mode c u -> c <> 97 -> ~ In 101 u ->
  flushed k f k1 -> f_unget f = [] -> f_rbuf f = [] -> fds k1 nfd = None -> nfd <> f_fd f -> opens c u (files k1 name) y ->
  match y with
  | None => exists k', freopen k nfd name (c :: u) f = (k', None) /\ files k' = files k1 /\ only (fds k1) (fds k') (f_fd f) None
  | Some x => exists k' f', freopen k nfd name (c :: u) f = (k', Some f') /\
      only (files k1) (files k') name (Some x) /\ (exists d, only (fds k1) (fds k') (f_fd f) (Some d) /\ descriptor c u name d) /\
      fresh c u (f_fd f) f' /\ f_perm f' = f_perm f
  end.
Proof. exact (freopen_ok c u k nfd name f k1 y). Qed.
Print Assumptions C92_freopen_partial.
Definition start (w : list Z) (r : list Z) : kernel * file :=
  match fopen k0 3 1 (codes "r+") with
  | (k, Some f) => (k, F 3 false false false false false false [] r w 0)
  | (k, None) => (k, F 3 false false false false false false [] [] [] 0)
  end.
Example C92_ex : let '(k, f) := start [65] [] in exists k1, flushed k f k1 /\ files k1 1 = Some [65; 105] /\
  fds k1 4 = None /\ opens 114 [] (files k1 2) (Some [120; 121; 122]).
Proof. eexists. split; [reflexivity|]. split; [reflexivity|]. split; [reflexivity|]. apply o_read. reflexivity. Qed.

(* freopen(name, "a", f): what is written next replaces the start of the file. *)
Theorem C92_append_refuted : let '(k, f) := start [] [] in
  match freopen k 4 2 (codes "a") f with
  | (k, Some f) => f_fd f = 3 /\ option_map d_app (fds k 3) = Some false /\
      option_map (fun k => files k 2) (k_write k 3 [65]) = Some (Some [65; 121; 122])
  | _ => False
  end.
Proof. vm_compute. auto. Qed.
Print Assumptions C92_append_refuted.
(* Input of the old file that was buffered but not read is read from the new stream. *)
Theorem C92_input_refuted : let '(k, f) := start [] [105] in
  match freopen k 4 2 (codes "r") f with
  | (k, Some f) => next_byte k f = Some 105 /\ files k 2 = Some [120; 121; 122]
  | _ => False
  end.
Proof. vm_compute. auto. Qed.
Print Assumptions C92_input_refuted.
(* Mode e does not make the descriptor close on exec. *)
Theorem C92_cloexec_refuted : let '(k, f) := start [] [] in
  match freopen k 4 2 (codes "re") f with
  | (k, Some f) => option_map d_cloexec (fds k (f_fd f)) = Some false
  | _ => False
  end.
Proof. vm_compute. auto. Qed.
Print Assumptions C92_cloexec_refuted.

(* C93 full: at exit the pending output of every open stream is written.
   Missing: streams other than stdout and stderr (refuted). *)
Theorem C93_exit_partial k out err others k1 k2 : flushed k out k1 -> flushed k1 err k2 -> exit_flush k out err others = k2.
Proof. exact (exit_ok k out err others k1 k2). Qed.
Print Assumptions C93_exit_partial.
Definition std (fd : Z) (w : list Z) : file := F fd true true false false false false [] [] w 0.
Definition k9 : kernel := K (files k0) (set (set (set (fun _ => None) 1 (Some (D 1 false true true false 0))) 2 (Some (D 1 false true true false 0))) 3 (Some (D 2 true true false false 0))).
Example C93_ex : exists k1 k2, flushed k9 (std 1 [33]) k1 /\ flushed k1 (std 2 [63]) k2 /\ files k2 1 = Some [104; 105; 33; 63].
Proof. eexists _, _. split; [reflexivity|]. split; [reflexivity|]. reflexivity. Qed.
(* A byte written to a stream from fopen, exit: the file is unchanged. *)
Theorem C93_other_refuted : let '(k, f) := start [65] [] in
  files (exit_flush k (std 1 []) (std 2 []) [f]) 1 = Some [104; 105] /\ exists k1, flushed k f k1 /\ files k1 1 = Some [65; 105].
Proof. split; [reflexivity|]. eexists. split; reflexivity. Qed.
Print Assumptions C93_other_refuted.
