(* Property C127: what main is handed. *)
From Verif Require Import Base Libgen_model Libgen_spec Start_spec Start_model Start_proofs.

(* C127, the strings: main gets copies of every argument and every variable, in order, each list
   ended with a null and its strings end to end in one block; nothing outside the two blocks
   changes; program_invocation_short_name is the last component of the first argument.
   Missing: a first argument that ends with a slash, see below. *)
Theorem C127_main_partial fuel m w sp ps es aux args env alloc alloc2 short :
  stack w sp ps es aux -> points m ps args -> points m es env ->
  Forall (fun s => (length s < fuel)%nat) args -> Forall (fun s => (length s < fuel)%nat) env -> (length es < fuel)%nat ->
  let b1 := alloc (len (flat args)) in let b2 := alloc2 (len (flat env)) in
  b1 <> 0 -> mapped m b1 (len (flat args)) -> mapped m b2 (len (flat env)) -> disjoint b1 (len (flat args)) b2 (len (flat env)) ->
  apart b1 (len (flat args)) ps args -> apart b1 (len (flat args)) es env -> apart b2 (len (flat env)) es env ->
  match args with [] => short = [46] | a0 :: _ => ~ ends_slash a0 /\ basename_of a0 short end ->
  exists m' sn, start fuel m w sp None alloc alloc2
      = Ok (m', P (len args) (places b1 args ++ [0]) (places b2 env ++ [0]) (match args with [] => 0 | _ => b1 end) sn)
    /\ Forall2 (fun p s => cstr m' p s) (places b1 args) args /\ Forall2 (fun p s => cstr m' p s) (places b2 env) env
    /\ (forall x, ~ (b1 <= x < b1 + len (flat args)) -> ~ (b2 <= x < b2 + len (flat env)) -> m' x = m x)
    /\ result_is m' sn short.
Proof. exact (start_ok fuel m w sp ps es aux args env alloc alloc2 short). Qed.
Print Assumptions C127_main_partial.
(* "/b/a" "-l" with A=1 in the environment *)
Example C127_main_case :
  exists m' sn, start 9 eg_mem (eg_words 100) 8 None (fun _ => 140) (fun _ => 160) = Ok (m', P 2 [140; 145; 0] [160; 0] 140 sn)
    /\ Forall2 (fun p s => cstr m' p s) [140; 145] [[47; 98; 47; 97]; [45; 108]] /\ Forall2 (fun p s => cstr m' p s) [160] [[65; 61; 49]]
    /\ result_is m' sn [97].
Proof.
  destruct eg_points as (P1 & P2 & _).
  destruct (C127_main_partial 9 eg_mem (eg_words 100) 8 _ _ _ _ _ (fun _ => 140) (fun _ => 160) [97] eg_stack P1 P2) as (m' & sn & E & A & B & _ & R).
  1-2: repeat constructor.
  1: cbn; lia.
  1: lia.
  1-2: apply eg_mapped; vm_compute; discriminate.
  1: unfold disjoint; vm_compute; intuition discriminate.
  1-3: repeat (constructor; [unfold disjoint; vm_compute; intuition discriminate|]); constructor.
  - split; [intros [q Q]; apply (f_equal (@rev Z)) in Q; rewrite rev_app_distr in Q; cbn in Q; discriminate|].
    apply (b_base _ [47; 98; 47] [97] []). unfold split_path, slashes. cbn. split; [reflexivity|]. split; [discriminate|]. split; [intuition discriminate|]. split; [constructor|]. right. exists [47; 98]. reflexivity.
  - exists m', sn. cbn in *. auto.
Qed.

(* C127, the first argument: one that ends with a slash loses it before main runs, since
   basename writes the terminator into the block main's argv points to *)
Theorem C127_argv0_refuted : exists fuel m w sp ps es aux args env alloc m' p q,
  stack w sp ps es aux /\ points m ps args /\ points m es env /\ hd [] args = [120; 47]
  /\ mapped m (alloc (len (flat args))) (len (flat args)) /\ apart (alloc (len (flat args))) (len (flat args)) ps args
  /\ start fuel m w sp None alloc (fun _ => 160) = Ok (m', p) /\ hd 0 (argv p) = q /\ cstr m' q [120] /\ ~ cstr m' q [120; 47].
Proof.
  destruct eg_points as (_ & P2 & P3).
  destruct (start 9 eg_mem (eg_words 105) 8 None (fun _ => 140) (fun _ => 160)) as [[m' p]| | |] eqn:E; [|vm_compute in E; discriminate..].
  exists 9%nat, eg_mem, (eg_words 105), 8, [105; 110], [120], [(6, 4096)], [[120; 47]; [45; 108]], [[65; 61; 49]], (fun _ => 140), m', p, 140.
  assert (T : (match start 9 eg_mem (eg_words 105) 8 None (fun _ => 140) (fun _ => 160) with
    | Ok (m, p) => (m 140, m 141, hd 0 (argv p)) | _ => (None, None, 0) end) = (Some 120, Some 0, 140)) by (vm_compute; reflexivity).
  rewrite E in T. injection T as T1 T2 T3.
  split; [exact eg_stack2|]. split; [exact P3|]. split; [exact P2|]. split; [reflexivity|]. split; [apply eg_mapped; vm_compute; discriminate|].
  split; [repeat (constructor; [unfold disjoint; vm_compute; intuition discriminate|]); constructor|]. split; [exact E|]. split; [exact T3|].
  split; [split; [repeat constructor; unfold is_char; lia|cbn; auto]|].
  intros [_ [_ [B _]]]. change (140 + 1) with 141 in B. rewrite T2 in B. discriminate.
Qed.
Print Assumptions C127_argv0_refuted.

(* C127, environ: one that is already set is left as it is *)
Theorem C127_environ fuel m w sp e alloc alloc2 m' p : start fuel m w sp (Some e) alloc alloc2 = Ok (m', p) -> environ p = e.
Proof. exact (start_env fuel m w sp e alloc alloc2 m' p). Qed.
Print Assumptions C127_environ.
Example C127_environ_case : exists m' p, start 9 eg_mem (eg_words 100) 8 (Some [120; 0]) (fun _ => 140) (fun _ => 160) = Ok (m', p) /\ environ p = [120; 0].
Proof.
  destruct (start 9 eg_mem (eg_words 100) 8 (Some [120; 0]) (fun _ => 140) (fun _ => 160)) as [[m' p]| | |] eqn:E; [|vm_compute in E; discriminate..].
  exists m', p. split; [reflexivity|]. exact (C127_environ _ _ _ _ _ _ _ _ _ E).
Qed.

(* C127, the auxiliary vector: the value of a kind is that of the first pair with it *)
Theorem C127_auxv fuel w sp args env aux k : stack w sp args env aux -> Forall (fun p => p <> 0) env -> Forall (fun kv => fst kv <> 0) aux ->
  (length env < fuel)%nat -> (length aux < fuel)%nat ->
  exists a, auxv_of fuel w sp (len args) = Ok a
    /\ (forall pre v rest, aux = pre ++ (k, v) :: rest -> ~ In k (map fst pre) -> get_auxv_raw fuel w a k = Ok (Some v))
    /\ (~ In k (map fst aux) -> get_auxv_raw fuel w a k = Ok None).
Proof. exact (aux_find fuel w sp args env aux k). Qed.
Print Assumptions C127_auxv.
(* AT_PAGESZ *)
Example C127_auxv_case : exists a, auxv_of 9 (eg_words 100) 8 2 = Ok a /\ get_auxv_raw 9 (eg_words 100) a 6 = Ok (Some 4096).
Proof.
  destruct (C127_auxv 9 (eg_words 100) 8 _ _ _ 6 eg_stack) as (a & A & B & _); [repeat constructor; discriminate|repeat constructor; discriminate|cbn; lia|cbn; lia|].
  exists a. split; [exact A|]. apply (B [] 4096 []); auto.
Qed.
