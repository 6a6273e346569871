(* C83, C84, C85 *)
From Coq Require Import ZArith List Bool Arith Lia.
From Verif Require Import Base Ld_model Ld_spec Ld_proofs.
Import ListNotations.
Open Scope nat_scope.

(* C83 full: a lookup gives the first global definition in the order of the scope, else
   the first weak one, else nothing, whatever the bindings of the symbols.
   Proved: global and weak symbols, with any of the weak definitions if there is no
   global one.  Refuted below: the first weak one, other bindings. *)
Theorem C83_lookup_partial tab x l : plain tab x l ->
  exists q, get_sym tab l x = Ok q /\
    match q with
    | Some (s, i) => first_def tab x strong_def l i s \/
        ((forall j t, In j l -> defines tab x j t -> ~ strong_def t) /\ In i l /\ defines tab x i s)
    | None => forall j t, In j l -> ~ defines tab x j t
    end.
Proof. exact (get_sym_spec tab x l). Qed.
Print Assumptions C83_lookup_partial.
(* Object 1 refers to symbol 0, 2 defines it weakly, 3 and 4 globally. *)
Definition ex_tab (i : nat) (x : name) : option sym :=
  match i, x with
  | 1, 0 => Some (Sym 0 true 1) | 2, 0 => Some (Sym 20 false 2) | 3, 0 => Some (Sym 30 false 1) | 4, 0 => Some (Sym 40 false 1)
  | 5, 0 => Some (Sym 50 false 2) | 6, 0 => Some (Sym 60 false 10) | _, _ => None
  end.
Example C83_lookup_ex : plain ex_tab 0 [1; 2; 3; 4] /\ get_sym ex_tab [1; 2; 3; 4] 0 = Ok (Some (Sym 30 false 1, 3)).
Proof.
  split; [|reflexivity]. intros i s I (D & _). destruct I as [<-|[<-|[<-|[<-|[]]]]]; cbn in D; injection D as <-; cbn; auto.
Qed.
(* Of two weak definitions the last one is taken. *)
Theorem C83_weak_refuted : get_sym ex_tab [2; 5] 0 = Ok (Some (Sym 50 false 2, 5)).
Proof. reflexivity. Qed.
Print Assumptions C83_weak_refuted.
(* A definition with binding STB_GNU_UNIQUE (10) stops the process. *)
Theorem C83_binding_refuted : get_sym ex_tab [6; 3] 0 = Panic.
Proof. reflexivity. Qed.
Print Assumptions C83_binding_refuted.

(* C84 full: loading an object, as the program or by dlopen, loads every object it depends
   on, directly or not, each file once, runs the initializers of the new ones once,
   dependencies first; the objects enter the scope breadth first, dlsym on the handle
   searches the object and all it depends on; the finalizers at exit run in the reverse
   order; a load that fails changes nothing.
   Proved: what is loaded and initialized, for dependencies without cycles and files named
   by their SONAME, in states without a dlclose after RTLD_GLOBAL.  Refuted below: the rest. *)
Theorem C84_start_partial fs rank fuel n : acyclic fs rank -> sonames fs -> (forall n, rank n < fuel) ->
  exists s r, load_object fuel fs ld_init n false Global = Ok (s, r) /\ loads fs ld_init n s r.
Proof. exact (fun AC SO RK => match start_ok fs rank AC SO fuel RK n with ex_intro _ s (ex_intro _ r (conj E (conj _ (conj _ L)))) => ex_intro _ s (ex_intro _ r (conj E L)) end). Qed.
Print Assumptions C84_start_partial.
Theorem C84_dlopen_partial fs rank fuel g s n k now : acyclic fs rank -> sonames fs -> (forall n, rank n < fuel) -> tame fuel fs g s ->
  exists s' r, dlopen fuel fs s (Some n) k now false = Ok (s', r) /\ loads fs s n s' r.
Proof. exact (fun AC SO RK => tame_open fs rank AC SO fuel RK g s n k now). Qed.
Print Assumptions C84_dlopen_partial.
(* 1 needs 2 and 3, which both need 4; 5 needs 6, 4 and 7; 8 needs 9, which does not exist. *)
Definition ex_fs (n : name) : option desc :=
  match n with
  | 1 => Some (Desc 1 [2; 3]) | 2 => Some (Desc 2 [4]) | 3 => Some (Desc 3 [4]) | 4 => Some (Desc 4 [])
  | 5 => Some (Desc 5 [6; 4; 7]) | 6 => Some (Desc 6 [7]) | 7 => Some (Desc 7 []) | 8 => Some (Desc 8 [9]) | _ => None
  end.
Definition ex_rank (n : name) := match n with 4 => 0 | _ => 10 - n end.
Lemma ex_acyclic : acyclic ex_fs ex_rank.
Proof.
  intros n d x F H. destruct n as [|[|[|[|[|[|[|[|[|n]]]]]]]]]; try discriminate F; injection F as <-; cbn in H;
  repeat match goal with H : _ \/ _ |- _ => destruct H as [<-|H]; [cbn; lia|] end; destruct H.
Qed.
Lemma ex_sonames : sonames ex_fs.
Proof. intros n d F. destruct n as [|[|[|[|[|[|[|[|[|n]]]]]]]]]; try discriminate F; injection F as <-; reflexivity. Qed.
Lemma ex_fuel n : ex_rank n < 11.
Proof. unfold ex_rank. destruct n as [|[|[|[|[|n]]]]]; lia. Qed.
Definition get {A} (d : A) (r : res A) : A := match r with Ok a => a | _ => d end.
Definition ex_start := fst (get (ld_init, None) (load_object 11 ex_fs ld_init 1 false Global)).
Definition ex_5 := fst (get (ld_init, None) (dlopen 11 ex_fs ex_start (Some 5) Local true false)).
Example C84_load_ex :
  tame 11 ex_fs false ex_start /\ map onam (objs ex_start) = [1; 2; 4; 3] /\ inits ex_start = [3; 2; 4; 1] /\
  dlopen 11 ex_fs ex_start (Some 5) Local true false = Ok (ex_5, Some 5) /\
  map onam (objs ex_5) = [1; 2; 4; 3; 5; 6; 7] /\ inits ex_5 = [3; 2; 4; 1; 7; 6; 5] /\
  exists s, dlopen 11 ex_fs ex_5 (Some 8) Local true false = Ok (s, None) /\ objs s = objs ex_5.
Proof.
  split; [|repeat split; try reflexivity; eexists; split; reflexivity].
  apply (t_start 11 ex_fs 1 ex_start 1). vm_compute. reflexivity.
Qed.
(* Two objects that need each other are loaded forever. *)
Theorem C84_cycle_refuted fuel :
  load_object fuel (fun n => match n with 1 => Some (Desc 1 [2]) | 2 => Some (Desc 2 [1]) | _ => None end) ld_init 1 false Global = OutOfFuel.
Proof.
  set (fs := fun n => _).
  assert (H : forall s ds n, n = 1 \/ n = 2 -> names s = [] -> load fuel fs false Global s [] n ds = OutOfFuel).
  { induction fuel as [|f IH]; intros s ds n HN HS; [reflexivity|]. cbn [load]. unfold known. rewrite HS. cbn [assoc by_name find].
    destruct HN as [-> | ->]; cbn [fs needed dep_loop enter]; rewrite IH by auto; reflexivity. }
  unfold load_object. rewrite H; auto.
Qed.
Print Assumptions C84_cycle_refuted.
(* A file opened twice under a name other than its SONAME, say its path, is loaded and
   initialized twice. *)
Theorem C84_name_refuted :
  let fs := fun n => match n with 1 => Some (Desc 1 []) | 2 => Some (Desc 9 []) | _ => None end in
  exists s0 s1 s2, load_object 9 fs ld_init 1 false Global = Ok (s0, Some 1) /\
    dlopen 9 fs s0 (Some 2) Local false false = Ok (s1, Some 2) /\ dlopen 9 fs s1 (Some 2) Local false false = Ok (s2, Some 3) /\
    inits s2 = [1; 2; 3].
Proof. eexists _, _, _. repeat split; reflexivity. Qed.
Print Assumptions C84_name_refuted.
(* The program needs 2 and 3, 2 needs 4: 4 (object 3) is searched before 3 (object 4). *)
Theorem C84_order_refuted : gsc ex_start = [1; 2; 3; 4] /\ map (fun i => option_map onam (by_id (objs ex_start) i)) (gsc ex_start) = [Some 1; Some 2; Some 4; Some 3].
Proof. split; reflexivity. Qed.
Print Assumptions C84_order_refuted.
(* 3 (object 4) is finalized after 4 (object 3), which it needs. *)
Theorem C84_fini_refuted : fini ex_start = [1; 2; 3; 4] /\ inits ex_start = [3; 2; 4; 1].
Proof. split; reflexivity. Qed.
Print Assumptions C84_fini_refuted.
(* dlsym on the handle of 2, which needs 3, which needs 4, does not find the symbol of 4;
   opened with RTLD_GLOBAL it does not find the one of 3 either. *)
Definition ex_chain (n : name) : option desc :=
  match n with 1 => Some (Desc 1 []) | 2 => Some (Desc 2 [3]) | 3 => Some (Desc 3 [4]) | 4 => Some (Desc 4 []) | _ => None end.
Theorem C84_dlsym_refuted :
  let tab := fun i x => if i =? x then Some (Sym 7 false 1) else None in
  exists s0 s1 s2, load_object 9 ex_chain ld_init 1 false Global = Ok (s0, Some 1) /\
    dlopen 9 ex_chain s0 (Some 2) Local false false = Ok (s1, Some 2) /\ dlopen 9 ex_chain s0 (Some 2) Global false false = Ok (s2, Some 2) /\
    map onam (objs s1) = [1; 2; 3; 4] /\ dlsym tab s1 (Some 2) 4 = Ok None /\ dlsym tab s1 (Some 2) 3 <> Ok None /\ dlsym tab s2 (Some 2) 3 = Ok None.
Proof.
  eexists _, _, _. split; [vm_compute; reflexivity|]. split; [vm_compute; reflexivity|]. split; [vm_compute; reflexivity|].
  split; [reflexivity|]. split; [reflexivity|]. split; [discriminate|reflexivity].
Qed.
Print Assumptions C84_dlsym_refuted.
(* A failed dlopen with RTLD_GLOBAL makes the next dlsym(RTLD_DEFAULT) stop the process. *)
Theorem C84_fail_refuted tab x : exists s, dlopen 11 ex_fs ex_start (Some 8) Global false false = Ok (s, None) /\ dlsym tab s None x = Panic.
Proof. eexists. split; reflexivity. Qed.
Print Assumptions C84_fail_refuted.

(* C85 full: after any sequence of dlopen and dlclose, the program and what it was started
   with, every object with an open handle, and all they depend on are loaded and not
   finalized; each object is initialized before use and finalized at most once, when the
   last handle is closed and nothing loaded depends on it; RTLD_NOLOAD never loads.
   Proved: all but that dependencies stay loaded if RTLD_GLOBAL was used.
   Refuted below: dependencies after RTLD_GLOBAL, RTLD_NOLOAD | RTLD_NOW. *)
Theorem C85_handles_partial fs rank fuel g s : acyclic fs rank -> sonames fs -> (forall n, rank n < fuel) -> history fuel fs g s ->
  NoDup (finis s) /\ NoDup (inits s) /\ (forall i, In i (finis s) -> ~ present s i) /\
  (forall i, In i (handles s) -> present s i) /\ (forall o, In o (objs s) -> In (oid o) (inits s)).
Proof. exact (fun AC SO RK => history_handles fs rank AC SO fuel RK g s). Qed.
Print Assumptions C85_handles_partial.
Theorem C85_close_partial fs rank fuel g s i : acyclic fs rank -> sonames fs -> (forall n, rank n < fuel) -> history fuel fs g s -> In i (handles s) ->
  exists s' more, dlclose fuel s i = Ok s' /\ handles s' = remove1 i (handles s) /\ finis s' = finis s ++ more /\
    (forall p, In p (objs s) -> odl p = false -> In p (objs s')) /\
    (forall o, In o (objs s) -> oid o = i -> odl o = true -> count_occ Nat.eq_dec (handles s) i = 1 -> (forall p, In p (objs s) -> ~ In i (oscope p)) ->
       In i more /\ ~ present s' i).
Proof. exact (fun AC SO RK => history_close fs rank AC SO fuel RK g s i). Qed.
Print Assumptions C85_close_partial.
Theorem C85_deps_partial fs rank fuel g s o d x : acyclic fs rank -> sonames fs -> (forall n, rank n < fuel) -> tame fuel fs g s ->
  In o (objs s) -> fs (onam o) = Some d -> In x (needed d) -> loaded s x.
Proof. exact (fun AC SO RK => tame_deps fs rank AC SO fuel RK g s o d x). Qed.
Print Assumptions C85_deps_partial.
(* 5 and 6 opened, 6 closed: kept for 5; 5 closed: gone. *)
Definition ex_56 := fst (get (ld_init, None) (dlopen 11 ex_fs ex_5 (Some 6) Local false false)).
Definition ex_5' := get ld_init (dlclose 11 ex_56 6).
Example C85_ex :
  tame 11 ex_fs false ex_56 /\ history 11 ex_fs false ex_56 /\ handles ex_56 = [6; 5] /\ dlclose 11 ex_56 6 = Ok ex_5' /\ finis ex_5' = [] /\
  exists s, dlclose 11 ex_5' 5 = Ok s /\ finis s = [5] /\ ~ present s 5.
Proof.
  split. { apply (t_open 11 ex_fs false ex_5 (Some 6) Local false false ex_56 (Some 6)); [|vm_compute; reflexivity].
    apply (t_open 11 ex_fs false ex_start (Some 5) Local true false ex_5 (Some 5)); [|vm_compute; reflexivity]. apply (t_start 11 ex_fs 1 ex_start 1). vm_compute. reflexivity. }
  split. { apply (h_open 11 ex_fs false ex_5 (Some 6) Local false false ex_56 (Some 6)); [|vm_compute; reflexivity].
    apply (h_open 11 ex_fs false ex_start (Some 5) Local true false ex_5 (Some 5)); [|vm_compute; reflexivity]. apply (h_start 11 ex_fs 1 ex_start 1). vm_compute. reflexivity. }
  split; [vm_compute; reflexivity|]. split; [vm_compute; reflexivity|]. split; [vm_compute; reflexivity|].
  exists (get ld_init (dlclose 11 ex_5' 5)). split; [vm_compute; reflexivity|]. split; [vm_compute; reflexivity|].
  intros (o & O & E). apply (in_map oid) in O. rewrite E in O.
  assert (X : map oid (objs (get ld_init (dlclose 11 ex_5' 5))) = [1; 2; 3; 4; 6; 7]) by (vm_compute; reflexivity). rewrite X in O. clear -O. cbn in O. lia.
Qed.
(* 5 and 6 need 7; both opened with RTLD_GLOBAL, closing one unloads 7. *)
Definition ex_two (n : name) : option desc :=
  match n with 1 => Some (Desc 1 []) | 5 => Some (Desc 5 [7]) | 6 => Some (Desc 6 [7]) | 7 => Some (Desc 7 []) | _ => None end.
Theorem C85_deps_refuted : exists s0 s1 s2 s3, load_object 9 ex_two ld_init 1 false Global = Ok (s0, Some 1) /\
    dlopen 9 ex_two s0 (Some 5) Global false false = Ok (s1, Some 2) /\ dlopen 9 ex_two s1 (Some 6) Global false false = Ok (s2, Some 4) /\
    dlclose 9 s2 2 = Ok s3 /\ handles s3 = [4] /\ map onam (objs s3) = [1; 6] /\ finis s3 = [3; 2].
Proof.
  eexists _, _, _, _. split; [vm_compute; reflexivity|]. split; [vm_compute; reflexivity|]. split; [vm_compute; reflexivity|].
  split; [vm_compute; reflexivity|]. split; [reflexivity|]. split; reflexivity.
Qed.
Print Assumptions C85_deps_refuted.
(* dlopen(name, RTLD_NOLOAD | RTLD_NOW) stops the process. *)
Theorem C85_noload_refuted fuel fs s n k : dlopen fuel fs s n k true true = Panic.
Proof. reflexivity. Qed.
Print Assumptions C85_noload_refuted.
