(** C20, C21: the drand48 family and random().  Theorems only; lemmas are in
    Rand_proofs.v and Rand_float.v. *)
From Coq Require Import Reals.
From Flocq Require Import Core IEEE754.BinarySingleNaN IEEE754.Binary IEEE754.Bits.
From Verif Require Import Base Word_mem Rand_model Rand_spec Rand_proofs Rand_float.

(** Every history of calls, from every state, returns exactly what the documented
    recurrence gives, and never panics. *)
Theorem C20_history : forall l g, state_ok g -> Forall arg_ok l ->
  run48s g l = Ok (spec48s g l) /\ state_ok (fst (spec48s g l)).
Proof. exact run48s_ok. Qed.
Print Assumptions C20_history.

(** The double returned for state x is exactly x / 2^48. *)
Theorem C20_double_value : forall v, 0 <= v < 2 ^ 48 ->
  let d := b64_minus mode_NE (b64_of_bits (dbl v)) (b64_of_bits (1023 * 2 ^ 52)) in
  B2R 53 1024 d = (IZR v / IZR (2 ^ 48))%R /\ is_finite 53 1024 d = true.
Proof. exact dbl_value. Qed.
Print Assumptions C20_double_value.

(** From a zeroed start: srand48(1) then lrand48, erand48 on {1,0,0}, mrand48. *)
Example C20_case :
  let g := {| gx := 0; ga := A0; gc := C0 |} in
  state_ok g /\ Forall arg_ok [Srand 1; Lrand; Nrand (1, 0, 0); Mrand; Seed (65535, 0, 1)] /\
  match run48s g [Srand 1; Lrand; Nrand (1, 0, 0); Mrand; Seed (65535, 0, 1)] with
  | Ok (_, outs) => outs = [OutU; OutI 89400484; OutIA 192374 (59000, 57068, 5); OutI 1952030186; OutA (25464, 40426, 29785)]
  | _ => False
  end.
Proof. split; [|split]; [vm_compute; intuition discriminate|repeat constructor; unfold u16; lia|vm_compute; reflexivity]. Qed.

(** ** C21 *)
(** Every history of random/srandom/initstate/setstate from process start returns what
    the abstract generators give ([world_run] is defined exactly when each setstate names
    a state initialised before). *)
Theorem C21_history : forall dflt bufs m l w outs, at_start dflt bufs m -> Forall (rop_ok bufs) l ->
  world_run (world0 dflt) l = Some (w, outs) ->
  exists s' m', rrun dflt rstart m l = Ok (s', m', outs).
Proof. exact random_history. Qed.
Print Assumptions C21_history.

Theorem C21_range : forall dflt bufs m l w outs, at_start dflt bufs m -> Forall (rop_ok bufs) l ->
  world_run (world0 dflt) l = Some (w, outs) ->
  exists s1 m1 s2 m2 r, rrun dflt rstart m l = Ok (s1, m1, outs) /\
    random dflt s1 m1 = Ok (s2, m2, r) /\ 0 <= r < 2 ^ 31.
Proof. exact random_range. Qed.
Print Assumptions C21_range.

(** A detour through other states, then setstate back, changes nothing. *)
Theorem C21_resume : forall dflt bufs m h w hs detour v vs n,
  at_start dflt bufs m -> Forall (rop_ok bufs) h -> Forall (rop_ok bufs) detour ->
  world_run (world0 dflt) h = Some (w, hs) -> world_run w detour = Some (v, vs) ->
  (exists o rest, detour = o :: rest /\ (exists s q z, o = Initstate s q z /\ 8 <= z \/ o = Setstate q)) ->
  Forall (avoids (cur w)) detour ->
  exists s1 m1 s2 m2 outs r, rrun dflt rstart m (h ++ repeat Random n) = Ok (s1, m1, hs ++ outs) /\
    rrun dflt rstart m (h ++ detour ++ Setstate (cur w) :: repeat Random n) = Ok (s2, m2, hs ++ vs ++ r :: outs).
Proof. exact random_resume. Qed.
Print Assumptions C21_resume.

(** srandom(s) determines all later values. *)
Theorem C21_reseed : forall dflt bufs m h1 h2 w1 w2 o1 o2 g1 g2 s n,
  at_start dflt bufs m -> Forall (rop_ok bufs) h1 -> Forall (rop_ok bufs) h2 -> 0 <= s < 2 ^ 32 ->
  world_run (world0 dflt) h1 = Some (w1, o1) -> world_run (world0 dflt) h2 = Some (w2, o2) ->
  tbl w1 (cur w1) = Some g1 -> tbl w2 (cur w2) = Some g2 -> gen_n g1 = gen_n g2 ->
  exists s1 m1 s2 m2 outs,
    rrun dflt rstart m (h1 ++ Srandom s :: repeat Random n) = Ok (s1, m1, o1 ++ 0 :: outs) /\
    rrun dflt rstart m (h2 ++ Srandom s :: repeat Random n) = Ok (s2, m2, o2 ++ 0 :: outs).
Proof. exact random_reseed. Qed.
Print Assumptions C21_reseed.

(** A start memory with the default table at 1000 and a 32-byte client buffer at 2000. *)
Definition m_start : mem :=
  mem_union (mem_of 1000 (0 :: 0 :: 0 :: 0 :: concat (map (le_bytes 4) DEFAULT_X))) (mem_of 2000 (repeat 0 32)).
Definition l_case : list rop := [Random; Initstate 7 2000 32; Random; Srandom 9; Setstate 1000; Random].
Example C21_case : at_start 1000 [(1000, 128); (2000, 32)] m_start /\
  Forall (rop_ok [(1000, 128); (2000, 32)]) l_case /\
  match rrun 1000 rstart m_start l_case, rrun 1000 rstart m_start [Random; Random] with
  | Ok (_, _, [a; p; _; _; q; b]), Ok (_, _, [a'; b']) => a = a' /\ b = b' /\ a <> b /\ p = 1000 /\ q = 2000
  | _, _ => False
  end /\
  match world_run (world0 1000) l_case with Some (_, outs) => length outs = 6%nat | None => False end.
Proof.
  split; [|split; [|split]].
  - split.
    + constructor.
      * intros p n [[= <- <-]|[[= <- <-]|[]]]; lia.
      * intros p n [[= <- <-]|[[= <- <-]|[]]] x Hx.
        -- unfold m_start, mem_union.
           destruct (bytes_at_mapped _ _ _ (mem_of_bytes 1000 (0 :: 0 :: 0 :: 0 :: concat (map (le_bytes 4) DEFAULT_X))) x Hx) as [b E].
           rewrite E. eauto.
        -- unfold m_start, mem_union. destruct (bytes_at_mapped _ _ _ (mem_of_bytes 2000 (repeat 0 32)) x Hx) as [b E].
           rewrite E. destruct (mem_of 1000 _ x); eauto.
      * intros p n q k [[= <- <-]|[[= <- <-]|[]]] [[= <- <-]|[[= <- <-]|[]]] N; unfold disjoint; lia.
      * intros p n k [[= <- <-]|[[= <- <-]|[]]] [[= <-]|[[= <-]|[]]]; reflexivity.
      * left. reflexivity.
    + vm_compute. repeat split.
  - unfold l_case. repeat constructor; try lia. exists 32. split; [right; left; reflexivity|lia].
  - vm_compute. repeat split; discriminate.
  - vm_compute. reflexivity.
Qed.
