(* C78-C80: calendar time.  The calendar and the time-zone database are those of the crates chrono and chrono-tz;
   Cal_model says what is assumed of them, [zone_ok] what of a zone. *)
From Coq Require Import String.
From Verif Require Import Base Ctype_spec Numeral Time_model Time_spec Cal_model Cal_spec Cal_proofs Cal_asc.
Open Scope list_scope.
Open Scope Z_scope.

(* Missing from C78 (refuted below): members out of their ranges, time zones other than UTC, and instants of years
   beyond +-262143. *)

(* timegm returns POSIX's seconds since the Epoch and fills in the other members. *)
Theorem C78_timegm_partial : forall t, date_ok t -> timegm t =
  (since_epoch t, mk_tm (tm_sec t) (tm_min t) (tm_hour t) (tm_mday t) (tm_mon t) (tm_year t) (day_of_week t) (day_of_year t) 0 0 (Some (codes "UTC"))).
Proof. exact timegm_ok. Qed.
Print Assumptions C78_timegm_partial.

(* gmtime, while the local time zone is UTC, returns the broken-down time of the instant, and it is consistent. *)
Theorem C78_gmtime_partial : forall u old, instant_ok u -> let t := gmtime_r utc u old in
  date_ok t /\ since_epoch t = u /\ consistent t /\ tm_isdst t = 0 /\ tm_gmtoff t = 0.
Proof. exact gmtime_utc. Qed.
Print Assumptions C78_gmtime_partial.

(* No two broken-down times are the same instant. *)
Theorem C78_unique : forall a b, date_ok a -> date_ok b -> since_epoch a = since_epoch b -> same_time a b.
Proof. intros a b A B. apply since_inj; [exact (proj2 A)|exact (proj2 B)]. Qed.
Print Assumptions C78_unique.

Definition fixed (off : Z) (name : string) : zone := Zone (fun _ => off) (fun _ => 0) (fun l => LOne (l - off)) (codes name).
Lemma fixed_ok : forall off name, zone_ok (fixed off name).
Proof. intros off name l v. unfold local_time. cbn. lia. Qed.
Definition blank : tm := mk_tm 0 0 0 0 0 0 0 0 (-1) 0 None.

(* gmtime returns local time. *)
Theorem C78_gmtime_zone_refuted : exists z, zone_ok z /\ instant_ok 0 /\ since_epoch (gmtime_r z 0 blank) = 32400 /\ tm_gmtoff (gmtime_r z 0 blank) = 32400.
Proof.
  exists (fixed 32400 "Asia/Tokyo"). split; [apply fixed_ok|]. split; [apply in_range_ok; reflexivity|]. split; reflexivity.
Qed.
Print Assumptions C78_gmtime_zone_refuted.

(* For an instant beyond the years handled gmtime returns the structure unchanged, instead of a null pointer. *)
Theorem C78_overflow_refuted : forall old, gmtime_r utc (10 ^ 13) old = old.
Proof. reflexivity. Qed.
Print Assumptions C78_overflow_refuted.

(* timegm fails for members out of their ranges (here the second 60, the month 12 and the day 0). *)
Theorem C78_normal_refuted :
  fst (timegm (mk_tm 60 59 23 31 11 116 0 0 0 0 None)) = -1 /\
  fst (timegm (mk_tm 0 0 0 1 12 116 0 0 0 0 None)) = -1 /\
  fst (timegm (mk_tm 0 0 0 0 2 116 0 0 0 0 None)) = -1.
Proof. repeat split; reflexivity. Qed.
Print Assumptions C78_normal_refuted.

(* 29 February 2000, a Tuesday; and a day before the Epoch. *)
Example C78_case : let t := mk_tm 6 5 4 29 1 100 0 0 7 7 None in
  date_ok t /\ timegm t = (951797106, mk_tm 6 5 4 29 1 100 2 59 0 0 (Some (codes "UTC"))) /\
  instant_ok (-1) /\ gmtime_r utc (-1) blank = mk_tm 59 59 23 31 11 69 3 364 0 0 (Some (codes "UTC")).
Proof.
  cbv zeta. split; [repeat split; cbv; discriminate|]. split; [reflexivity|]. split; [apply in_range_ok; reflexivity|reflexivity].
Qed.

(* Missing from C79 (refuted below): members out of their ranges; local times skipped by the clock; zones whose
   daylight saving time is less than an hour; zones given as POSIX TZ strings. *)

(* localtime: the members are those of the local time of the instant. *)
Theorem C79_localtime_partial : forall z u old, instant_ok u -> let t := fst (localtime_r z u old) in
  since_epoch t = local_time z u /\ consistent t /\ tm_isdst t = z_dst z u /\ tm_gmtoff t = z_off z u /\ snd (localtime_r z u old) = - z_off z u.
Proof.
  intros z u old I. unfold localtime_r, get_localtime. cbn [fst snd]. rewrite (proj2 (in_range_ok u) I).
  destruct (to_tm_ok z u) as (_ & A & B & C & D & _). auto.
Qed.
Print Assumptions C79_localtime_partial.

(* mktime returns the instant of a local time; if there are two, the earlier if tm_isdst is positive, else the later. *)
Theorem C79_mktime_partial : forall z t, zone_ok z -> date_ok t ->
  (exists u, local_time z u = since_epoch t) ->
  let (u, t') := mktime z t in
  local_time z u = since_epoch t /\ t' = to_tm z u /\ same_time t' t /\ consistent t' /\
  forall v, local_time z v = since_epoch t -> v = u \/ (if 0 <? tm_isdst t then u < v else v < u).
Proof. exact mktime_ok. Qed.
Print Assumptions C79_mktime_partial.

(* mktime undoes localtime. *)
Theorem C79_inverse_partial : forall z u old, zone_ok z -> dst_first z -> in_range u = true -> date_ok (to_tm z u) ->
  mktime z (fst (localtime_r z u old)) = (u, fst (localtime_r z u old)).
Proof. exact mktime_localtime. Qed.
Print Assumptions C79_inverse_partial.

(* A zone [d] seconds further ahead before the instant T than from T on *)
Definition back (T off d : Z) : zone :=
  Zone (fun u => if u <? T then off + d else off) (fun u => if u <? T then d / 3600 else 0)
    (fun l => match l - off - d <? T, T <=? l - off with
              | true, true => LTwo (l - off - d) (l - off) | true, false => LOne (l - off - d) | false, true => LOne (l - off) | false, false => LNone end)
    (codes "Zone/Back").
Lemma back_ok : forall T off d, 0 < d -> zone_ok (back T off d).
Proof.
  intros T off d H l. unfold local_time. cbn.
  destruct (Z.ltb_spec (l - off - d) T), (Z.leb_spec T (l - off)); [split; [lia|]| | |]; intros v; destruct (Z.ltb_spec v T); lia.
Qed.
(* and one put forward at T *)
Definition fwd (T off d : Z) : zone :=
  Zone (fun u => if u <? T then off else off + d) (fun u => if u <? T then 0 else d / 3600)
    (fun l => if l - off <? T then LOne (l - off) else if T <=? l - off - d then LOne (l - off - d) else LNone) (codes "Zone/Forward").
Lemma fwd_ok : forall T off d, 0 < d -> zone_ok (fwd T off d).
Proof.
  intros T off d H l. unfold local_time. cbn.
  destruct (Z.ltb_spec (l - off) T); [|destruct (Z.leb_spec T (l - off - d))]; intros v; destruct (Z.ltb_spec v T); lia.
Qed.

(* A zone whose clock is put back by half an hour: mktime(localtime) is half an hour off. *)
Theorem C79_half_hour_refuted : exists z u, zone_ok z /\ instant_ok u /\ date_ok (to_tm z u) /\
  fst (mktime z (fst (localtime_r z u blank))) = u + 1800.
Proof.
  exists (back 1000000 37800 1800), 999000. split; [apply back_ok; lia|]. split; [apply in_range_ok; reflexivity|].
  split; [|reflexivity]. vm_compute. repeat split; discriminate.
Qed.
Print Assumptions C79_half_hour_refuted.

(* mktime fails for a local time that the clock skips. *)
Theorem C79_gap_refuted : exists z t, zone_ok z /\ date_ok t /\ tm_isdst t = -1 /\ mktime z t = (-1, t).
Proof.
  exists (fwd 1000000 3600 3600), (mk_tm 0 0 15 12 0 70 0 0 (-1) 0 None). split; [apply fwd_ok; lia|].
  split; [repeat split; cbv; discriminate|]. split; reflexivity.
Qed.
Print Assumptions C79_gap_refuted.

(* mktime fails for members out of their ranges. *)
Theorem C79_normal_refuted : fst (mktime utc (mk_tm 0 0 0 32 0 116 0 0 0 0 None)) = -1.
Proof. reflexivity. Qed.
Print Assumptions C79_normal_refuted.

(* A TZ that is no name of the database is taken for UTC, whatever it says. *)
Theorem C79_posix_refuted : forall find u old, find (codes "JST-9") = None ->
  localtime_r (time_zone find (codes "JST-9")) u old = localtime_r utc u old.
Proof. intros find u old H. unfold time_zone. rewrite H. reflexivity. Qed.
Print Assumptions C79_posix_refuted.

(* timelocal ignores tm_isdst. *)
Theorem C79_timelocal_refuted : exists z t, zone_ok z /\ dst_first z /\ date_ok t /\ fst (timelocal z t) <> fst (mktime z t).
Proof.
  exists (back 1000000 3600 3600), (mk_tm 0 0 15 12 0 70 0 0 0 0 None). split; [apply back_ok; lia|]. split.
  - intros l a b. cbn. destruct (Z.ltb_spec (l - 3600 - 3600) 1000000), (Z.leb_spec 1000000 (l - 3600)); try discriminate.
    intros E. injection E as <- <-. destruct (Z.ltb_spec (l - 3600 - 3600) 1000000), (Z.ltb_spec (l - 3600) 1000000); try lia.
  - split; [repeat split; cbv; discriminate|]. vm_compute. discriminate.
Qed.
Print Assumptions C79_timelocal_refuted.

(* In the hour that comes twice the two instants are told apart. *)
Example C79_case : let z := back 1000000 3600 3600 in
  zone_ok z /\ fst (mktime z (mk_tm 0 0 15 12 0 70 0 0 1 0 None)) = 997200 /\ fst (mktime z (mk_tm 0 0 15 12 0 70 0 0 0 0 None)) = 1000800 /\
  (exists u, local_time z u = since_epoch (mk_tm 0 0 15 12 0 70 0 0 1 0 None)) /\ date_ok (mk_tm 0 0 15 12 0 70 0 0 1 0 None) /\
  fst (mktime z (fst (localtime_r z 997200 blank))) = 997200 /\ fst (mktime z (fst (localtime_r z 1000800 blank))) = 1000800.
Proof.
  cbv zeta. split; [apply back_ok; lia|]. split; [reflexivity|]. split; [reflexivity|]. split; [exists 997200; reflexivity|].
  split; [repeat split; cbv; discriminate|]. split; reflexivity.
Qed.

(* asctime_r: the documented text, within 26 bytes, NUL included, and nothing else written. *)
Theorem C80_asctime : forall m t buf, asc_ok t -> mapped m buf 26 ->
  exists m' y, asctime_r m t buf = Ok (m', buf) /\ decimal (year t) y /\ stored m m' buf (asc_text t y ++ [0]) /\
    len (asc_text t y ++ [0]) <= 26 /\ (1000 <= year t -> len (asc_text t y ++ [0]) = 26).
Proof. exact asc_fits. Qed.
Print Assumptions C80_asctime.
(* Whatever the members are, nothing is written beyond the 26 bytes: the process ends instead. *)
Theorem C80_asctime_bounds : forall m t buf, mapped m buf 26 ->
  asctime_r m t buf = Panic \/
  exists m', asctime_r m t buf = Ok (m', buf) /\ (forall a, ~ buf <= a < buf + 26 -> m' a = m a) /\ mapped m' buf 26.
Proof. exact asc_bounds. Qed.
Print Assumptions C80_asctime_bounds.
Example C80_bounds_case : mapped (mem_of 100 (repeat 0 26)) 100 26 /\
  (exists r, asctime_r (mem_of 100 (repeat 0 26)) (mk_tm 99 99 99 (-99) 8 8099 0 258 0 0 None) 100 = Ok r /\ fst r 125 = Some 0) /\
  asctime_r (mem_of 100 (repeat 0 26)) (mk_tm 99 99 99 (-99) 8 8100 0 258 0 0 None) 100 = Panic.
Proof.
  split; [|split; [eexists; split; vm_compute; reflexivity|vm_compute; reflexivity]].
  intros a A. assert (exists k, (k < 26)%nat /\ a = 100 + Z.of_nat k) as (k & K & ->) by (exists (Z.to_nat (a - 100)); lia).
  do 26 (destruct k as [|k]; [vm_compute; eauto; discriminate|]). lia.
Qed.

Example C80_case : asc_ok (mk_tm 52 3 1 16 8 73 0 258 0 0 None) /\
  asc_text (mk_tm 52 3 1 16 8 73 0 258 0 0 None) (codes "1973") = codes "Sun Sep 16 01:03:52 1973" ++ [10].
Proof. split; [repeat split; cbv; discriminate|reflexivity]. Qed.
