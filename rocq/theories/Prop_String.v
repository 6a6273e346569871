(** Property theorems C01-C13 (string.h).  Statements only use Base.v's memory
    vocabulary, String_spec.v and the model's entry points. *)
From Verif Require Import Base String_model String_spec String_proofs String_proofs2.

(** * C01 *)
Theorem C01_strlen : forall s fuel m p,
  p <> NULL -> cstr m p s -> (length s < fuel)%nat -> strlen fuel m p = Ok (len s).
Proof. exact strlen_ok. Qed.
Print Assumptions C01_strlen.

Theorem C01_strnlen : forall l fuel m p n,
  p <> NULL -> bstr m p n l -> (length l < fuel)%nat -> strnlen fuel m p n = Ok (len l).
Proof. exact strnlen_ok. Qed.
Print Assumptions C01_strnlen.

(** what [bstr] means for a terminated string: the first min(n, length) bytes *)
Theorem C01_strnlen_of_string : forall s fuel m p n,
  p <> NULL -> cstr m p s -> 0 <= n -> (length s < fuel)%nat ->
  strnlen fuel m p n = Ok (Z.min n (len s)).
Proof. exact strnlen_cstr. Qed.
Print Assumptions C01_strnlen_of_string.

Example C01_case : cstr (mem_of 1000 [104;105;0]) 1000 [104;105] /\
  bstr (mem_of 1000 [104;105]) 1000 2 [104;105] /\
  strlen 9 (mem_of 1000 [104;105;0]) 1000 = Ok 2 /\ strnlen 9 (mem_of 1000 [104;105]) 1000 2 = Ok 2 /\
  strlen 9 (mem_of 1000 [104;105]) 1000 = Fault.
Proof. repeat split; try (repeat constructor; fail); try (left; reflexivity); repeat (constructor; cbn; try lia). Qed.

(** * C02 *)
Theorem C02_memcpy : forall l m d s,
  bytes_at m s l -> mapped m d (len l) -> disjoint d (len l) s (len l) ->
  exists m', memcpy m d s (len l) = Ok (m', d) /\ stored m m' d l.
Proof. exact memcpy_ok. Qed.
Print Assumptions C02_memcpy.

(** no disjointness hypothesis: every overlap *)
Theorem C02_memmove : forall l m d s,
  bytes_at m s l -> mapped m d (len l) ->
  exists m', memmove m d s (len l) = Ok (m', d) /\ stored m m' d l.
Proof. exact memmove_ok. Qed.
Print Assumptions C02_memmove.

Theorem C02_memset : forall m d c n,
  0 <= n -> mapped m d n ->
  exists m', memset m d c n = Ok (m', d) /\ stored m m' d (repeat (c mod 256) (Z.to_nat n)).
Proof. exact memset_ok. Qed.
Print Assumptions C02_memset.

Example C02_case : bytes_at (mem_of 1000 [1;2;3;4;5]) 1000 [1;2;3] /\
  mapped (mem_of 1000 [1;2;3;4;5]) 1001 3 /\
  match memmove (mem_of 1000 [1;2;3;4;5]) 1001 1000 3 with
  | Ok (m', _) => map m' [1000;1001;1002;1003;1004;1005] = [Some 1; Some 1; Some 2; Some 3; Some 5; None]
  | _ => False end.
Proof.
  split; [cbn; auto|]. split; [|vm_compute; reflexivity].
  intros x Hx. assert (x = 1001 \/ x = 1002 \/ x = 1003) as [->|[->| ->]] by lia; vm_compute; eauto.
Qed.

(** * C03 *)
Theorem C03_memcmp : forall l k m a b n,
  len l = n -> len k = n -> Forall is_byte l -> Forall is_byte k ->
  bytes_at m a l -> bytes_at m b k ->
  exists r, memcmp m a b n = Ok r /\ sign_is r (lex l k).
Proof. exact memcmp_ok. Qed.
Print Assumptions C03_memcmp.

Example C03_case :
  let m := mem_union (mem_of 1000 [1;2;3;4;5;6;7;200;9]) (mem_of 2000 [1;2;3;4;5;6;7;100;250]) in
  bytes_at m 1000 [1;2;3;4;5;6;7;200;9] /\ bytes_at m 2000 [1;2;3;4;5;6;7;100;250] /\
  memcmp m 1000 2000 9 = Ok 100 /\ lex [1;2;3;4;5;6;7;200;9] [1;2;3;4;5;6;7;100;250] = Gt.
Proof. vm_compute. repeat split. Qed.

(** * C04 *)
Theorem C04_memchr : forall l m a c,
  bytes_at m a l -> exists p, memchr m a c (len l) = Ok p /\ finds_first (c mod 256) l a p.
Proof. exact memchr_ok. Qed.
Print Assumptions C04_memchr.

Theorem C04_memrchr : forall l m a c,
  bytes_at m a l -> exists p, memrchr m a c (len l) = Ok p /\ finds_last (c mod 256) l a p.
Proof. exact memrchr_ok. Qed.
Print Assumptions C04_memrchr.

Theorem C04_memccpy : forall l m d s c,
  0 < s -> bytes_at m s l -> mapped m d (len l) -> disjoint d (len l) s (len l) ->
  exists m' r, memccpy m d s c (len l) = Ok (m', r) /\
    ((~ In (c mod 256) l /\ r = NULL /\ stored m m' d l) \/
     (exists i, first_occ (c mod 256) l i /\ r = d + Z.of_nat i + 1 /\ stored m m' d (firstn (S i) l))).
Proof. exact memccpy_ok. Qed.
Print Assumptions C04_memccpy.

Example C04_case : bytes_at (mem_of 1000 [7;8;7]) 1000 [7;8;7] /\
  memchr (mem_of 1000 [7;8;7]) 1000 263 3 = Ok 1000 /\ memrchr (mem_of 1000 [7;8;7]) 1000 7 3 = Ok 1002 /\
  memchr (mem_of 1000 [7;8;7]) 1000 9 3 = Ok NULL.
Proof. vm_compute. repeat split. Qed.

(** * C05 *)
Theorem C05_memmem : forall h nd m a b,
  bytes_at m a h -> bytes_at m b nd ->
  exists p, memmem m a (len h) b (len nd) = Ok p /\ finds_leftmost nd h a p.
Proof. exact memmem_ok. Qed.
Print Assumptions C05_memmem.

(** Full statement: for all [l] and [w],
      exists p, strstr fuel m h nd = Ok p /\ finds_leftmost w l h p.
    It fails for the single case [l = w = []] (C05_strstr_refuted); the two theorems
    below cover all the others. *)
Theorem C05_strstr_partial : forall w, w <> [] -> forall l fuel m h nd,
  cstr m h l -> cstr m nd w -> (length l < fuel)%nat -> (length w < fuel)%nat ->
  exists p, strstr fuel m h nd = Ok p /\ finds_leftmost w l h p.
Proof. intros w Hw l fuel m h nd H1 H2 H3 H4. exact (strstr_ok w Hw l fuel m h nd H1 H2 H3 fuel H4). Qed.
Print Assumptions C05_strstr_partial.

Theorem C05_strstr_empty_needle_partial : forall c l fuel m h nd,
  cstr m h (c :: l) -> cstr m nd [] -> (0 < fuel)%nat -> strstr fuel m h nd = Ok h.
Proof. exact strstr_empty_needle. Qed.
Print Assumptions C05_strstr_empty_needle_partial.

(** strstr("", "") returns NULL instead of the haystack, although [] occurs in [] at 0. *)
Theorem C05_strstr_refuted : exists m h nd,
  cstr m h [] /\ cstr m nd [] /\ h <> NULL /\ strstr 9 m h nd = Ok NULL /\ ~ finds_leftmost [] [] h NULL.
Proof.
  exists (mem_of 1000 [0;0]), 1000, 1001. split; [apply cstr_nil; reflexivity|].
  split; [apply cstr_nil; reflexivity|]. split; [discriminate|]. split; [reflexivity|].
  intros [[H _]|[i [H1 [H2 H3]]]].
  - apply (H 0%nat). exists [], []. auto.
  - unfold NULL in H3. lia.
Qed.
Print Assumptions C05_strstr_refuted.

Example C05_case : cstr (mem_of 1000 [97;97;98;0;97;98;0]) 1000 [97;97;98] /\
  cstr (mem_of 1000 [97;97;98;0;97;98;0]) 1004 [97;98] /\
  strstr 9 (mem_of 1000 [97;97;98;0;97;98;0]) 1000 1004 = Ok 1001.
Proof. split; [|split]; [split; [repeat constructor; lia|vm_compute; auto 9]..|reflexivity]. Qed.

(** * C06 *)
Theorem C06_strcpy : forall s fuel m d a,
  cstr m a s -> mapped m d (len s + 1) -> disjoint d (len s + 1) a (len s + 1) ->
  (length s < fuel)%nat ->
  exists m', strcpy fuel m d a = Ok (m', d) /\ stored m m' d (s ++ [0]).
Proof. exact strcpy_full. Qed.
Print Assumptions C06_strcpy.

Theorem C06_stpcpy : forall s fuel m d a,
  cstr m a s -> mapped m d (len s + 1) -> disjoint d (len s + 1) a (len s + 1) ->
  (length s < fuel)%nat ->
  exists m', stpcpy fuel m d a = Ok (m', d + len s) /\ stored m m' d (s ++ [0]).
Proof. exact stpcpy_ok. Qed.
Print Assumptions C06_stpcpy.

Theorem C06_stpncpy : forall l fuel m d a n,
  bstr m a n l -> mapped m d n -> disjoint d n a (Z.min n (len l + 1)) ->
  (length l < fuel)%nat ->
  exists m', stpncpy fuel m d a n = Ok (m', d + len l) /\
             stored m m' d (l ++ repeat 0 (Z.to_nat (n - len l))).
Proof. exact stpncpy_ok. Qed.
Print Assumptions C06_stpncpy.

Theorem C06_strncpy : forall l fuel m d a n,
  bstr m a n l -> mapped m d n -> disjoint d n a (Z.min n (len l + 1)) ->
  (length l < fuel)%nat ->
  exists m', strncpy fuel m d a n = Ok (m', d) /\
             stored m m' d (l ++ repeat 0 (Z.to_nat (n - len l))).
Proof. exact strncpy_full. Qed.
Print Assumptions C06_strncpy.

Example C06_case : bstr (mem_of 1000 [97;98;0]) 1000 5 [97;98] /\
  match strncpy 9 (mem_union (mem_of 1000 [97;98;0]) (mem_of 2000 [1;1;1;1;1;1])) 2000 1000 5 with
  | Ok (m', r) => map m' [2000;2001;2002;2003;2004;2005] = [Some 97; Some 98; Some 0; Some 0; Some 0; Some 1] /\ r = 2000
  | _ => False end.
Proof.
  split; [|vm_compute; auto]. split; [repeat constructor; lia|]. split; [vm_compute; auto|].
  right. split; vm_compute; reflexivity.
Qed.

(** * C07 *)
Theorem C07_strncat : forall ds l fuel m d a n,
  d <> NULL -> cstr m d ds -> bstr m a n l ->
  mapped m (d + len ds) (len l + 1) ->
  disjoint (d + len ds) (len l + 1) a (Z.min n (len l + 1)) ->
  (length ds < fuel)%nat -> (length l < fuel)%nat ->
  exists m', strncat fuel m d a n = Ok (m', d) /\ stored m m' (d + len ds) (l ++ [0]).
Proof. exact strncat_ok. Qed.
Print Assumptions C07_strncat.

Theorem C07_strcat : forall ds s fuel m d a,
  d <> NULL -> cstr m d ds -> cstr m a s -> len s < USIZE_MAX ->
  mapped m (d + len ds) (len s + 1) ->
  disjoint (d + len ds) (len s + 1) a (len s + 1) ->
  (length ds < fuel)%nat -> (length s < fuel)%nat ->
  exists m', strcat fuel m d a = Ok (m', d) /\ stored m m' (d + len ds) (s ++ [0]).
Proof. exact strcat_full. Qed.
Print Assumptions C07_strcat.

Theorem C07_strlcpy : forall s fuel m d a n,
  cstr m a s -> 0 <= n ->
  mapped m d (Z.min n (len s + 1)) ->
  disjoint d (Z.min n (len s + 1)) a (len s + 1) -> (length s < fuel)%nat ->
  exists m', strlcpy fuel m d a n = Ok (m', len s) /\
    (n = 0 /\ m' = m \/ 0 < n /\ stored m m' d (firstn (Z.to_nat (n - 1)) s ++ [0])).
Proof. exact strlcpy_ok. Qed.
Print Assumptions C07_strlcpy.

(** [bstr m d n ds]: [ds] is what the destination holds within its [n] bytes; when it
    is unterminated there, nothing is written and n + strlen(src) is returned. *)
Theorem C07_strlcat : forall ds s fuel m d a n,
  d <> NULL -> bstr m d n ds -> cstr m a s -> 0 <= n ->
  mapped m (d + len ds) (Z.min (n - len ds) (len s + 1)) ->
  disjoint (d + len ds) (Z.min (n - len ds) (len s + 1)) a (len s + 1) ->
  (length ds < fuel)%nat -> (length s < fuel)%nat ->
  exists m', strlcat fuel m d a n = Ok (m', len ds + len s) /\
    (len ds = n /\ m' = m \/
     len ds < n /\ stored m m' (d + len ds) (firstn (Z.to_nat (n - len ds - 1)) s ++ [0])).
Proof. exact strlcat_ok. Qed.
Print Assumptions C07_strlcat.

Example C07_case : 
  match strlcat 9 (mem_union (mem_of 1000 [97;98;99;0]) (mem_of 2000 [120;0;1;1;1])) 2000 1000 4 with
  | Ok (m', r) => map m' [2000;2001;2002;2003;2004] = [Some 120; Some 97; Some 98; Some 0; Some 1] /\ r = 4
  | _ => False end /\ bstr (mem_of 2000 [120;0;1;1;1]) 2000 4 [120].
Proof.
  split; [vm_compute; auto|]. split; [repeat constructor; lia|]. split; [vm_compute; auto|].
  right. split; vm_compute; reflexivity.
Qed.

(** * C08 *)
Theorem C08_strncmp : forall l k fuel m a b n,
  bstr m a n l -> bstr m b n k -> (length l < fuel)%nat ->
  exists r, strncmp fuel m a b n = Ok r /\ sign_is r (lex l k).
Proof. exact strncmp_ok. Qed.
Print Assumptions C08_strncmp.

Theorem C08_strcmp : forall l k fuel m a b,
  cstr m a l -> cstr m b k -> len l < USIZE_MAX -> len k < USIZE_MAX -> (length l < fuel)%nat ->
  exists r, strcmp fuel m a b = Ok r /\ sign_is r (lex l k).
Proof. exact strcmp_ok. Qed.
Print Assumptions C08_strcmp.

(** order laws of the observable results *)
Theorem C08_strcmp_total_order : forall l k j fuel m a b c,
  cstr m a l -> cstr m b k -> cstr m c j ->
  len l < USIZE_MAX -> len k < USIZE_MAX -> len j < USIZE_MAX ->
  (length l < fuel)%nat -> (length k < fuel)%nat ->
  exists ab ba bc ac,
    strcmp fuel m a b = Ok ab /\ strcmp fuel m b a = Ok ba /\
    strcmp fuel m b c = Ok bc /\ strcmp fuel m a c = Ok ac /\
    (ab = 0 <-> l = k) /\ (ab < 0 <-> ba > 0) /\ (ab > 0 <-> ba < 0) /\
    (ab <= 0 -> bc <= 0 -> ac <= 0).
Proof. exact strcmp_total_order. Qed.
Print Assumptions C08_strcmp_total_order.

Example C08_case : strcmp 9 (mem_of 1000 [97;200;0;97;98;0]) 1000 1003 = Ok 102 /\
  lex [97;200] [97;98] = Gt /\ cstr (mem_of 1000 [97;200;0;97;98;0]) 1000 [97;200].
Proof. split; [reflexivity|]. split; [reflexivity|]. split; [repeat constructor; lia|vm_compute; auto 9]. Qed.

(** * C09 *)
Theorem C09_strchr : forall s fuel m p c,
  p <> NULL -> cstr m p s -> (length s < fuel)%nat ->
  exists r, strchr fuel m p c = Ok r /\ finds_first (c mod 256) (s ++ [0]) p r.
Proof. exact strchr_ok. Qed.
Print Assumptions C09_strchr.

Theorem C09_strchrnul : forall s fuel m p c,
  cstr m p s -> (length s < fuel)%nat ->
  exists r, strchrnul fuel m p c = Ok r /\
    (~ In (c mod 256) (s ++ [0]) /\ r = p + len s \/
     exists i, first_occ (c mod 256) (s ++ [0]) i /\ r = p + Z.of_nat i).
Proof. exact strchrnul_full. Qed.
Print Assumptions C09_strchrnul.

(** Full statement: finds_last (c mod 256) (s ++ [0]) p r, terminator included.
    True for every c whose low byte is non-zero: *)
Theorem C09_strrchr_partial : forall s fuel m p c,
  p <> NULL -> cstr m p s -> (length s < fuel)%nat -> c mod 256 <> 0 ->
  exists r, strrchr fuel m p c = Ok r /\ finds_last (c mod 256) (s ++ [0]) p r.
Proof. exact strrchr_full. Qed.
Print Assumptions C09_strrchr_partial.

(** ... and false for c = 0 on every string: NULL is returned instead of the
    terminator's address. *)
Theorem C09_strrchr_refuted : forall s fuel m p,
  0 < p -> cstr m p s -> (length s < fuel)%nat ->
  strrchr fuel m p 0 = Ok NULL /\ ~ finds_last 0 (s ++ [0]) p NULL.
Proof. exact strrchr_nul_bad. Qed.
Print Assumptions C09_strrchr_refuted.

Example C09_case : cstr (mem_of 1000 [97;98;97;0]) 1000 [97;98;97] /\
  strchr 9 (mem_of 1000 [97;98;97;0]) 1000 97 = Ok 1000 /\
  strrchr 9 (mem_of 1000 [97;98;97;0]) 1000 97 = Ok 1002 /\
  strchr 9 (mem_of 1000 [97;98;97;0]) 1000 0 = Ok 1003.
Proof. split; [split; [repeat constructor; lia|vm_compute; auto 9]|vm_compute; auto]. Qed.

(** * C10 *)
Theorem C10_strspn : forall D s fuel m p q,
  cstr m p s -> cstr m q D -> (length s < fuel)%nat -> (length D < fuel)%nat ->
  exists n, strspn fuel m p q = Ok n /\ longest_prefix (fun b => In b D) s n.
Proof. exact strspn_ok. Qed.
Print Assumptions C10_strspn.

Theorem C10_strcspn : forall D s fuel m p q,
  cstr m p s -> cstr m q D -> (length s < fuel)%nat -> (length D < fuel)%nat ->
  exists n, strcspn fuel m p q = Ok n /\ longest_prefix (fun b => ~ In b D) s n.
Proof. exact strcspn_ok. Qed.
Print Assumptions C10_strcspn.

Theorem C10_strpbrk : forall D s fuel m p q,
  0 < p -> cstr m p s -> cstr m q D -> (length s < fuel)%nat -> (length D < fuel)%nat ->
  exists r, strpbrk fuel m p q = Ok r /\
    (r = NULL /\ Forall (fun b => ~ In b D) s \/
     exists pre d post, s = pre ++ d :: post /\ Forall (fun b => ~ In b D) pre /\ In d D /\ r = p + len pre).
Proof. exact strpbrk_full. Qed.
Print Assumptions C10_strpbrk.

(** any number [n] of strsep calls: pointers to the fields in order, then NULL *)
Theorem C10_strsep : forall D s fuel q,
  exists fs, fields D s fs /\ forall n m a,
  0 < a -> cstr m a s -> cstr m q D -> disjoint a (len s + 1) q (len D + 1) ->
  (length s < fuel)%nat -> (length D < fuel)%nat ->
  exists m' cur' ps,
    repeat_calls (fun m c => strsep fuel m c q) n m a
      = Ok (m', cur', ps ++ repeat NULL (n - length fs)) /\
    Forall2 (fun p f => cstr m' p f) ps (firstn n fs) /\
    (forall x, ~ (a <= x < a + len s) -> m' x = m x).
Proof. exact strsep_full. Qed.
Print Assumptions C10_strsep.

Example C10_case : fields [44] [97;44;44;98] [[97];[];[98]] /\
  match repeat_calls (fun m c => strsep 9 m c 1010) 4
          (mem_union (mem_of 1000 [97;44;44;98;0]) (mem_of 1010 [44;0])) 1000 with
  | Ok (_, _, ps) => ps = [1000;1002;1003;0] | _ => False end.
Proof.
  split; [|vm_compute; reflexivity].
  apply (fields_more [44] [97] 44 [44;98]); [repeat constructor; cbn; intuition lia|cbn; auto|].
  apply (fields_more [44] [] 44 [98]); [constructor|cbn; auto|].
  constructor. repeat constructor; cbn; intuition lia.
Qed.

(** * C11 *)
Theorem C11_strtok_r : forall D s fuel q,
  exists ts, tokens D s ts /\ forall n m a lasts,
  0 < a -> cstr m a s -> cstr m q D -> disjoint a (len s + 1) q (len D + 1) ->
  (length s < fuel)%nat -> (length D < fuel)%nat ->
  exists m' cur' ps,
    strtok_calls fuel q n m a lasts = Ok (m', cur', ps ++ repeat NULL (n - length ts)) /\
    Forall2 (fun p t => cstr m' p t) ps (firstn n ts) /\
    (forall x, ~ (a <= x < a + len s) -> m' x = m x).
Proof. exact strtok_full. Qed.
Print Assumptions C11_strtok_r.

Example C11_case : tokens [44] [44;97;98;44;44;99] [[97;98];[99]] /\
  match strtok_calls 9 1010 4
          (mem_union (mem_of 1000 [44;97;98;44;44;99;0]) (mem_of 1010 [44;0])) 1000 0 with
  | Ok (_, _, ps) => ps = [1001;1005;0;0] | _ => False end.
Proof.
  split; [|vm_compute; reflexivity].
  apply (tokens_more [44] [44] [97;98] [44;44;99]); [repeat constructor; cbn; intuition lia|discriminate|
    repeat constructor; cbn; intuition lia|cbn; auto|].
  apply (tokens_more [44] [44;44] [99] []); [repeat constructor; cbn; intuition lia|discriminate|
    repeat constructor; cbn; intuition lia|exact I|constructor; constructor].
Qed.

(** * C12 *)
(** Full statement: for every needle and haystack, finds_leftmost_nocase.  Proved for
    non-empty needles consisting of letters (any haystack). *)
Theorem C12_strcasestr_partial : forall w, w <> [] -> Forall letter w -> forall l fuel m h nd,
  cstr m h l -> cstr m nd w -> (length l < fuel)%nat -> (length w < fuel)%nat ->
  exists p, strcasestr fuel m h nd = Ok p /\ finds_leftmost_nocase w l h p.
Proof. intros w H0 H1 l fuel m h nd H2 H3 H4 H5. exact (strcasestr_ok w H0 H1 l fuel m h nd H2 H3 H4 fuel H5). Qed.
Print Assumptions C12_strcasestr_partial.

(** strcasestr("@", "`") reports a match although no case folding relates the two. *)
Theorem C12_strcasestr_refuted_wrong_match : exists m h nd,
  h <> NULL /\ cstr m h [64] /\ cstr m nd [96] /\
  strcasestr 9 m h nd = Ok h /\ (forall i, ~ occurs_at (map lower [96]) (map lower [64]) i).
Proof. exact strcasestr_wrong_match. Qed.
Print Assumptions C12_strcasestr_refuted_wrong_match.

(** strcasestr("a", "a  ") reads beyond the haystack's terminator. *)
Theorem C12_strcasestr_refuted_overread : exists m h nd,
  cstr m h [97] /\ cstr m nd [97;32;32] /\ strcasestr 9 m h nd = Fault.
Proof. exact strcasestr_overread. Qed.
Print Assumptions C12_strcasestr_refuted_overread.

Example C12_case : strcasestr 9 (mem_of 1000 [120;65;66;0;97;98;0]) 1000 1004 = Ok 1001 /\
  Forall letter [97;98] /\ cstr (mem_of 1000 [120;65;66;0;97;98;0]) 1004 [97;98].
Proof.
  split; [reflexivity|]. split; [repeat constructor; lia|]. split; [repeat constructor; lia|vm_compute; auto 9].
Qed.

(** * C13 *)
(** [alloc n] is the allocator's answer; a non-NULL answer must be a mapped block of
    the requested size not overlapping the source (what malloc guarantees). *)
Theorem C13_strndup : forall l fuel alloc m s n,
  s <> NULL -> bstr m s n l -> (length l < fuel)%nat ->
  (alloc (len l + 1) <> NULL -> mapped m (alloc (len l + 1)) (len l + 1) /\
     disjoint (alloc (len l + 1)) (len l + 1) s (Z.min n (len l + 1))) ->
  if alloc (len l + 1) =? NULL
  then strndup fuel alloc m s n = Ok (m, NULL, true)
  else exists m', strndup fuel alloc m s n = Ok (m', alloc (len l + 1), false) /\
                  stored m m' (alloc (len l + 1)) (l ++ [0]).
Proof. exact strndup_ok. Qed.
Print Assumptions C13_strndup.

Theorem C13_strdup : forall s fuel alloc m p,
  p <> NULL -> cstr m p s -> len s < USIZE_MAX -> (length s < fuel)%nat ->
  (alloc (len s + 1) <> NULL -> mapped m (alloc (len s + 1)) (len s + 1) /\
     disjoint (alloc (len s + 1)) (len s + 1) p (len s + 1)) ->
  if alloc (len s + 1) =? NULL
  then strdup fuel alloc m p = Ok (m, NULL, true)
  else exists m', strdup fuel alloc m p = Ok (m', alloc (len s + 1), false) /\
                  stored m m' (alloc (len s + 1)) (s ++ [0]).
Proof. exact strdup_full. Qed.
Print Assumptions C13_strdup.

Theorem C13_strxfrm : forall s fuel m d a n,
  a <> NULL -> cstr m a s -> (length s < fuel)%nat ->
  (len s < n -> mapped m d (len s + 1) /\ disjoint d (len s + 1) a (len s + 1)) ->
  exists m', strxfrm fuel m d a n = Ok (m', len s) /\
    (len s < n /\ stored m m' d (s ++ [0]) \/ n <= len s /\ m' = m).
Proof. exact strxfrm_ok. Qed.
Print Assumptions C13_strxfrm.

Theorem C13_strerror_r : forall s fuel m msg buf n,
  msg <> NULL -> cstr m msg s -> (length s < fuel)%nat -> 0 <= n ->
  mapped m buf (Z.min n (len s + 1)) -> disjoint buf (Z.min n (len s + 1)) msg (len s + 1) ->
  exists m' r, strerror_r fuel m msg buf n = Ok (m', r) /\
    (len s < n /\ r = 0 /\ stored m m' buf (s ++ [0]) \/
     n <= len s /\ r = 34 /\
       (n = 0 /\ m' = m \/ 0 < n /\ stored m m' buf (firstn (Z.to_nat (n - 1)) s ++ [0]))).
Proof. exact strerror_r_ok. Qed.
Print Assumptions C13_strerror_r.

Example C13_case :
  match strdup 9 (fun n => if n =? 3 then 2000 else 0)
     (mem_union (mem_of 1000 [97;98;0]) (mem_of 2000 [1;1;1])) 1000 with
  | Ok (m', p, false) => p = 2000 /\ map m' [2000;2001;2002] = [Some 97; Some 98; Some 0]
  | _ => False end.
Proof. vm_compute. auto. Qed.
