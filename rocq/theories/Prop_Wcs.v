(* C63-C65: wide strings.  One memory cell is one wchar_t. *)
From Verif Require Import Base String_spec Wcs_model Wcs_spec Wcs_proofs.

(** * C63: searching and splitting *)
Theorem C63_wcslen : forall s fuel m a, a <> NULL -> wstr m a s -> (length s < fuel)%nat -> wcslen fuel m a = Ok (len s).
Proof. exact wcslen_ok. Qed.
Print Assumptions C63_wcslen.
Theorem C63_wcsnlen : forall l fuel m a n, wbstr m a n l -> (length l < fuel)%nat -> wcsnlen fuel m a n = Ok (len l).
Proof. exact wcsnlen_ok. Qed.
Print Assumptions C63_wcsnlen.
Theorem C63_wcschr : forall s fuel m a c, a <> NULL -> wstr m a s -> (length s < fuel)%nat ->
  exists p, wcschr fuel m a c = Ok p /\ finds_first c (s ++ [0]) a p.
Proof. exact wcschr_ok. Qed.
Print Assumptions C63_wcschr.
(* Full statement: for every c, 0 included. *)
Theorem C63_wcsrchr_partial : forall s fuel m a c, c <> 0 -> wstr m a s -> (length s < fuel)%nat ->
  exists p, wcsrchr fuel m a c = Ok p /\ finds_last c (s ++ [0]) a p.
Proof. exact wcsrchr_ok. Qed.
Print Assumptions C63_wcsrchr_partial.
(* wcsrchr(L"ab", 0) is NULL, not the terminator. *)
Theorem C63_wcsrchr_refuted : exists m p, p <> NULL /\ wstr m p [97; 98] /\ wcsrchr 9 m p 0 = Ok NULL /\
  ~ finds_last 0 ([97; 98] ++ [0]) p NULL.
Proof. exact wcsrchr_wrong. Qed.
Print Assumptions C63_wcsrchr_refuted.
Theorem C63_wmemchr : forall l m a c, bytes_at m a l -> exists p, wmemchr m a c (len l) = Ok p /\ finds_first c l a p.
Proof. exact wmemchr_ok. Qed.
Print Assumptions C63_wmemchr.
Theorem C63_wcsspn : forall D s fuel m a q, 0 < q -> wstr m a s -> wstr m q D -> (length s < fuel)%nat -> (length D < fuel)%nat ->
  exists n, wcsspn fuel m a q = Ok n /\ longest_prefix (fun c => In c D) s n.
Proof. exact wcsspn_ok. Qed.
Print Assumptions C63_wcsspn.
Theorem C63_wcscspn : forall D s fuel m a q, 0 < q -> wstr m a s -> wstr m q D -> (length s < fuel)%nat -> (length D < fuel)%nat ->
  exists n, wcscspn fuel m a q = Ok n /\ longest_prefix (fun c => ~ In c D) s n.
Proof. exact wcscspn_ok. Qed.
Print Assumptions C63_wcscspn.
Theorem C63_wcspbrk : forall D s fuel m a q, 0 < q -> wstr m a s -> wstr m q D -> (length s < fuel)%nat -> (length D < fuel)%nat ->
  exists r, wcspbrk fuel m a q = Ok r /\
    (r = NULL /\ Forall (fun c => ~ In c D) s \/
     exists pre d post, s = pre ++ d :: post /\ Forall (fun c => ~ In c D) pre /\ In d D /\ r = a + len pre).
Proof. exact wcspbrk_ok. Qed.
Print Assumptions C63_wcspbrk.
Theorem C63_wcsstr : forall w l fuel m h nd, h <> NULL -> nd <> NULL -> wstr m h l -> wstr m nd w ->
  (length l < fuel)%nat -> (length w < fuel)%nat -> exists p, wcsstr fuel m h nd = Ok p /\ finds_leftmost w l h p.
Proof. exact wcsstr_ok. Qed.
Print Assumptions C63_wcsstr.
Theorem C63_wcstok : forall D s fuel q, exists ts, tokens D s ts /\ forall n m a state,
  0 < a -> 0 < q -> wstr m a s -> wstr m q D -> disjoint a (len s + 1) q (len D + 1) ->
  (length s < fuel)%nat -> (length D < fuel)%nat ->
  exists m' state' ps,
    all_calls (fun m s state => wcstok fuel m s q state) n m a state = Ok (m', state', ps ++ repeat NULL (n - length ts)) /\
    Forall2 (fun p t => wstr m' p t) ps (firstn n ts) /\
    (forall x, ~ (a <= x < a + len s) -> m' x = m x).
Proof. exact wcstok_full. Qed.
Print Assumptions C63_wcstok.

Definition ex_mem : mem := mem_union (mem_of 1000 [44; 8364; 98; 44; 44; 128512; 0]) (mem_of 1010 [44; 0; 44; 128512; 0]).
Example C63_case :
  wstr ex_mem 1000 [44; 8364; 98; 44; 44; 128512] /\ wstr ex_mem 1010 [44] /\
  disjoint 1000 7 1010 2 /\ wcslen 9 ex_mem 1000 = Ok 6 /\ wcsnlen 9 ex_mem 1000 4 = Ok 4 /\
  wcschr 9 ex_mem 1000 98 = Ok 1002 /\ wcschr 9 ex_mem 1000 0 = Ok 1006 /\ wcsrchr 9 ex_mem 1000 44 = Ok 1004 /\
  wcsspn 9 ex_mem 1000 1010 = Ok 1 /\ wcscspn 9 ex_mem 1001 1010 = Ok 2 /\ wcspbrk 9 ex_mem 1001 1010 = Ok 1003 /\
  wcsstr 9 ex_mem 1000 1012 = Ok 1004 /\
  match all_calls (fun m s state => wcstok 9 m s 1010 state) 4 ex_mem 1000 0 with
  | Ok (_, _, ps) => ps = [1001; 1005; 0; 0] | _ => False end.
Proof.
  split; [split; [repeat constructor; discriminate|cbn; intuition]|].
  split; [split; [repeat constructor; discriminate|cbn; intuition]|].
  split; [left; lia|]. repeat (split; [reflexivity|]). reflexivity.
Qed.

(** * C64: copying and concatenating *)
Theorem C64_wcscpy : forall s fuel m d a,
  wstr m a s -> mapped m d (len s + 1) -> disjoint d (len s + 1) a (len s + 1) -> (length s < fuel)%nat ->
  exists m', wcscpy fuel m d a = Ok (m', d) /\ stored m m' d (s ++ [0]).
Proof. exact wcscpy_ok. Qed.
Print Assumptions C64_wcscpy.
Theorem C64_wcpcpy : forall s fuel m d a, a <> NULL ->
  wstr m a s -> mapped m d (len s + 1) -> disjoint d (len s + 1) a (len s + 1) -> (length s < fuel)%nat ->
  exists m', wcpcpy fuel m d a = Ok (m', d + len s) /\ stored m m' d (s ++ [0]).
Proof. exact wcpcpy_ok. Qed.
Print Assumptions C64_wcpcpy.
Theorem C64_wcsncpy : forall l fuel m d a n,
  wbstr m a n l -> mapped m d n -> disjoint d n a (Z.min n (len l + 1)) -> (length l < fuel)%nat ->
  exists m', wcsncpy fuel m d a n = Ok (m', d) /\ stored m m' d (l ++ repeat 0 (Z.to_nat (n - len l))).
Proof. exact wcsncpy_ok. Qed.
Print Assumptions C64_wcsncpy.
Theorem C64_wcpncpy : forall l fuel m d a n,
  wbstr m a n l -> mapped m d n -> disjoint d n a (Z.min n (len l + 1)) -> (length l < fuel)%nat ->
  exists m', wcpncpy fuel m d a n = Ok (m', d + len l) /\ stored m m' d (l ++ repeat 0 (Z.to_nat (n - len l))).
Proof. exact wcpncpy_ok. Qed.
Print Assumptions C64_wcpncpy.
Theorem C64_wcsncat : forall ds l fuel m d a n, d <> NULL ->
  wstr m d ds -> wbstr m a n l -> mapped m (d + len ds) (len l + 1) ->
  disjoint (d + len ds) (len l + 1) a (Z.min n (len l + 1)) -> (length ds < fuel)%nat -> (length l < fuel)%nat ->
  exists m', wcsncat fuel m d a n = Ok (m', d) /\ stored m m' (d + len ds) (l ++ [0]).
Proof. exact wcsncat_ok. Qed.
Print Assumptions C64_wcsncat.
Theorem C64_wcscat : forall ds s fuel m d a, d <> NULL -> len s < USIZE_MAX ->
  wstr m d ds -> wstr m a s -> mapped m (d + len ds) (len s + 1) ->
  disjoint (d + len ds) (len s + 1) a (len s + 1) -> (length ds < fuel)%nat -> (length s < fuel)%nat ->
  exists m', wcscat fuel m d a = Ok (m', d) /\ stored m m' (d + len ds) (s ++ [0]).
Proof. exact wcscat_ok. Qed.
Print Assumptions C64_wcscat.
Theorem C64_wmemcpy : forall l m d s, len l < 2 ^ 62 -> bytes_at m s l -> mapped m d (len l) -> disjoint d (len l) s (len l) ->
  exists m', wmemcpy m d s (len l) = Ok (m', d) /\ stored m m' d l.
Proof. exact wmemcpy_ok. Qed.
Print Assumptions C64_wmemcpy.
Theorem C64_wmemmove : forall l m d s, len l < 2 ^ 62 -> bytes_at m s l -> mapped m d (len l) ->
  exists m', wmemmove m d s (len l) = Ok (m', d) /\ stored m m' d l.
Proof. exact wmemmove_ok. Qed.
Print Assumptions C64_wmemmove.
Theorem C64_wmemset : forall m d c n, 0 <= n -> mapped m d n ->
  exists m', wmemset m d c n = Ok (m', d) /\ stored m m' d (repeat c (Z.to_nat n)).
Proof. exact wmemset_ok. Qed.
Print Assumptions C64_wmemset.

Definition cp_mem : mem := mem_union (mem_of 1000 [8364; 98; 0]) (mem_of 1010 [7; 0; 9; 9; 9; 9]).
Definition show (r : res (mem * Z)) (n : nat) : option (Z * list (option Z)) :=
  match r with Ok (m, p) => Some (p, map m (map (fun i => 1010 + Z.of_nat i) (seq 0 n))) | _ => None end.
Example C64_case :
  wstr cp_mem 1000 [8364; 98] /\ wbstr cp_mem 1000 1 [8364] /\ wstr cp_mem 1010 [7] /\ mapped cp_mem 1010 6 /\
  show (wcpcpy 9 cp_mem 1010 1000) 4 = Some (1012, [Some 8364; Some 98; Some 0; Some 9]) /\
  show (wcsncpy 9 cp_mem 1010 1000 5) 6 = Some (1010, [Some 8364; Some 98; Some 0; Some 0; Some 0; Some 9]) /\
  show (wcsncat 9 cp_mem 1010 1000 1) 4 = Some (1010, [Some 7; Some 8364; Some 0; Some 9]) /\
  show (wcscat 9 cp_mem 1010 1000) 5 = Some (1010, [Some 7; Some 8364; Some 98; Some 0; Some 9]) /\
  show (wmemmove cp_mem 1011 1010 3) 5 = Some (1011, [Some 7; Some 7; Some 0; Some 9; Some 9]) /\
  show (wmemset cp_mem 1012 5 2) 5 = Some (1012, [Some 7; Some 0; Some 5; Some 5; Some 9]).
Proof.
  split; [split; [repeat constructor; discriminate|cbn; intuition]|].
  split; [split; [repeat constructor; discriminate|cbn; intuition]|].
  split; [split; [repeat constructor; discriminate|cbn; intuition]|].
  split; [intros x Hx; assert (x = 1010 \/ x = 1011 \/ x = 1012 \/ x = 1013 \/ x = 1014 \/ x = 1015) by lia;
    repeat match goal with H : _ \/ _ |- _ => destruct H end; subst x; eexists; vm_compute; reflexivity|].
  repeat (split; [vm_compute; reflexivity|]). vm_compute. reflexivity.
Qed.

(** * C65: comparing *)
(* Full statement: for all wchar_t values, negative ones included. *)
Theorem C65_wcsncmp_partial : forall l k fuel m a b n, wchars l -> wchars k -> wbstr m a n l -> wbstr m b n k -> (length l < fuel)%nat ->
  exists r, wcsncmp fuel m a b n = Ok r /\ sign_is r (lex l k).
Proof. exact wcsncmp_ok. Qed.
Print Assumptions C65_wcsncmp_partial.
Theorem C65_wcscmp_partial : forall l k fuel m a b, wchars l -> wchars k -> wstr m a l -> wstr m b k ->
  len l < USIZE_MAX -> len k < USIZE_MAX -> (length l < fuel)%nat ->
  exists r, wcscmp fuel m a b = Ok r /\ sign_is r (lex l k).
Proof. exact wcscmp_ok. Qed.
Print Assumptions C65_wcscmp_partial.
Theorem C65_wcscoll_partial : forall l k fuel m a b, wchars l -> wchars k -> wstr m a l -> wstr m b k ->
  len l < USIZE_MAX -> len k < USIZE_MAX -> (length l < fuel)%nat ->
  exists r, wcscoll fuel m a b = Ok r /\ sign_is r (lex l k).
Proof. exact wcscmp_ok. Qed.
Print Assumptions C65_wcscoll_partial.
Theorem C65_wmemcmp_partial : forall l k m a b n, wchars l -> wchars k -> len l = n -> len k = n -> bytes_at m a l -> bytes_at m b k ->
  exists r, wmemcmp m a b n = Ok r /\ sign_is r (lex l k).
Proof. exact wmemcmp_ok. Qed.
Print Assumptions C65_wmemcmp_partial.
(* -2 is less than 2147483647, but both functions answer that it is greater: the
   difference wraps. *)
Theorem C65_wcscmp_refuted : exists m a b l k, wstr m a l /\ wstr m b k /\
  Forall (fun c => - 2 ^ 31 <= c < 2 ^ 31) (l ++ k) /\ lex l k = Lt /\ wcscmp 9 m a b = Ok 2147483647.
Proof. exact wcscmp_wrong. Qed.
Print Assumptions C65_wcscmp_refuted.
Theorem C65_wmemcmp_refuted : exists m a b l k, bytes_at m a l /\ bytes_at m b k /\ len l = 1 /\ len k = 1 /\
  Forall (fun c => - 2 ^ 31 <= c < 2 ^ 31) (l ++ k) /\ lex l k = Lt /\ wmemcmp m a b 1 = Ok 2147483647.
Proof. exact wmemcmp_wrong. Qed.
Print Assumptions C65_wmemcmp_refuted.
Example C65_case :
  wchars [97; 8364] /\ wchars [97; 98; 99] /\ wstr (mem_of 1000 [97; 8364; 0; 97; 98; 99; 0]) 1000 [97; 8364] /\
  wstr (mem_of 1000 [97; 8364; 0; 97; 98; 99; 0]) 1003 [97; 98; 99] /\
  wcscmp 9 (mem_of 1000 [97; 8364; 0; 97; 98; 99; 0]) 1000 1003 = Ok 8266 /\
  wcsncmp 9 (mem_of 1000 [97; 8364; 0; 97; 98; 99; 0]) 1000 1003 1 = Ok 0 /\
  wmemcmp (mem_of 1000 [97; 8364; 0; 97; 98; 99; 0]) 1003 1000 2 = Ok (-8266).
Proof.
  split; [repeat constructor; lia|]. split; [repeat constructor; lia|].
  split; [split; [repeat constructor; discriminate|cbn; intuition]|].
  split; [split; [repeat constructor; discriminate|cbn; intuition]|].
  repeat (split; [vm_compute; reflexivity|]). vm_compute. reflexivity.
Qed.
