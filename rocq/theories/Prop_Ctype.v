(** Property theorems C14 (ctype.h, strings.h). *)
From Verif Require Import Base String_spec Ctype_model Ctype_spec Ctype_proofs.

Theorem C14_classes :
  accepts isdigit (fun c => In c digits) /\
  accepts islower (fun c => In c lowers) /\
  accepts isupper (fun c => In c uppers) /\
  accepts isalpha (fun c => In c (uppers ++ lowers)) /\
  accepts isalnum (fun c => In c (digits ++ uppers ++ lowers)) /\
  accepts isblank (fun c => In c blanks) /\
  accepts iscntrl (fun c => 0 <= c <= 31 \/ c = 127) /\
  accepts isgraph (fun c => In c (digits ++ uppers ++ lowers ++ puncts)) /\
  accepts isprint (fun c => In c (32 :: digits ++ uppers ++ lowers ++ puncts)) /\
  accepts ispunct (fun c => In c puncts) /\
  accepts isspace (fun c => In c spaces) /\
  accepts isxdigit (fun c => In c xdigits) /\
  accepts isascii (fun c => 0 <= c <= 127).
Proof.
  exact (conj isdigit_ok (conj islower_ok (conj isupper_ok (conj isalpha_ok (conj isalnum_ok
    (conj isblank_ok (conj iscntrl_ok (conj isgraph_ok (conj isprint_ok (conj ispunct_ok
    (conj isspace_ok (conj isxdigit_ok isascii_ok)))))))))))).
Qed.
Print Assumptions C14_classes.

Theorem C14_tolower : forall c,
  (forall l, case_pair c l -> tolower c = l) /\ (~ In c uppers -> tolower c = c) /\
  tolower (tolower c) = tolower c.
Proof. exact tolower_ok. Qed.
Print Assumptions C14_tolower.

Theorem C14_toupper : forall c,
  (forall u, case_pair u c -> toupper c = u) /\ (~ In c lowers -> toupper c = c) /\
  toupper (toupper c) = toupper c.
Proof. exact toupper_ok. Qed.
Print Assumptions C14_toupper.

Example C14_case : case_pair 81 113 /\ tolower 81 = 113 /\ toupper 113 = 81 /\ tolower 200 = 200.
Proof. split; [exists 16%nat; vm_compute; auto|vm_compute; auto]. Qed.

(** Full statement: the sign is the lexicographic order of the lower-cased strings
    compared as unsigned bytes.  Equality is proved for all strings; the sign only when
    both strings are 7-bit (the missing case is false, see the refutation). *)
Theorem C14_strncasecmp_partial : forall l k fuel m a b n,
  a <> NULL -> b <> NULL -> bstr m a n l -> bstr m b n k -> (length l < fuel)%nat ->
  exists r, strncasecmp fuel m a b n = Ok r /\
    (r = 0 <-> map lower l = map lower k) /\
    (Forall (fun c => c < 128) l -> Forall (fun c => c < 128) k ->
     sign_is r (lex (map lower l) (map lower k))).
Proof. exact strncasecmp_ok. Qed.
Print Assumptions C14_strncasecmp_partial.

Theorem C14_strcasecmp_partial : forall l k fuel m a b,
  a <> NULL -> b <> NULL -> cstr m a l -> cstr m b k -> len l <= USIZE_MAX -> len k <= USIZE_MAX ->
  (length l < fuel)%nat ->
  exists r, strcasecmp fuel m a b = Ok r /\
    (r = 0 <-> map lower l = map lower k) /\
    (Forall (fun c => c < 128) l -> Forall (fun c => c < 128) k ->
     sign_is r (lex (map lower l) (map lower k))).
Proof. exact strcasecmp_ok. Qed.
Print Assumptions C14_strcasecmp_partial.

(** strcasecmp("\xC8", "a") is negative although byte 200 > 97: characters are
    compared as signed (x86_64 c_char = i8). *)
Theorem C14_strcasecmp_refuted : exists m a b,
  a <> NULL /\ b <> NULL /\ cstr m a [200] /\ cstr m b [97] /\
  strcasecmp 9 m a b = Ok (-153) /\ lex (map lower [200]) (map lower [97]) = Gt.
Proof.
  exists (mem_of 1000 [200;0;97;0]), 1000, 1002. split; [discriminate|]. split; [discriminate|].
  split; [split; [repeat constructor; lia|vm_compute; auto]|].
  split; [split; [repeat constructor; lia|vm_compute; auto]|]. vm_compute. auto.
Qed.
Print Assumptions C14_strcasecmp_refuted.

Example C14_casecmp_case : cstr (mem_of 1000 [72;105;0;104;73;0]) 1000 [72;105] /\
  strcasecmp 9 (mem_of 1000 [72;105;0;104;73;0]) 1000 1003 = Ok 0.
Proof. split; [split; [repeat constructor; lia|vm_compute; auto 9]|reflexivity]. Qed.

(** ffs/ffsl/ffsll ([w] = width of the type, 32 or 64): 1-based index of the lowest
    set bit of the two's complement value, 0 for 0. *)
Theorem C53_ffs : forall w i, (0 < w)%nat -> - 2 ^ (Z.of_nat w - 1) <= i < 2 ^ (Z.of_nat w - 1) ->
  (i = 0 /\ ffs w i = 0) \/
  (i <> 0 /\ 0 < ffs w i /\ Z.testbit i (ffs w i - 1) = true /\
   forall j, 0 <= j < ffs w i - 1 -> Z.testbit i j = false).
Proof. exact ffs_ok. Qed.
Print Assumptions C53_ffs.
Example C53_ffs_case : ffs 32 (-2147483648) = 32 /\ ffs 64 12 = 3.
Proof. vm_compute. auto. Qed.
