(* C44: sscanf's integer and string conversions.  [sscanf fuel m i f args] scans input string i with
   format f; args are the pointers; it returns the new memory and the result. *)
From Coq Require Import String ZArith List Bool Lia.
From Verif Require Import Base Numeral Word_mem Ctype_spec Printf_model Scanf_model Scanf_spec Scanf_proofs.
Import ListNotations.
Open Scope string_scope.
Open Scope list_scope.
Open Scope Z_scope.

(* Missing: the cases excluded by the premises of [scans] marked (+), and calls that end
   early by a matching or input failure (refuted below); %n and %p (modelled), floats, wide
   characters. *)

(* Every format of ordinary characters, spaces, %%, integer conversions (with '*', width
   and length modifier), %s, %c and %[ (with '*' and width), every ASCII input that matches it in the sense of the C standard:
   the values of the items are stored at the pointers, in order, nothing else changes, and
   the result is the number of values stored. *)
Theorem C44_scanf_partial : forall fuel m u l st,
  scans true l u st -> Forall (fun c => 0 < c < 128) u -> Forall good_directive l ->
  Forall (fun x => mapped m (fst x) (len (snd x))) st -> (length (text_of l) < fuel)%nat ->
  exists m', sscanf fuel m u (text_of l) (pointers l) = Ok (m', len st) /\ stores m st m'.
Proof.
  intros fuel m u l st H A G MP FU. unfold sscanf.
  apply (scan_ok true l u st H (SS u 0 false 0 0 m (pointers l)) fuel A G); auto.
  split; [reflexivity|left; split; reflexivity].
Qed.
Print Assumptions C44_scanf_partial.

Definition tgt : mem := mem_of 1000 (repeat 35 16).
Definition run (i f : string) : option (Z * list (option Z)) :=
  match sscanf 50 tgt (codes i) (codes f) [1000; 1004; 1008] with
  | Ok (m, v) => Some (v, map m [1000; 1001; 1002; 1003; 1004; 1005; 1006; 1007; 1008; 1009])
  | _ => None
  end.

(* At the end of the input the last character is read again: sscanf("12", "%d%d", &a, &b)
   returns 2 and sets b to 2. *)
Theorem C44_end_refuted :
  run "12" "%d%d" = Some (2, map Some [12; 0; 0; 0; 2; 0; 0; 0; 35; 35]).
Proof. vm_compute. reflexivity. Qed.
Print Assumptions C44_end_refuted.

(* There is no matching failure: "%d" on "abc" stores 0 and returns 1; "%d:%d" on "1:x"
   returns 2. *)
Theorem C44_no_failure_refuted :
  run "abc" "%d" = Some (1, map Some [0; 0; 0; 0; 35; 35; 35; 35; 35; 35]) /\
  run "1:x" "%d:%d" = Some (2, map Some [1; 0; 0; 0; 0; 0; 0; 0; 35; 35]).
Proof. split; vm_compute; reflexivity. Qed.
Print Assumptions C44_no_failure_refuted.

(* No signs: "-5" and "+5" are read as 0. *)
Theorem C44_sign_refuted :
  run "-5" "%d" = Some (1, map Some [0; 0; 0; 0; 35; 35; 35; 35; 35; 35]) /\
  run "+5" "%d" = Some (1, map Some [0; 0; 0; 0; 35; 35; 35; 35; 35; 35]).
Proof. split; vm_compute; reflexivity. Qed.
Print Assumptions C44_sign_refuted.

(* "%x" reads 0x1F as 0, "%i" reads 0x0F as 0 and 00x10 as 16 (for 0 and then x10). *)
Theorem C44_prefix_refuted :
  run "0x1F" "%x" = Some (1, map Some [0; 0; 0; 0; 35; 35; 35; 35; 35; 35]) /\
  run "0x0F" "%i" = Some (1, map Some [0; 0; 0; 0; 35; 35; 35; 35; 35; 35]) /\
  run "00x10" "%i" = Some (1, map Some [16; 0; 0; 0; 35; 35; 35; 35; 35; 35]).
Proof. split; [|split]; vm_compute; reflexivity. Qed.
Print Assumptions C44_prefix_refuted.

(* After a conversion ended by its width that itself began at a pushed-back character, a
   character is lost or read twice: "1 23456" with "%d%2d%d" gives 1, 23, 3456, and
   "0123" with "%1i%d" gives 0, 23. *)
Theorem C44_width_refuted :
  run "1 23456" "%d%2d%d" = Some (3, map Some [1; 0; 0; 0; 23; 0; 0; 0; 3456 mod 256; 3456 / 256]) /\
  run "0123" "%1i%d" = Some (2, map Some [0; 0; 0; 0; 23; 0; 0; 0; 35; 35]).
Proof. split; vm_compute; reflexivity. Qed.
Print Assumptions C44_width_refuted.

(* "%d%n" counts the character after the number; the conversions of "%2s%s" lose one; a
   tab in the format is an ordinary character; blank input does not give EOF. *)
Theorem C44_others_refuted :
  run "12 34" "%d%n" = Some (1, map Some [12; 0; 0; 0; 3; 0; 0; 0; 35; 35]) /\
  run "abcd" "%2s%s" = Some (2, map Some [97; 98; 0; 35; 100; 0; 35; 35; 35; 35]) /\
  (exists m, sscanf 50 tgt (codes "1 2") (codes "%d" ++ [9] ++ codes "%d") [1000; 1004] = Ok (m, 1)) /\
  (exists m, sscanf 50 tgt (codes "  ") (codes "%d") [1000] = Ok (m, 0)).
Proof. split; [vm_compute; reflexivity|]. split; [vm_compute; reflexivity|]. split; eexists; vm_compute; reflexivity. Qed.
Print Assumptions C44_others_refuted.

(* A %[ without match is no matching failure; after a pending character, %1c gives it again. *)
Theorem C44_strings_refuted :
  run "5" "%[a-z]%d" = Some (1, map Some [35; 35; 35; 35; 5; 0; 0; 0; 35; 35]) /\
  run "1xy" "%d%1c%1c" = Some (3, map Some [1; 0; 0; 0; 120; 35; 35; 35; 120; 35]).
Proof. split; vm_compute; reflexivity. Qed.
Print Assumptions C44_strings_refuted.

(* "%2d%x %*i,%hhu" on " 12fff <tab>010,200!". *)
Definition case_l : list directive :=
  [SInt false [2] IInt 100 1000; SInt false [] IInt 120 1004; SSpace; SInt true [] IInt 105 0; SLit 44;
   SInt false [] IByte 117 1008].
Definition case_u : list Z := codes " 12fff " ++ [9] ++ codes "010,200!".
Ltac no_more := right; right; let e := fresh in let v := fresh in let H := fresh in intros (e & v & H); inversion H; subst;
  match goal with K : constant _ _ _ |- _ => inversion K; subst end; try congruence; try lia;
  match goal with D : digits_of _ _ _ |- _ => let F := fresh in destruct D as (_ & F & _); clear - F; unfold codes in F; cbn in F;
     repeat match goal with G : Forall _ (_ :: _) |- _ => inversion G; clear G; subst end; unfold base_digit in *; lia end.
Ltac digits := split; [discriminate|]; split; [repeat constructor; unfold base_digit, dval; cbn; lia|reflexivity].
Ltac plain := unfold plain_text, is_x; cbn; lia.
Example C44_case :
  text_of case_l = codes "%2d%x %*i,%hhu" /\
  Forall good_directive case_l /\ Forall (fun c => 0 < c < 128) case_u /\
  scans true case_l case_u [(1000, le_bytes 4 12); (1004, le_bytes 4 4095); (1008, [200])].
Proof.
  split; [reflexivity|]. split; [|split].
  - unfold case_l. repeat first [apply Forall_cons | apply Forall_nil]; cbn; unfold isspace; intuition (try lia; try discriminate; repeat constructor; lia).
  - repeat constructor.
  - apply (sc_int true false [2] IInt 100 1000 _ (codes " ") (codes "12") (codes "fff " ++ [9] ++ codes "010,200!") 12 _).
    + repeat constructor; unfold isspace; lia.
    + split; [apply s_plain, k_dec; [auto|digits]|]. split; [intros n [= <-]; vm_compute; discriminate|]. left. reflexivity.
    + cbn. lia.
    + plain.
    + apply (sc_int true false [] IInt 120 1004 _ [] (codes "fff") (codes " " ++ [9] ++ codes "010,200!") 4095 _).
      * constructor.
      * split; [apply s_plain, k_hex; [auto|digits]|]. split; [discriminate|]. no_more.
      * cbn. lia.
      * plain.
      * apply (sc_space false [32; 9] 48 (codes "10,200!")); [repeat constructor; unfold isspace; lia|unfold isspace; lia|].
        apply (sc_int false true [] IInt 105 0 _ [] (codes "010") (codes ",200!") 8 _).
        -- constructor.
        -- split; [apply s_plain, (k_i8 [49; 48]); digits|]. split; [discriminate|]. no_more.
        -- cbn. lia.
        -- plain.
        -- apply (sc_lit _ 44). apply (sc_int true false [] IByte 117 1008 [] [] (codes "200") (codes "!") 200 []).
           ++ constructor.
           ++ split; [apply s_plain, k_dec; [auto|digits]|]. split; [discriminate|]. no_more.
           ++ cbn. lia.
           ++ plain.
           ++ constructor.
           ++ discriminate.
           ++ left; discriminate.
           ++ lia.
        -- discriminate.
        -- left; discriminate.
        -- unfold is_x; cbn; lia.
      * discriminate.
      * left; discriminate.
      * lia.
    + intros _. split; [reflexivity|]. lia.
    + intro X. exfalso. apply X. reflexivity.
    + lia.
Qed.

(* "%5s %*[^=]=%2c%%%[]a-c-]" on " one   key=xy%b]-z". *)
Definition str_l : list directive :=
  [SWord false [5] 1000; SSpace; SSet true [] true [SOne 61] false 0; SLit 61; SChars false [2] 1004; SPercent;
   SSet false [] false [SOne 93; SRange 97 99] true 1008].
Ltac spaces := repeat constructor; unfold isspace; cbn; lia.
Ltac set_yes := repeat (constructor; [cbn; unfold listed; rewrite ?Exists_cons, Exists_nil; lia|]); constructor.
Ltac set_no := right; right; cbn; unfold listed; rewrite ?Exists_cons, Exists_nil; lia.
Example C44_strings_case :
  text_of str_l = codes "%5s %*[^=]=%2c%%%[]a-c-]" /\ Forall good_directive str_l /\
  scans true str_l (codes " one   key=xy%b]-z") [(1000, codes "one" ++ [0]); (1004, codes "xy"); (1008, codes "b]-" ++ [0])].
Proof.
  split; [reflexivity|]. split.
  - assert (W0 : good_width []) by (split; [constructor|congruence]).
    assert (W1 : forall d, 0 < d < 10 -> good_width [d]) by (intros d D; split; [repeat constructor; lia|intros _; cbn; lia]).
    repeat apply Forall_cons; try apply Forall_nil; cbn; unfold isspace; try apply W1; try lia; (split; [exact W0|]); unfold good_item, set_char; cbn;
      (split; [first [left; reflexivity|right; lia]|]); (split; [repeat constructor; cbn; unfold set_char; lia|intros _; lia]).
  - apply (sc_word true false [5] 1000 _ (codes " ") (codes "one") (codes "   key=xy%b]-z")); [spaces|discriminate|spaces|intros n [= <-]; vm_compute; discriminate|right; right; spaces| |right; split; discriminate].
    apply (sc_space false (codes "   ") 107 (codes "ey=xy%b]-z")); [spaces|spaces|].
    apply (sc_set false true [] true [SOne 61] false 0 _ (codes "key") (codes "=xy%b]-z")); [discriminate|set_yes|discriminate|set_no| |discriminate|left; discriminate].
    apply (sc_lit _ 61). apply (sc_chars true false [2] 1004 _ (codes "xy") (codes "%b]-z")); [reflexivity| |discriminate|left; reflexivity].
    apply (sc_percent true _ [] (codes "b]-z")); [constructor| |left; discriminate].
    apply (sc_set false false [] false [SOne 93; SRange 97 99] true 1008 [] (codes "b]-") (codes "z") []); [discriminate|set_yes|discriminate|set_no|constructor|discriminate|right; reflexivity].
Qed.
