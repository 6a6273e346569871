(* Vocabulary for C122 to C124: what an answer is, the simple case mappings of
   Unicode, and the widths of wide strings. *)
From Coq Require Import String.
From Verif Require Import Base String_spec Ctype_spec Wcs_spec.
Open Scope Z_scope.

Definition wint (w : Z) : Prop := 0 <= w < 2 ^ 32.
(* A classification says yes, or says no; anything else is a panic or a hang. *)
Definition yes (x : res Z) : Prop := exists r, x = Ok r /\ r <> 0.
Definition no (x : res Z) : Prop := x = Ok 0.
(* The first class lies inside the second; the classes have nothing in common. *)
Definition inside (f g : Z -> res Z) : Prop := forall w, wint w -> yes (f w) -> yes (g w).
Definition apart (f g : Z -> res Z) : Prop := forall w, wint w -> yes (f w) -> no (g w).

(* The characters first, first + step, ..., last are moved by delta. *)
Inductive run : Type := R (first last step delta : Z).
Definition in_run (w : Z) (r : run) : bool :=
  match r with R a b s _ => if (a <=? w) && (w <=? b) then (w - a) mod s =? 0 else false end.
Fixpoint moved (l : list run) (w : Z) : Z :=
  match l with
  | [] => w
  | (R _ _ _ d as r) :: l => if in_run w r then w + d else moved l w
  end.

(* The simple case mappings of the Unicode character database, version 12.1, as runs.
   The circled letters (U+24B6 to U+24E9) are symbols, not letters, and are left out;
   sharp s has the capital sharp s as its upper case. *)
(* Simple_Lowercase_Mapping *)
Definition lower_runs : list run :=
  [R 65 90 1 32; R 192 214 1 32; R 216 222 1 32; R 256 302 2 1; R 304 304 1 (-199); R 306 310 2 1; R 313 327 2 1; R 330 374 2 1;
   R 376 376 1 (-121); R 377 381 2 1; R 385 385 1 210; R 386 388 2 1; R 390 390 1 206; R 391 391 1 1; R 393 394 1 205;
   R 395 395 1 1; R 398 398 1 79; R 399 399 1 202; R 400 400 1 203; R 401 401 1 1; R 403 403 1 205; R 404 404 1 207;
   R 406 406 1 211; R 407 407 1 209; R 408 408 1 1; R 412 412 1 211; R 413 413 1 213; R 415 415 1 214; R 416 420 2 1;
   R 422 422 1 218; R 423 423 1 1; R 425 425 1 218; R 428 428 1 1; R 430 430 1 218; R 431 431 1 1; R 433 434 1 217; R 435 437 2 1;
   R 439 439 1 219; R 440 440 1 1; R 444 444 1 1; R 452 452 1 2; R 453 453 1 1; R 455 455 1 2; R 456 456 1 1; R 458 458 1 2;
   R 459 475 2 1; R 478 494 2 1; R 497 497 1 2; R 498 500 2 1; R 502 502 1 (-97); R 503 503 1 (-56); R 504 542 2 1;
   R 544 544 1 (-130); R 546 562 2 1; R 570 570 1 10795; R 571 571 1 1; R 573 573 1 (-163); R 574 574 1 10792; R 577 577 1 1;
   R 579 579 1 (-195); R 580 580 1 69; R 581 581 1 71; R 582 590 2 1; R 880 882 2 1; R 886 886 1 1; R 895 895 1 116; R 902 902 1 38;
   R 904 906 1 37; R 908 908 1 64; R 910 911 1 63; R 913 929 1 32; R 931 939 1 32; R 975 975 1 8; R 984 1006 2 1;
   R 1012 1012 1 (-60); R 1015 1015 1 1; R 1017 1017 1 (-7); R 1018 1018 1 1; R 1021 1023 1 (-130); R 1024 1039 1 80;
   R 1040 1071 1 32; R 1120 1152 2 1; R 1162 1214 2 1; R 1216 1216 1 15; R 1217 1229 2 1; R 1232 1326 2 1; R 1329 1366 1 48;
   R 4256 4293 1 7264; R 4295 4295 1 7264; R 4301 4301 1 7264; R 5024 5103 1 38864; R 5104 5109 1 8; R 7312 7354 1 (-3008);
   R 7357 7359 1 (-3008); R 7680 7828 2 1; R 7838 7838 1 (-7615); R 7840 7934 2 1; R 7944 7951 1 (-8); R 7960 7965 1 (-8);
   R 7976 7983 1 (-8); R 7992 7999 1 (-8); R 8008 8013 1 (-8); R 8025 8031 2 (-8); R 8040 8047 1 (-8); R 8072 8079 1 (-8);
   R 8088 8095 1 (-8); R 8104 8111 1 (-8); R 8120 8121 1 (-8); R 8122 8123 1 (-74); R 8124 8124 1 (-9); R 8136 8139 1 (-86);
   R 8140 8140 1 (-9); R 8152 8153 1 (-8); R 8154 8155 1 (-100); R 8168 8169 1 (-8); R 8170 8171 1 (-112); R 8172 8172 1 (-7);
   R 8184 8185 1 (-128); R 8186 8187 1 (-126); R 8188 8188 1 (-9); R 8486 8486 1 (-7517); R 8490 8490 1 (-8383);
   R 8491 8491 1 (-8262); R 8498 8498 1 28; R 8544 8559 1 16; R 8579 8579 1 1; R 11264 11310 1 48; R 11360 11360 1 1;
   R 11362 11362 1 (-10743); R 11363 11363 1 (-3814); R 11364 11364 1 (-10727); R 11367 11371 2 1; R 11373 11373 1 (-10780);
   R 11374 11374 1 (-10749); R 11375 11375 1 (-10783); R 11376 11376 1 (-10782); R 11378 11378 1 1; R 11381 11381 1 1;
   R 11390 11391 1 (-10815); R 11392 11490 2 1; R 11499 11501 2 1; R 11506 11506 1 1; R 42560 42604 2 1; R 42624 42650 2 1;
   R 42786 42798 2 1; R 42802 42862 2 1; R 42873 42875 2 1; R 42877 42877 1 (-35332); R 42878 42886 2 1; R 42891 42891 1 1;
   R 42893 42893 1 (-42280); R 42896 42898 2 1; R 42902 42920 2 1; R 42922 42922 1 (-42308); R 42923 42923 1 (-42319);
   R 42924 42924 1 (-42315); R 42925 42925 1 (-42305); R 42926 42926 1 (-42308); R 42928 42928 1 (-42258); R 42929 42929 1 (-42282);
   R 42930 42930 1 (-42261); R 42931 42931 1 928; R 42932 42942 2 1; R 42946 42946 1 1; R 42948 42948 1 (-48);
   R 42949 42949 1 (-42307); R 42950 42950 1 (-35384); R 65313 65338 1 32; R 66560 66599 1 40; R 66736 66771 1 40;
   R 68736 68786 1 64; R 71840 71871 1 32; R 93760 93791 1 32; R 125184 125217 1 34].

(* Simple_Uppercase_Mapping, and sharp s *)
Definition upper_runs : list run :=
  [R 97 122 1 (-32); R 181 181 1 743; R 223 223 1 7615; R 224 246 1 (-32); R 248 254 1 (-32); R 255 255 1 121; R 257 303 2 (-1);
   R 305 305 1 (-232); R 307 311 2 (-1); R 314 328 2 (-1); R 331 375 2 (-1); R 378 382 2 (-1); R 383 383 1 (-300); R 384 384 1 195;
   R 387 389 2 (-1); R 392 392 1 (-1); R 396 396 1 (-1); R 402 402 1 (-1); R 405 405 1 97; R 409 409 1 (-1); R 410 410 1 163;
   R 414 414 1 130; R 417 421 2 (-1); R 424 424 1 (-1); R 429 429 1 (-1); R 432 432 1 (-1); R 436 438 2 (-1); R 441 441 1 (-1);
   R 445 445 1 (-1); R 447 447 1 56; R 453 453 1 (-1); R 454 454 1 (-2); R 456 456 1 (-1); R 457 457 1 (-2); R 459 459 1 (-1);
   R 460 460 1 (-2); R 462 476 2 (-1); R 477 477 1 (-79); R 479 495 2 (-1); R 498 498 1 (-1); R 499 499 1 (-2); R 501 501 1 (-1);
   R 505 543 2 (-1); R 547 563 2 (-1); R 572 572 1 (-1); R 575 576 1 10815; R 578 578 1 (-1); R 583 591 2 (-1); R 592 592 1 10783;
   R 593 593 1 10780; R 594 594 1 10782; R 595 595 1 (-210); R 596 596 1 (-206); R 598 599 1 (-205); R 601 601 1 (-202);
   R 603 603 1 (-203); R 604 604 1 42319; R 608 608 1 (-205); R 609 609 1 42315; R 611 611 1 (-207); R 613 613 1 42280;
   R 614 614 1 42308; R 616 616 1 (-209); R 617 617 1 (-211); R 618 618 1 42308; R 619 619 1 10743; R 620 620 1 42305;
   R 623 623 1 (-211); R 625 625 1 10749; R 626 626 1 (-213); R 629 629 1 (-214); R 637 637 1 10727; R 640 640 1 (-218);
   R 642 642 1 42307; R 643 643 1 (-218); R 647 647 1 42282; R 648 648 1 (-218); R 649 649 1 (-69); R 650 651 1 (-217);
   R 652 652 1 (-71); R 658 658 1 (-219); R 669 669 1 42261; R 670 670 1 42258; R 837 837 1 84; R 881 883 2 (-1); R 887 887 1 (-1);
   R 891 893 1 130; R 940 940 1 (-38); R 941 943 1 (-37); R 945 961 1 (-32); R 962 962 1 (-31); R 963 971 1 (-32);
   R 972 972 1 (-64); R 973 974 1 (-63); R 976 976 1 (-62); R 977 977 1 (-57); R 981 981 1 (-47); R 982 982 1 (-54);
   R 983 983 1 (-8); R 985 1007 2 (-1); R 1008 1008 1 (-86); R 1009 1009 1 (-80); R 1010 1010 1 7; R 1011 1011 1 (-116);
   R 1013 1013 1 (-96); R 1016 1016 1 (-1); R 1019 1019 1 (-1); R 1072 1103 1 (-32); R 1104 1119 1 (-80); R 1121 1153 2 (-1);
   R 1163 1215 2 (-1); R 1218 1230 2 (-1); R 1231 1231 1 (-15); R 1233 1327 2 (-1); R 1377 1414 1 (-48); R 4304 4346 1 3008;
   R 4349 4351 1 3008; R 5112 5117 1 (-8); R 7296 7296 1 (-6254); R 7297 7297 1 (-6253); R 7298 7298 1 (-6244);
   R 7299 7300 1 (-6242); R 7301 7301 1 (-6243); R 7302 7302 1 (-6236); R 7303 7303 1 (-6181); R 7304 7304 1 35266;
   R 7545 7545 1 35332; R 7549 7549 1 3814; R 7566 7566 1 35384; R 7681 7829 2 (-1); R 7835 7835 1 (-59); R 7841 7935 2 (-1);
   R 7936 7943 1 8; R 7952 7957 1 8; R 7968 7975 1 8; R 7984 7991 1 8; R 8000 8005 1 8; R 8017 8023 2 8; R 8032 8039 1 8;
   R 8048 8049 1 74; R 8050 8053 1 86; R 8054 8055 1 100; R 8056 8057 1 128; R 8058 8059 1 112; R 8060 8061 1 126; R 8064 8071 1 8;
   R 8080 8087 1 8; R 8096 8103 1 8; R 8112 8113 1 8; R 8115 8115 1 9; R 8126 8126 1 (-7205); R 8131 8131 1 9; R 8144 8145 1 8;
   R 8160 8161 1 8; R 8165 8165 1 7; R 8179 8179 1 9; R 8526 8526 1 (-28); R 8560 8575 1 (-16); R 8580 8580 1 (-1);
   R 11312 11358 1 (-48); R 11361 11361 1 (-1); R 11365 11365 1 (-10795); R 11366 11366 1 (-10792); R 11368 11372 2 (-1);
   R 11379 11379 1 (-1); R 11382 11382 1 (-1); R 11393 11491 2 (-1); R 11500 11502 2 (-1); R 11507 11507 1 (-1);
   R 11520 11557 1 (-7264); R 11559 11559 1 (-7264); R 11565 11565 1 (-7264); R 42561 42605 2 (-1); R 42625 42651 2 (-1);
   R 42787 42799 2 (-1); R 42803 42863 2 (-1); R 42874 42876 2 (-1); R 42879 42887 2 (-1); R 42892 42892 1 (-1);
   R 42897 42899 2 (-1); R 42900 42900 1 48; R 42903 42921 2 (-1); R 42933 42943 2 (-1); R 42947 42947 1 (-1);
   R 43859 43859 1 (-928); R 43888 43967 1 (-38864); R 65345 65370 1 (-32); R 66600 66639 1 (-40); R 66776 66811 1 (-40);
   R 68800 68850 1 (-64); R 71872 71903 1 (-32); R 93792 93823 1 (-32); R 125218 125251 1 (-34)].

Definition uni_lower (w : Z) : Z := moved lower_runs w.
Definition uni_upper (w : Z) : Z := moved upper_runs w.

(* The names of the classes. *)
Definition class_names : list string :=
  ["alnum"; "alpha"; "blank"; "cntrl"; "digit"; "graph"; "lower"; "print"; "punct"; "space"; "upper"; "xdigit"]%string.

(* The columns of a wide string: the sum of the widths of the characters, or -1. *)
Fixpoint columns (width : Z -> option Z) (s : list Z) : Z :=
  match s with
  | [] => 0
  | c :: s => match width c with
              | Some w => if columns width s <? 0 then -1 else w + columns width s
              | None => -1
              end
  end.

(* On ASCII the class is P. *)
Definition ascii_as (f : Z -> res Z) (P : Z -> Prop) : Prop := forall w, 0 <= w < 128 -> (yes (f w) <-> P w).
(* r orders s and k by their lower-case forms. *)
Definition folded (r : Z) (s k : list Z) : Prop :=
  (r = 0 <-> map uni_lower s = map uni_lower k) /\ sign_is r (lex (map uni_lower s) (map uni_lower k)).
(* A Unicode scalar value. *)
Definition a_char (c : Z) : Prop := 0 <= c < 55296 \/ 57344 <= c < 1114112.
