From Coq Require Import String.
From Verif Require Import Base Numeral Ctype_spec Crypt_model Crypt_spec Crypt_proofs.
Open Scope string_scope.
Open Scope list_scope.
Open Scope Z_scope.

(* C151 full: for every kind of setting that crypt knows, the text it makes of a password and a setting verifies that password and, up to collisions of
   the hash, no other: crypt of a password and this text gives the text again exactly if the hashes are equal; and no setting makes it crash
   or write beyond its data.
   Missing: scrypt, PBKDF2 and Blowfish (refuted); settings that are not ASCII and long salts (refuted). *)
Theorem C151_md5_partial : forall h p q body salt, ascii body -> salt_of 8 body salt -> len p <= 30000 -> len q <= 30000 ->
  (forall k s, ascii (md5 h k s) /\ len (md5 h k s) <= 22) ->
  exists t, crypt_r h p (codes "$1$" ++ body) = Ok (Some t) /\ (crypt_r h q t = Ok (Some t) <-> md5 h q salt = md5 h p salt).
Proof. exact md5_verifies. Qed.
Print Assumptions C151_md5_partial.
Definition plain : hashes := H (fun p s => firstn 22 (codes "x")) (fun k p s n => if len p =? 3 then Some (codes "abc") else Some (codes "d")) (fun p s c => Some (codes "e" ++ firstn 3 s))
  (fun p s n => codes "f") (fun p s n r q => Some (codes "g")) (fun p s => len p =? 3) (Some (codes "r")).
Example C151_md5_case : salt_of 8 (codes "saltsaltsalt") (codes "saltsalt") /\ salt_of 8 (codes "ab$cd") (codes "ab") /\
  crypt_r plain (codes "pw") (codes "$1$ab$cd") = Ok (Some (codes "$1$ab$x")).
Proof.
  split; [|split].
  - exists (codes "salt"). split; [reflexivity|]. split; [vm_compute; intuition discriminate|]. split; [vm_compute; discriminate|left; reflexivity].
  - exists (codes "$cd"). split; [reflexivity|]. split; [vm_compute; intuition discriminate|]. split; [vm_compute; discriminate|right; right; exists (codes "cd"); reflexivity].
  - vm_compute. reflexivity.
Qed.

(* SHA-256 and SHA-512; the rounds are 1000 to 999999999, and 5000 if none are given *)
Theorem C151_sha_partial : forall h (k : bool) p q body salt e, good h -> ascii body -> salt_of 16 body salt -> ~ In 10 salt /\ ~ In 58 salt -> len p <= 256 -> len q <= 256 ->
  ~ begins (codes "rounds=") body -> sha h k p salt 5000 = Some e ->
  exists t, crypt_r h p (codes (if k then "$6$" else "$5$") ++ body) = Ok (Some t) /\ (crypt_r h q t = Ok (Some t) <-> sha h k q salt 5000 = Some e).
Proof. exact sha_verifies. Qed.
Print Assumptions C151_sha_partial.
Theorem C151_rounds_partial : forall h (k : bool) p q num n body salt e, good h -> ascii body -> salt_of 16 body salt -> ~ In 10 salt /\ ~ In 58 salt -> len p <= 256 -> len q <= 256 ->
  written num n -> n < 2 ^ 64 -> sha h k p salt (Z.max (Z.min n 999999999) 1000) = Some e ->
  exists t, crypt_r h p (codes (if k then "$6$" else "$5$") ++ codes "rounds=" ++ num ++ [36] ++ body) = Ok (Some t) /\
    (crypt_r h q t = Ok (Some t) <-> sha h k q salt (Z.max (Z.min n 999999999) 1000) = Some e).
Proof. exact sha_rounds_verifies. Qed.
Print Assumptions C151_rounds_partial.
Example C151_sha_case : good plain /\ written (codes "0012") 12 /\
  crypt_r plain (codes "key") (codes "$6$rounds=0012$salt") = Ok (Some (codes "$6$rounds=1000$salt$abc")) /\
  crypt_r plain (codes "key") (codes "$6$rounds=1000$salt$abc") = Ok (Some (codes "$6$rounds=1000$salt$abc")) /\
  crypt_r plain (codes "keys") (codes "$6$rounds=1000$salt$abc") = Ok (Some (codes "$6$rounds=1000$salt$d")).
Proof.
  split; [|split; [|vm_compute; repeat split]].
  - split.
    + intros k s. split; [vm_compute; repeat constructor|vm_compute; discriminate].
    + intros k p s n e E. cbn [sha plain] in E. destruct (len p =? 3); injection E as <-; (split; [vm_compute; repeat constructor|vm_compute; discriminate]).
  - split; [discriminate|]. split; [vm_compute; repeat constructor; discriminate|reflexivity].
Qed.

(* Argon2: the check of its crate *)
Theorem C151_argon2 : forall h p body, len body <= 200 ->
  (crypt_r h p (codes "$argon2" ++ body) = Ok (Some (codes "$argon2" ++ body)) <-> argon2_ok h p (codes "$argon2" ++ body) = true).
Proof. exact argon2_verifies. Qed.
Print Assumptions C151_argon2.
Example C151_argon2_case : argon2_ok plain (codes "key") (codes "$argon2id$") = true /\ crypt_r plain (codes "keys") (codes "$argon2id$") = Ok None.
Proof. vm_compute. repeat split. Qed.

(* no text of the scrypt or PBKDF2 kind verifies any password *)
Theorem C151_scrypt_refuted : forall h p body, crypt_r h p (codes "$7$" ++ body) <> Ok (Some (codes "$7$" ++ body)).
Proof. exact scrypt_never. Qed.
Print Assumptions C151_scrypt_refuted.
Theorem C151_pbkdf2_refuted : forall h p body, crypt_r h p (codes "$8$" ++ body) <> Ok (Some (codes "$8$" ++ body)).
Proof. exact pbkdf2_never. Qed.
Print Assumptions C151_pbkdf2_refuted.
Example C151_kinds_case : crypt_r plain (codes "key") (codes "$8$3e8$salt") = Ok (Some (codes "$8$3e8$salt$f")) /\
  crypt_r plain (codes "key") (codes "$8$3e8$salt$f") = Ok None /\
  crypt_r plain (codes "key") (codes "$7$C6..../....salt") = Ok (Some (codes "$7$C6..../....$salt$g")) /\
  crypt_r plain (codes "key") (codes "$7$C6..../....$salt$g") = Ok (Some (codes "$7$C6..../....$$salt$g$g")).
Proof. vm_compute. repeat split. Qed.
(* Blowfish: the salt is not in the text, which then is the salt itself: it verifies only a password whose hash with this hash as salt is the same hash *)
Theorem C151_blowfish_refuted : forall h p q salt e, ~ In 36 salt -> ~ In 36 e -> len e <= 44 -> bcrypt h (firstn 72 (p ++ [0])) salt 10 = Some e ->
  crypt_r h p (codes "$2b$10$" ++ salt) = Ok (Some (codes "$2b$10$" ++ e)) /\
  (crypt_r h q (codes "$2b$10$" ++ e) = Ok (Some (codes "$2b$10$" ++ e)) -> bcrypt h (firstn 72 (q ++ [0])) e 10 = Some e).
Proof. exact blowfish_salt_lost. Qed.
Print Assumptions C151_blowfish_refuted.
Example C151_blowfish_case : crypt_r plain (codes "key") (codes "$2b$10$salt") = Ok (Some (codes "$2b$10$esal")) /\
  crypt_r plain (codes "key") (codes "$2b$10$esal") = Ok (Some (codes "$2b$10$eesa")).
Proof. vm_compute. repeat split. Qed.
(* a long salt: bytes are written past the data; a letter of two bytes: a panic *)
Theorem C151_crash_refuted : forall h p salt, ascii salt -> ~ In 36 salt -> 256 < len salt -> crypt_r h p (codes "$8$1$" ++ salt) = Fault.
Proof. exact long_salt. Qed.
Print Assumptions C151_crash_refuted.
Example C151_crash_case : ascii (repeat 97 257) /\ ~ In 36 (repeat 97 257) /\ 256 < len (repeat 97 257).
Proof.
  split; [|split; [|reflexivity]].
  - apply Forall_forall. intros x I0. apply repeat_spec in I0. lia.
  - intros I0. apply repeat_spec in I0. discriminate.
Qed.
Theorem C151_letters_refuted : forall h p, len p <= 256 -> crypt_r h p (codes "$1$" ++ [195; 188]) = Panic /\ crypt_r h p (codes "$6$" ++ [195; 188]) = Panic.
Proof. exact not_ascii. Qed.
Print Assumptions C151_letters_refuted.
Example C151_letters_case : len (codes "key") <= 256. Proof. vm_compute. discriminate. Qed.
