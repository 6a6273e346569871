(* C86 *)
From Coq Require Import ZArith List Bool Lia.
From Verif Require Import Base Relr_model Relr_spec Relr_proofs.
Import ListNotations.
Open Scope Z_scope.

(* Every word named by the entries is moved by the base, as often as it is named, and no other. *)
Theorem C86_relr base m l : Forall is_word l -> starts_even l -> (forall a, is_word (m a)) ->
  exists m', apply_relr base m l = Ok m' /\
    forall a, m' a = (m a + base * Z.of_nat (count_occ Z.eq_dec (map (fun o => (base + o) mod 2 ^ 64) (decode 0 l)) a)) mod 2 ^ 64.
Proof. exact (apply_relr_spec base m l). Qed.
Print Assumptions C86_relr.
(* 0x10, then bits for the 1st, 2nd and 63rd word after it, then the first after those. *)
Definition ex_l := [16; 2 ^ 63 + 2 ^ 2 + 2 + 1; 3].
Example C86_relr_ex : Forall is_word ex_l /\ starts_even ex_l /\
  decode 0 ex_l = [16; 24; 32; 24 + 8 * 62; 24 + 8 * 63] /\
  match apply_relr 4096 (fun a => a mod 100) ex_l with Ok m' => map m' [4112; 4120; 4128; 4136; 4616; 4624; 4632] | _ => [] end = [4108; 4116; 4124; 36; 4112; 4120; 32].
Proof.
  split; [repeat (constructor; [split; [discriminate|reflexivity]|]); constructor|]. split; [reflexivity|]. split; [vm_compute; reflexivity|].
  vm_compute. reflexivity.
Qed.
