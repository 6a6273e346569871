(** C22: the environment.  Theorems only; lemmas are in Env_proofs.v. *)
From Coq Require Import String.
From Verif Require Import Base String_model Ctype_spec Env_model Env_spec Env_proofs.
Open Scope string_scope.
Open Scope list_scope.
Open Scope Z_scope.

(** Full statement: the same for every initial environment and all arguments.  Missing:
    initial environments with two entries of the same name, and values that overlap an
    environment entry (both refuted below); allocation failure (the code does not check
    for it). *)
Theorem C22_history_partial : forall cap m ps es evs cap' m' ps' fuel pk k,
  holds cap m ps es -> run cap m ps evs cap' m' ps' ->
  name_ok k -> cstr m' pk k -> (length k < fuel)%nat ->
  exists r, getenv fuel m' ps' pk = Ok r /\
    match fold_left apply_event evs (lookup es) k with
    | Some v => r <> NULL /\ cstr m' r v
    | None => r = NULL
    end.
Proof. exact env_history. Qed.
Print Assumptions C22_history_partial.

(** In every reachable state every legal call completes and changes only memory that
    belongs to the environment before or after the call. *)
Theorem C22_progress_partial : forall cap m ps es evs cap' m' ps' fuel ev,
  holds cap m ps es -> run cap m ps evs cap' m' ps' -> legal cap' m' ps' ev -> fuel_ok fuel cap' ps' ev ->
  exists m2 ps2, exec fuel m' ps' ev = Ok (m2, ps2) /\
    (forall x, ~ owned cap' ps' x -> ~ owned cap' ps2 x -> m2 x = m' x).
Proof. exact env_progress. Qed.
Print Assumptions C22_progress_partial.

(** Names A and AB; "A" set to a longer value (fresh block), then to a shorter one (in
    place), then AB removed. *)
Definition env_mem : mem :=
  mem_union (mem_of 1000 (codes "A=1" ++ [0] ++ codes "AB=2" ++ [0] ++ codes "A" ++ [0] ++ codes "long" ++ [0] ++ codes "AB" ++ [0] ++ codes "s" ++ [0]))
            (mem_of 2000 (repeat 255 7)).
Definition env_cap (p : Z) : Z := if p =? 1000 then 4 else if p =? 1004 then 5 else if p =? 2000 then 7 else 4.
Example C22_case :
  holds env_cap env_mem [1000; 1004] [(codes "A", codes "1"); (codes "AB", codes "2")] /\
  legal env_cap env_mem [1000; 1004] (Set_ (codes "A") (codes "long") 1 1009 1011 2000) /\
  match exec 9 env_mem [1000; 1004] (Set_ (codes "A") (codes "long") 1 1009 1011 2000) with
  | Ok (m1, ps1) =>
      ps1 = [2000; 1004] /\ getenv 9 m1 ps1 1009 = Ok 2002 /\ map m1 [2002;2003;2004;2005;2006] = map Some (codes "long" ++ [0]) /\
      match exec 9 m1 ps1 (Set_ (codes "A") (codes "s") 1 1009 1019 3000) with
      | Ok (m2, ps2) =>
          ps2 = [2000; 1004] /\ getenv 9 m2 ps2 1009 = Ok 2002 /\ map m2 [2002;2003] = map Some (codes "s" ++ [0]) /\
          match exec 9 m2 ps2 (Unset_ (codes "AB") 1016) with
          | Ok (m3, ps3) => ps3 = [2000] /\ getenv 9 m3 ps3 1016 = Ok NULL /\ getenv 9 m3 ps3 1009 = Ok 2002
          | _ => False
          end
      | _ => False
      end
  | _ => False
  end.
Proof.
  split; [|split].
  - constructor.
    + repeat constructor; try (vm_compute; lia || discriminate); vm_compute; auto 20; split; lia || discriminate.
    + intros p [<-|[<-|[]]] x Hx; unfold env_cap in Hx; cbn in Hx.
      * assert (x = 1000 \/ x = 1001 \/ x = 1002 \/ x = 1003) as [->|[->|[->| ->]]] by lia; vm_compute; eauto.
      * assert (x = 1004 \/ x = 1005 \/ x = 1006 \/ x = 1007 \/ x = 1008) as [->|[->|[->|[->| ->]]]] by lia; vm_compute; eauto.
    + repeat constructor. unfold disjoint, env_cap. cbn. lia.
    + repeat constructor; cbn; intuition discriminate.
  - cbn [legal]. repeat match goal with |- _ /\ _ => split end.
    all: try solve [repeat constructor; vm_compute; intuition (discriminate || lia)].
    all: try solve [intros p [<-|[<-|[]]]; unfold disjoint; vm_compute; intuition discriminate].
    all: try solve [unfold disjoint; vm_compute; intuition discriminate].
    intros x Hx. unfold env_cap in Hx; cbn in Hx.
    assert (x = 2000 \/ x = 2001 \/ x = 2002 \/ x = 2003 \/ x = 2004 \/ x = 2005 \/ x = 2006) as [->|[->|[->|[->|[->|[->| ->]]]]]] by lia; vm_compute; eauto.
  - vm_compute. repeat split.
Qed.

(** Two inherited entries with the same name: after unsetenv("A") getenv("A") still finds
    the second one. *)
Theorem C22_unsetenv_refuted :
  let m := mem_of 1000 (codes "A=1" ++ [0] ++ codes "A=2" ++ [0] ++ codes "A" ++ [0]) in
  match unsetenv 9 m [1000; 1004] 1008 with
  | Ok ps => getenv 9 m ps 1008 = Ok 1006
  | _ => False
  end.
Proof. vm_compute. reflexivity. Qed.
Print Assumptions C22_unsetenv_refuted.

(** setenv("A", getenv("A"), 1): the overlapping copy_nonoverlapping is undefined
    behaviour. *)
Theorem C22_setenv_alias_refuted :
  let m := mem_of 1000 (codes "A=1" ++ [0] ++ codes "A" ++ [0]) in
  getenv 9 m [1000] 1004 = Ok 1002 /\ setenv 9 m [1000] 1004 1002 1 2000 = Fault.
Proof. vm_compute. split; reflexivity. Qed.
Print Assumptions C22_setenv_alias_refuted.
