(* C90 *)
From Coq Require Import String ZArith List Bool Lia.
From Verif Require Import Base Ctype_spec Subopt_model Subopt_spec Subopt_proofs.
Import ListNotations.
Open Scope string_scope.
Open Scope list_scope.
Open Scope Z_scope.

Theorem C90_getsubopt fuel m start s t rest keys kts r :
  start <> NULL -> cstr m start s -> first s t rest -> Forall2 (cstr m) keys kts ->
  Forall2 (fun p k => p <> NULL /\ disjoint p (len k + 1) start (len s + 1)) keys kts ->
  picks t kts r -> (length s < fuel)%nat -> Forall (fun k => length k < fuel)%nat kts ->
  exists o, getsubopt fuel m start keys = Ok (Some o) /\
    after m (so_mem o) start t rest (so_option o) /\ found_at (so_mem o) start 0 r (so_ret o) (so_value o).
Proof. exact (getsubopt_ok fuel m start s t rest keys kts r). Qed.
Print Assumptions C90_getsubopt.

(* "rw=5,x" with the keys r and rw: key 1 with value "5", "x" left. *)
Definition sm : mem := mem_union (mem_of 1000 (codes "rw=5,x" ++ [0])) (mem_union (mem_of 2000 (codes "r" ++ [0])) (mem_of 2010 (codes "rw" ++ [0]))).
Example C90_ex : cstr sm 1000 (codes "rw=5,x") /\ first (codes "rw=5,x") (codes "rw=5") (Some (codes "x")) /\
  Forall2 (cstr sm) [2000; 2010] [codes "r"; codes "rw"] /\
  Forall2 (fun p k => p <> NULL /\ disjoint p (len k + 1) 1000 (len (codes "rw=5,x") + 1)) [2000; 2010] [codes "r"; codes "rw"] /\
  picks (codes "rw=5") [codes "r"; codes "rw"] (Some (1%nat, Some (codes "5"))) /\
  match getsubopt 20 sm 1000 [2000; 2010] with
  | Ok (Some o) => (so_ret o, so_value o, so_option o, so_mem o 1004) = (1, 1003, 1005, Some 0)
  | _ => False
  end.
Proof.
  split; [split; [repeat (constructor; [vm_compute; auto|]); constructor|vm_compute; auto 20]|].
  split; [apply (f_more (codes "rw=5") (codes "x")); vm_compute; intuition discriminate|].
  split; [repeat (constructor; [split; [repeat (constructor; [vm_compute; auto|]); constructor|vm_compute; auto]|]); constructor|].
  split; [repeat constructor; vm_compute; try discriminate; right; discriminate|].
  split; [|vm_compute; reflexivity].
  apply p_skip; [intros w A; inversion A as [E|v E]; vm_compute in E; discriminate|]. apply p_here. apply a_value. reflexivity.
Qed.
