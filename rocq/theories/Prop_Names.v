(* C94 *)
From Coq Require Import String ZArith List Bool Lia.
From Verif Require Import Base Ctype_spec Names_model Names_spec Names_proofs.
Import ListNotations.
Open Scope string_scope.
Open Scope list_scope.
Open Scope Z_scope.

(* C94 full: getcwd, ttyname_r, gethostname and realpath store the whole name, terminated,
   if the buffer has room for it and its terminator; otherwise getcwd and ttyname_r report
   ERANGE (getcwd with size 0 EINVAL), realpath ENAMETOOLONG; nothing outside the buffer
   changes.  Refuted: getcwd when only the terminator does not fit, its size 0, a path of
   PATH_MAX bytes with a null buffer; the error value of ttyname_r. *)
Theorem C94_getcwd_partial m path buf size heap : buf <> NULL -> Forall is_char path -> mapped m buf size -> 0 <= size ->
  (len path < size -> exists m', getcwd m path buf size heap = Ok (m', Ret buf) /\ delivered m m' buf size path) /\
  (size < len path -> getcwd m path buf size heap = Ok (m, Err ERANGE)).
Proof. exact (getcwd_ok m path buf size heap). Qed.
Print Assumptions C94_getcwd_partial.
Theorem C94_getcwd_null_partial m path size heap : Forall is_char path -> mapped m heap (len path + 1) -> len path < PATH_MAX ->
  exists m', getcwd m path NULL size heap = Ok (m', Ret heap) /\ delivered m m' heap (len path + 1) path.
Proof. exact (getcwd_null m path size heap). Qed.
Print Assumptions C94_getcwd_null_partial.
Theorem C94_gethostname node r m name n : Forall is_char node -> mapped m name n -> 0 <= n ->
  exists m', gethostname m (node ++ 0 :: r) name n = Ok (m', 0) /\ only_in m m' name n /\
    (len node < n -> cstr m' name node) /\ (n <= len node -> bytes_at m' name (firstn (Z.to_nat n) node)).
Proof. exact (gethostname_ok node r m name n). Qed.
Print Assumptions C94_gethostname.
Theorem C94_ttyname_partial m tty name size : Forall is_char tty -> mapped m name size -> len tty < size ->
  exists m', ttyname_r m tty name size = Ok (m', 0) /\ delivered m m' name size tty.
Proof. exact (ttyname_ok m tty name size). Qed.
Print Assumptions C94_ttyname_partial.
Theorem C94_realpath m f out : Forall is_char f -> mapped m out PATH_MAX ->
  (len f < PATH_MAX -> exists m', realpath m (inl f) out = Ok (m', Ret out) /\ delivered m m' out PATH_MAX f) /\
  (PATH_MAX <= len f -> exists m', realpath m (inl f) out = Ok (m', Err ENAMETOOLONG) /\ only_in m m' out PATH_MAX) /\
  forall e, realpath m (inr e) out = Ok (m, Err e).
Proof. exact (realpath_ok m f out). Qed.
Print Assumptions C94_realpath.

Definition bm : mem := mem_of 1000 (repeat 35 16).
Example C94_ex : Forall is_char (codes "/home") /\ mapped bm 1000 10 /\ len (codes "/home") < 10 /\
  match getcwd bm (codes "/home") 1000 10 0 with Ok (m, Ret 1000) => map m [1000; 1004; 1005; 1009; 1010] | _ => [] end =
    [Some 47; Some 101; Some 0; Some 0; Some 35] /\
  match gethostname bm (codes "box" ++ [0; 7]) 1000 2 with Ok (m, 0) => map m [1000; 1001; 1002] | _ => [] end =
    [Some 98; Some 111; Some 35].
Proof.
  split; [repeat (constructor; [vm_compute; auto|]); constructor|].
  split; [apply (mapped_sub bm 1000 (len (repeat 35 16))); [apply bytes_at_mapped, mem_of_bytes|lia|change (len (repeat 35 16)) with 16; lia]|].
  split; [vm_compute; reflexivity|]. split; vm_compute; reflexivity.
Qed.
(* A buffer of exactly the length of the path: success without a terminator. *)
Theorem C94_getcwd_exact_refuted :
  match getcwd bm (codes "/home") 1000 5 0 with Ok (m, Ret 1000) => map m [1000; 1001; 1002; 1003; 1004; 1005] | _ => [] end =
    map Some (codes "/home" ++ [35]).
Proof. vm_compute. reflexivity. Qed.
Print Assumptions C94_getcwd_exact_refuted.
Theorem C94_getcwd_zero_refuted : getcwd bm (codes "/home") 1000 0 0 = Ok (bm, Err ERANGE) /\ ERANGE <> EINVAL.
Proof. split; [reflexivity|discriminate]. Qed.
Print Assumptions C94_getcwd_zero_refuted.
(* A path of PATH_MAX bytes, which chdir admits, and a null buffer: a panic. *)
Theorem C94_getcwd_long_refuted : getcwd bm (repeat 97 4096) NULL 0 2000 = Panic.
Proof. vm_compute. reflexivity. Qed.
Print Assumptions C94_getcwd_long_refuted.
(* Too small a buffer: -36, neither 0 nor ERANGE. *)
Theorem C94_ttyname_refuted :
  match ttyname_r bm (codes "/dev/tty0") 1000 5 with Ok (_, v) => v = -36 | _ => False end.
Proof. vm_compute. reflexivity. Qed.
Print Assumptions C94_ttyname_refuted.
