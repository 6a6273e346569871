(* Functions that copy a name into the caller's buffer:
   getcwd (/repo/src/header/unistd/mod.rs 497-532, platform/redox/path.rs 77-91),
   gethostname (unistd/mod.rs 611-637), ttyname_r (1312-1328) and realpath
   (stdlib/mod.rs 1223-1250, resolved not null).
   The name itself (the current directory, the node name, what fpath reports for the
   descriptor) is a parameter; fpath into a slice of k bytes (platform/redox/mod.rs
   1068-1095) stores the name if it has at most k bytes and else what fits and fails with
   ENAMETOOLONG. *)
From Coq Require Import ZArith List Bool.
From Verif Require Import Base Sort_model.
Import ListNotations.
Open Scope Z_scope.

Definition EINVAL := 22. Definition ERANGE := 34. Definition ENAMETOOLONG := 36. Definition PATH_MAX := 4096.
Inductive outcome := Ret (v : Z) | Err (e : Z).

(* path.rs 77-91: copy, then zero to the end of the buffer; None: ERANGE *)
Definition sys_getcwd (m : mem) (path : list Z) (buf size : Z) : res (mem * outcome) :=
  if size <? len path then Ok (m, Err ERANGE)
  else
    m1 <- st_bytes m buf path ;;
    m2 <- st_bytes m1 (buf + len path) (repeat 0 (Z.to_nat (size - len path))) ;;
    Ok (m2, Ret 0).
(* index of the first NUL in the stack buffer of PATH_MAX bytes; None panics *)
Definition nul_index (path : list Z) : option Z := if len path <? PATH_MAX then Some (len path) else None.
(* unistd/mod.rs 499-532; with a null buffer the result goes to heap, len + 1 bytes long *)
Definition getcwd (m : mem) (path : list Z) (buf size heap : Z) : res (mem * outcome) :=
  if buf =? NULL then
    if PATH_MAX <? len path then Ok (m, Err ERANGE)
    else
      match nul_index path with
      | None => Panic
      | Some n => m1 <- st_bytes m heap (path ++ [0]) ;; Ok (m1, Ret heap)
      end
  else
    ' (m1, r) <- sys_getcwd m path buf size ;;
    Ok (m1, match r with Ret _ => Ret buf | Err e => Err e end).
(* unistd/mod.rs 611-637; node: the nodename array, NUL included *)
Fixpoint gethostname (m : mem) (node : list Z) (name n : Z) : res (mem * Z) :=
  match node with
  | [] => Ok (m, 0)
  | c :: r =>
      if n =? 0 then Ok (m, 0)
      else m1 <- st m name c ;; if c =? 0 then Ok (m1, 0) else gethostname m1 r (name + 1) (n - 1)
  end.
(* fpath; inr: errno *)
Definition fpath (m : mem) (name : list Z) (out k : Z) : res (mem * (Z + Z)) :=
  if len name <=? k then m1 <- st_bytes m out name ;; Ok (m1, inl (len name))
  else m1 <- st_bytes m out (firstn (Z.to_nat k) name) ;; Ok (m1, inr ENAMETOOLONG).
(* unistd/mod.rs 1312-1328 *)
Definition ttyname_r (m : mem) (tty : list Z) (name size : Z) : res (mem * Z) :=
  if size =? 0 then Ok (m, ERANGE)
  else
    ' (m1, r) <- fpath m tty name (size - 1) ;;
    match r with
    | inl n => m2 <- st m1 (name + n) 0 ;; Ok (m2, 0)
    | inr e => Ok (m1, - e)
    end.
(* stdlib/mod.rs 1223-1250; file: the path of the opened file, or errno of open, which
   File::open sets (fs.rs 30-34) *)
Definition realpath (m : mem) (file : list Z + Z) (out : Z) : res (mem * outcome) :=
  match file with
  | inr e => Ok (m, Err e)
  | inl f =>
      ' (m1, r) <- fpath m f out (PATH_MAX - 1) ;;
      match r with
      | inl n => m2 <- st m1 (out + n) 0 ;; Ok (m2, Ret out)
      | inr e => Ok (m1, Err e)
      end
  end.
