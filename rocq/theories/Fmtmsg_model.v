(* fmtmsg: src/header/fmtmsg/mod.rs 73-201.  The strings are lists without their terminators, a null pointer is None;
   whether the console opens and whether the two dprintf succeed (status >= 1) are parameters.  The calls that disable
   and restore cancellation are left out.  A null string given to %s is printed "(null)" (printf.rs 1058-1063). *)
From Coq Require Import String.
From Verif Require Import Base Ctype_spec.
Open Scope string_scope.
Open Scope list_scope.
Open Scope Z_scope.

(* 73-86: true for a difference *)
Fixpoint strcolcmp (l b : list Z) : bool :=
  match l, b with
  | x :: l', y :: b' => if x =? y then strcolcmp l' b' else true
  | _ :: _, [] => true
  | [], y :: _ => negb (y =? 58)
  | [], [] => false
  end.
(* 115-122 *)
Definition msgs : list (list Z) := [codes "label"; codes "severity"; codes "text"; codes "action"; codes "tag"].
(* 154-162 *)
Fixpoint find_msg (i : Z) (ms : list (list Z)) (cmsg : list Z) : option Z :=
  match ms with
  | [] => None
  | m :: ms => if strcolcmp m cmsg then find_msg (i + 1) ms cmsg else Some i
  end.
(* strchr(cmsg, ':') and one further *)
Fixpoint after_colon (l : list Z) : option (list Z) :=
  match l with
  | [] => None
  | c :: l => if c =? 58 then Some l else after_colon l
  end.
(* 152-174 *)
Fixpoint verbs (fuel : nat) (cmsg : option (list Z)) (verb : Z) : res Z :=
  match fuel with
  | O => OutOfFuel
  | S n =>
      match cmsg with
      | None | Some [] => Ok verb
      | Some s =>
          match find_msg 0 msgs s with
          | None => Ok 255
          | Some i => verbs n (after_colon s) (Z.lor verb (Z.shiftl 1 i))
          end
      end
  end.
(* 108-114 *)
Definition errstring (severity : Z) : option (list Z) :=
  if severity =? 1 then Some (codes "HALT: ")
  else if severity =? 2 then Some (codes "ERROR: ")
  else if severity =? 3 then Some (codes "WARNING: ")
  else if severity =? 4 then Some (codes "INFO: ")
  else None.
Definition shown (s : option (list Z)) : list Z := match s with Some s => s | None => codes "(null)" end.
Definition given (s : option (list Z)) : bool := match s with Some _ => true | None => false end.
(* 131-142 and 179-190: the text printed, with the components whose bits are in verb *)
Definition message (verb : Z) (label : option (list Z)) (severity : Z) (text action tag : option (list Z)) : list Z :=
  (if Z.testbit verb 0 && given label then shown label else []) ++
  (if Z.testbit verb 0 && given label then codes ": " else []) ++
  (if Z.testbit verb 1 && negb (severity =? 0) then shown (errstring severity) else []) ++
  (if Z.testbit verb 2 && given text then shown text else []) ++
  (if Z.testbit verb 3 && given action then 10 :: codes "TO FIX: " else []) ++
  (if Z.testbit verb 3 && given action then shown action else []) ++
  (if Z.testbit verb 3 && given action then codes " " else []) ++
  (if Z.testbit verb 4 && given tag then shown tag else []) ++ [10].

Inductive dest := Console | Stderr.
Definition MM_NOMSG : Z := 1.
Definition MM_NOCON : Z := 4.
(* 88-201; what is sent where, and the result *)
Definition fmtmsg (con_opens con_ok err_ok : bool) (fuel : nat) (msgverb : option (list Z)) (classification : Z)
  (label : option (list Z)) (severity : Z) (text action tag : option (list Z)) : res (list (dest * list Z) * Z) :=
  let (out, ret) :=
    if negb (Z.land classification 512 =? 0) then
      if con_opens then
        ([(Console, message 255 label severity text action tag)], if con_ok then 0 else MM_NOCON)
      else ([], MM_NOCON)
    else ([], 0) in
  ' (out, ret) <-
    (if negb (Z.land classification 256 =? 0) then
       verb <- verbs fuel msgverb 0 ;;
       let verb := if verb =? 0 then 255 else verb in
       Ok (out ++ [(Stderr, message verb label severity text action tag)], if err_ok then ret else Z.lor ret MM_NOMSG)
     else Ok (out, ret)) ;;
  let both := Z.lor MM_NOCON MM_NOMSG in
  Ok (out, if Z.land ret both =? both then -1 else ret).
