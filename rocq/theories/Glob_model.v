(* glob: /repo/src/header/glob/mod.rs 62-152 (glob), 192-278 (list_dir), 280-393 (inner_glob).
   Paths and patterns are lists of bytes.  Parameters: ls, the entries of a directory with
   whether they are directories (after following links), without . and .., None if it cannot
   be opened (with ENOENT; reading never fails half way); fnm, fnmatch with FNM_NOESCAPE and
   FNM_PERIOD or not; ef, whether errfunc asks to stop. *)
From Coq Require Import ZArith List Bool.
From Verif Require Import Base String_spec Fnmatch_model.
Import ListNotations.
Open Scope Z_scope.

Record flags := Fl { g_err : bool; g_mark : bool; g_nosort : bool; g_dooffs : bool; g_nocheck : bool; g_append : bool; g_noescape : bool; g_period : bool }.
Definition GLOB_ABORTED := 2. Definition GLOB_NOMATCH := 3.
Section Glob.
Variable ls : list Z -> option (list (list Z * bool)).
Variable fnm : bool -> bool -> list Z -> list Z -> bool.
Variable ef : list Z -> bool.

Fixpoint eqb (l k : list Z) : bool :=
  match l, k with [], [] => true | a :: l, b :: k => (a =? b) && eqb l k | _, _ => false end.
(* 290-295 *)
Fixpoint strip (e : list Z) : list Z := match e with 47 :: r => strip r | _ => e end.
(* 300-333: the section, and what follows its slash *)
Fixpoint section (noescape in_bracket escaped : bool) (e acc : list Z) : list Z * list Z :=
  match e with
  | [] => (rev acc, [])
  | c :: r =>
      if (c =? 47) && negb escaped then (rev acc, r)
      else
        let in_bracket := if (c =? 91) && negb escaped then true else if c =? 93 then false else in_bracket in
        section noescape in_bracket ((c =? 92) && negb in_bracket && negb escaped && negb noescape) r (c :: acc)
  end.
(* 363-369 *)
Definition ends_slash (p : list Z) : bool := match rev p with 47 :: _ => true | _ => false end.
Definition join (cur name : list Z) : list Z :=
  (if negb (eqb cur []) && negb (ends_slash cur) then cur ++ [47] else cur) ++ name.
Inductive result := Paths (l : list (list Z)) | Abort.
(* 358-391, the loop; sub: inner_glob in a directory *)
Fixpoint entries (fl : flags) (cur pattern rest : list Z) (sub : list Z -> result) (l : list (list Z * bool)) : result :=
  match l with
  | [] => Paths []
  | (name, is_dir) :: r =>
      if negb (eqb rest []) && negb is_dir then entries fl cur pattern rest sub r
      else
        let path := join cur name ++ (if g_mark fl && eqb rest [] && is_dir then [47] else []) in
        let here := if fnm (g_noescape fl) (g_period fl) pattern name then
                      if is_dir && negb (eqb rest []) then sub path else Paths [path]
                    else Paths [] in
        match here with
        | Abort => Abort
        | Paths a => match entries fl cur pattern rest sub r with Abort => Abort | Paths b => Paths (a ++ b) end
        end
  end.
(* 280-393 *)
Fixpoint inner_glob (fuel : nat) (fl : flags) (cur expr : list Z) : res result :=
  match fuel with
  | O => OutOfFuel
  | S f =>
      let '(pattern, rest) := section (g_noescape fl) false false (strip expr) [] in
      if eqb pattern [46] || eqb pattern [46; 46] then inner_glob f fl (cur ++ pattern) rest
      else
        match ls cur with
        | None =>
            if ef cur || g_err fl then Ok Abort
            else if negb (eqb rest []) && (ef (cur ++ pattern) || g_err fl) then Ok Abort
            else Ok (Paths [])
        | Some l =>
            let sub p := match inner_glob f fl p rest with Ok r => r | _ => Abort end in
            match entries fl cur pattern rest sub l with
            | Abort => Ok Abort
            | Paths m =>
                match m with
                | [] => if negb (eqb rest []) && (ef (cur ++ pattern) || g_err fl) then Ok Abort else Ok (Paths [])
                | _ => Ok (Paths m)
                end
            end
        end
  end.
(* Vec::sort *)
Fixpoint insert (p : list Z) (l : list (list Z)) : list (list Z) :=
  match l with
  | [] => [p]
  | q :: r => match lex q p with Gt => p :: q :: r | _ => q :: insert p r end
  end.
Definition sort (l : list (list Z)) : list (list Z) := fold_right insert [] l.
(* glob_t: gl_pathc, gl_offs and the vector before its final NULL *)
Record globt := GT { gl_pathc : Z; gl_offs : nat; gl_vec : list (option (list Z)) }.
(* 62-152 *)
Definition glob (fuel : nat) (pattern : list Z) (fl : flags) (g : globt) : res (globt * Z) :=
  let g := if g_append fl then g else GT 0 (gl_offs g) [] in
  if eqb pattern [] then Ok (g, GLOB_NOMATCH)
  else
    let base := match pattern with 47 :: _ => [47] | _ => [] end in
    let vec := if g_append fl then gl_vec g else if g_dooffs fl then repeat None (gl_offs g) else [] in
    r <- inner_glob fuel fl base pattern ;;
    match r with
    | Abort => Ok (GT (gl_pathc g) (gl_offs g) vec, GLOB_ABORTED)
    | Paths l =>
        if eqb (map (fun _ => 0) l) [] && negb (g_nocheck fl) then Ok (GT (gl_pathc g) (gl_offs g) vec, GLOB_NOMATCH)
        else
          let l := match l with [] => [pattern] | _ => l end in
          let l := if g_nosort fl then l else sort l in
          Ok (GT (gl_pathc g + len l) (gl_offs g) (vec ++ map Some l), 0)
    end.
End Glob.

(* 334-341 and 371: fnmatch on a component and a name, placed in memory; FNM_NOESCAPE is 1
   and FNM_PERIOD is 4 *)
Definition fnm_c (noescape period : bool) (c n : list Z) : bool :=
  match fnmatch (S (length c + length n)) (mem_union (mem_of 1 (c ++ [0])) (mem_of (len c + 2) (n ++ [0]))) 1 (len c + 2)
          ((if noescape then 1 else 0) + (if period then 4 else 0)) with
  | Ok r => r =? 0 | _ => false
  end.
