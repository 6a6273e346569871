(* Model of the dynamic linker's bookkeeping: ld_so/linker.rs Scope, load_library,
   load_object, load_objects_recursive, unload, fini, get_sym; ld_so/dso.rs DSO::get_sym,
   resolve_sym; header/dlfcn dlopen, dlsym, dlclose.  Names of libraries and symbols are
   numbers.  Which file a name is found in (search_object), reading and mapping it, its
   relocation and thread-local storage are not part of this model: [fs] gives the SONAME
   and the DT_NEEDED entries of the file found under a name, None if there is none or it
   is malformed.  libc.so (ld.so itself) is a file without DT_NEEDED entries, loaded with
   the program.  Initializers and finalizers do not call dlopen or dlclose.  The
   linker is called with its lock held. *)
From Coq Require Import ZArith List Bool Arith.
From Verif Require Import Base.
Import ListNotations.
Open Scope nat_scope.

Definition name := nat.
Record desc := Desc { so : name; needed : list name }.

(* dso.rs 359-381 DSO.  [oscope]: the objects of its local scope (the owner comes on top). *)
Record obj := Obj { oid : nat; onam : name; odeps : list name; odl : bool; oscope : list nat }.

(* linker.rs 385-395 Linker, 81 GLOBAL_SCOPE (weak references), and what the
   application sees: the initializers and finalizers run, the open handles (Arc). *)
Record ld := LD {
  nid : nat; names : list (name * nat); objs : list obj; gsc : list nat;
  inits : list nat; finis : list nat; handles : list nat }.

Definition set_gsc (s : ld) g := LD (nid s) (names s) (objs s) g (inits s) (finis s) (handles s).

Fixpoint assoc (n : name) (l : list (name * nat)) : option nat :=
  match l with [] => None | (m, i) :: r => if m =? n then Some i else assoc n r end.
Definition by_id (l : list obj) (i : nat) : option obj := find (fun o => oid o =? i) l.
Definition by_name (l : list obj) (n : name) : option obj := find (fun o => onam o =? n) l.

(* BTreeMap::insert on objects, keyed and ordered by id. *)
Fixpoint ins (o : obj) (l : list obj) : list obj :=
  match l with
  | [] => [o]
  | p :: r => if oid o <? oid p then o :: l else if oid o =? oid p then o :: r else p :: ins o r
  end.

Inductive kind := Global | Local.

(* linker.rs 216-239 Scope::add *)
Definition add (s : list nat) (i : nat) : list nat := if existsb (Nat.eqb i) s then s else s ++ [i].

(* linker.rs 769-796, 829-838, 889-896: the object enters the scope of its dependent. *)
Definition enter (k : kind) (s : ld) (ds : option (list nat)) (i : nat) : ld * option (list nat) :=
  match k with
  | Global => (set_gsc s (add (gsc s) i), ds)
  | Local => (s, match ds with Some d => Some (add d i) | None => None end)
  end.

(* linker.rs 769-796: the object is already loaded, or loaded by this call. *)
Definition known (s : ld) (new : list obj) (n : name) : option nat :=
  match assoc n (names s) with
  | Some i => match by_id (objs s) i with Some _ => Some i | None => None end
  | None => match by_name new n with Some o => Some (oid o) | None => None end
  end.

(* linker.rs 898-910: the loop over the dependencies; [rec]: the recursive call. *)
Definition lres := (ld * list obj * option (list nat) * option nat)%type.
Fixpoint dep_loop (rec : ld -> list obj -> name -> option (list nat) -> res lres)
    (l : list name) (s : ld) (new : list obj) (sc : list nat) : res (ld * list obj * list nat * bool) :=
  match l with
  | [] => Ok (s, new, sc, true)
  | x :: l =>
      ' r <- rec s new x (Some sc) ;;
      match r with
      | (s, new, sc, Some _) => dep_loop rec l s new (match sc with Some sc => sc | None => [] end)
      | (s, new, sc, None) => Ok (s, new, match sc with Some sc => sc | None => [] end, false)
      end
  end.

(* linker.rs 756-921 load_objects_recursive.  [new]: new_objects; [ds]: dependent_scope.
   The last component is the object, None for Err. *)
Fixpoint load (fuel : nat) (fs : name -> option desc) (dl : bool) (k : kind)
    (s : ld) (new : list obj) (n : name) (ds : option (list nat)) : res lres :=
  match fuel with
  | O => OutOfFuel
  | S f =>
      match known s new n with
      | Some i => let (s, ds) := enter k s ds i in Ok (s, new, ds, Some i)
      | None =>
          match fs n with
          | None => Ok (s, new, ds, None)
          | Some d =>
              let i := nid s in
              let s := LD (S i) (names s) (objs s) (gsc s) (inits s) (finis s) (handles s) in
              let (s, ds) := enter k s ds i in
              ' r <- dep_loop (load f fs dl k) (needed d) s new [] ;;
              match r with
              | (s, new, sc, true) => Ok (s, new ++ [Obj i (so d) (needed d) dl sc], ds, Some i)
              | (s, new, _, false) => Ok (s, new, ds, None)
              end
          end
      end
  end.

(* linker.rs 722-729 with 737-740 register_object and 990-1003 run_init *)
Definition register (s : ld) (o : obj) : ld :=
  LD (nid s) ((onam o, oid o) :: names s) (ins o (objs s)) (gsc s) (inits s ++ [oid o]) (finis s) (handles s).

(* linker.rs 572-735 load_object; an error drops the new objects. *)
Definition load_object (fuel : nat) (fs : name -> option desc) (s : ld) (n : name) (dl : bool) (k : kind) : res (ld * option nat) :=
  ' r <- load fuel fs dl k s [] n None ;;
  match r with
  | (s, new, _, Some i) => Ok (fold_left register new s, Some i)
  | (s, _, _, None) => Ok (s, None)
  end.

(* linker.rs 289-300 Scope::copy_into *)
Definition copy_into (s : ld) (o : obj) : ld := set_gsc s (gsc s ++ oid o :: oscope o).

Definition hand (s : ld) (i : nat) : ld := LD (nid s) (names s) (objs s) (gsc s) (inits s) (finis s) (i :: handles s).

(* dlfcn/mod.rs 93-137 dlopen with linker.rs 428-498 load_library.  [n] = None: the null
   pointer, the program (ROOT_ID). *)
Definition dlopen (fuel : nat) (fs : name -> option desc) (s : ld) (n : option name) (k : kind) (now noload : bool)
    : res (ld * option nat) :=
  if noload && now then Panic
  else
    match n with
    | Some n =>
        match assoc n (names s) with
        | Some i =>
            match by_id (objs s) i with
            | None => Panic
            | Some o => Ok (hand (match k with Global => copy_into s o | Local => s end) i, Some i)
            end
        | None =>
            if noload then Ok (s, None)
            else
              ' r <- load_object fuel fs s n true k ;;
              match r with
              | (s, Some i) => Ok (hand s i, Some i)
              | (s, None) => Ok (s, None)
              end
        end
    | None => match by_id (objs s) 1 with Some _ => Ok (hand s 1, Some 1) | None => Ok (s, None) end
    end.

(* Arc::strong_count without the reference of the caller: handles, the map, the local
   scopes of the objects that exist ([held]: removed from the map, not yet dropped). *)
Definition strong (s : ld) (held : list obj) (i : nat) : nat :=
  count_occ Nat.eq_dec (handles s) i + (match by_id (objs s) i with Some _ => 1 | None => 0 end)
  + length (filter (fun p => existsb (Nat.eqb i) (oscope p)) (objs s ++ held)).

Definition drop_obj (s : ld) (i : nat) : ld :=
  LD (nid s) (names s) (filter (fun p => negb (oid p =? i)) (objs s)) (filter (fun j => negb (j =? i)) (gsc s))
     (inits s) (finis s) (handles s).

(* linker.rs 546-552: the loop over the dependencies; [rec]: the recursive call. *)
Fixpoint undep_loop (rec : ld -> obj -> res ld) (l : list name) (s : ld) : res ld :=
  match l with
  | [] => Ok s
  | x :: l =>
      match assoc x (names s) with
      | Some j => match by_id (objs s) j with
                  | Some p => ' s <- rec s p ;; undep_loop rec l s
                  | None => undep_loop rec l s
                  end
      | None => undep_loop rec l s
      end
  end.

(* linker.rs 524-562 unload, with the drop of the object (dso.rs 1296-1310). *)
Fixpoint unload (fuel : nat) (s : ld) (held : list obj) (o : obj) : res ld :=
  match fuel with
  | O => OutOfFuel
  | S f =>
      if negb (odl o) then Ok s
      else if strong s held (oid o) =? 1 then
        ' s <- undep_loop (fun s p => unload f s (o :: held) p) (odeps o) (drop_obj s (oid o)) ;;
        Ok (LD (nid s) (filter (fun p => negb (fst p =? onam o)) (names s)) (objs s) (gsc s) (inits s)
               (finis s ++ [oid o]) (handles s))
      else Ok s
  end.

Fixpoint remove1 (i : nat) (l : list nat) : list nat :=
  match l with [] => [] | j :: r => if j =? i then r else j :: remove1 i r end.

(* dlfcn/mod.rs 183-203 dlclose of a handle that is open; Arc::from_raw takes it over. *)
Definition dlclose (fuel : nat) (s : ld) (i : nat) : res ld :=
  let s := LD (nid s) (names s) (objs s) (gsc s) (inits s) (finis s) (remove1 i (handles s)) in
  match by_id (objs s) i with
  | Some o => unload fuel s [] o
  | None => Panic
  end.

(* linker.rs 564-570 fini, at exit *)
Definition fini (s : ld) : list nat := map oid (objs s).

Definition ld_init : ld := LD 1 [] [] [] [] [] [].

(* ---- symbols ---- *)
Definition STB_GLOBAL := 1%Z.
Definition STB_WEAK := 2%Z.
Record sym := Sym { svalue : Z; sundef : bool; sbind : Z }.

(* dso.rs 507-535 DSO::get_sym; [t]: what the hash table of the object gives for a name
   (the object crate); the bool says whether the binding is global. *)
Definition obj_sym (t : name -> option sym) (x : name) : res (option (sym * bool)) :=
  match t x with
  | None => Ok None
  | Some s =>
      if sundef s then Ok None
      else if (sbind s =? STB_GLOBAL)%Z then Ok (Some (s, true))
      else if (sbind s =? STB_WEAK)%Z then Ok (Some (s, false))
      else Panic
  end.

(* linker.rs 248-287 Scope::_get_sym over the objects of the scope, [i]: the object. *)
Fixpoint scope_sym (tab : nat -> name -> option sym) (l : list nat) (x : name) (r : option (sym * nat)) : res (option (sym * nat)) :=
  match l with
  | [] => Ok r
  | i :: l =>
      ' q <- obj_sym (tab i) x ;;
      match q with
      | Some (s, true) => Ok (Some (s, i))
      | Some (s, false) => scope_sym tab l x (Some (s, i))
      | None => scope_sym tab l x r
      end
  end.
Definition get_sym (tab : nat -> name -> option sym) (l : list nat) (x : name) := scope_sym tab l x None.

(* dso.rs 1325-1330 resolve_sym *)
Fixpoint resolve_sym (tab : nat -> name -> option sym) (scopes : list (list nat)) (x : name) : res (option (sym * nat)) :=
  match scopes with
  | [] => Ok None
  | l :: r => ' q <- get_sym tab l x ;; match q with Some a => Ok (Some a) | None => resolve_sym tab r x end
  end.

(* dlfcn/mod.rs 141-180 dlsym with linker.rs 500-522: a handle, or RTLD_DEFAULT, whose
   weak references must all be alive (276 upgrade().unwrap()). *)
Definition dlsym (tab : nat -> name -> option sym) (s : ld) (h : option nat) (x : name) : res (option (sym * nat)) :=
  match h with
  | Some i => match by_id (objs s) i with
              | Some o => get_sym tab (i :: oscope o) x
              | None => Panic
              end
  | None => if forallb (fun i => match by_id (objs s) i with Some _ => true | None => false end) (gsc s)
            then get_sym tab (gsc s) x else Panic
  end.
