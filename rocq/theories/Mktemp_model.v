(* mkstemp, mkdtemp, mktemp and their kin: src/header/stdlib/mod.rs 758-884; tmpnam, tempnam and tmpfile:
   src/header/stdio/mod.rs 1401-1520.  Redox values of the flags.  The system calls are arbitrary functions of a state
   and the name, the characters drawn an arbitrary sequence. *)
From Verif Require Import Base String_model Inet_model.

Definition O_RDWR : Z := 196608.       (* 0x0003_0000 *)
Definition O_ACCMODE : Z := 196608.
Definition O_CREAT : Z := 33554432.    (* 0x0200_0000 *)
Definition O_EXCL : Z := 134217728.    (* 0x0800_0000 *)
Definition EEXIST : Z := 17.
Definition EINVAL : Z := 22.
Definition ENOENT : Z := 2.
Definition i32 (x : Z) : Z := (x + 2147483648) mod 4294967296 - 2147483648.

Section World.
Variable S : Type.
(* rng.sample(Alphanumeric), the i-th draw *)
Variable draw : nat -> Z.

(* mod.rs 769-774: k characters from address p on *)
Fixpoint all_x (k : nat) (m : mem) (p : Z) : res bool :=
  match k with
  | O => Ok true
  | Datatypes.S k => b <- ld m p ;; if b =? 88 then all_x k m (p + 1) else Ok false
  end.
(* 784-789: from the last character to the first; e is the end of the six, i counts up to six *)
Fixpoint put_draws (k i j : nat) (m : mem) (e : Z) : res mem :=
  match k with
  | O => Ok m
  | Datatypes.S k => m <- st m (e - Z.of_nat i - 1) (draw (6 * j + i)) ;; put_draws k (Datatypes.S i) j m e
  end.
(* 779-798: k attempts are left, j were made *)
Fixpoint try_names {T} (attempt : S -> list Z -> S * option T) (fuel k j : nat) (m : mem) (name e : Z) (s : S) : res (mem * S * (T + Z)) :=
  match k with
  | O => Ok (m, s, inr EEXIST)
  | Datatypes.S k =>
      m <- put_draws 6 0 j m e ;;
      n <- read_str fuel m name ;;
      match attempt s n with
      | (s, Some t) => Ok (m, s, inl t)
      | (s, None) => try_names attempt fuel k (Datatypes.S j) m name e s
      end
  end.
(* 758-799; the errno, if there is none *)
Definition inner_mktemp {T} (attempt : S -> list Z -> S * option T) (fuel : nat) (m : mem) (name suffix_len : Z) (s : S) : res (mem * S * (T + Z)) :=
  l <- strlen fuel m name ;;
  let l := i32 l in
  if (l <? 6) || (i32 (l - 6) <? suffix_len) then Ok (m, s, inr EINVAL)
  else
    let a := i32 (i32 (l - suffix_len) - 6) in
    let b := i32 (l - suffix_len) in
    x <- all_x (Z.to_nat (b - a)) m (name + a) ;;
    if x : bool then try_names attempt fuel 100 0 m name (name + l - suffix_len) s
    else Ok (m, s, inr EINVAL).

(* The system calls: a descriptor or an errno *)
Variable open : S -> list Z -> Z -> Z -> S * (Z + Z).
Variable mkdir : S -> list Z -> Z -> S * option Z.
Variable access : S -> list Z -> Z -> S * option Z.
Variable unlink : S -> list Z -> S.

(* 830-847: the descriptor, or -1 *)
Definition mkostemps (fuel : nat) (m : mem) (name suffix_len flags : Z) (s : S) : res (mem * S * (Z + Z)) :=
  let flags := Z.lor (Z.land flags (Z.lnot O_ACCMODE)) (Z.lor O_RDWR (Z.lor O_CREAT O_EXCL)) in
  inner_mktemp (fun s n => match open s n flags 384 with (s, inl fd) => (s, if 0 <=? fd then Some fd else None) | (s, inr _) => (s, None) end)
    fuel m name suffix_len s.
(* 824, 851, 857 *)
Definition mkostemp (fuel : nat) (m : mem) (name flags : Z) (s : S) := mkostemps fuel m name 0 flags s.
Definition mkstemp (fuel : nat) (m : mem) (name : Z) (s : S) := mkostemps fuel m name 0 0 s.
Definition mkstemps (fuel : nat) (m : mem) (name suffix_len : Z) (s : S) := mkostemps fuel m name suffix_len 0 s.
(* 811-820; name, or a null pointer and an errno *)
Definition mkdtemp (fuel : nat) (m : mem) (name : Z) (s : S) : res (mem * S * (Z + Z)) :=
  inner_mktemp (fun s n => match mkdir s n 448 with (s, None) => (s, Some name) | (s, Some _) => (s, None) end) fuel m name 0 s.
(* 868-884 *)
Definition mktemp (fuel : nat) (m : mem) (name : Z) (s : S) : res (mem * S) :=
  ' (m, s, r) <- inner_mktemp (fun s n => match access s n 0 with (s, Some e) => (s, if e =? ENOENT then Some tt else None) | (s, None) => (s, None) end) fuel m name 0 s ;;
  match r with
  | inl _ => Ok (m, s)
  | inr _ => m <- st m name 0 ;; Ok (m, s)
  end.

(* stdio/mod.rs 1498-1520; XXXXXX and the terminator at buf + offset *)
Fixpoint st_list (m : mem) (p : Z) (l : list Z) : res mem :=
  match l with [] => Ok m | c :: l => m <- st m p c ;; st_list m (p + 1) l end.
Definition tmpnam_inner (fuel : nat) (m : mem) (buf offset : Z) (s : S) : res (mem * S * Z) :=
  m <- st_list m (buf + offset) [88; 88; 88; 88; 88; 88; 0] ;;
  ' (m, s) <- mktemp fuel m buf s ;;
  b <- ld m buf ;;
  Ok (m, s, if b =? 0 then 0 else buf).
(* 1483-1495; static_buf is the address of TMPNAM_BUF *)
Definition L_tmpnam : Z := 7.
Definition tmpnam (fuel : nat) (m : mem) (static_buf p : Z) (s : S) : res (mem * S * Z) :=
  let buf := if p =? 0 then static_buf else p in
  m <- st m buf 47 ;;
  tmpnam_inner fuel m buf 1 s.
(* 1405-1453: tmpdir is what getenv gives, slash_tmp the address of "/tmp", alloc the allocator; the last component
   is what is freed again.  unistd::access(d, W_OK) does not change the state. *)
Definition appropriate (fuel : nat) (m : mem) (s : S) (d : Z) : res bool :=
  if d =? 0 then Ok false
  else n <- read_str fuel m d ;; match access s n 2 with (_, None) => Ok true | (_, Some _) => Ok false end.
Definition choose_dir (fuel : nat) (m : mem) (s : S) (tmpdir dir slash_tmp : Z) : res Z :=
  x <- appropriate fuel m s tmpdir ;;
  if x : bool then Ok tmpdir
  else
    x <- appropriate fuel m s dir ;;
    if x : bool then Ok dir else Ok slash_tmp.
Definition tempnam (fuel : nat) (m : mem) (alloc : Z -> Z) (tmpdir dir slash_tmp pfx : Z) (s : S) : res (mem * S * Z * list Z) :=
  d <- choose_dir fuel m s tmpdir dir slash_tmp ;;
  dl <- strlen fuel m d ;;
  pl <- strnlen_s fuel m pfx 5 ;;
  let out := alloc (dl + 1 + pl + L_tmpnam + 1) in
  if out =? 0 then Ok (m, s, 0, [])
  else
    m <- copy_fwd (Z.to_nat dl) m out d ;;
    m <- st m (out + dl) 47 ;;
    m <- copy_fwd (Z.to_nat pl) m (out + dl + 1) pfx ;;
    ' (m, s, r) <- tmpnam_inner fuel m out (dl + 1 + pl) s ;;
    Ok (m, s, if r =? 0 then 0 else out, if r =? 0 then [out] else []).
(* 1456-1478: what fdopen and close do is left out; the descriptor of the stream.  name is the array on the stack *)
Definition tmpfile (fuel : nat) (m : mem) (name : Z) (s : S) : res (S * option Z) :=
  m <- st_list m name [47; 116; 109; 112; 47; 116; 109; 112; 102; 105; 108; 101; 88; 88; 88; 88; 88; 88; 0] ;;
  ' (m, s, r) <- mkstemp fuel m name s ;;
  match r with
  | inr _ => Ok (s, None)
  | inl fd => n <- read_str fuel m name ;; Ok (unlink s n, Some fd)
  end.
End World.
