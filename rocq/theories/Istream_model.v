(* Model of buffered input: header/stdio/mod.rs FILE (Read and BufRead), getc, fread,
   ungetc, setvbuf, fgets; getdelim.rs; io/mod.rs read_until.  The stream's lock,
   orientation and F_NORD are not modelled (the code does not look at F_NORD). *)
From Coq Require Import ZArith List Bool.
From Verif Require Import Base.
Import ListNotations.
Open Scope Z_scope.

(* /repo/src/header/stdio/constants.rs *)
Definition I_EOF := -1.
Definition F_EOF := 16.
Definition F_ERR := 32.
Definition BUFSIZ := Z.to_nat 1024.

(* What the kernel answers to the i-th read(2): an error, or as many bytes as it likes,
   at most the request and at most what the file has; 0 is end of file. *)
Inductive rres := RErr | RN (n : nat).

(* mod.rs 225-246.  [inp]: the bytes the descriptor has yet to deliver; [reads]: number
   of read(2) so far.  [rb]: read_buf; None is Owned(None), Some [] is Unbuffered.
   [unget]: the pushed-back bytes, last one first. *)
Record istream := IS {
  inp : list Z; reads : nat;
  rb : option (list Z); rpos : nat; rsize : nat;
  unget : list Z; flags : Z }.

Definition set_flags (s : istream) (f : Z) := IS (inp s) (reads s) (rb s) (rpos s) (rsize s) (unget s) f.
Definition set_unget (s : istream) (u : list Z) := IS (inp s) (reads s) (rb s) (rpos s) (rsize s) u (flags s).

(* mod.rs 91-100: the bytes of the buffer. *)
Definition arr (s : istream) : list Z := match rb s with Some a => a | None => [] end.

(* mod.rs 69-79 need_init with its use at 277-279. *)
Definition init_buf (s : istream) : istream :=
  match rb s with
  | Some _ => s
  | None => IS (inp s) (reads s) (Some (repeat 0 BUFSIZ)) (rpos s) (rsize s) (unget s) (flags s)
  end.

(* mod.rs 280-293: refill, with fs.rs 83-90 File::read into the whole buffer. *)
Definition refill (orc : nat -> rres) (s : istream) : istream * bool :=
  match orc (reads s) with
  | RErr => (IS (inp s) (S (reads s)) (rb s) (rpos s) (rsize s) (unget s) (Z.lor (flags s) F_ERR), false)
  | RN n =>
      let k := Nat.min n (Nat.min (length (arr s)) (length (inp s))) in
      if (k =? 0)%nat then
        (IS (inp s) (S (reads s)) (rb s) 0 0 (unget s) (Z.lor (flags s) F_EOF), true)
      else
        (IS (skipn k (inp s)) (S (reads s)) (Some (firstn k (inp s) ++ skipn k (arr s))) 0 k (unget s) (flags s), true)
  end.

(* mod.rs 275-296 fill_buf: [None] is Err; the slice expression panics out of range. *)
Definition fill_buf (orc : nat -> rres) (s : istream) : res (istream * option (list Z)) :=
  let s := init_buf s in
  let (s, ok) := if (rpos s =? rsize s)%nat then refill orc s else (s, true) in
  if ok then
    if (rpos s <=? rsize s)%nat && (rsize s <=? length (arr s))%nat
    then Ok (s, Some (firstn (rsize s - rpos s) (skipn (rpos s) (arr s))))
    else Panic
  else Ok (s, None).

(* mod.rs 297-299 *)
Definition consume (s : istream) (i : nat) : istream :=
  IS (inp s) (reads s) (rb s) (Nat.min (rpos s + i) (rsize s)) (rsize s) (unget s) (flags s).

(* mod.rs 250-272 FILE::read into a slice of n bytes: [None] is Err, [Some d] is
   Ok(length d) with d stored. *)
Definition f_read (orc : nat -> rres) (s : istream) (n : nat) : res (istream * option (list Z)) :=
  let u := Nat.min n (length (unget s)) in
  if (u =? 0)%nat then
    ' p <- fill_buf orc s ;;
    match p with
    | (s, None) => Ok (s, None)
    | (s, Some buf) =>
        let k := Nat.min (length buf) n in
        Ok (consume s k, Some (firstn k buf))
    end
  else Ok (set_unget s (skipn u (unget s)), Some (firstn u (unget s))).

(* mod.rs 774-784 the loop of fread; [total] is buf.len(), [got] what is stored. *)
Fixpoint fread_loop (fuel : nat) (orc : nat -> rres) (s : istream) (total : nat) (got : list Z)
    : res (istream * list Z) :=
  match fuel with
  | O => OutOfFuel
  | S f =>
      if (length got <? total)%nat then
        ' p <- f_read orc s (total - length got) ;;
        match p with
        | (s, Some (x :: d)) => fread_loop f orc s total (got ++ x :: d)
        | (s, _) => Ok (s, got)
        end
      else Ok (s, got)
  end.

(* mod.rs 590-651 fgets, the loop; [left] bytes may still be stored. *)
Fixpoint find (c : Z) (l : list Z) : option nat :=
  match l with
  | [] => None
  | x :: r => if x =? c then Some O else option_map S (find c r)
  end.
Fixpoint fgets_loop (fuel : nat) (orc : nat -> rres) (s : istream) (left : Z) (got : list Z) (wrote : bool)
    : res (istream * list Z * option bool) :=
  match fuel with
  | O => OutOfFuel
  | S f =>
      if left =? 0 then Ok (s, got, Some wrote)
      else
        ' p <- fill_buf orc s ;;
        match p with
        | (s, None) => Ok (s, got, None)
        | (s, Some []) => Ok (s, got, Some wrote)
        | (s, Some buf) =>
            let len := Z.to_nat (Z.min (Z.of_nat (length buf)) left) in
            let nl := find 10 (firstn len buf) in
            let len := match nl with Some i => S i | None => len end in
            let s := consume s len in
            let got := got ++ firstn len buf in
            if nl then Ok (s, got, Some true)
            else fgets_loop f orc s (left - Z.of_nat len) got true
        end
  end.

(* What fgets stored from [original] on, and whether it returned original (else NULL). *)
Definition fgets (orc : nat -> rres) (s : istream) (n : Z) : res (istream * list Z * bool) :=
  let max := n mod 2 ^ 64 in
  let left := Z.max 0 (max - 1) in
  let u := Z.to_nat (Z.min left (Z.of_nat (length (unget s)))) in
  let got := firstn u (unget s) in
  let s := set_unget s (skipn u (unget s)) in
  ' r <- fgets_loop (S (S (rsize s + length (inp s)))) orc s (left - Z.of_nat u) got false ;;
  match r with
  | (s, got, None) => Ok (s, got, false)
  | (s, got, Some wrote) => Ok (s, if 1 <=? max then got ++ [0] else got, wrote)
  end.

(* /repo/src/io/mod.rs 398-424 read_until: [None] is Err. *)
Fixpoint read_until (fuel : nat) (orc : nat -> rres) (s : istream) (delim : Z) (buf : list Z)
    : res (istream * option (list Z)) :=
  match fuel with
  | O => OutOfFuel
  | S f =>
      ' p <- fill_buf orc s ;;
      match p with
      | (s, None) => Ok (s, None)
      | (s, Some av) =>
          match find delim av with
          | Some i => Ok (consume s (S i), Some (buf ++ firstn (S i) av))
          | None =>
              let s := consume s (length av) in
              if (length av =? 0)%nat then Ok (s, Some (buf ++ av))
              else read_until f orc s delim (buf ++ av)
          end
      end
  end.

(* getdelim.rs 49-133: [None] is -1; [Some l]: the result is the length of l, *lineptr
   points to a block of the new *n bytes that starts with l and a NUL.  Allocation is
   taken to succeed, and counts to be below SSIZE_MAX. *)
Definition getdelim (orc : nat -> rres) (s : istream) (delim : Z) : res (istream * option (list Z)) :=
  if negb (Z.land (flags s) F_EOF =? 0) || negb (Z.land (flags s) F_ERR =? 0) then Ok (s, None)
  else if (delim <? 0) || (255 <? delim) then Ok (s, None)
  else
    ' p <- read_until (S (S (rsize s + length (inp s)))) orc s delim [] ;;
    match p with
    | (s, None) => Ok (set_flags s (Z.land (flags s) F_ERR), None)
    | (s, Some buf) =>
        let eof_reached := match rev buf with [] => true | c :: _ => c =? delim end in
        let s := if eof_reached : bool then set_flags s (Z.land (flags s) F_EOF) else s in
        if eof_reached && (length buf =? 0)%nat then Ok (s, None) else Ok (s, Some buf)
    end.

(* A call on the stream; setvbuf: mode 0 is _IONBF here by [None], else the contents of
   the new buffer (zeros when the library allocates it). *)
Inductive iop :=
| IGetc
| IFread (size nitems : nat)
| IUngetc (c : Z)
| ISetvbuf (new : option (list Z))
| IClearerr
| IFgets (n : Z)
| IGetdelim (delim : Z).

(* The value of the call (fgets: 1 for buf, 0 for NULL) and the bytes stored for the
   caller: mod.rs 998-1008 getc, 763-785 fread, 1524-1532 ungetc, 1363-1382 setvbuf (the
   reading half), 406-409 clearerr. *)
Definition i_exec (orc : nat -> rres) (s : istream) (o : iop) : res (istream * (Z * list Z)) :=
  match o with
  | IGetc =>
      ' p <- f_read orc s 1 ;;
      match p with
      | (s, Some (c :: _)) => Ok (s, (c, []))
      | (s, _) => Ok (s, (I_EOF, []))
      end
  | IFread size nitems =>
      if (size =? 0)%nat || (nitems =? 0)%nat then Ok (s, (0, []))
      else
        ' r <- fread_loop (S (size * nitems)) orc s (size * nitems) [] ;;
        let (s, got) := r in Ok (s, (Z.of_nat (length got / size), got))
  | IUngetc c => Ok (set_unget s (c mod 256 :: unget s), (c, []))
  | ISetvbuf new =>
      let a := match new with Some a => a | None => [] end in
      Ok (IS (inp s) (reads s) (Some a) (rpos s) (rsize s) (unget s) (flags s), (0, []))
  | IClearerr => Ok (set_flags s (Z.land (flags s) (Z.lnot (Z.lor F_EOF F_ERR))), (0, []))
  | IFgets n =>
      ' r <- fgets orc s n ;;
      let '(s, got, ok) := r in Ok (s, ((if ok : bool then 1 else 0), got))
  | IGetdelim d =>
      ' p <- getdelim orc s d ;;
      match p with
      | (s, None) => Ok (s, (-1, []))
      | (s, Some l) => Ok (s, (Z.of_nat (length l), l ++ [0]))
      end
  end.

Fixpoint i_run (orc : nat -> rres) (s : istream) (l : list iop) : res (istream * list (Z * list Z)) :=
  match l with
  | [] => Ok (s, [])
  | o :: r =>
      ' p <- i_exec orc s o ;;
      let (s1, v) := p in
      ' q <- i_run orc s1 r ;;
      let (s2, vs) := q in Ok (s2, v :: vs)
  end.

(* A stream just opened on a file with contents F. *)
Definition i_open (F : list Z) (f : Z) : istream := IS F 0 None 0 0 [] f.
