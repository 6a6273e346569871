(* Model of the wide-character calls on streams: header/wchar/mod.rs fgetwc, fgetws,
   ungetwc, fputwc, fputws, fwide, over getc, ungetc and fputc with the orientation checks of
   header/stdio/mod.rs.  The buffers below are Istream_model's and Ostream_model's; the
   conversions are Utf8_model's.  The stream's (recursive) lock is not modelled. *)
From Coq Require Import ZArith List Bool.
From Verif Require Import Base Utf8_model Istream_model.
From Verif Require Ostream_model.
Import ListNotations.
Open Scope Z_scope.

(* mod.rs 342-351 try_set_orientation_unlocked: the new orientation, which is also its value. *)
Definition set_orientation (ori mode : Z) : Z :=
  if ori =? 0 then (if 0 <? mode then 1 else if mode <? 0 then -1 else ori) else ori.
(* mod.rs 353-358 try_set_byte_orientation_unlocked: is it Ok? *)
Definition byte_ok (ori : Z) : bool := set_orientation ori (-1) <? 0.

(* A stream being read, with its orientation. *)
Record wis := WIS { ori : Z; ist : istream }.

(* mod.rs 998-1009 getc_unlocked *)
Definition wgetc (orc : nat -> rres) (w : wis) : res (wis * Z) :=
  let o := set_orientation (ori w) (-1) in
  if byte_ok (ori w) then
    ' p <- i_exec orc (ist w) IGetc ;;
    let '(s, (v, _)) := p in Ok (WIS o s, v)
  else Ok (WIS o (ist w), I_EOF).

(* mod.rs 1524-1532 ungetc *)
Definition wungetc (orc : nat -> rres) (w : wis) (c : Z) : res (wis * Z) :=
  let o := set_orientation (ori w) (-1) in
  if byte_ok (ori w) then
    ' p <- i_exec orc (ist w) (IUngetc c) ;;
    let '(s, (v, _)) := p in Ok (WIS o s, v)
  else Ok (WIS o (ist w), -1).

(* wchar/mod.rs 67-112 fgetwc_unlocked; [buf]: the bytes read so far, [el]: encoded_length.
   Result: the stream, the wint_t, errno if it was set.  The array has MB_CUR_MAX = 4 bytes
   (stdlib/mod.rs 57) and stands at address 1. *)
Definition to_wint (wc : Z) : Z := wc mod 4294967296.
Definition local (buf : list Z) : mem := mem_of 1 (buf ++ repeat 0 (4 - length buf)).
Fixpoint fgetwc_loop (fuel : nat) (orc : nat -> rres) (w : wis) (buf : list Z) (el : Z)
    : res (wis * Z * option Z) :=
  match fuel with
  | O => OutOfFuel
  | S f =>
      ' p <- wgetc orc w ;;
      let (w, ret) := p in
      if ret =? I_EOF then Ok (w, WEOF, None)
      else
        let buf := buf ++ [ret mod 256] in
        match (if len buf =? 1 then get_char_encoded_length (hd 0 buf) else Some el) with
        | None =>
            Ok (WIS (ori w) (set_flags (ist w) (Z.lor (flags (ist w)) F_ERR)), WEOF, Some EILSEQ)
        | Some el =>
            if el <=? len buf then
              ' r <- mbrtowc (local buf) 1 el ;;
              let '(_, wc, e) := r in
              Ok (w, to_wint (match wc with Some c => c | None => 0 end), e)
            else fgetwc_loop f orc w buf el
        end
  end.
Definition fgetwc (orc : nat -> rres) (w : wis) : res (wis * Z * option Z) := fgetwc_loop 5 orc w [] 0.

(* wchar/mod.rs 123-144 fgetws; [got]: what is stored from ws on so far (i is its length).
   The result's list ends with the terminator; the flag: is it ws, rather than NULL? *)
Fixpoint fgetws_loop (fuel : nat) (orc : nat -> rres) (w : wis) (n : Z) (got : list Z) : res (wis * list Z) :=
  match fuel with
  | O => OutOfFuel
  | S f =>
      if len got + 1 <? n then
        ' r <- fgetwc orc w ;;
        let '(w, wc, _) := r in
        if wc =? WEOF then Ok (w, got)
        else if wc =? 10 then Ok (w, got ++ [wc])
        else fgetws_loop f orc w n (got ++ [wc])
      else Ok (w, got)
  end.
Definition fgetws (orc : nat -> rres) (w : wis) (n : Z) : res (wis * list Z * bool) :=
  ' r <- fgetws_loop (S (Z.to_nat n)) orc w n [] ;;
  let (w, got) := r in
  Ok (w, got ++ [0], negb ((len got =? 0) || negb (Z.land (flags (ist w)) F_ERR =? 0))).

(* c_char is i8 *)
Definition to_i8 (b : Z) : Z := if b <? 128 then b else b - 256.
Fixpoint loads (m : mem) (a : Z) (n : nat) : res (list Z) :=
  match n with
  | O => Ok []
  | S k => b <- ld m a ;; r <- loads m (a + 1) k ;; Ok (to_i8 b :: r)
  end.

(* wchar/mod.rs 355-377 ungetwc *)
Fixpoint unget_all (orc : nat -> rres) (w : wis) (l : list Z) : res wis :=
  match l with
  | [] => Ok w
  | b :: r => ' p <- wungetc orc w b ;; unget_all orc (fst p) r
  end.
Definition ungetwc (orc : nat -> rres) (w : wis) (wc : Z) : res (wis * Z) :=
  if wc =? WEOF then Ok (w, wc)
  else
    ' r <- wcrtomb (local []) 1 (to_i32 wc) ;;
    let '(m, amount, _) := r in
    if amount =? USIZE_MAX then Ok (w, WEOF)
    else
      bytes <- loads m 1 (Z.to_nat amount) ;;
      w <- unget_all orc w (rev bytes) ;;
      Ok (w, wc).

(* Calls on a stream that is read, and their values (fgetws: 1 for ws, 0 for NULL, and what
   it stored); wchar/mod.rs 180-182 fwide. *)
Inductive wop := WGetwc | WGetws (n : Z) | WUngetwc (c : Z) | WFwide (mode : Z) | WGetc | WUngetc (c : Z) | WClearerr.
Definition w_exec (orc : nat -> rres) (w : wis) (o : wop) : res (wis * (Z * list Z)) :=
  match o with
  | WGetwc => ' r <- fgetwc orc w ;; let '(w, v, _) := r in Ok (w, (v, []))
  | WGetws n => ' r <- fgetws orc w n ;; let '(w, got, ok) := r in Ok (w, ((if ok : bool then 1 else 0), got))
  | WUngetwc c => ' r <- ungetwc orc w c ;; let (w, v) := r in Ok (w, (v, []))
  | WFwide mode => let o := set_orientation (ori w) mode in Ok (WIS o (ist w), (o, []))
  | WGetc => ' r <- wgetc orc w ;; let (w, v) := r in Ok (w, (v, []))
  | WUngetc c => ' r <- wungetc orc w c ;; let (w, v) := r in Ok (w, (v, []))
  | WClearerr => ' r <- i_exec orc (ist w) IClearerr ;; Ok (WIS (ori w) (fst r), (0, []))
  end.
Fixpoint w_run (orc : nat -> rres) (w : wis) (l : list wop) : res (wis * list (Z * list Z)) :=
  match l with
  | [] => Ok (w, [])
  | o :: r =>
      ' p <- w_exec orc w o ;;
      let (w1, v) := p in
      ' q <- w_run orc w1 r ;;
      let (w2, vs) := q in Ok (w2, v :: vs)
  end.
(* A stream just opened on a file with contents F; [b]: None, or the buffer given with
   setvbuf. *)
Definition w_open (F : list Z) (f : Z) (b : option (list Z)) : wis := WIS 0 (IS F 0 b 0 0 [] f).

(* A stream being written, with its orientation. *)
Record wos := WOS { oori : Z; ost : Ostream_model.stream }.

(* stdio/mod.rs 735-742 fputc, 1212-1221 putc_unlocked *)
Definition wputc (k : Ostream_model.wkind) (cap : nat) (orc : nat -> Ostream_model.wres) (w : wos) (c : Z)
    : option (wos * Z) :=
  let o := set_orientation (oori w) (-1) in
  if byte_ok (oori w) then
    match Ostream_model.o_exec k cap orc (ost w) (Ostream_model.OpPutc c) with
    | Some (s, v) => Some (WOS o s, v)
    | None => None
    end
  else Some (WOS o (ost w), -1).
Fixpoint put_all (k : Ostream_model.wkind) (cap : nat) (orc : nat -> Ostream_model.wres) (w : wos) (l : list Z)
    : option wos :=
  match l with
  | [] => Some w
  | b :: r => match wputc k cap orc w b with Some (w, _) => put_all k cap orc w r | None => None end
  end.

(* wchar/mod.rs 148-160 fputwc: the array has 4 bytes, so take(amount) gives at most 4.
   Result: the stream, the wint_t, errno if it was set. *)
Definition fputwc (k : Ostream_model.wkind) (cap : nat) (orc : nat -> Ostream_model.wres) (w : wos) (wc : Z)
    : res (wos * Z * option Z) :=
  ' r <- wcrtomb (local []) 1 wc ;;
  let '(m, amount, e) := r in
  bytes <- loads m 1 (Z.to_nat (Z.min amount 4)) ;;
  match put_all k cap orc w bytes with
  | Some w => Ok (w, to_wint wc, e)
  | None => OutOfFuel
  end.

(* wchar/mod.rs 164-177 fputws; [ws] is an address of the wide memory [m], which has one
   wchar_t per cell. *)
Fixpoint fputws (fuel : nat) (k : Ostream_model.wkind) (cap : nat) (orc : nat -> Ostream_model.wres) (w : wos) (m : mem) (ws : Z)
    : res (wos * Z) :=
  match fuel with
  | O => OutOfFuel
  | S f =>
      wc <- ld m ws ;;
      if wc =? 0 then Ok (w, 0)
      else
        ' r <- fputwc k cap orc w wc ;;
        let '(w, v, _) := r in
        if v =? WEOF then Ok (w, -1) else fputws f k cap orc w m (ws + 1)
  end.
(* A stream just opened for writing. *)
Definition wo_open : wos := WOS 0 Ostream_model.o_open.
(* Calls on a stream that is written, and their values. *)
Inductive woop := WoPutwc (c : Z) | WoFwide (mode : Z) | WoPutc (c : Z) | WoFlush.
Definition wo_exec (k : Ostream_model.wkind) (cap : nat) (orc : nat -> Ostream_model.wres) (w : wos) (o : woop)
    : res (wos * Z) :=
  match o with
  | WoPutwc c => ' r <- fputwc k cap orc w c ;; let '(w, v, _) := r in Ok (w, v)
  | WoFwide mode => let o := set_orientation (oori w) mode in Ok (WOS o (ost w), o)
  | WoPutc c => match wputc k cap orc w c with Some r => Ok r | None => OutOfFuel end
  | WoFlush =>
      match Ostream_model.o_exec k cap orc (ost w) Ostream_model.OpFlush with
      | Some (s, v) => Ok (WOS (oori w) s, v)
      | None => OutOfFuel
      end
  end.
Fixpoint wo_run (k : Ostream_model.wkind) (cap : nat) (orc : nat -> Ostream_model.wres) (w : wos) (l : list woop)
    : res (wos * list Z) :=
  match l with
  | [] => Ok (w, [])
  | o :: r =>
      ' p <- wo_exec k cap orc w o ;;
      let (w1, v) := p in
      ' q <- wo_run k cap orc w1 r ;;
      let (w2, vs) := q in Ok (w2, v :: vs)
  end.
