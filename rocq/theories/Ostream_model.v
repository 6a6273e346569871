(* Model of buffered output: io/buffered.rs BufWriter and LineWriter, fs.rs File::write,
   header/stdio/mod.rs FileInnerWriter, FILE::write/flush, fwrite, fputs, putc, puts, fflush.
   The stream's lock, orientation and F_NOWR are not modelled (the code does not look
   at F_NOWR). *)
From Coq Require Import ZArith List Bool.
Import ListNotations.
Open Scope Z_scope.

Definition EOF := -1.

(* What the kernel answers to the i-th write(2): an error, or a count, which is at most
   the length of the request. *)
Inductive wres := WErr | WOk (n : nat).
(* [out]: the bytes the descriptor has received; [calls]: number of write(2) so far. *)
Record dev := Dev { out : list Z; calls : nat }.

(* /repo/src/fs.rs 92-101.  Errors are Repr::Os, whose kind() is Other (io/error.rs
   177-183), never Interrupted: the retry arms of the callers are dead code. *)
Definition sys_write (orc : nat -> wres) (d : dev) (buf : list Z) : dev * option nat :=
  match orc (calls d) with
  | WErr => (Dev (out d) (S (calls d)), None)
  | WOk n =>
      let k := Nat.min n (length buf) in
      (Dev (out d ++ firstn k buf) (S (calls d)), Some k)
  end.

(* mod.rs 133-137 FileInnerWriter; [cap] is buf.capacity(); need_flush is LineWriter's. *)
Inductive wkind := WBuf | WLine | WUnbuf.
Record writer := Writer { wbuf : list Z; need_flush : bool }.

(* /repo/src/io/mod.rs 285 *)
Definition DEFAULT_BUF_SIZE := Z.to_nat 8192.

(* /repo/src/io/buffered.rs 409-438 flush_buf: the loop; [w] bytes of buf are written.
   [None]: out of fuel. *)
Fixpoint flush_loop (fuel : nat) (orc : nat -> wres) (d : dev) (buf : list Z) (w : nat)
    : option (dev * nat * bool) :=
  match fuel with
  | O => None
  | S f =>
      if (w <? length buf)%nat then
        match sys_write orc d (skipn w buf) with
        | (d', Some O) => Some (d', w, false)
        | (d', Some n) => flush_loop f orc d' buf (w + n)
        | (d', None) => Some (d', w, false)
        end
      else Some (d, w, true)
  end.
Definition flush_buf (orc : nat -> wres) (d : dev) (buf : list Z) : option (dev * list Z * bool) :=
  match flush_loop (S (length buf)) orc d buf 0 with
  | Some (d', w, ok) => Some (d', skipn w buf, ok)
  | None => None
  end.

(* buffered.rs 487-505 BufWriter::write.  Result: [None] = Err, [Some n] = Ok(n). *)
Definition bw_write (cap : nat) (orc : nat -> wres) (d : dev) (buf data : list Z)
    : option (dev * list Z * option nat) :=
  let cap := if (cap =? 0)%nat then DEFAULT_BUF_SIZE else cap in
  let put d buf :=
    if (cap <=? length data)%nat then
      let '(d', r) := sys_write orc d data in Some (d', buf, r)
    else Some (d, buf ++ data, Some (length data)) in
  if (cap <? length buf + length data)%nat then
    match flush_buf orc d buf with
    | Some (d1, buf1, true) => put d1 buf1
    | Some (d1, buf1, false) => Some (d1, buf1, None)
    | None => None
    end
  else put d buf.

(* memrchr(b'\n', buf): number of bytes up to and including the last newline *)
Fixpoint last_nl (l : list Z) : option nat :=
  match l with
  | [] => None
  | c :: r => match last_nl r with
              | Some n => Some (S n)
              | None => if c =? 10 then Some 1%nat else None
              end
  end.

(* buffered.rs 752-757 LineWriter::flush *)
Definition lw_flush (orc : nat -> wres) (d : dev) (w : writer) : option (dev * writer * bool) :=
  match flush_buf orc d (wbuf w) with
  | Some (d', b', true) => Some (d', Writer b' false, true)
  | Some (d', b', false) => Some (d', Writer b' (need_flush w), false)
  | None => None
  end.

(* buffered.rs 718-750 LineWriter::write *)
Definition lw_write (cap : nat) (orc : nat -> wres) (d : dev) (w : writer) (data : list Z)
    : option (dev * writer * option nat) :=
  let body d w :=
    match last_nl data with
    | None =>
        match bw_write cap orc d (wbuf w) data with
        | Some (d', b', r) => Some (d', Writer b' (need_flush w), r)
        | None => None
        end
    | Some i =>
        match bw_write cap orc d (wbuf w) (firstn i data) with
        | None => None
        | Some (d1, b1, None) => Some (d1, Writer b1 (need_flush w), None)
        | Some (d1, b1, Some n) =>
            match lw_flush orc d1 (Writer b1 true) with
            | None => None
            | Some (d2, w2, ok) =>
                if negb ok || negb (n =? i)%nat then Some (d2, w2, Some n)
                else
                  match bw_write cap orc d2 (wbuf w2) (skipn i data) with
                  | None => None
                  | Some (d3, b3, Some j) => Some (d3, Writer b3 (need_flush w2), Some (n + j)%nat)
                  | Some (d3, b3, None) => Some (d3, Writer b3 (need_flush w2), Some n)
                  end
            end
        end
    end in
  if need_flush w then
    match lw_flush orc d w with
    | Some (d', w', true) => body d' w'
    | Some (d', w', false) => Some (d', w', None)
    | None => None
    end
  else body d w.

(* A stream: mod.rs 226-249.  [ferr]: F_ERR. *)
Record stream := Stream { sdev : dev; swr : writer; ferr : bool }.

(* mod.rs 204-222, 296-315: FILE::write and FILE::flush over FileInnerWriter *)
Definition f_write (k : wkind) (cap : nat) (orc : nat -> wres) (s : stream) (data : list Z)
    : option (stream * option nat) :=
  let r := match k with
    | WBuf => match bw_write cap orc (sdev s) (wbuf (swr s)) data with
              | Some (d, b, r) => Some (d, Writer b (need_flush (swr s)), r)
              | None => None
              end
    | WLine => lw_write cap orc (sdev s) (swr s) data
    | WUnbuf => let '(d, r) := sys_write orc (sdev s) data in Some (d, swr s, r)
    end in
  match r with
  | Some (d, w, Some n) => Some (Stream d w (ferr s), Some n)
  | Some (d, w, None) => Some (Stream d w true, None)
  | None => None
  end.
Definition f_flush (k : wkind) (orc : nat -> wres) (s : stream) : option (stream * bool) :=
  let r := match k with
    | WBuf => match flush_buf orc (sdev s) (wbuf (swr s)) with
              | Some (d, b, ok) => Some (d, Writer b (need_flush (swr s)), ok)
              | None => None
              end
    | WLine => lw_flush orc (sdev s) (swr s)
    | WUnbuf => Some (sdev s, swr s, true)
    end in
  match r with
  | Some (d, w, ok) => Some (Stream d w (if ok : bool then ferr s else true), ok)
  | None => None
  end.

(* io/mod.rs 1754-1769 write_all, and the loop of fwrite (mod.rs 958-965), which stops
   in the same cases; the number of bytes of data accepted. *)
Fixpoint write_loop (fuel : nat) (k : wkind) (cap : nat) (orc : nat -> wres) (s : stream)
    (data : list Z) (w : nat) : option (stream * nat) :=
  match fuel with
  | O => None
  | S f =>
      if (w <? length data)%nat then
        match f_write k cap orc s (skipn w data) with
        | None => None
        | Some (s', Some O) => Some (s', w)
        | Some (s', Some n) => write_loop f k cap orc s' data (w + n)
        | Some (s', None) => Some (s', w)
        end
      else Some (s, w)
  end.
Definition write_bytes (k : wkind) (cap : nat) (orc : nat -> wres) (s : stream) (data : list Z) :=
  write_loop (S (length data)) k cap orc s data 0.

(* One call of the application.  OpFwrite: the items are the given lists, all of the
   same length (its first argument, not 0). *)
Inductive op := OpFwrite (size : nat) (items : list (list Z)) | OpFputs (s : list Z)
  | OpPutc (c : Z) | OpPuts (s : list Z) | OpFlush.

(* mod.rs 941-966 fwrite, 784-793 fputs, 1211-1220 putc_unlocked, 1231-1247 puts, 547-564 fflush *)
Definition o_exec (k : wkind) (cap : nat) (orc : nat -> wres) (s : stream) (o : op) : option (stream * Z) :=
  match o with
  | OpFwrite size items =>
      if (size =? 0)%nat || (length items =? 0)%nat then Some (s, 0)
      else match write_bytes k cap orc s (concat items) with
           | Some (s', w) => Some (s', Z.of_nat (w / size))
           | None => None
           end
  | OpFputs b =>
      match write_bytes k cap orc s b with
      | Some (s', w) => Some (s', if (w =? length b)%nat then 0 else -1)
      | None => None
      end
  | OpPutc c =>
      match f_write k cap orc s [c mod 256] with
      | Some (s', Some (S _)) => Some (s', c)
      | Some (s', _) => Some (s', EOF)
      | None => None
      end
  | OpPuts b =>
      match write_bytes k cap orc s b with
      | Some (s', w) =>
          if (w =? length b)%nat then
            match f_write k cap orc s' [10] with
            | Some (s'', Some _) => Some (s'', 0)
            | Some (s'', None) => Some (s'', -1)
            | None => None
            end
          else Some (s', -1)
      | None => None
      end
  | OpFlush =>
      match f_flush k orc s with
      | Some (s', ok) => Some (s', if ok : bool then 0 else EOF)
      | None => None
      end
  end.

(* A sequence of calls and their results. *)
Fixpoint o_run (k : wkind) (cap : nat) (orc : nat -> wres) (s : stream) (l : list op) : option (stream * list Z) :=
  match l with
  | [] => Some (s, [])
  | o :: r => match o_exec k cap orc s o with
              | Some (s', v) => match o_run k cap orc s' r with
                                | Some (s'', vs) => Some (s'', v :: vs)
                                | None => None
                                end
              | None => None
              end
  end.

(* helpers.rs 68-93 / default.rs: an opened stream, after a setvbuf that precedes all
   other operations (mod.rs 1312-1359) *)
Definition o_open : stream := Stream (Dev [] 0) (Writer [] false) false.
