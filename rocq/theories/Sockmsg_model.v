(* sendmsg and recvmsg: /repo/src/platform/redox/socket.rs 239-534 (the stream exchanged with the
   scheme), 849-986; /repo/src/header/sys_socket/mod.rs 118-169 (the CMSG macros).  The fields of
   msghdr are arguments, msg_namelen is in memory at np; [q] holds the descriptors that have been
   sent through the socket (sys_call_wo with CallFlags::FD) and not yet been received (sys_call_ro
   with CallFlags::FD), known by the number the sender used.  The sum of the iov_len is below
   2^64. *)
From Verif Require Import Base Sort_model String_model Word_mem Uio_model Inet_model Sockaddr_model.

Definition SOL_SOCKET : Z := 1.
Definition SCM_RIGHTS : Z := 1.
Definition SCM_CREDENTIALS : Z := 2.
Definition MSG_CTRUNC : Z := 8.
Definition MSG_TRUNC : Z := 32.
Definition EFAULT : Z := 14.
Definition EMSGSIZE : Z := 90.
Definition EOPNOTSUPP : Z := 95.
Definition EIO : Z := 5.

(* sys_socket 118-169 *)
Definition CMSG_ALIGN (n : Z) : Z := (n + 7) mod 2 ^ 64 / 8 * 8.
Definition CMSG_SPACE (n : Z) : Z := (CMSG_ALIGN n + CMSG_ALIGN 16) mod 2 ^ 32.
Definition CMSG_LEN (n : Z) : Z := (CMSG_ALIGN 16 + n) mod 2 ^ 32.
Definition CMSG_DATA (cmsg : Z) : Z := cmsg + CMSG_ALIGN 16.
Definition CMSG_FIRSTHDR (control controllen : Z) : Z := if 16 <=? controllen then control else 0.
Definition CMSG_NXTHDR (m : mem) (control controllen cmsg : Z) : res Z :=
  if cmsg =? 0 then Ok (CMSG_FIRSTHDR control controllen) else
  n <- ld_le 8 m cmsg ;;
  let next := (cmsg + CMSG_ALIGN n + CMSG_ALIGN 16) mod 2 ^ 64 in
  if control + controllen <? next then Ok 0 else Ok ((cmsg + CMSG_ALIGN n) mod 2 ^ 64).

(* 245-262: the payload *)
Definition whole (iovs : list iovec) : Z := fold_right (fun v a => snd v + a) 0 iovs.
Fixpoint ser_iovs (m : mem) (iovs : list iovec) : res (list Z + Z) :=
  match iovs with
  | [] => Ok (inl [])
  | (a, n) :: r =>
      if 0 <? n then
        if a =? 0 then Ok (inr EFAULT) else
        l <- load m a (Z.to_nat n) ;;
        k <- ser_iovs m r ;;
        Ok (match k with inl k => inl (l ++ k) | inr e => inr e end)
      else ser_iovs m r
  end.

(* the c_int values at p *)
Fixpoint ld_ints (n : nat) (m : mem) (p : Z) : res (list Z) :=
  match n with O => Ok [] | S n => x <- ld_le 4 m p ;; r <- ld_ints n m (p + 4) ;; Ok (x :: r) end.
(* 276-331: the control messages.  The stream or errno, and the queue. *)
Fixpoint ser_control (fuel : nat) (m : mem) (control controllen cmsg : Z) (q : list Z) : res (list Z * (list Z + Z)) :=
  match fuel with
  | O => OutOfFuel
  | S f =>
      if cmsg =? 0 then Ok (q, inl []) else
      n <- ld_le 8 m cmsg ;;
      if n <? CMSG_ALIGN 16 then Ok (q, inr EINVAL) else
      level <- ld_le 4 m (cmsg + 8) ;;
      kind <- ld_le 4 m (cmsg + 12) ;;
      let head := le_bytes 4 level ++ le_bytes 4 kind in
      let continue (q : list Z) (mine : list Z) :=
        next <- CMSG_NXTHDR m control controllen cmsg ;;
        ' (q, r) <- ser_control f m control controllen next q ;;
        Ok (q, match r with inl s => inl (head ++ mine ++ s) | inr e => inr e end) in
      if (level =? SOL_SOCKET) && (kind =? SCM_RIGHTS) then
        let data_len := n - CMSG_ALIGN 16 in
        if negb (data_len mod 4 =? 0) then Ok (q, inr EINVAL) else
        fds <- ld_ints (Z.to_nat (data_len / 4)) m (CMSG_DATA cmsg) ;;
        continue (q ++ fds) (le_bytes 8 8 ++ le_bytes 8 (data_len / 4))
      else if (level =? SOL_SOCKET) && (kind =? SCM_CREDENTIALS) then continue q (le_bytes 8 0)
      else Ok (q, inr EOPNOTSUPP)
  end.

(* 931-986; the count returned and the stream given to the scheme, or errno; the queue *)
Definition sendmsg (fuel : nat) (m : mem) (name namelen : Z) (iovs : list iovec) (control controllen : Z) (q : list Z) :
  res (list Z * ((Z * list Z) + Z)) :=
  payload <- (match iovs with
              | [] => Ok (inl [])
              | _ => r <- ser_iovs m iovs ;; Ok (match r with inl d => inl (le_bytes 8 (whole iovs) ++ d) | inr e => inr e end)
              end) ;;
  match payload with
  | inr e => Ok (q, inr e)
  | inl s =>
      if 0 <? controllen then
        if control =? 0 then Ok (q, inr EINVAL) else
        ' (q, r) <- ser_control fuel m control controllen (CMSG_FIRSTHDR control controllen) q ;;
        Ok (q, match r with inl c => inl (whole iovs, s ++ c) | inr e => inr e end)
      else Ok (q, inl (whole iovs, s))
  end.

(* 1193-1221 read_num: the number and the rest *)
Definition read_num (k : nat) (s : list Z) : option (Z * list Z) :=
  if (k <=? length s)%nat then Some (of_le (firstn k s), skipn k s) else None.

(* 333-361: the name; memory and what is left of the stream, or errno *)
Definition deser_name (m : mem) (name np : Z) (s : list Z) : res (mem * (list Z + Z)) :=
  match read_num 8 s with
  | None => Ok (m, inr EFAULT)
  | Some (n, s) =>
      namelen <- ld32 m np ;;
      if 0 <? Z.min n namelen then
        if len s <? Z.min n namelen then Ok (m, inr EMSGSIZE) else
        ' (m, e) <- (if negb (name =? 0) && (0 <? namelen) then
                       if len s <? n then Panic else get_name false m (firstn (Z.to_nat n) s) name np
                     else Ok (m, None)) ;;
        Ok (m, match e with None => inl (skipn (Z.to_nat n) s) | Some e => inr e end)
      else
        m <- st32 m np 0 ;; Ok (m, inl s)
  end.

(* 378-403: the loop over the iovecs; None or errno *)
Fixpoint fill (m : mem) (iovs : list iovec) (data : list Z) : res (mem * option Z) :=
  match iovs with
  | [] => Ok (m, None)
  | (a, n) :: r =>
      if n =? 0 then fill m r data
      else if a =? 0 then Ok (m, Some EFAULT)
      else match data with
           | [] => Ok (m, None)
           | _ => m <- st_bytes m a (firstn (Z.to_nat n) data) ;; fill m r (skipn (Z.to_nat n) data)
           end
  end.
(* 363-411: memory, and the count, the flags and what is left of the stream, or errno *)
Definition deser_payload (m : mem) (iovs : list iovec) (s : list Z) : res (mem * ((Z * Z * list Z) + Z)) :=
  match read_num 8 s with
  | None => Ok (m, inr EFAULT)
  | Some (full, s) =>
      let n := Z.min full (whole iovs) in
      if len s <? n then Panic else
      let data := firstn (Z.to_nat n) s in
      ' (m, e) <- (match iovs with [] => Ok (m, None) | _ => if 0 <? n then fill m iovs data else Ok (m, None) end) ;;
      Ok (m, match e with
             | Some e => inr e
             | None => inl (n, if whole iovs <? full then MSG_TRUNC else 0, skipn (Z.to_nat n) s)
             end)
  end.

(* 413-534: the control messages; the descriptors a message brings are taken from the queue first.
   Result: memory, queue, and the flags and the length written, or errno. *)
Fixpoint deser_control (fuel : nat) (m : mem) (control controllen cmsg remaining written : Z) (s q : list Z) :
  res (mem * list Z * ((Z * Z) + Z)) :=
  match fuel with
  | O => OutOfFuel
  | S f =>
      match s with
      | [] => Ok (m, q, inl (0, written))
      | _ =>
        if len s <? 16 then Ok (m, q, inl (if existsb (fun b => negb (b =? 0)) s then MSG_CTRUNC else 0, written)) else
        let level := of_le (firstn 4 s) in
        let kind := of_le (firstn 4 (skipn 4 s)) in
        let dlen := of_le (firstn 8 (skipn 8 s)) in
        let s := skipn 16 s in
        if len s <? dlen then Ok (m, q, inl (MSG_CTRUNC, written)) else
        let d := firstn (Z.to_nat dlen) s in
        let s := skipn (Z.to_nat dlen) s in
        let put (q data : list Z) :=
          if negb (cmsg =? 0) && (CMSG_SPACE (len data) <=? remaining) then
            let n := CMSG_LEN (len data) in
            m <- st_bytes m cmsg (le_bytes 8 n ++ le_bytes 4 level ++ le_bytes 4 kind) ;;
            m <- st_bytes m (CMSG_DATA cmsg) data ;;
            next <- CMSG_NXTHDR m control controllen cmsg ;;
            deser_control f m control controllen next (remaining - CMSG_ALIGN n) (written + CMSG_ALIGN n) s q
          else Ok (m, q, inl (MSG_CTRUNC, written)) in
        if (level =? SOL_SOCKET) && (kind =? SCM_RIGHTS) then
          if negb (dlen =? 8) then Ok (m, q, inr EINVAL) else
          let count := Z.to_nat (of_le d) in
          if (length q <? count)%nat then Ok (m, q, inr EIO) else
          put (skipn count q) (concat (map (le_bytes 4) (firstn count q)))
        else if (level =? SOL_SOCKET) && (kind =? SCM_CREDENTIALS) then
          if negb (dlen =? 12) then Ok (m, q, inr EINVAL) else put q d
        else Ok (m, q, inr EINVAL)
      end
  end.

(* 849-929, with the stream s that the scheme answered: memory, queue, and the count, msg_flags and
   msg_controllen, or errno *)
Definition recvmsg (fuel : nat) (m : mem) (name np : Z) (iovs : list iovec) (control controllen : Z) (s q : list Z) :
  res (mem * list Z * ((Z * Z * Z) + Z)) :=
  ' (m, r) <- deser_name m name np s ;;
  match r with
  | inr e => Ok (m, q, inr e)
  | inl s =>
      ' (m, r) <- deser_payload m iovs s ;;
      match r with
      | inr e => Ok (m, q, inr e)
      | inl (count, flags, s) =>
          if negb (control =? 0) && (0 <? controllen) && negb (match s with [] => true | _ => false end) then
            ' (m, q, r) <- deser_control fuel m control controllen (CMSG_FIRSTHDR control controllen) controllen 0 s q ;;
            Ok (m, q, match r with inl (fl, w) => inl (count, Z.lor flags fl, w) | inr e => inr e end)
          else Ok (m, q, inl (count, flags, 0))
      end
  end.
