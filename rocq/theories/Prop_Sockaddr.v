(* C136: socket addresses. *)
From Coq Require Import String Ascii.
From Verif Require Import Base Numeral Word_mem Inet_spec Sockaddr_model Sockaddr_spec Sockaddr_proofs.
From Coq Require Import List Lia.
Import ListNotations.
Open Scope string_scope.
Open Scope list_scope.
Open Scope Z_scope.

(* bind and connect hand the address of a sockaddr_in of 16 bytes to the network stack. *)
Theorem C136_bind_connect : forall m address l port passive, octets l -> 0 <= port < 65536 -> bytes_at m address (sin l port) ->
  exists t, shown t l port /\ bind_or_connect passive m address 16 = Ok (inl (if passive then 47 :: t else t)).
Proof. exact bind_connect. Qed.
Print Assumptions C136_bind_connect.

(* Other lengths are refused with EINVAL and other families, but AF_UNSPEC for connect, with
   EAFNOSUPPORT. *)
Theorem C136_errors : forall m address n family passive, bytes_at m address (le_bytes 2 family) -> 0 <= family < 65536 -> 0 <= n ->
  (n < 2 \/ family = 2 /\ n <> 16 -> bind_or_connect passive m address n = Ok (inr 22)) /\
  (2 <= n -> family <> 2 -> family <> 0 \/ passive = true -> bind_or_connect passive m address n = Ok (inr 97)).
Proof. exact bind_connect_errors. Qed.
Print Assumptions C136_errors.

(* The names of IPv4 sockets (remote address, then local address): the sockaddr_in is stored,
   cut to the buffer, and nothing else.  Partial: the length stored is the one cut. *)
Theorem C136_inet_name_partial : forall local m pre address alen n l port t r rest,
  inet_scheme pre -> octets l -> 0 <= port < 65536 -> shown t l port ->
  ~ In 47 r -> rest = [] \/ hd 0 rest = 47 /\ rest <> [] ->
  0 <= n < 2 ^ 32 -> u32_at m alen n -> mapped m address (Z.min n 16) -> disjoint address (Z.min n 16) alen 4 ->
  exists m', get_name local m (pre ++ around local r t rest) address alen = Ok (m', None) /\
    delivered m m' address n alen (Z.min n 16) (sin l port).
Proof. exact inet_named. Qed.
Print Assumptions C136_inet_name_partial.

(* The names of AF_UNIX sockets, when the buffer takes all of it. *)
Theorem C136_unix_name_partial : forall local m pre path address alen n, unix_scheme pre path -> len (sun path) <= n -> u32_at m alen n ->
  mapped m address (len (sun path)) -> disjoint address (len (sun path)) alen 4 ->
  exists m', get_name local m (pre ++ path) address alen = Ok (m', None) /\ delivered m m' address n alen (len (sun path)) (sun path).
Proof. exact unix_named. Qed.
Print Assumptions C136_unix_name_partial.

(* The path of an AF_UNIX address is what comes before the first NUL or the end that the length
   gives; connect needs the NUL. *)
Theorem C136_bind_path : forall m address n path, Forall is_char path -> bytes_at m (address + 2) path -> 2 <= n < 2 ^ 64 ->
  (len path < 108 /\ 2 + len path < n /\ m (address + 2 + len path) = Some 0 \/ len path = Z.min 108 (n - 2)) ->
  bind_path m address n = Ok path.
Proof. exact bind_path_ok. Qed.
Print Assumptions C136_bind_path.

Theorem C136_connect_path_partial : forall fuel m address n path, cstr m (address + 2) path -> (length path < fuel)%nat ->
  connect_path fuel m address n = Ok path.
Proof. exact connect_path_ok. Qed.
Print Assumptions C136_connect_path_partial.

(* 192.168.1.10:8080 goes out and comes back. *)
Definition C136_mem : mem := mem_of 100 (sin [192; 168; 1; 10] 8080 ++ [16; 0; 0; 0] ++ repeat 170 40).
Example C136_bind_nonvacuous : octets [192; 168; 1; 10] /\
  bind_or_connect true C136_mem 100 16 = Ok (inl (text "/192.168.1.10:8080")) /\
  bind_or_connect false C136_mem 100 16 = Ok (inl (text "192.168.1.10:8080")).
Proof.
  split; [split; [reflexivity|repeat constructor; lia]|]. split; vm_compute; reflexivity.
Qed.
Example C136_name_nonvacuous :
  match getsockname C136_mem (text "/scheme/tcp/10.0.0.2:80/192.168.1.10:8080") 130 116,
        getpeername C136_mem (text "/scheme/tcp/10.0.0.2:80/192.168.1.10:8080") 130 116 with
  | Ok (m, None), Ok (m', None) =>
      map m [130; 131; 132; 133; 134; 135; 136; 137] = map Some [2; 0; 31; 144; 192; 168; 1; 10] /\
      map m' [130; 131; 132; 133; 134; 135; 136; 137] = map Some [2; 0; 0; 80; 10; 0; 0; 2]
  | _, _ => False
  end.
Proof. vm_compute. split; reflexivity. Qed.
Example C136_unix_nonvacuous : unix_scheme (text "/scheme/uds_stream") (text "/tmp/s") /\
  match getsockname C136_mem (text "/scheme/uds_stream/tmp/s") 130 116 with
  | Ok (m, None) => map m [130; 131; 132; 133; 134; 135; 136; 137; 138; 116] = map Some [1; 0; 47; 116; 109; 112; 47; 115; 0; 9]
  | _ => False
  end.
Proof. split; [right; right; split; [left; reflexivity|reflexivity]|]. vm_compute. reflexivity. Qed.

(* A buffer too small for the address: the true length, 16, is not reported. *)
Definition C136_small (n : Z) : mem := mem_of 100 ([n; 0; 0; 0] ++ repeat 170 40).
Theorem C136_inet_length_refuted :
  match getpeername (C136_small 8) (text "tcp:10.0.0.2:80") 104 100 with
  | Ok (m, None) => len (sin [10; 0; 0; 2] 80) = 16 /\ u32_at m 100 8
  | _ => False
  end.
Proof. vm_compute. repeat split. Qed.
Print Assumptions C136_inet_length_refuted.

(* An AF_UNIX name is written beyond the 4 bytes that the caller gave. *)
Theorem C136_unix_overrun_refuted :
  match getpeername (C136_small 4) (text "chan:some/name") 104 100 with
  | Ok (m, None) => C136_small 4 108 = Some 170 /\ m 108 <> Some 170
  | _ => False
  end.
Proof. vm_compute. split; [reflexivity|discriminate]. Qed.
Print Assumptions C136_unix_overrun_refuted.

(* connect takes the bytes after the end of the address for part of the path; a length of 1
   makes bind do so, too. *)
Theorem C136_beyond_refuted :
  let m := mem_of 100 ([1; 0] ++ text "/tmp/s" ++ text "junk" ++ [0]) in
  bind_path m 100 8 = Ok (text "/tmp/s") /\
  connect_path 50 m 100 8 = Ok (text "/tmp/sjunk") /\
  bind_path m 100 1 = Ok (text "/tmp/sjunk").
Proof. vm_compute. repeat split. Qed.
Print Assumptions C136_beyond_refuted.
