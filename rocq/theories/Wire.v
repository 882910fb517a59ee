(* Messages on the UNIX socket.  Models include/vfio-user.h struct vfio_user_header and lib/tran_sock.c. *)
From Coq Require Import NArith ZArith List Bool.
From Verif Require Import Base Types Bytes Dma Dirty Migr Irq Pci Handlers Server.
Import ListNotations.
Open Scope N_scope.

(* include/vfio-user.h struct vfio_user_header: 16 packed little-endian bytes. *)
Definition enc_header (h : header) : list N :=
  le_bytes 2 (hd_id h) ++ le_bytes 2 (hd_cmd h) ++ le_bytes 4 (hd_size h) ++ le_bytes 4 (hd_flags h) ++ le_bytes 4 (hd_error h).
Definition dec_header (b : list N) : option header :=
  match rd b 0 2, rd b 2 2, rd b 4 4, rd b 8 4, rd b 12 4 with
  | Some i, Some c, Some s, Some f, Some e => Some (mk_header i c s f e)
  | _, _, _, _, _ => None
  end.

(* include/vfio-user.h VFIO_USER_F_TYPE_REPLY, VFIO_USER_F_ERROR; lib/private.h:68 SERVER_MAX_ERROR_NO. *)
Definition F_TYPE_REPLY : N := 1.
Definition F_ERROR : N := 32.
Definition SERVER_MAX_ERROR_NO : N := 4096.

(* lib/tran_sock.c:65-96 tran_sock_send_iovec: the header built for the iovecs after the first, whose bytes are
   payload.  err is an int: negative values are not modelled. *)
Definition send_header (id : N) (is_reply : bool) (cmd err : N) (payload : list N) : header :=
  mk_header (w16 id) (w16 cmd) (w32 (16 + N.of_nat (length payload)))
    (if is_reply then (if negb (err =? 0) then N.lor F_TYPE_REPLY F_ERROR else F_TYPE_REPLY) else F_TYPE_COMMAND)
    (if is_reply && negb (err =? 0) then w32 err else 0).
Definition send_bytes (id : N) (is_reply : bool) (cmd err : N) (payload : list N) : list N :=
  enc_header (send_header id is_reply cmd err payload) ++ payload.

(* What sendmsg answers: an errno, or the number of bytes sent. *)
Definition EPIPE : N := 32.
Inductive send_answer : Type := SentErr (e : N) | Sent (n : N).

(* lib/tran_sock.c:111-122. *)
Definition send_result (size : N) (a : send_answer) : outcome unit :=
  match a with
  | SentErr e => Err (if e =? EPIPE then ECONNRESET else e)
  | Sent n => if n <? size then Err ECONNRESET else Ok tt
  end.
Definition send_iovec (id : N) (is_reply : bool) (cmd err : N) (payload : list N) (a : send_answer) : outcome unit * list N :=
  (send_result (hd_size (send_header id is_reply cmd err payload)) a, send_bytes id is_reply cmd err payload).

(* lib/tran_sock.c:573-610 tran_sock_reply: the bytes sent for a reply of the request loop. *)
Definition reply_bytes (r : reply) : list N := send_bytes (rp_id r) true (rp_cmd r) (rp_error r) (rp_body r).

(* The receiving end of a stream socket: the bytes the peer sends before it closes its end, in order.  A recv or
   recvmsg without MSG_WAITALL returns the bytes that have arrived, avail of them, at least one unless the stream
   has ended; so does one with MSG_DONTWAIT | MSG_WAITALL.  Errors of the system calls and the truncation of
   control data are not modelled here (RxErr in Server.v stands for them). *)
Definition recv_some (len avail : nat) (w : list N) : list N * list N :=
  (firstn (Nat.min len (Nat.max 1 avail)) w, skipn (Nat.min len (Nat.max 1 avail)) w).
(* A recv with MSG_WAITALL on a blocking socket returns fewer bytes only at the end of the stream. *)
Definition recv_all (len : nat) (w : list N) : list N * list N := (firstn len w, skipn len w).

(* lib/tran_sock.c:141-189 get_msg on a header. *)
Definition get_msg (avail : nat) (w : list N) : outcome header * list N :=
  let '(b, w') := recv_some 16 avail w in
  match b with
  | [] => (Err ENOMSG, w')
  | _ => match dec_header b with
         | None => (Err ECONNRESET, w')
         | Some h => (Ok h, w')
         end
  end.

(* lib/tran_sock.c:478-551 with lib/libvfio-user.c:1571-1641: what get_request reads from the socket; the body is
   received only for a valid header that announces one. *)
Definition sock_rx (avail_hdr avail_body : nat) (fds : list Z) (w : list N) : rx * list N :=
  match get_msg avail_hdr w with
  | (Ok h, w1) =>
      if is_valid_header h && negb (hd_size h =? 16) then
        let '(b, w2) := recv_some (N.to_nat (hd_size h - 16)) avail_body w1 in (RxMsg h fds (inr b), w2)
      else (RxMsg h fds (inr []), w1)
  | (Err e, w1) => (RxErr e, w1)
  | (Crash _, w1) => (RxErr EINVAL, w1)
  end.

(* What happens during an iteration of vfu_run_ctx apart from the socket, and how much has arrived when the header
   and the body are read. *)
Record delivery : Type := mk_delivery { dl_hdr : nat; dl_body : nat; dl_fds : list Z; dl_env : env }.
Definition set_rx (en : env) (r : rx) : env :=
  mk_senv r (en_or en) (en_quiesce en) (en_send en) (en_quiesce_reset en) (en_lost en).

(* lib/libvfio-user.c:1650-1669, lib/tran_sock.c:489-492: when an iteration reads from the socket. *)
Definition reads (s : server) : bool :=
  sv_realized s && sv_conn s && match sv_pending s with PNone => true | _ => false end.

(* A server on a connection with unread bytes w: iterations of vfu_run_ctx (lib/libvfio-user.c:1659-1694), which take
   their input from there, and other steps.  Answers the steps with their input, and the unread bytes. *)
Inductive act : Type := ARun (d : delivery) | ADo (st : step).
Definition act_step (s : server) (w : list N) (a : act) : step * list N :=
  match a with
  | ARun d =>
      if reads s then let '(r, w') := sock_rx (dl_hdr d) (dl_body d) (dl_fds d) w in (SRun (set_rx (dl_env d) r), w')
      else (SRun (set_rx (dl_env d) (RxErr ENOTCONN)), w)
  | ADo st => (st, w)
  end.
Fixpoint drive (s : server) (w : list N) (l : list act) : list step * list N :=
  match l with
  | [] => ([], w)
  | a :: l' =>
      let '(st, w1) := act_step s w a in
      match sv_step s st with
      | (Crash _, _, _) => ([st], w1)
      | (_, s', _) => let '(sts, w2) := drive s' w1 l' in (st :: sts, w2)
      end
  end.

(* lib/tran_sock.c:196-252 tran_sock_recv_fds without descriptors; want is the length of the caller's buffer, 0 for
   none.  Answers the header and the bytes stored into the buffer. *)
Definition recv_msg (is_reply : bool) (id : option N) (want : N) (avail : nat) (w : list N) : outcome (header * list N) * list N :=
  match get_msg avail w with
  | (Err e, w1) => (Err e, w1)
  | (Crash c, w1) => (Crash c, w1)
  | (Ok h, w1) =>
      match (if is_reply then
               if match id with Some i => negb (hd_id h =? w16 i) | None => false end then Some EPROTO
               else if negb (N.land (hd_flags h) F_TYPE_MASK =? F_TYPE_REPLY) then Some EINVAL
               else if has (hd_flags h) F_ERROR then
                 Some (if (hd_error h =? 0) || (SERVER_MAX_ERROR_NO <? hd_error h) then EINVAL else hd_error h)
               else None
             else if negb (N.land (hd_flags h) F_TYPE_MASK =? F_TYPE_COMMAND) then Some EINVAL else None) with
      | Some e => (Err e, w1)
      | None =>
          if (hd_size h <? 16) || (SERVER_MAX_MSG_SIZE <? hd_size h) then (Err EINVAL, w1)
          else if (0 <? want) && (16 <? hd_size h) then
            let '(b, w2) := recv_all (N.to_nat (N.min (hd_size h - 16) want)) w1 in
            if N.of_nat (length b) =? 0 then (Err ENOMSG, w2)
            else if negb (N.of_nat (length b) =? want) then (Err ECONNRESET, w2)
            else (Ok (h, b), w2)
          else (Ok (h, []), w1)
      end
  end.

(* lib/tran_sock.c:265-312 tran_sock_recv_alloc.  The allocation succeeds. *)
Definition recv_alloc_as (is_reply : bool) (id : option N) (avail : nat) (w : list N) : outcome (header * list N) * list N :=
  match recv_msg is_reply id 0 avail w with
  | (Err e, w1) => (Err e, w1)
  | (Crash c, w1) => (Crash c, w1)
  | (Ok (h, _), w1) =>
      let len := hd_size h - 16 in
      if len =? 0 then (Ok (h, []), w1)
      else
        let '(b, w2) := recv_all (N.to_nat len) w1 in
        if N.of_nat (length b) =? 0 then (Err ENOMSG, w2)
        else if negb (N.of_nat (length b) =? len) then (Err ECONNRESET, w2)
        else (Ok (h, b), w2)
  end.

(* lib/tran_sock.c:558-571 tran_sock_recv_msg, tran_sock.c:265-312: of a command. *)
Definition recv_alloc (avail : nat) (w : list N) : outcome (header * list N) * list N := recv_alloc_as false None avail w.
