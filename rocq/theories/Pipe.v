(* Messages on a pair of pipes.  Models lib/tran_pipe.c (VFU_TRANS_PIPE), with the parts of lib/tran.c and
   lib/libvfio-user.c that call it.  Descriptors are never passed over a pipe. *)
From Coq Require Import NArith ZArith String List Bool.
From Verif Require Import Base Types Bytes Dma Dirty Migr Irq Pci Handlers Server Wire Tran.
Import ListNotations.
Open Scope N_scope.

(* lib/tran_pipe.c:47-74 tran_pipe_send_iovec: the header.  Its msg_size is never set.  err is an int: negative
   values are not modelled. *)
Definition pipe_header (id : N) (is_reply : bool) (cmd err : N) : header :=
  mk_header (w16 id) (w16 cmd) 0
    (if is_reply then (if negb (err =? 0) then N.lor F_TYPE_REPLY F_ERROR else F_TYPE_REPLY) else F_TYPE_COMMAND)
    (if is_reply && negb (err =? 0) then w32 err else 0).
Definition pipe_bytes (id : N) (is_reply : bool) (cmd err : N) (payload : list N) : list N :=
  enc_header (pipe_header id is_reply cmd err) ++ payload.

(* lib/tran_pipe.c:75-93: one writev; answers how the call ends and the bytes put into the pipe. *)
Definition pipe_send (id : N) (is_reply : bool) (cmd err : N) (payload : list N) (a : send_answer) : outcome unit * list N :=
  match a with
  | SentErr e => (Err (if e =? EPIPE then ECONNRESET else e), [])
  | Sent n => (if n <? hd_size (pipe_header id is_reply cmd err) then Err ECONNRESET else Ok tt,
               firstn (N.to_nat n) (pipe_bytes id is_reply cmd err payload))
  end.

(* lib/tran_pipe.c:402-436 tran_pipe_reply: the bytes written for a reply of the request loop.  Its descriptors are
   left out. *)
Definition pipe_reply_bytes (r : reply) : list N := pipe_bytes (rp_id r) true (rp_cmd r) (rp_error r) (rp_body r).

(* lib/tran_pipe.c:95-111 tran_pipe_get_msg on a header: a read returns the bytes that have arrived (recv_some in
   Wire.v); errors of read are not modelled here. *)
Definition pipe_get_msg (avail : nat) (w : list N) : outcome header * list N :=
  let '(b, w') := recv_some 16 avail w in
  match b with
  | [] => (Err ENOMSG, w')
  | _ => match dec_header b with
         | None => (Err ECONNRESET, w')
         | Some h => (Ok h, w')
         end
  end.

(* lib/tran_pipe.c:118-167 tran_pipe_recv; want is the length of the caller's buffer, 0 for none, ah and ab how much
   has arrived when the header and the body are read.  Answers the header and the bytes stored into the buffer. *)
Definition pipe_recv (is_reply : bool) (id : option N) (want : N) (ah ab : nat) (w : list N)
  : outcome (header * list N) * list N :=
  match pipe_get_msg ah w with
  | (Err e, w1) => (Err e, w1)
  | (Crash c, w1) => (Crash c, w1)
  | (Ok h, w1) =>
      match (if is_reply then
               if match id with Some i => negb (hd_id h =? w16 i) | None => false end then Some EPROTO
               else if negb (N.land (hd_flags h) F_TYPE_MASK =? F_TYPE_REPLY) then Some EINVAL
               else if has (hd_flags h) F_ERROR then
                 Some (if (hd_error h =? 0) || (SERVER_MAX_ERROR_NO <? hd_error h) then EINVAL else hd_error h)
               else None
             else if negb (N.land (hd_flags h) F_TYPE_MASK =? F_TYPE_COMMAND) then Some EINVAL else None) with
      | Some e => (Err e, w1)
      | None =>
          if (hd_size h <? 16) || (SERVER_MAX_MSG_SIZE <? hd_size h) then (Err EINVAL, w1)
          else if (0 <? want) && (16 <? hd_size h) then
            let '(b, w2) := recv_some (N.to_nat (N.min (hd_size h - 16) want)) ab w1 in
            if N.of_nat (List.length b) =? 0 then (Err ENOMSG, w2)
            else if negb (N.of_nat (List.length b) =? want) then (Err ECONNRESET, w2)
            else (Ok (h, b), w2)
          else (Ok (h, []), w1)
      end
  end.

(* lib/tran_pipe.c:172-219 tran_pipe_recv_alloc of a command.  The allocation succeeds. *)
Definition pipe_recv_alloc (ah ab : nat) (w : list N) : outcome (header * list N) * list N :=
  match pipe_recv false None 0 ah ab w with
  | (Err e, w1) => (Err e, w1)
  | (Crash c, w1) => (Crash c, w1)
  | (Ok (h, _), w1) =>
      let len := hd_size h - 16 in
      if len =? 0 then (Ok (h, []), w1)
      else
        let '(b, w2) := recv_some (N.to_nat len) ab w1 in
        if N.of_nat (List.length b) =? 0 then (Err ENOMSG, w2)
        else if negb (N.of_nat (List.length b) =? len) then (Err ECONNRESET, w2)
        else (Ok (h, b), w2)
  end.

(* lib/tran_pipe.c:225-242, 438-460 tran_pipe_send_msg: sends a command and receives the reply into a buffer of want
   bytes; w is what can be read before the pipe ends.  Answers the bytes written last. *)
Definition pipe_send_msg (id cmd : N) (payload : list N) (want : N) (a : send_answer) (ah ab : nat) (w : list N)
  : outcome (list N) * list N * list N :=
  match pipe_send id false cmd 0 payload a with
  | (Ok _, b) =>
      match pipe_recv true (Some id) want ah ab w with
      | (Ok (_, r), w') => (Ok r, w', b)
      | (Err e, w') => (Err e, w', b)
      | (Crash c, w') => (Crash c, w', b)
      end
  | (Err e, b) => (Err e, w, b)
  | (Crash c, b) => (Crash c, w, b)
  end.

(* What the outside does during vfu_attach_ctx: the bytes on standard input, how many have arrived when the header and
   the body are read, and the answer to writing the reply. *)
Record pipe_env : Type := mk_pipe_env { pe_in : list N; pe_hdr : nat; pe_body : nat; pe_send : send_answer }.

(* lib/tran.c:171-294 recv_version, 412-453 send_version and 455-498 tran_negotiate with client_cmd_socket_fdp == NULL,
   over a pipe.  Answers what is written. *)
Definition pipe_negotiate (parse : list N -> option json) (print : json -> list N) (g : nego) (a : pipe_env)
  : outcome unit * nego * list N :=
  match pipe_recv_alloc (pe_hdr a) (pe_body a) (pe_in a) with
  | (Err e, _) => (Err e, g, [])
  | (Crash c, _) => (Crash c, g, [])
  | (Ok (h, body), _) =>
      match check_version parse h body g with
      | (Crash c, g') => (Crash c, g', [])
      | (Err e, g') => (Err e, g', snd (pipe_send (hd_id h) true (hd_cmd h) e [] (pe_send a)))
      | (Ok (minor, _), g') =>
          let caps := print (server_caps (ng_pgsize g') false) in
          let payload := le_bytes 2 LIB_MAJOR ++ le_bytes 2 (N.min minor LIB_MINOR) ++ caps ++ [0] in
          let '(o, b) := pipe_send (hd_id h) true CMD_VERSION 0 payload (pe_send a) in (o, g', b)
      end
  end.

(* lib/tran_pipe.c:278-302 tran_pipe_attach; the first argument and the second answer tell whether in_fd is standard
   input or -1. *)
Definition pipe_attach (parse : list N -> option json) (print : json -> list N) (attached : bool) (g : nego) (a : pipe_env)
  : outcome unit * bool * nego * list N :=
  match pipe_negotiate parse print g a with
  | (Ok _, g', b) => (Ok tt, true, g', b)
  | (Err e, g', b) => (Err e, false, g', b)
  | (Crash c, g', b) => (Crash c, true, g', b)
  end.

(* errno of read on descriptor -1. *)
Definition EBADF : N := 9.

(* lib/tran_pipe.c:304-365 with lib/libvfio-user.c:1571-1641: what get_request reads from standard input; the body is
   received only for a valid header that announces one. *)
Definition pipe_rx (avail_hdr avail_body : nat) (w : list N) : rx * list N :=
  match pipe_get_msg avail_hdr w with
  | (Ok h, w1) =>
      if is_valid_header h && negb (hd_size h =? 16) then
        let '(b, w2) := recv_some (N.to_nat (hd_size h - 16)) avail_body w1 in (RxMsg h [] (inr b), w2)
      else (RxMsg h [] (inr []), w1)
  | (Err e, w1) => (RxErr e, w1)
  | (Crash _, w1) => (RxErr EINVAL, w1)
  end.

(* A server on pipes.  sv_conn stands for in_fd != -1.  lib/tran_pipe.c:306-319: an iteration of vfu_run_ctx reads from
   descriptor -1 if there has been no successful vfu_attach_ctx; 279-302: vfu_attach_ctx (SAttach: one that succeeds) is
   not refused while attached; 462-466 tran_pipe_detach: losing the connection (lib/libvfio-user.c:1815-1817) closes
   and forgets nothing.  recv_body in Server.v models lib/tran_pipe.c:322-365 tran_pipe_recv_body as well. *)
Definition stays (e : event) : bool := match e with EvDetach => false | _ => true end.
Definition pipe_step (s : server) (st : step) : outcome N * server * list event :=
  match st with
  | SAttach max => (Ok 0, set_conn (set_ctx s (set_max_xfer (sv_ctx s) max)) true, [])
  | SRun _ =>
      if sv_realized s && negb (sv_conn s) && match sv_pending s with PNone => true | _ => false end then (Err EBADF, s, [])
      else let '(o, s', ev) := sv_step s st in (o, set_conn s' (sv_conn s), filter stays ev)
  | _ => let '(o, s', ev) := sv_step s st in (o, set_conn s' (sv_conn s), filter stays ev)
  end.
Fixpoint pipe_run (s : server) (l : list step) : server * list (outcome N * list event) :=
  match l with
  | [] => (s, [])
  | st :: l' =>
      match pipe_step s st with
      | (Crash cr, s', ev) => (s', [(Crash cr, ev)])
      | (o, s', ev) => let '(s'', t) := pipe_run s' l' in (s'', (o, ev) :: t)
      end
  end.

(* The same with standard input: iterations of vfu_run_ctx take their input from the unread bytes w (delivery and act
   in Wire.v; dl_fds is ignored). *)
Definition pipe_act (s : server) (w : list N) (a : act) : step * list N :=
  match a with
  | ARun d =>
      if reads s then let '(r, w') := pipe_rx (dl_hdr d) (dl_body d) w in (SRun (set_rx (dl_env d) r), w')
      else (SRun (set_rx (dl_env d) (RxErr EBADF)), w)
  | ADo st => (st, w)
  end.
Fixpoint pipe_drive (s : server) (w : list N) (l : list act) : list step * list N :=
  match l with
  | [] => ([], w)
  | a :: l' =>
      let '(st, w1) := pipe_act s w a in
      match pipe_step s st with
      | (Crash _, _, _) => ([st], w1)
      | (_, s', _) => let '(sts, w2) := pipe_drive s' w1 l' in (st :: sts, w2)
      end
  end.
