(* The memory of messages: which calls of malloc/calloc and free, and which accesses, the library makes while it serves
   requests, negotiates with a new client and transfers data.  Buffers are numbered in the order they are allocated (hev of
   Heap.v).  Simplification: the conditions on which the code branches other than pointers are arbitrary choices, so the model
   has every execution of the code (and more); the functions of Server.v and Handlers.v say what the conditions are. *)
From Coq Require Import NArith ZArith List Bool.
From Verif Require Import Base Handlers Heap.
Import ListNotations.
Open Scope N_scope.

(* lib/private.h:78-92 vfu_msg_t and its pointers, None for NULL.  out_iovecs stays NULL in a request. *)
Record mmsg : Type := mk_mmsg { mm_self : nat; mm_in : option nat; mm_infds : option nat; mm_out : option nat; mm_outfds : option nat }.
Definition set_in (m : mmsg) (p : option nat) : mmsg := mk_mmsg (mm_self m) p (mm_infds m) (mm_out m) (mm_outfds m).
Definition set_out (m : mmsg) (p : option nat) : mmsg := mk_mmsg (mm_self m) (mm_in m) (mm_infds m) p (mm_outfds m).
Definition set_outfds (m : mmsg) (p : option nat) : mmsg := mk_mmsg (mm_self m) (mm_in m) (mm_infds m) (mm_out m) p.

(* malloc or calloc: the pointer, the next number, the call if it succeeds. *)
Definition new (ok : bool) (n : nat) : option nat * nat * list hev := if ok then (Some n, S n, [HAlloc n]) else (None, n, []).
Definition use (p : option nat) : list hev := match p with Some b => [HUse b] | None => [] end.

(* lib/libvfio-user.c:1211-1240 alloc_msg. *)
Definition mem_alloc_msg (ok : bool) (has_fds fds_ok : bool) (n : nat) : option mmsg * nat * list hev :=
  match new ok n with
  | (None, n1, ev1) => (None, n1, ev1)
  | (Some self, n1, ev1) =>
      if has_fds then
        match new fds_ok n1 with
        | (None, n2, ev2) => (None, n2, ev1 ++ ev2 ++ free_ev (Some self))
        | (Some f, n2, ev2) => (Some (mk_mmsg self None (Some f) None None), n2, ev1 ++ ev2)
        end
      else (Some (mk_mmsg self None None None None), n1, ev1)
  end.

(* lib/libvfio-user.c:1242-1279 free_msg. *)
Definition mem_free_msg (m : option mmsg) : list hev :=
  match m with
  | None => []
  | Some m =>
      [HUse (mm_self m)] ++ free_ev (mm_in m) ++ use (mm_infds m) ++ free_ev (mm_infds m) ++ free_ev (mm_outfds m) ++
      free_ev (mm_out m) ++ free_ev (Some (mm_self m))
  end.

(* lib/tran_sock.c:506-551 tran_sock_recv_body (and lib/tran_pipe.c:316-356): refused before the buffer is allocated,
   allocation fails, receiving fails, or the body arrives. *)
Inductive body_rx : Type := BodyRefused | BodyNoMem | BodyFailed | BodyOk.
Definition mem_recv_body (b : body_rx) (m : mmsg) (n : nat) : bool * mmsg * nat * list hev :=
  match b with
  | BodyRefused => (false, m, n, [])
  | BodyNoMem => (false, set_in m None, n, [])
  | BodyFailed => let '(p, n1, ev) := new true n in (false, set_in m None, n1, ev ++ use p ++ free_ev p)
  | BodyOk => let '(p, n1, ev) := new true n in (true, set_in m p, n1, ev ++ use p)
  end.

(* lib/common.h:143-151 iov_free. *)
Definition mem_iov_free (m : mmsg) : mmsg * list hev := (set_out m None, free_ev (mm_out m)).

(* Which way a handler goes: it passes its checks up to the allocation, its argsz is large enough (device features), the
   allocation of the reply succeeds, it sends descriptors, the allocation of their array succeeds, what follows (a callback, the
   report, the transition) succeeds. *)
Record choice : Type := mk_choice { ch_checks : bool; ch_argsz : bool; ch_out : bool; ch_fds : bool; ch_fds_ok : bool; ch_then : bool }.

(* The reply is allocated in msg->out.iov.iov_base and filled in, from the request where that is copied. *)
Definition mem_out (ok : bool) (m : mmsg) (n : nat) : bool * mmsg * nat * list hev :=
  let '(p, n1, ev) := new ok n in (ok, set_out m p, n1, ev ++ (if ok then use (mm_in m) ++ use p else [])).
Definition mem_outfds (ok : bool) (m : mmsg) (n : nat) : mmsg * nat * list hev :=
  let '(p, n1, ev) := new ok n in (set_outfds m p, n1, ev ++ use p).

(* lib/libvfio-user.c:277-329 handle_region_access, 331-365 handle_device_get_info, 799-870 handle_dma_unmap;
   lib/irq.c:57-91 handle_device_get_irq_info: one reply buffer, kept when the rest fails. *)
Definition mem_simple (c : choice) (m : mmsg) (n : nat) : mmsg * nat * list hev :=
  if negb (ch_checks c) then (m, n, use (mm_in m))
  else let '(_, m1, n1, ev) := mem_out (ch_out c) m n in (m1, n1, use (mm_in m) ++ ev).

(* lib/libvfio-user.c:367-444 handle_device_get_region_info with dev_get_caps (103-144), 547-659
   handle_device_get_region_io_fds: also an array of descriptors. *)
Definition mem_with_fds (c : choice) (m : mmsg) (n : nat) : mmsg * nat * list hev :=
  if negb (ch_checks c) then (m, n, use (mm_in m))
  else
    match mem_out (ch_out c) m n with
    | (false, m1, n1, ev) => (m1, n1, use (mm_in m) ++ ev)
    | (true, m1, n1, ev) =>
        if ch_fds c then let '(m2, n2, ev2) := mem_outfds (ch_fds_ok c) m1 n1 in (m2, n2, use (mm_in m) ++ ev ++ ev2)
        else (m1, n1, use (mm_in m) ++ ev)
    end.

(* lib/libvfio-user.c:956-1010, 1023-1078, 1101-1209 handle_device_feature; report: it is the GET of a DMA logging report,
   which gives the buffer back when it fails. *)
Definition mem_feature (report : bool) (c : choice) (m : mmsg) (n : nat) : mmsg * nat * list hev :=
  if negb (ch_checks c) then (m, n, use (mm_in m))
  else if negb (ch_argsz c) then let '(m1, ev) := mem_iov_free m in (m1, n, use (mm_in m) ++ ev)
  else
    match mem_out (ch_out c) m n with
    | (false, m1, n1, ev) => (m1, n1, use (mm_in m) ++ ev)
    | (true, m1, n1, ev) =>
        if report && negb (ch_then c) then let '(m2, ev2) := mem_iov_free m1 in (m2, n1, use (mm_in m) ++ ev ++ ev2)
        else (m1, n1, use (mm_in m) ++ ev)
    end.

(* lib/migration.c:288-348 handle_mig_data_read. *)
Definition mem_mig_read (c : choice) (m : mmsg) (n : nat) : mmsg * nat * list hev := mem_feature true (mk_choice (ch_checks c) true (ch_out c) false false (ch_then c)) m n.

(* lib/libvfio-user.c:1316-1388 handle_request up to the reply: handlers that reply with no data (DMA_MAP, SET_IRQS, RESET,
   MIG_DATA_WRITE) and unknown commands allocate nothing. *)
Definition mem_dispatch (cmd : N) (report : bool) (c : choice) (m : mmsg) (n : nat) : mmsg * nat * list hev :=
  if (cmd =? CMD_DMA_UNMAP) || (cmd =? CMD_GET_INFO) || (cmd =? CMD_GET_IRQ_INFO) || (cmd =? CMD_REGION_READ) || (cmd =? CMD_REGION_WRITE)
  then mem_simple c m n
  else if (cmd =? CMD_GET_REGION_INFO) || (cmd =? CMD_GET_REGION_IO_FDS) then mem_with_fds c m n
  else if cmd =? CMD_FEATURE then mem_feature report c m n
  else if cmd =? CMD_MIG_READ then mem_mig_read c m n
  else if (cmd =? CMD_DMA_MAP) || (cmd =? CMD_SET_IRQS) || (cmd =? CMD_MIG_WRITE) then (m, n, use (mm_in m) ++ use (mm_infds m))
  else (m, n, []).

(* How the reply fares: none wanted, no memory for the iovecs, sent or failed to send; after a failure the connection may be
   given up, which may leave the reset pending (lib/libvfio-user.c:1281-1314 do_reply, 1820-1841). *)
Inductive reply_tx : Type := ReplyNone | ReplyNoMem | ReplySent | ReplyLost (busy : bool).

(* lib/libvfio-user.c:1281-1314 do_reply with lib/tran_sock.c:573-610 tran_sock_reply (lib/tran_pipe.c:378-414). *)
Definition mem_reply (r : reply_tx) (m : mmsg) (n : nat) : nat * list hev :=
  match r with
  | ReplyNone => (n, [HUse (mm_self m)])
  | ReplyNoMem => (n, [HUse (mm_self m)])
  | ReplySent | ReplyLost _ =>
      let '(p, n1, ev) := new true n in
      (n1, [HUse (mm_self m)] ++ ev ++ use p ++ use (mm_out m) ++ use (mm_outfds m) ++ free_ev p)
  end.

(* lib/libvfio-user.c:1316-1394 handle_request. *)
Definition mem_handle (cmd : N) (report : bool) (c : choice) (r : reply_tx) (m : mmsg) (n : nat) : mmsg * nat * list hev :=
  let '(m1, n1, ev1) := mem_dispatch cmd report c m n in
  let '(n2, ev2) := mem_reply r m1 n1 in (m1, n2, [HUse (mm_self m)] ++ ev1 ++ ev2).

(* The pending operation (lib/private.h:132-137) as two members: the state and the pointer to the message. *)
Inductive mem_pending : Type := MpNone | MpMsg | MpReset.
Record mem : Type := mk_mem { me_pending : mem_pending; me_msg : option mmsg; me_next : nat }.

(* lib/libvfio-user.c:1820-1841 vfu_reset_ctx: pending only if nothing was. *)
Definition mem_lost (r : reply_tx) (p : mem_pending) : mem_pending :=
  match r, p with ReplyLost true, MpNone => MpReset | _, _ => p end.

(* How quiescing for a request goes (lib/libvfio-user.c:1607-1629). *)
Inductive quiesce_tx : Type := QuiesceGo | QuiesceBusy | QuiesceFailed.

Record request : Type := mk_request {
  rq_header : bool;      (* a header arrives *)
  rq_lost : bool;        (* if not: the connection is lost and the device quiesces asynchronously *)
  rq_msg_ok : bool;      (* calloc of the message *)
  rq_has_fds : bool; rq_fds_ok : bool;
  rq_valid : bool;       (* is_valid_header *)
  rq_body : option body_rx; (* None: there is no body *)
  rq_exec : bool;        (* should_exec_command *)
  rq_quiesce : quiesce_tx;
  rq_cmd : N; rq_report : bool; rq_choice : choice;
  rq_reply : reply_tx
}.

(* lib/libvfio-user.c:1632-1640: the error path of get_request. *)
Definition mem_refuse (q : request) (e : mem) (m : mmsg) (n : nat) : mem * list hev :=
  let '(n1, ev) := mem_reply (rq_reply q) m n in
  (mk_mem (mem_lost (rq_reply q) (me_pending e)) (me_msg e) n1, ev ++ mem_free_msg (Some m)).

(* lib/libvfio-user.c:1400-1443 get_request_header, 1571-1641 get_request, 1659-1690: one iteration of vfu_run_ctx. *)
Definition mem_run (q : request) (e : mem) : mem * list hev :=
  match me_pending e with
  | MpNone =>
      if negb (rq_header q) then (mk_mem (if rq_lost q then MpReset else MpNone) (me_msg e) (me_next e), [])
      else
        match mem_alloc_msg (rq_msg_ok q) (rq_has_fds q) (rq_fds_ok q) (me_next e) with
        | (None, n1, ev1) => (mk_mem MpNone (me_msg e) n1, ev1)
        | (Some m0, n1, ev1) =>
            if negb (rq_valid q) then let '(e', ev2) := mem_refuse q e m0 n1 in (e', ev1 ++ ev2)
            else
              let '(ok, m, n2, ev2) := match rq_body q with Some b => mem_recv_body b m0 n1 | None => (true, m0, n1, []) end in
              if negb (ok && rq_exec q) then let '(e', ev3) := mem_refuse q e m n2 in (e', ev1 ++ ev2 ++ ev3)
              else
                match rq_quiesce q with
                | QuiesceBusy => (mk_mem MpMsg (Some m) n2, ev1 ++ ev2 ++ use (mm_in m))
                | QuiesceFailed => let '(e', ev3) := mem_refuse q e m n2 in (e', ev1 ++ ev2 ++ use (mm_in m) ++ ev3)
                | QuiesceGo =>
                    let '(m1, n3, ev3) := mem_handle (rq_cmd q) (rq_report q) (rq_choice q) (rq_reply q) m n2 in
                    (mk_mem (mem_lost (rq_reply q) MpNone) (me_msg e) n3, ev1 ++ ev2 ++ use (mm_in m) ++ ev3 ++ mem_free_msg (Some m1))
                end
        end
  | _ => (e, [])
  end.

(* lib/libvfio-user.c:2404-2447 vfu_device_quiesced; ok: quiesce_errno == 0. *)
Definition mem_quiesced (ok : bool) (q : request) (e : mem) : mem * list hev :=
  match me_pending e with
  | MpNone => (e, [])
  | MpMsg =>
      if ok then
        match me_msg e with
        | Some m =>
            let '(m1, n1, ev) := mem_handle (rq_cmd q) (rq_report q) (rq_choice q) (rq_reply q) m (me_next e) in
            (mk_mem MpNone None n1, ev ++ mem_free_msg (Some m1))
        | None => (mk_mem MpNone None (me_next e), [])
        end
      else (mk_mem MpNone None (me_next e), mem_free_msg (me_msg e))
  | MpReset => (mk_mem MpNone None (me_next e), if ok then [] else mem_free_msg (me_msg e))
  end.

(* lib/libvfio-user.c:2275-2370 vfu_dma_transfer: a buffer for the longest chunk; chunks says for each whether it is sent
   and its reply is good. *)
Definition mem_transfer (refused ok : bool) (chunks : list (bool * bool)) (n : nat) : nat * list hev :=
  if refused then (n, [])
  else
    match new ok n with
    | (None, n1, ev) => (n1, ev)
    | (Some b, n1, ev) =>
        (n1, ev ++ (fix go (l : list (bool * bool)) : list hev :=
           match l with
           | [] => free_ev (Some b)
           | (sent, good) :: l' =>
               HUse b :: (if negb sent then free_ev (Some b) else if negb good then free_ev (Some b) else HUse b :: go l')
           end) chunks)
    end.

(* Negotiation: lib/tran.c:171-294 recv_version with lib/tran_sock.c:265-312 tran_sock_recv_alloc, 412-453 send_version, 455-498
   tran_negotiate. *)
Record negotiation : Type := mk_negotiation {
  ng_body : option body_rx;   (* None: the message has no payload *)
  ng_accept : bool;           (* recv_version accepts it; never without a payload *)
  ng_twin : option bool;      (* a socket pair is wanted, and whether it is made *)
  ng_caps : bool;             (* the capabilities string is allocated *)
  ng_iovecs : bool            (* the iovecs of the reply (of an acceptance or a refusal) are allocated *)
}.
Definition mem_negotiate (g : negotiation) (n : nat) : nat * list hev :=
  match ng_body g with
  | Some BodyRefused | Some BodyNoMem => (n, [])
  | Some BodyFailed => let '(p, n1, ev) := new true n in (n1, ev ++ use p ++ free_ev p)
  | None => let '(v, n1, ev) := new (ng_iovecs g) n in (n1, ev ++ use v ++ free_ev v)
  | Some BodyOk =>
      let '(p, n1, ev1) := new true n in
      if negb (ng_accept g) then
        let '(v, n2, ev2) := new (ng_iovecs g) n1 in (n2, ev1 ++ use p ++ ev2 ++ use v ++ free_ev v ++ free_ev p)
      else
        match ng_twin g with
        | Some false => (n1, ev1 ++ use p)
        | _ =>
            let '(c, n2, ev2) := new (ng_caps g) n1 in
            match c with
            | None => (n2, ev1 ++ use p ++ ev2 ++ free_ev p)
            | Some _ =>
                let '(v, n3, ev3) := new (ng_iovecs g) n2 in
                (n3, ev1 ++ use p ++ ev2 ++ use p ++ ev3 ++ use v ++ use c ++ free_ev v ++ free_ev c ++ free_ev p)
            end
        end
  end.

(* A context in use, from its creation: iterations of vfu_run_ctx, calls of vfu_device_quiesced, transfers, attaching clients. *)
Inductive mem_op : Type :=
| MoRun (q : request) | MoQuiesced (ok : bool) (q : request) | MoTransfer (refused ok : bool) (chunks : list (bool * bool)) | MoNegotiate (g : negotiation).
Definition mem_step (e : mem) (o : mem_op) : mem * list hev :=
  match o with
  | MoRun q => mem_run q e
  | MoQuiesced ok q => mem_quiesced ok q e
  | MoTransfer refused ok l => let '(n, ev) := mem_transfer refused ok l (me_next e) in (mk_mem (me_pending e) (me_msg e) n, ev)
  | MoNegotiate g => let '(n, ev) := mem_negotiate g (me_next e) in (mk_mem (me_pending e) (me_msg e) n, ev)
  end.
Fixpoint mem_steps (e : mem) (l : list mem_op) : mem * list hev :=
  match l with
  | [] => (e, [])
  | o :: l' => let '(e1, ev) := mem_step e o in let '(e2, ev2) := mem_steps e1 l' in (e2, ev ++ ev2)
  end.
Definition mem_create : mem := mk_mem MpNone None 0.

(* lib/libvfio-user.c:1843-1870 vfu_destroy_ctx frees nothing of a pending message. *)
Definition mem_destroy (e : mem) : list hev := [].
