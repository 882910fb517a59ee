(* The request loop, the quiesce protocol and the loss of the connection.  Models lib/libvfio-user.c:1211-1697,
   1800-1841, 2404-2447 over the UNIX socket transport.
   Simplifications: memory allocation never fails; callbacks do not call back into the library. *)
From Verif Require Import Base Types Bytes Dma Dirty Migr Irq Pci Handlers.
From Coq Require Import NArith ZArith List Bool.
Import ListNotations.
Open Scope N_scope.

(* include/vfio-user.h struct vfio_user_header, and the fields of lib/private.h:78-92 vfu_msg_t that survive
   until the reply. *)
Record header : Type := mk_header { hd_id : N; hd_cmd : N; hd_size : N; hd_flags : N; hd_error : N }.
Record msg : Type := mk_msg { mg_hdr : header; mg_body : list N; mg_fds : list Z }.

(* lib/private.h:132-137, 156-191: the pending operation. *)
Inductive pending : Type := PNone | PMsg (m : msg) | PReset.

Record server : Type := mk_server {
  sv_ctx : ctx;
  sv_pending : pending;
  sv_quiesced : bool;
  sv_conn : bool;        (* conn_fd != -1 *)
  sv_realized : bool
}.
Definition set_ctx (s : server) (c : ctx) : server := mk_server c (sv_pending s) (sv_quiesced s) (sv_conn s) (sv_realized s).
Definition set_pending (s : server) (p : pending) : server := mk_server (sv_ctx s) p (sv_quiesced s) (sv_conn s) (sv_realized s).
Definition set_quiesced (s : server) (q : bool) : server := mk_server (sv_ctx s) (sv_pending s) q (sv_conn s) (sv_realized s).
Definition set_conn (s : server) (b : bool) : server := mk_server (sv_ctx s) (sv_pending s) (sv_quiesced s) b (sv_realized s).

(* What the outside does during one iteration of vfu_run_ctx or one call of vfu_device_quiesced.
   Receiving the header: an errno, or a header with descriptors; receiving the body: an errno or the bytes recv
   returned. *)
Inductive rx : Type :=
| RxErr (e : N)
| RxMsg (h : header) (fds : list Z) (body : N + list N).

Record env : Type := mk_senv {
  en_rx : rx;
  en_or : oracle;            (* while the request is handled *)
  en_quiesce : cb_answer;    (* quiesce callback for a request *)
  en_send : cb_answer;       (* sending the reply *)
  en_quiesce_reset : cb_answer; (* quiesce callback because the connection is lost *)
  en_lost : cb_answer        (* reset callback because the connection is lost *)
}.

(* include/vfio-user.h VFIO_USER_F_*; lib/private.h:60-62. *)
Definition F_TYPE_MASK : N := 15.
Definition F_TYPE_COMMAND : N := 0.
Definition F_NO_REPLY : N := 16.
Definition SERVER_MAX_MSG_SIZE : N := 1048576 + 16 + 16.

(* lib/libvfio-user.c:1800-1818 vfu_reset_ctx_quiesced. *)
Definition reset_ctx_quiesced (s : server) (lost : cb_answer) : outcome unit * server * list event :=
  let c := sv_ctx s in
  match (match cx_dma c with
         | Some d => let '(r, d') := remove_all_regions (cx_unregister c) d in (r, set_dma c d' (cx_hint c))
         | None => (Ok [], c)
         end) with
  | (Err e, c1) => (Err e, set_ctx s c1, [])
  | (Crash cr, c1) => (Crash cr, set_ctx s c1, [])
  | (Ok ev1, c1) =>
      let '(_, c2, ev2) := device_reset c1 lost ResetLostConn in
      match (match cx_irqs c2 with
             | None => (Ok tt, c2, [])
             | Some t => let '(r, t', ev) := irqs_reset (cx_irq_cfg c2) t in (r, set_irqt c2 t', ev)
             end) with
      | (Ok _, c3, ev3) => (Ok tt, set_conn (set_ctx s c3) false, ev1 ++ ev2 ++ ev3 ++ [EvDetach])
      | (r, c3, ev3) => (r, set_ctx s c3, ev1 ++ ev2 ++ ev3)
      end
  end.

(* lib/libvfio-user.c:1820-1841 vfu_reset_ctx. *)
Definition reset_ctx (s : server) (q lost : cb_answer) : outcome unit * server * list event :=
  if cx_quiesce (sv_ctx s) && match sv_pending s with PNone => true | _ => false end then
    match q with
    | Some e => (Err e, (if e =? EBUSY then set_pending s PReset else s), [EvQuiesce q])
    | None => let '(r, s', ev) := reset_ctx_quiesced s lost in (r, s', EvQuiesce q :: ev)
    end
  else reset_ctx_quiesced s lost.

(* lib/libvfio-user.c:1281-1314 do_reply, with lib/tran_sock.c:573-610.  After a reset that succeeds it returns
   0, not -1. *)
Definition do_reply (s : server) (en : env) (h : header) (err : N) (body : list N) (fds : list Z) : outcome unit * server * list event :=
  if has (hd_flags h) F_NO_REPLY then (Ok tt, s, [])
  else
    match en_send en with
    | None => (Ok tt, s, [EvReply (mk_reply (hd_id h) (hd_cmd h) err body fds)])
    | Some e =>
        if (e =? ECONNRESET) || (e =? ENOMSG) then reset_ctx s (en_quiesce_reset en) (en_lost en)
        else (Err e, s, [])
    end.

(* lib/libvfio-user.c:1242-1279 free_msg: the descriptors not taken by the handler are closed. *)
Definition free_msg (fds : list Z) : list event := close_all fds.

(* lib/libvfio-user.c:1316-1394 handle_request; also returns what is left of the message's descriptors. *)
Definition handle_request (s : server) (en : env) (m : msg) : outcome unit * server * list Z * list event :=
  let '(r, c', fds', ev) := dispatch (sv_ctx s) (en_or en) (hd_cmd (mg_hdr m)) (mg_body m) (mg_fds m) in
  let s1 := set_ctx s c' in
  match r with
  | HCrash cr => (Crash cr, s1, fds', ev)
  | HReply err body fds =>
      let '(o, s2, ev2) := do_reply s1 en (mg_hdr m) err body fds in (o, s2, fds', ev ++ ev2)
  end.

(* lib/libvfio-user.c:1445-1475 is_valid_header. *)
Definition is_valid_header (h : header) : bool :=
  if negb (N.land (hd_flags h) F_TYPE_MASK =? F_TYPE_COMMAND) then false
  else if hd_size h <? 16 then false
  else if (hd_size h =? 16) && negb (hd_cmd h =? CMD_RESET) then false
  else if SERVER_MAX_MSG_SIZE <? hd_size h then false
  else true.

(* lib/libvfio-user.c:1477-1503 cmd_allowed_when_stopped_and_copying, should_exec_command. *)
Definition cmd_allowed_stopped (cmd : N) : bool :=
  (cmd =? CMD_REGION_READ) || (cmd =? CMD_REGION_WRITE) || (cmd =? CMD_FEATURE) || (cmd =? CMD_MIG_READ).
Definition should_exec (m : option N) (cmd : N) : bool :=
  if is_stopped_and_copying m then cmd_allowed_stopped cmd
  else if is_stopped m then cmd_allowed_stopped cmd
  else true.

(* lib/libvfio-user.c:1505-1561 access_needs_quiesce, command_needs_quiesce. *)
Definition needs_quiesce (c : ctx) (cmd : N) (body : list N) : bool :=
  if negb (cx_quiesce c) then false
  else if (cmd =? CMD_DMA_MAP) || (cmd =? CMD_DMA_UNMAP) then match cx_dma c with Some _ => true | None => false end
  else if cmd =? CMD_RESET then true
  else if cmd =? CMD_REGION_WRITE then
    if N.of_nat (length body) <? 16 then false
    else need (rd body 0 8) false (fun off => need (rd body 8 4) false (fun region => access_is_pci_cap_exp (cx_pci c) region off))
  else if cmd =? CMD_FEATURE then
    if N.of_nat (length body) <? 8 then false
    else need (rd body 4 4) false feature_needs_quiesce
  else false.

(* lib/tran_sock.c:506-551 tran_sock_recv_body: a single recv; want is the payload length announced. *)
Definition recv_body (want : N) (b : N + list N) : outcome (list N) :=
  match b with
  | inl e => Err e
  | inr l =>
      let got := firstn (N.to_nat want) l in
      if N.of_nat (length got) =? 0 then Err ENOMSG
      else if negb (N.of_nat (length got) =? want) then Err EINVAL
      else Ok got
  end.

(* What get_request makes of its input. *)
Inductive got : Type :=
| GotMsg (m : msg)      (* a request to be executed *)
| GotErr (e : N)        (* get_request returns -1 with errno e *)
| GotCrash (c : crash).

(* The error path of get_request, lib/libvfio-user.c:1632-1640. *)
Definition refuse (s : server) (en : env) (h : header) (fds : list Z) (err : N) : got * server * list event :=
  let '(o, s', ev) := do_reply s en h err [] [] in
  (match o with Ok _ => GotErr ENOMSG | Err e => GotErr e | Crash cr => GotCrash cr end, s', ev ++ free_msg fds).

(* lib/libvfio-user.c:1400-1443 get_request_header, 1571-1641 get_request. *)
Definition get_request (s : server) (en : env) : got * server * list event :=
  if negb (sv_conn s) then (GotErr ENOTCONN, s, [])
  else
    match en_rx en with
    | RxErr e =>
        if (e =? ENOMSG) || (e =? ECONNRESET) then
          let '(o, s', ev) := reset_ctx s (en_quiesce_reset en) (en_lost en) in
          (match o with Ok _ => GotErr ENOTCONN | Err e' => GotErr e' | Crash cr => GotCrash cr end, s', ev)
        else (GotErr e, s, [])
    | RxMsg h fds rbody =>
        if negb (is_valid_header h) then refuse s en h fds EINVAL
        else
          match (if hd_size h =? 16 then Ok [] else recv_body (hd_size h - 16) rbody) with
          | Err e => refuse s en h fds e
          | Crash cr => (GotCrash cr, s, [])
          | Ok body =>
              if negb (should_exec (cx_mig (sv_ctx s)) (hd_cmd h)) then refuse s en h fds EINVAL
              else if needs_quiesce (sv_ctx s) (hd_cmd h) body then
                match en_quiesce en with
                | Some e =>
                    if e =? EBUSY then (GotErr EBUSY, set_pending s (PMsg (mk_msg h body fds)), [EvQuiesce (Some e)])
                    else let '(g, s', ev) := refuse s en h fds e in (g, s', EvQuiesce (Some e) :: ev)
                | None => (GotMsg (mk_msg h body fds), set_quiesced s true, [EvQuiesce None])
                end
              else (GotMsg (mk_msg h body fds), s, [])
          end
    end.

(* One iteration of the loop of lib/libvfio-user.c:1659-1694, entered with nothing pending: Ok n is err == 0 with
   n requests processed. *)
Definition run_iter (s : server) (en : env) : outcome N * server * list event :=
  match get_request s en with
  | (GotCrash cr, s1, ev1) => (Crash cr, s1, ev1)
  | (GotErr e, s1, ev1) => (if (e =? ENOMSG) || (e =? EAGAIN) then Ok 0 else Err e, s1, ev1)
  | (GotMsg m, s1, ev1) =>
      let '(o, s2, fds', ev2) := handle_request s1 en m in
      match o with
      | Crash cr => (Crash cr, s2, ev1 ++ ev2)
      | Err e => (Err e, set_quiesced s2 false, ev1 ++ ev2 ++ free_msg fds')
      | Ok _ => (Ok 1, set_quiesced s2 false, ev1 ++ ev2 ++ free_msg fds')
      end
  end.

(* lib/libvfio-user.c:1643-1697 vfu_run_ctx on a socket in blocking (loop until an error) or non-blocking mode
   (one iteration).  ens is what happens during the iterations; a blocking call that has not returned yet when
   ens is used up is Running. *)
Inductive ran : Type := Returned (o : outcome N) | Running.
Fixpoint run_loop (blocking : bool) (s : server) (ens : list env) (n : N) : ran * server * list event :=
  match sv_pending s with
  | PNone =>
      match ens with
      | [] => (Running, s, [])
      | en :: ens' =>
          match run_iter s en with
          | (Ok k, s1, ev) =>
              if blocking then let '(r, s2, ev2) := run_loop blocking s1 ens' (n + k) in (r, s2, ev ++ ev2)
              else (Returned (Ok (n + k)), s1, ev)
          | (o, s1, ev) => (Returned o, s1, ev)
          end
      end
  | _ => (Returned (Err EBUSY), s, [])
  end.
Definition run_ctx (blocking : bool) (s : server) (ens : list env) : ran * server * list event :=
  if negb (sv_realized s) then (Returned (Err EINVAL), s, []) else run_loop blocking s ens 0.

(* lib/libvfio-user.c:2404-2447 vfu_device_quiesced. *)
Definition device_quiesced (s : server) (en : env) (errno : N) : outcome unit * server * list event :=
  if negb (cx_quiesce (sv_ctx s)) then (Err EINVAL, s, [])
  else match sv_pending s with
  | PNone => (Err EINVAL, s, [])
  | PMsg m =>
      let s1 := set_quiesced s true in
      if errno =? 0 then
        let '(o, s2, fds', ev) := handle_request s1 en m in
        match o with
        | Crash cr => (Crash cr, s2, ev)
        | _ => (o, set_quiesced (set_pending s2 PNone) false, ev ++ free_msg fds')
        end
      else (Ok tt, set_quiesced (set_pending s1 PNone) false, free_msg (mg_fds m))
  | PReset =>
      let s1 := set_quiesced s true in
      if errno =? 0 then
        match reset_ctx_quiesced s1 (en_lost en) with
        | (Crash cr, s2, ev) => (Crash cr, s2, ev)
        | (o, s2, ev) => (o, set_quiesced (set_pending s2 PNone) false, ev)
        end
      else (Ok tt, set_quiesced (set_pending s1 PNone) false, [])
  end.

(* What the device does between calls of vfu_run_ctx: lib/libvfio-user.c:2241-2273 vfu_sgl_mark_dirty and vfu_sgl_put
   (in release builds they go straight to the DMA code; with no DMA controller that dereferences NULL). *)
Definition dev_mark (s : server) (l : list sg) : outcome unit * server :=
  match cx_dma (sv_ctx s) with
  | None => (Crash OutOfBounds, s)
  | Some d =>
      match sgl_mark_dirty d l with
      | Ok d' => (Ok tt, set_ctx s (set_dma (sv_ctx s) d' (cx_hint (sv_ctx s))))
      | Err e => (Err e, s)
      | Crash cr => (Crash cr, s)
      end
  end.

(* vfu_addr_to_sgl (2214-2227) changes nothing but the region hint. *)
Definition dev_hint (s : server) (h : nat) : server :=
  match cx_dma (sv_ctx s) with None => s | Some d => set_ctx s (set_dma (sv_ctx s) d h) end.

(* lib/pci.c:524-529 vfu_pci_get_config_space: the device stores data at off through the pointer this returns.  Storing
   past the end of configuration space is the device's overrun. *)
Definition dev_poke (s : server) (off : N) (data : list N) : outcome N * server :=
  let p := cx_pci (sv_ctx s) in
  match put_slice (pc_cfg p) (N.to_nat off) data with
  | Some cfg => (Ok 0, set_ctx s (set_pci (sv_ctx s) (set_cfg p cfg)))
  | None => (Crash OutOfBounds, s)
  end.

(* Histories.  One step is an iteration of vfu_run_ctx, a call of vfu_device_quiesced, a successful
   vfu_attach_ctx (a new client; lib/tran_sock.c:447-476 refuses while connected) that negotiates max as
   client_max_data_xfer_size (lib/tran.c:223-243, modelled in Tran.v), or a call of the device side interface. *)
Inductive step : Type :=
| SRun (en : env)
| SQuiesced (errno : N) (en : env)
| SAttach (max : N)
| SMark (l : list sg)
| SLookup (hint : nat)
| STrigger (subindex : N) (answer : cb_answer)
| SPoke (off : N) (data : list N).

(* A call of vfu_run_ctx with something pending, or not realized, performs no iteration (1650-1663). *)
Definition sv_step (s : server) (st : step) : outcome N * server * list event :=
  match st with
  | SRun en =>
      if negb (sv_realized s) then (Err EINVAL, s, [])
      else match sv_pending s with PNone => run_iter s en | _ => (Err EBUSY, s, []) end
  | SQuiesced errno en =>
      let '(o, s', ev) := device_quiesced s en errno in
      (match o with Ok _ => Ok 0 | Err e => Err e | Crash cr => Crash cr end, s', ev)
  | SAttach max =>
      if sv_conn s then (Err EINVAL, s, []) else (Ok 0, set_conn (set_ctx s (set_max_xfer (sv_ctx s) max)) true, [])
  | SMark l =>
      let '(o, s') := dev_mark s l in
      (match o with Ok _ => Ok 0 | Err e => Err e | Crash cr => Crash cr end, s', [])
  | SLookup h => (Ok 0, dev_hint s h, [])
  | STrigger v ans =>
      match cx_irqs (sv_ctx s) with
      | None => (Crash OutOfBounds, s, [])
      | Some t =>
          let '(o, ev) := irq_trigger t ans v in
          (match o with Ok _ => Ok 0 | Err e => Err e | Crash cr => Crash cr end, s, ev)
      end
  | SPoke off data => let '(o, s') := dev_poke s off data in (o, s', [])
  end.

(* A history ends when the program crashes. *)
Fixpoint sv_run (s : server) (l : list step) : server * list (outcome N * list event) :=
  match l with
  | [] => (s, [])
  | st :: l' =>
      match sv_step s st with
      | (Crash cr, s', ev) => (s', [(Crash cr, ev)])
      | (o, s', ev) => let '(s'', t) := sv_run s' l' in (s'', (o, ev) :: t)
      end
  end.
