(* Devices that use the library from within the callbacks it makes because the connection is lost: the quiesce callback, the
   dma_unregister callback of each region and the reset callback.  The functions are those of Reenter.v,
   ReenterCfg.v and Server.v, with what the device does in these callbacks performed at the point where they are made. *)
From Coq Require Import NArith ZArith List Bool.
From Verif Require Import Base Types Bytes Dma Dirty Migr Irq Pci Handlers Server Reenter ReenterCfg.
Import ListNotations.
Open Scope N_scope.

(* What the device does: in the quiesce callback, in the k-th dma_unregister callback, in the reset callback. *)
Record parting : Type := mk_parting { pt_quiesce : list act; pt_gone : nat -> list act; pt_reset : list act }.

(* lib/libvfio-user.c:1800-1818 vfu_reset_ctx_quiesced. *)
Definition reset_ctx_quiesced_in (s : server) (lost : cb_answer) (j : parting) : outcome unit * server * list event :=
  match remove_all_in s (mk_inside [] (pt_gone j)) with
  | (Err e, s1, ev1) => (Err e, s1, ev1)
  | (Crash cr, s1, ev1) => (Crash cr, s1, ev1)
  | (Ok _, s1, ev1) =>
      match device_reset_in s1 lost ResetLostConn (mk_inside [] (fun _ => pt_reset j)) with
      | (Crash cr, s2, ev2) => (Crash cr, s2, ev1 ++ ev2)
      | (_, s2, ev2) =>
          let c2 := sv_ctx s2 in
          match (match cx_irqs c2 with
                 | None => (Ok tt, c2, [])
                 | Some t => let '(r, t', ev) := irqs_reset (cx_irq_cfg c2) t in (r, set_irqt c2 t', ev)
                 end) with
          | (Ok _, c3, ev3) => (Ok tt, set_conn (set_ctx s2 c3) false, ev1 ++ ev2 ++ ev3 ++ [EvDetach])
          | (r, c3, ev3) => (r, set_ctx s2 c3, ev1 ++ ev2 ++ ev3)
          end
      end
  end.

(* lib/libvfio-user.c:1820-1841 vfu_reset_ctx. *)
Definition reset_ctx_in (s : server) (q lost : cb_answer) (j : parting) : outcome unit * server * list event :=
  if cx_quiesce (sv_ctx s) && match sv_pending s with PNone => true | _ => false end then
    let '(oa, s1, eva) := do_acts s (pt_quiesce j) in
    match oa, q with
    | Crash cr, _ => (Crash cr, s1, EvQuiesce q :: eva)
    | _, Some e => (Err e, (if e =? EBUSY then set_pending s1 PReset else s1), EvQuiesce q :: eva)
    | _, None => let '(r, s', ev) := reset_ctx_quiesced_in s1 lost j in (r, s', EvQuiesce q :: eva ++ ev)
    end
  else reset_ctx_quiesced_in s lost j.

(* lib/libvfio-user.c:1281-1314 do_reply. *)
Definition do_reply_in (s : server) (en : env) (h : header) (err : N) (body : list N) (fds : list Z) (j : parting) : outcome unit * server * list event :=
  if has (hd_flags h) F_NO_REPLY then (Ok tt, s, [])
  else
    match en_send en with
    | None => (Ok tt, s, [EvReply (mk_reply (hd_id h) (hd_cmd h) err body fds)])
    | Some e =>
        if (e =? ECONNRESET) || (e =? ENOMSG) then reset_ctx_in s (en_quiesce_reset en) (en_lost en) j
        else (Err e, s, [])
    end.

(* lib/libvfio-user.c:1316-1394 handle_request. *)
Definition handle_request_lost (s : server) (en : env) (m : msg) (i : inside) (j : parting) : outcome unit * server * list Z * list event :=
  let '(r, s1, fds', ev) := dispatch_all s (en_or en) (hd_cmd (mg_hdr m)) (mg_body m) (mg_fds m) i in
  match r with
  | HCrash cr => (Crash cr, s1, fds', ev)
  | HReply err body fds =>
      let '(o, s2, ev2) := do_reply_in s1 en (mg_hdr m) err body fds j in (o, s2, fds', ev ++ ev2)
  end.

(* lib/libvfio-user.c:1571-1641 get_request: the error replies. *)
Definition refuse_in (s : server) (en : env) (h : header) (fds : list Z) (err : N) (j : parting) : got * server * list event :=
  let '(o, s', ev) := do_reply_in s en h err [] [] j in
  (match o with Ok _ => GotErr ENOMSG | Err e => GotErr e | Crash cr => GotCrash cr end, s', ev ++ free_msg fds).

(* lib/libvfio-user.c:1400-1443 get_request_header, 1571-1641 get_request. *)
Definition get_request_lost (s : server) (en : env) (i : inside) (j : parting) : got * server * list event :=
  if negb (sv_conn s) then (GotErr ENOTCONN, s, [])
  else
    match en_rx en with
    | RxErr e =>
        if (e =? ENOMSG) || (e =? ECONNRESET) then
          let '(o, s', ev) := reset_ctx_in s (en_quiesce_reset en) (en_lost en) j in
          (match o with Ok _ => GotErr ENOTCONN | Err e' => GotErr e' | Crash cr => GotCrash cr end, s', ev)
        else (GotErr e, s, [])
    | RxMsg h fds rbody =>
        if negb (is_valid_header h) then refuse_in s en h fds EINVAL j
        else
          match (if hd_size h =? 16 then Ok [] else recv_body (hd_size h - 16) rbody) with
          | Err e => refuse_in s en h fds e j
          | Crash cr => (GotCrash cr, s, [])
          | Ok body =>
              if negb (should_exec (cx_mig (sv_ctx s)) (hd_cmd h)) then refuse_in s en h fds EINVAL j
              else if needs_quiesce (sv_ctx s) (hd_cmd h) body then
                let '(oa, s1, eva) := do_acts s (in_quiesce i) in
                match oa, en_quiesce en with
                | Crash cr, q => (GotCrash cr, s1, EvQuiesce q :: eva)
                | _, Some e =>
                    if e =? EBUSY then (GotErr EBUSY, set_pending s1 (PMsg (mk_msg h body fds)), EvQuiesce (Some e) :: eva)
                    else let '(g, s', ev) := refuse_in s1 en h fds e j in (g, s', EvQuiesce (Some e) :: eva ++ ev)
                | _, None => (GotMsg (mk_msg h body fds), set_quiesced s1 true, EvQuiesce None :: eva)
                end
              else (GotMsg (mk_msg h body fds), s, [])
          end
    end.

(* One iteration of lib/libvfio-user.c:1659-1694. *)
Definition run_iter_lost (s : server) (en : env) (i : inside) (j : parting) : outcome N * server * list event :=
  match get_request_lost s en i j with
  | (GotCrash cr, s1, ev1) => (Crash cr, s1, ev1)
  | (GotErr e, s1, ev1) => (if (e =? ENOMSG) || (e =? EAGAIN) then Ok 0 else Err e, s1, ev1)
  | (GotMsg m, s1, ev1) =>
      let '(o, s2, fds', ev2) := handle_request_lost s1 en m i j in
      match o with
      | Crash cr => (Crash cr, s2, ev1 ++ ev2)
      | Err e => (Err e, set_quiesced s2 false, ev1 ++ ev2 ++ free_msg fds')
      | Ok _ => (Ok 1, set_quiesced s2 false, ev1 ++ ev2 ++ free_msg fds')
      end
  end.

(* lib/libvfio-user.c:2404-2447 vfu_device_quiesced. *)
Definition device_quiesced_lost (s : server) (en : env) (errno : N) (i : inside) (j : parting) : outcome unit * server * list event :=
  match cx_quiesce (sv_ctx s), sv_pending s, errno =? 0 with
  | true, PMsg m, true =>
      let '(o, s2, fds', ev) := handle_request_lost (set_quiesced s true) en m i j in
      match o with
      | Crash cr => (Crash cr, s2, ev)
      | _ => (o, set_quiesced (set_pending s2 PNone) false, ev ++ free_msg fds')
      end
  | true, PReset, true =>
      match reset_ctx_quiesced_in (set_quiesced s true) (en_lost en) j with
      | (Crash cr, s2, ev) => (Crash cr, s2, ev)
      | (o, s2, ev) => (o, set_quiesced (set_pending s2 PNone) false, ev)
      end
  | _, _, _ => device_quiesced s en errno
  end.

(* A step of a server whose device does what i says in the callbacks of a request and what j says when the connection is
   lost. *)
Definition step_lost (s : server) (st : step) (i : inside) (j : parting) : outcome N * server * list event :=
  match st with
  | SRun en =>
      if negb (sv_realized s) then (Err EINVAL, s, [])
      else match sv_pending s with PNone => run_iter_lost s en i j | _ => (Err EBUSY, s, []) end
  | SQuiesced errno en =>
      let '(o, s', ev) := device_quiesced_lost s en errno i j in
      (match o with Ok _ => Ok 0 | Err e => Err e | Crash cr => Crash cr end, s', ev)
  | _ => sv_step s st
  end.
