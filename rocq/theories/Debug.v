(* Builds with DEBUG: the device may not use guest memory while it is quiesced, unless it is in certain callbacks.  Models
   lib/libvfio-user.c:2200-2273 and, for each callback, whether vfu_ctx->in_cb and vfu_ctx->quiesced are set while it runs. *)
From Coq Require Import NArith ZArith List Bool.
From Verif Require Import Base Types Bytes Dma Dirty Migr Irq Pci Handlers Server.
Import ListNotations.
Open Scope N_scope.

(* vfu_ctx->in_cb != CB_NONE during the callback: lib/dma.c:165-167 and 201-203 (dma_unregister), lib/libvfio-user.c:736-738
   (dma_register), 881-883 (reset), 1609-1611 and 1827-1829 (quiesce), lib/migration.c:227-231 (transition).  It is not set
   around the region access callbacks (lib/libvfio-user.c:234-275, lib/pci.c:286-302), the migration data callbacks
   (lib/migration.c:290-418) and the interrupt state callbacks (lib/irq.c). *)
Definition in_cb (e : event) : bool :=
  match e with
  | EvRegister _ | EvUnregister _ | EvReset _ | EvQuiesce _ | EvTransition _ => true
  | _ => false
  end.

(* lib/libvfio-user.c:2200-2211 quiesce_check_allowed: true if it does not abort. *)
Definition check_allowed (incb has_quiesce quiesced : bool) : bool := incb || negb has_quiesce || negb quiesced.

(* The functions with which a device uses guest memory. *)
Inductive dma_call : Type := AddrToSgl | SglGet (flags : N) | SglMarkDirty | SglPut.

(* What a DEBUG build does at the start of such a call: goes on as a release build does, returns at once, or aborts. *)
Inductive entry : Type := GoesOn | Returns (o : outcome unit) | Aborts.

(* lib/libvfio-user.c:2213-2227 vfu_addr_to_sgl, 2229-2243 vfu_sgl_get, 2245-2258 vfu_sgl_mark_dirty, 2260-2273 vfu_sgl_put. *)
Definition debug_entry (c : ctx) (quiesced incb : bool) (call : dma_call) : entry :=
  let check := if check_allowed incb (cx_quiesce c) quiesced then GoesOn else Aborts in
  match call with
  | AddrToSgl => match cx_dma c with None => Returns (Err EINVAL) | Some _ => check end
  | SglGet flags => if negb (cx_unregister c) || negb (flags =? 0) then Returns (Err EINVAL) else check
  | SglMarkDirty | SglPut => if negb (cx_unregister c) then Returns (Ok tt) else check
  end.

(* The events of a step, each with the value vfu_ctx->quiesced has then.  lib/libvfio-user.c:1606-1627: the flag is set after
   the quiesce callback for a request has succeeded; 1668-1681: it is cleared after the request was handled and its message
   freed; 2420 and 2444: vfu_device_quiesced sets it at the start and clears it at the end.  It is not set for the callbacks of
   1820-1841 vfu_reset_ctx, unless it is set already. *)
Definition tag (q : bool) (ev : list event) : list (bool * event) := map (fun e => (q, e)) ev.
Definition handle_tagged (s : server) (en : env) (m : msg) : list (bool * event) :=
  let '(o, _, fds', ev) := handle_request s en m in
  tag (sv_quiesced s) (match o with Crash _ => ev | _ => ev ++ free_msg fds' end).
Definition run_tagged (s : server) (en : env) : list (bool * event) :=
  match get_request s en with
  | (GotMsg m, s1, ev1) => tag (sv_quiesced s) ev1 ++ handle_tagged s1 en m
  | (_, _, ev1) => tag (sv_quiesced s) ev1
  end.
Definition step_tagged (s : server) (st : step) : list (bool * event) :=
  match st with
  | SRun en =>
      if negb (sv_realized s) then []
      else match sv_pending s with PNone => run_tagged s en | _ => [] end
  | SQuiesced errno en =>
      if negb (cx_quiesce (sv_ctx s)) then []
      else match sv_pending s with
      | PNone => []
      | PMsg m => if errno =? 0 then handle_tagged (set_quiesced s true) en m else tag true (free_msg (mg_fds m))
      | PReset => if errno =? 0 then let '(_, _, ev) := reset_ctx_quiesced (set_quiesced s true) (en_lost en) in tag true ev else []
      end
  | _ => tag (sv_quiesced s) (snd (sv_step s st))
  end.
