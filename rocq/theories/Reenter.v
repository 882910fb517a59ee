(* Devices that use the library from within its callbacks: they mark guest memory dirty or release it, look up guest
   addresses, raise interrupts and store into configuration space.  The functions of this file are those of Handlers.v and
   Server.v with what the device does in the callback (acts) performed at the point where the callback is made.
   Covered: the quiesce callback of a request, dma_register, dma_unregister, the region access callback of regions other than
   configuration space handled by the library, the reset callback of a reset request, the migration transition and data
   callbacks, the callback for masking interrupts.  The callbacks made for configuration space are added in ReenterCfg.v,
   those made because the connection is lost in ReenterLost.v. *)
From Coq Require Import NArith ZArith List Bool.
From Verif Require Import Base Types Bytes Dma Dirty Migr Irq Pci Handlers Server.
Import ListNotations.
Open Scope N_scope.

(* vfu_sgl_mark_dirty or vfu_sgl_put; vfu_addr_to_sgl; vfu_irq_trigger; a store through vfu_pci_get_config_space. *)
Inductive act : Type :=
| AMark (l : list sg)
| ALookup (hint : nat)
| ATrigger (subindex : N) (answer : cb_answer)
| APoke (off : N) (data : list N).
Definition step_of (a : act) : step :=
  match a with AMark l => SMark l | ALookup h => SLookup h | ATrigger v x => STrigger v x | APoke off data => SPoke off data end.

(* One call after another; the device does not stop when one of them fails. *)
Fixpoint do_acts (s : server) (l : list act) : outcome unit * server * list event :=
  match l with
  | [] => (Ok tt, s, [])
  | a :: l' =>
      match sv_step s (step_of a) with
      | (Crash cr, s1, ev) => (Crash cr, s1, ev)
      | (_, s1, ev) => let '(o, s2, ev2) := do_acts s1 l' in (o, s2, ev ++ ev2)
      end
  end.

(* What the device does in the callbacks of one request: in the quiesce callback, and in the k-th of the others. *)
Record inside : Type := mk_inside { in_quiesce : list act; in_cb : nat -> list act }.

(* lib/libvfio-user.c:184-220 region_access. *)
Definition region_access_in (s : server) (o : oracle) (region : N) (is_write : bool) (off count : N) (data : list N) (i : inside)
  : outcome N * list N * server * list event :=
  let c := sv_ctx s in
  match nth_error (cx_regs c) (N.to_nat region) with
  | None => (Crash OutOfBounds, [], s, [])
  | Some r =>
      if (region =? CFG_REGION) && negb (has (ri_flags r) REGION_FLAG_ALWAYS_CB) then
        let '(res, buf, c', ev) := region_access c o region is_write off count data in (res, buf, set_ctx s c', ev)
      else if negb (ri_cb r) then (Err EINVAL, [], s, [])
      else
        let '(oa, s1, eva) := do_acts s (in_cb i 0) in
        let ev := EvAccess region is_write off count data :: eva in
        match oa, or_access o 0%nat off count with
        | Crash cr, _ => (Crash cr, [], s1, ev)
        | _, AccErr e => (Err e, [], s1, ev)
        | _, AccOk n buf => (Ok n, if is_write then [] else buf, s1, ev)
        end
  end.

(* lib/libvfio-user.c:277-329 handle_region_access. *)
Definition handle_region_access_in (s : server) (o : oracle) (is_write : bool) (body : list N) (i : inside) : hres * server * list event :=
  if N.of_nat (length body) <? 16 then (herr EINVAL, s, [])
  else
    need (rd body 0 8) (HCrash OutOfBounds, s, []) (fun off =>
    need (rd body 8 4) (HCrash OutOfBounds, s, []) (fun region =>
    need (rd body 12 4) (HCrash OutOfBounds, s, []) (fun count =>
    if negb (valid_region_access (sv_ctx s) (N.of_nat (length body)) is_write off region count) then (herr EINVAL, s, [])
    else if count =? 0 then (HReply 0 [] [], s, [])
    else
      let data := if is_write then skipn 16 body else [] in
      let '(res, buf, s', ev) := region_access_in s o region is_write off count data i in
      let out := le_bytes 8 off ++ le_bytes 4 region ++ le_bytes 4 count
                 ++ (if is_write then [] else fit (N.to_nat count) buf) in
      match res with
      | Ok n => if n =? count then (HReply 0 out [], s', ev) else (HReply EINVAL out [], s', ev)
      | Err e => (HReply e out [], s', ev)
      | Crash cr => (HCrash cr, s', ev)
      end))).

(* lib/libvfio-user.c:735-741: the dma_register callback is the last thing handle_dma_map does. *)
Definition registers (e : event) : bool := match e with EvRegister _ => true | _ => false end.
(* lib/irq.c:143-167, 389-393: likewise the callback for masking and unmasking and handle_device_set_irqs. *)
Definition masks (e : event) : bool := match e with EvIrqState _ _ _ _ => true | _ => false end.
Definition then_acts (r : hres) (s : server) (ev : list event) (called : bool) (l : list act) : hres * server * list event :=
  if called then
    let '(oa, s1, eva) := do_acts s l in
    (match oa with Crash cr => HCrash cr | _ => r end, s1, ev ++ eva)
  else (r, s, ev).
Definition handle_dma_map_in (s : server) (d : dma) (o : oracle) (body : list N) (fds : list Z) (i : inside)
  : hres * server * list Z * list event :=
  let '(r, c', fds', ev) := handle_dma_map (sv_ctx s) d o body fds in
  let '(r', s', ev') := then_acts r (set_ctx s c') ev (existsb registers ev) (in_cb i 0) in (r', s', fds', ev').

(* lib/dma.c:146-180 dma_controller_remove_region: the callback is made while the region is still in the table. *)
Definition remove_region_in (s : server) (addr size : N) (i : inside) : outcome unit * server * list event :=
  let c := sv_ctx s in
  match cx_dma c with
  | None => (Ok tt, s, [])
  | Some d =>
      match find (fun r => same_range r addr size) (dm_regions d) with
      | None => (Err ENOENT, s, [])
      | Some r =>
          let '(oa, s1, eva) := if cx_unregister c then do_acts s (in_cb i 0) else (Ok tt, s, []) in
          let told := if cx_unregister c then EvUnregister (rg_info r) :: eva else [] in
          match oa, cx_dma (sv_ctx s1) with
          | Crash cr, _ => (Crash cr, s1, told)
          | _, None => (Crash OutOfBounds, s1, told)
          | _, Some d1 =>
              match remove_region false d1 addr size with
              | (Ok ev, d2) => (Ok tt, set_ctx s1 (set_dma (sv_ctx s1) d2 (cx_hint (sv_ctx s1))), told ++ ev)
              | (Err e, d2) => (Err e, set_ctx s1 (set_dma (sv_ctx s1) d2 (cx_hint (sv_ctx s1))), told)
              | (Crash cr, d2) => (Crash cr, set_ctx s1 (set_dma (sv_ctx s1) d2 (cx_hint (sv_ctx s1))), told)
              end
          end
      end
  end.

(* lib/dma.c:182-215 dma_controller_remove_all_regions: the regions stay in the table until all callbacks have been made. *)
Fixpoint release_all_in (s : server) (cb : bool) (k : nat) (rs : list region) (i : inside) : outcome unit * server * list event :=
  match rs with
  | [] => (Ok tt, s, [])
  | r :: rest =>
      let '(oa, s1, eva) := if cb then do_acts s (in_cb i k) else (Ok tt, s, []) in
      let told := if cb then EvUnregister (rg_info r) :: eva else [] in
      match oa, release_region false r with
      | Crash cr, _ => (Crash cr, s1, told)
      | _, Err e => (Err e, s1, told)
      | _, Crash cr => (Crash cr, s1, told)
      | _, Ok ev =>
          let '(o, s2, ev2) := release_all_in s1 cb (S k) rest i in (o, s2, told ++ ev ++ ev2)
      end
  end.
Definition remove_all_in (s : server) (i : inside) : outcome unit * server * list event :=
  match cx_dma (sv_ctx s) with
  | None => (Ok tt, s, [])
  | Some d =>
      match release_all_in s (cx_unregister (sv_ctx s)) 0 (dm_regions d) i with
      | (Ok _, s1, ev) =>
          (Ok tt, match cx_dma (sv_ctx s1) with
                  | Some d1 => set_ctx s1 (set_dma (sv_ctx s1) (set_regions d1 []) (cx_hint (sv_ctx s1)))
                  | None => s1
                  end, ev)
      | r => r
      end
  end.

(* lib/libvfio-user.c:749-870 is_valid_unmap and handle_dma_unmap. *)
Definition handle_dma_unmap_in (s : server) (d : dma) (o : oracle) (body : list N) (i : inside) : hres * server * list event :=
  let c := sv_ctx s in
  let bad := (HCrash OutOfBounds, s, []) in
  let einval := (herr EINVAL, s, []) in
  let len := N.of_nat (length body) in
  let done (r : outcome unit * server * list event) (out : list N) :=
    let '(x, s', ev) := r in (match x with Ok _ => HReply 0 out [] | Err e => herr e | Crash cr => HCrash cr end, s', ev) in
  need (rd body 4 4) bad (fun flags =>
  if flags =? UNMAP_DIRTY then
    need (rd body 32 8) bad (fun bsize =>
    if len <? 40 then einval
    else
      need (rd body 0 4) bad (fun argsz =>
      need (rd body 8 8) bad (fun addr =>
      need (rd body 16 8) bad (fun size =>
      need (rd body 24 8) bad (fun pgsize =>
      need (slice body 0 40) bad (fun hdr =>
      if (argsz <? satadd_u64 40 bsize) || (MAX_XFER <? argsz) then einval
      else
        match dirty_page_get d (cx_hint c) addr size pgsize bsize (fit (N.to_nat bsize) (or_junk o)) with
        | (Ok bm, d1, h1) => done (remove_region_in (set_ctx s (set_dma c d1 h1)) addr size i) (hdr ++ bm)
        | (Err e, d1, h1) => (herr e, set_ctx s (set_dma c d1 h1), [])
        | (Crash cr, d1, h1) => (HCrash cr, set_ctx s (set_dma c d1 h1), [])
        end))))))
  else if flags =? UNMAP_ALL then
    need (rd body 8 8) bad (fun addr =>
    if negb (addr =? 0) then einval
    else
      need (rd body 16 8) bad (fun size =>
      if negb (size =? 0) then einval
      else if len <? 24 then einval
      else
        need (rd body 0 4) bad (fun argsz =>
        need (slice body 0 24) bad (fun hdr =>
        if (argsz <? 24) || (MAX_XFER <? argsz) then einval
        else done (remove_all_in s i) hdr))))
  else if flags =? 0 then
    if len <? 24 then einval
    else
      need (rd body 0 4) bad (fun argsz =>
      need (rd body 8 8) bad (fun addr =>
      need (rd body 16 8) bad (fun size =>
      need (slice body 0 24) bad (fun hdr =>
      if (argsz <? 24) || (MAX_XFER <? argsz) then einval
      else done (remove_region_in s addr size i) hdr))))
  else einval).

(* lib/libvfio-user.c:872-903 call_reset_cb and device_reset. *)
Definition device_reset_in (s : server) (ans : cb_answer) (t : reset_type) (i : inside) : outcome unit * server * list event :=
  let ok s1 := set_ctx s1 (set_mig (sv_ctx s1) (match cx_mig (sv_ctx s1) with Some _ => Some ST_RUNNING | None => None end)) in
  if cx_reset (sv_ctx s) then
    let '(oa, s1, eva) := do_acts s (in_cb i 0) in
    match oa, ans with
    | Crash cr, _ => (Crash cr, s1, EvReset t :: eva)
    | _, Some e => (Err e, s1, EvReset t :: eva)
    | _, None => (Ok tt, ok s1, EvReset t :: eva)
    end
  else (Ok tt, ok s, []).

(* lib/migration.c:206-256 state_trans_notify, migr_trans_to_valid_state, handle_device_state: the k-th transition; cur is
   migr->state. *)
Definition handle_device_state_in (s : server) (ans : cb_answer) (k : nat) (cur to : N) (i : inside) : outcome unit * server * list event :=
  if negb (transition_is_valid cur to) then (Err EINVAL, s, [])
  else
    match vfio_to_vfu to with
    | None => (Crash OutOfBounds, s, [])
    | Some v =>
        let '(oa, s1, eva) := do_acts s (in_cb i k) in
        match oa, ans with
        | Crash cr, _ => (Crash cr, s1, EvTransition v :: eva)
        | _, Some e => (Err e, s1, EvTransition v :: eva)
        | _, None => (Ok tt, set_ctx s1 (set_mig (sv_ctx s1) (Some to)), EvTransition v :: eva)
        end
    end.

(* lib/migration.c:264-286 migration_set_state. *)
Fixpoint set_state_loop_in (fuel : nat) (s : server) (answers : nat -> cb_answer) (k : nat) (cur target : N) (i : inside)
  : outcome unit * server * list event :=
  if cur =? target then (Ok tt, s, [])
  else
    match fuel with
    | O => (Crash Diverges, s, [])
    | S fuel' =>
        match nth_error next_state (N.to_nat cur) with
        | None => (Crash OutOfBounds, s, [])
        | Some row =>
            match nth_error row (N.to_nat target) with
            | None => (Crash OutOfBounds, s, [])
            | Some nxt =>
                if nxt =? ST_ERROR then (Err EINVAL, s, [])
                else
                  match handle_device_state_in s (answers k) k cur nxt i with
                  | (Ok _, s1, ev) =>
                      let '(o, s2, ev2) := set_state_loop_in fuel' s1 answers (S k) nxt target i in (o, s2, ev ++ ev2)
                  | (o, s1, ev) => (o, s1, ev)
                  end
            end
        end
    end.

(* lib/libvfio-user.c:1012-1021 handle_migration_device_feature_set. *)
Definition migration_feature_set_in (s : server) (o : oracle) (feature : N) (out : list N) (i : inside) : hres * server * list event :=
  if negb (feature =? FEATURE_MIG_DEVICE_STATE) then (HCrash AssertFailed, s, [])
  else
    need (rd out 8 4) (HCrash OutOfBounds, s, []) (fun st =>
    match cx_mig (sv_ctx s) with
    | None => (HCrash AssertFailed, s, [])
    | Some cur =>
        let '(res, s', ev) := if NUM_STATES <? st then (Err EINVAL, s, []) else set_state_loop_in 8 s (or_trans o) 0 cur st i in
        (match res with Ok _ => HReply 0 out [] | Err e => HReply e out [] | Crash cr => HCrash cr end, s', ev)
    end).

(* lib/libvfio-user.c:1101-1209 handle_device_feature: callbacks are made only when the migration state is set. *)
Definition sets_mig_state (c : ctx) (body : list N) : option N :=
  match rd body 0 4, rd body 4 4 with
  | Some argsz, Some flags =>
      let operations := N.ldiff flags FEATURE_MASK in
      let feature := N.land flags FEATURE_MASK in
      let supported := feature_supported (cx_mig c) feature in
      if (8 <=? N.of_nat (length body)) && (N.land flags supported =? operations) && negb (supported =? 0)
         && negb (operations =? FEATURE_GET) && (operations =? FEATURE_SET) && negb (argsz <? N.of_nat (length body))
         && is_migration_feature feature
      then Some feature else None
  | _, _ => None
  end.
Definition handle_device_feature_in (s : server) (o : oracle) (body : list N) (i : inside) : hres * server * list event :=
  match sets_mig_state (sv_ctx s) body with
  | Some feature => migration_feature_set_in s o feature body i
  | None => let '(r, c', ev) := handle_device_feature (sv_ctx s) o body in (r, set_ctx s c', ev)
  end.

(* lib/libvfio-user.c:1316-1394 handle_request, the dispatch. *)
Definition dispatch_in (s : server) (o : oracle) (cmd : N) (body : list N) (fds : list Z) (i : inside)
  : hres * server * list Z * list event :=
  let c := sv_ctx s in
  let plain := let '(r, c', fds', ev) := dispatch c o cmd body fds in (r, set_ctx s c', fds', ev) in
  let keep (x : hres * server * list event) := let '(r, s', ev) := x in (r, s', fds, ev) in
  if cmd =? CMD_DMA_MAP then match cx_dma c with None => plain | Some d => handle_dma_map_in s d o body fds i end
  else if cmd =? CMD_DMA_UNMAP then match cx_dma c with None => plain | Some d => keep (handle_dma_unmap_in s d o body i) end
  else if cmd =? CMD_REGION_READ then keep (handle_region_access_in s o false body i)
  else if cmd =? CMD_REGION_WRITE then keep (handle_region_access_in s o true body i)
  else if cmd =? CMD_RESET then
    let '(res, s', ev) := device_reset_in s (or_reset o 0%nat) ResetDevice i in
    (match res with Ok _ => HReply 0 [] [] | Err e => herr e | Crash cr => HCrash cr end, s', fds, ev)
  else if cmd =? CMD_FEATURE then keep (handle_device_feature_in s o body i)
  (* lib/migration.c:288-407: nothing follows the data callbacks but the building of the reply *)
  else if cmd =? CMD_MIG_READ then
    let '(r, ev) := mig_data_read (cx_mig c) (cx_max_xfer c) (or_data o) body in
    keep (then_acts r s ev (match ev with [] => false | _ => true end) (in_cb i 0))
  else if cmd =? CMD_MIG_WRITE then
    let '(r, ev) := mig_data_write (cx_mig c) (cx_max_xfer c) (or_data o) body in
    keep (then_acts r s ev (match ev with [] => false | _ => true end) (in_cb i 0))
  else if cmd =? CMD_SET_IRQS then
    let '(r, c', fds', ev) := dispatch c o cmd body fds in
    let '(r', s', ev') := then_acts r (set_ctx s c') ev (existsb masks ev) (in_cb i 0) in (r', s', fds', ev')
  else plain.

(* lib/libvfio-user.c:1316-1394 handle_request. *)
Definition handle_request_in (s : server) (en : env) (m : msg) (i : inside) : outcome unit * server * list Z * list event :=
  let '(r, s1, fds', ev) := dispatch_in s (en_or en) (hd_cmd (mg_hdr m)) (mg_body m) (mg_fds m) i in
  match r with
  | HCrash cr => (Crash cr, s1, fds', ev)
  | HReply err body fds =>
      let '(o, s2, ev2) := do_reply s1 en (mg_hdr m) err body fds in (o, s2, fds', ev ++ ev2)
  end.

(* lib/libvfio-user.c:1400-1443 get_request_header, 1571-1641 get_request. *)
Definition get_request_in (s : server) (en : env) (i : inside) : got * server * list event :=
  if negb (sv_conn s) then (GotErr ENOTCONN, s, [])
  else
    match en_rx en with
    | RxErr _ => get_request s en
    | RxMsg h fds rbody =>
        if negb (is_valid_header h) then refuse s en h fds EINVAL
        else
          match (if hd_size h =? 16 then Ok [] else recv_body (hd_size h - 16) rbody) with
          | Err e => refuse s en h fds e
          | Crash cr => (GotCrash cr, s, [])
          | Ok body =>
              if negb (should_exec (cx_mig (sv_ctx s)) (hd_cmd h)) then refuse s en h fds EINVAL
              else if needs_quiesce (sv_ctx s) (hd_cmd h) body then
                let '(oa, s1, eva) := do_acts s (in_quiesce i) in
                match oa, en_quiesce en with
                | Crash cr, q => (GotCrash cr, s1, EvQuiesce q :: eva)
                | _, Some e =>
                    if e =? EBUSY then (GotErr EBUSY, set_pending s1 (PMsg (mk_msg h body fds)), EvQuiesce (Some e) :: eva)
                    else let '(g, s', ev) := refuse s1 en h fds e in (g, s', EvQuiesce (Some e) :: eva ++ ev)
                | _, None => (GotMsg (mk_msg h body fds), set_quiesced s1 true, EvQuiesce None :: eva)
                end
              else (GotMsg (mk_msg h body fds), s, [])
          end
    end.

(* One iteration of lib/libvfio-user.c:1659-1694. *)
Definition run_iter_in (s : server) (en : env) (i : inside) : outcome N * server * list event :=
  match get_request_in s en i with
  | (GotCrash cr, s1, ev1) => (Crash cr, s1, ev1)
  | (GotErr e, s1, ev1) => (if (e =? ENOMSG) || (e =? EAGAIN) then Ok 0 else Err e, s1, ev1)
  | (GotMsg m, s1, ev1) =>
      let '(o, s2, fds', ev2) := handle_request_in s1 en m i in
      match o with
      | Crash cr => (Crash cr, s2, ev1 ++ ev2)
      | Err e => (Err e, set_quiesced s2 false, ev1 ++ ev2 ++ free_msg fds')
      | Ok _ => (Ok 1, set_quiesced s2 false, ev1 ++ ev2 ++ free_msg fds')
      end
  end.

(* lib/libvfio-user.c:2404-2447 vfu_device_quiesced: the request that was kept. *)
Definition device_quiesced_in (s : server) (en : env) (errno : N) (i : inside) : outcome unit * server * list event :=
  match cx_quiesce (sv_ctx s), sv_pending s, errno =? 0 with
  | true, PMsg m, true =>
      let '(o, s2, fds', ev) := handle_request_in (set_quiesced s true) en m i in
      match o with
      | Crash cr => (Crash cr, s2, ev)
      | _ => (o, set_quiesced (set_pending s2 PNone) false, ev ++ free_msg fds')
      end
  | _, _, _ => device_quiesced s en errno
  end.

(* A step of a server whose device does what i says in the callbacks made during it. *)
Definition step_in (s : server) (st : step) (i : inside) : outcome N * server * list event :=
  match st with
  | SRun en =>
      if negb (sv_realized s) then (Err EINVAL, s, [])
      else match sv_pending s with PNone => run_iter_in s en i | _ => (Err EBUSY, s, []) end
  | SQuiesced errno en =>
      let '(o, s', ev) := device_quiesced_in s en errno i in
      (match o with Ok _ => Ok 0 | Err e => Err e | Crash cr => Crash cr end, s', ev)
  | _ => sv_step s st
  end.
