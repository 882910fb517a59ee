(* Setting up and destroying a device.  Models lib/libvfio-user.c:1699-1786, 1843-1968, 2001-2198 and
   lib/pci.c:454-522.  Simplifications: memory allocation fails only where the answer is an argument; log level,
   transport and private data are not modelled. *)
From Coq Require Import NArith ZArith List Bool.
From Verif Require Import Base Types Bytes Dma Dirty Migr Irq Pci Handlers Server.
Import ListNotations.
Open Scope N_scope.

(* lib/private.h:156-191 struct vfu_ctx; dv_express says whether pci.type is PCI_X_2 or EXPRESS.
   cx_pci with pc_cfg = [] models config_space == NULL. *)
Record device : Type := mk_device { dv_sv : server; dv_express : bool }.
Definition dv_ctx (d : device) : ctx := sv_ctx (dv_sv d).
Definition on_ctx (d : device) (c : ctx) : device := mk_device (set_ctx (dv_sv d) c) (dv_express d).

(* Assignments to single fields of struct vfu_ctx. *)
Definition set_regs (c : ctx) (l : list reg_info) : ctx :=
  mk_ctx (cx_dma c) (cx_hint c) l (cx_pci c) (cx_quiesce c) (cx_reset c) (cx_register c) (cx_unregister c) (cx_mig c) (cx_irq_cfg c) (cx_irqs c) (cx_max_xfer c).
Definition set_quiesce (c : ctx) (b : bool) : ctx :=
  mk_ctx (cx_dma c) (cx_hint c) (cx_regs c) (cx_pci c) b (cx_reset c) (cx_register c) (cx_unregister c) (cx_mig c) (cx_irq_cfg c) (cx_irqs c) (cx_max_xfer c).
Definition set_reset (c : ctx) (b : bool) : ctx :=
  mk_ctx (cx_dma c) (cx_hint c) (cx_regs c) (cx_pci c) (cx_quiesce c) b (cx_register c) (cx_unregister c) (cx_mig c) (cx_irq_cfg c) (cx_irqs c) (cx_max_xfer c).
Definition set_dma_cbs (c : ctx) (d : option dma) (r u : bool) : ctx :=
  mk_ctx d (cx_hint c) (cx_regs c) (cx_pci c) (cx_quiesce c) (cx_reset c) r u (cx_mig c) (cx_irq_cfg c) (cx_irqs c) (cx_max_xfer c).
Definition set_irq_cfg (c : ctx) (i : irq_cfg) : ctx :=
  mk_ctx (cx_dma c) (cx_hint c) (cx_regs c) (cx_pci c) (cx_quiesce c) (cx_reset c) (cx_register c) (cx_unregister c) (cx_mig c) i (cx_irqs c) (cx_max_xfer c).

(* lib/libvfio-user.c:1880-1968 vfu_create_ctx without WITH_TRAN_PIPE; init is the answer of the transport's
   initialisation. *)
Definition TRANS_SOCK : N := 0.
Definition DEV_TYPE_PCI : N := 0.
Definition new_region : reg_info := mk_reg 0 0 false [] (-1) 0 [].
Definition new_ctx : ctx :=
  mk_ctx None 0 (repeat new_region 9) (mk_pci [] [] [] None) false false false false None
    (mk_irq_cfg [0; 0; 0; 1; 1] (repeat false 5)) None 0.
Definition create_ctx (trans flags dev_type : N) (init : cb_answer) : outcome device :=
  if negb (N.ldiff flags 1 =? 0) then Err EINVAL
  else if negb (trans =? TRANS_SOCK) then Err ENOTSUP
  else if negb (dev_type =? DEV_TYPE_PCI) then Err ENOTSUP
  else match init with
  | Some e => Err e
  | None => Ok (mk_device (mk_server new_ctx PNone false false false) false)
  end.

(* The arguments of vfu_setup_region.  ra_areas = None is a NULL pointer, otherwise what the pointer points to;
   ra_flags holds the 32 bits of the int. *)
Record region_args : Type := mk_rargs {
  ra_idx : Z; ra_size : N; ra_cb : bool; ra_flags : N; ra_areas : option (list (N * N)); ra_nr : N; ra_fd : Z; ra_off : N
}.

(* lib/libvfio-user.c:2070-2080: Some b says whether the areas fit, None that one is read that is not there.
   iov_end (lib/dma.h:83) is computed modulo 2^64. *)
Fixpoint areas_fit (size : N) (l : list (N * N)) (nr : nat) : option bool :=
  match nr with
  | O => Some true
  | S n =>
      match l with
      | [] => None
      | (base, len) :: l' => if size <? w64 (base + len) then Some false else areas_fit size l' n
      end
  end.

(* lib/libvfio-user.c:2001-2021 copyin_mmap_areas and 2023-2106 vfu_setup_region; malloc is its answer for the copy
   of the areas.  Without areas and descriptor, the areas the region had before are kept. *)
Definition setup_region (malloc : bool) (regs : list reg_info) (a : region_args) : outcome unit * list reg_info :=
  if negb (N.ldiff (ra_flags a) REGION_FLAG_MASK =? 0) || (N.land (ra_flags a) 3 =? 0) then (Err EINVAL, regs)
  else if has (ra_flags a) REGION_FLAG_ALWAYS_CB && negb (ra_cb a) then (Err EINVAL, regs)
  else
    let null := match ra_areas a with None => true | Some _ => false end in
    if negb (Bool.eqb null (ra_nr a =? 0)) || (negb null && (ra_fd a =? -1)%Z) then (Err EINVAL, regs)
    else if ((ra_idx a <? 0) || (9 <=? ra_idx a))%Z then (Err EINVAL, regs)
    else if (ra_idx a =? 7)%Z && (negb (N.land (ra_flags a) 3 =? 3) || has (ra_flags a) REGION_FLAG_MEM) then (Err EINVAL, regs)
    else
      let given := match ra_areas a with None => [] | Some l => l end in
      match areas_fit (ra_size a) given (N.to_nat (ra_nr a)) with
      | None => (Crash OutOfBounds, regs)
      | Some false => (Err EINVAL, regs)
      | Some true =>
          let i := Z.to_nat (ra_idx a) in
          match nth_error regs i with
          | None => (Crash OutOfBounds, regs)
          | Some old =>
              let copy := if null && negb (ra_fd a =? -1)%Z then [(0, ra_size a)] else firstn (N.to_nat (ra_nr a)) given in
              let areas := match copy with [] => ri_areas old | _ => copy end in
              if match copy with [] => false | _ => negb malloc end
              then (Err ENOMEM, set_nth i (mk_reg 0 0 false [] 0 0 []) regs)
              else (Ok tt, set_nth i (mk_reg (ra_flags a) (w32 (ra_size a)) (ra_cb a) areas (ra_fd a) (ra_off a) (ri_subs old)) regs)
          end
      end.

(* lib/pci.c:454-504 vfu_pci_init; the types are those of include/libvfio-user.h:780-785. *)
Definition pci_init (d : device) (type hdr_type : N) : outcome unit * device :=
  if 4 <=? type then (Err EINVAL, d)
  else if negb (hdr_type =? 0) then (Err EINVAL, d)
  else match pc_cfg (cx_pci (dv_ctx d)) with
  | _ :: _ => (Err EEXIST, d)
  | [] =>
      let size := if 2 <=? type then PCI_CFG_SPACE_EXP_SIZE else PCI_CFG_SPACE_SIZE in
      let c := dv_ctx d in
      match nth_error (cx_regs c) 7 with
      | None => (Crash OutOfBounds, d)
      | Some r =>
          let c1 := set_pci c (set_cfg (cx_pci c) (zeros (N.to_nat size))) in
          let c2 := set_regs c1 (set_nth 7 (mk_reg 3 size (ri_cb r) (ri_areas r) (ri_fd r) (ri_off r) (ri_subs r)) (cx_regs c)) in
          (Ok tt, mk_device (set_ctx (dv_sv d) c2) (2 <=? type))
      end
  end.

(* lib/pci.c:506-522 vfu_pci_set_id and vfu_pci_set_class: stores into the header. *)
Fixpoint stores (cfg : list N) (l : list (nat * nat * N)) : option (list N) :=
  match l with
  | [] => Some cfg
  | (off, n, v) :: l' => match wr cfg off n v with Some cfg' => stores cfg' l' | None => None end
  end.
Definition set_hdr (d : device) (l : list (nat * nat * N)) : outcome unit * device :=
  let c := dv_ctx d in
  match stores (pc_cfg (cx_pci c)) l with
  | Some cfg => (Ok tt, on_ctx d (set_pci c (set_cfg (cx_pci c) cfg)))
  | None => (Crash OutOfBounds, d)
  end.
Definition id_stores (vid did ssvid ssid : N) : list (nat * nat * N) :=
  [(0, 2, vid); (2, 2, did); (44, 2, ssvid); (46, 2, ssid)]%nat.
Definition class_stores (base sub pi : N) : list (nat * nat * N) := [(11, 1, base); (10, 1, sub); (9, 1, pi)]%nat.

(* lib/libvfio-user.c:2179-2198 vfu_setup_device_migration_callbacks with lib/migration.c:142-175 init_migration:
   the version and which of the callbacks transition, read_data, write_data are given.  When init_migration
   fails, vfu_ctx->migration is overwritten with NULL. *)
Definition setup_migration (c : ctx) (version : Z) (transition read write : bool) : outcome unit * ctx :=
  if negb (version =? 2)%Z then (Err EINVAL, c)
  else if negb (transition && read && write) then (Err EINVAL, set_mig c None)
  else (Ok tt, set_mig c (Some ST_RUNNING)).

(* lib/libvfio-user.c:2145-2160 vfu_setup_device_nr_irqs, 2162-2177 vfu_setup_irq_state_callback. *)
Definition setup_nr_irqs (i : irq_cfg) (type count : N) : outcome unit * irq_cfg :=
  if NUM_IRQS <=? type then (Err EINVAL, i)
  else (Ok tt, mk_irq_cfg (set_nth (N.to_nat type) count (ic_count i)) (ic_state_cb i)).
Definition setup_irq_cb (i : irq_cfg) (type : N) (cb : bool) : outcome unit * irq_cfg :=
  if NUM_IRQS <=? type then (Err EINVAL, i)
  else (Ok tt, mk_irq_cfg (ic_count i) (set_nth (N.to_nat type) cb (ic_state_cb i))).

(* lib/libvfio-user.c:1726-1745: the type bits of one base address register, in its lowest byte. *)
Definition bar_type (flags old : N) : N :=
  let v := if has flags REGION_FLAG_MEM then old else N.lor old 1 in
  let v := if has flags REGION_FLAG_64_BITS then bf_set v 1 2 2 else v in
  if has flags REGION_FLAG_PREFETCH then bf_set v 3 1 1 else v.
Fixpoint realize_bars (cfg : list N) (off : nat) (flags : list N) : option (list N) :=
  match flags with
  | [] => Some cfg
  | f :: l =>
      match rd cfg off 1 with
      | None => None
      | Some v => match wr cfg off 1 (bar_type f v) with Some cfg' => realize_bars cfg' (off + 4) l | None => None end
      end
  end.

(* lib/libvfio-user.c:1699-1786 vfu_realize_ctx. *)
Definition realize_ctx (d : device) : outcome unit * device :=
  if sv_realized (dv_sv d) then (Ok tt, d)
  else
    let c := dv_ctx d in
    match nth_error (cx_regs c) 7 with
    | None => (Crash OutOfBounds, d)
    | Some r =>
        let r' := if ri_size r =? 0 then mk_reg 3 PCI_CFG_SPACE_SIZE (ri_cb r) (ri_areas r) (ri_fd r) (ri_off r) (ri_subs r) else r in
        let cfg0 := match pc_cfg (cx_pci c) with [] => zeros (N.to_nat (ri_size r')) | l => l end in
        let done c' := mk_device (mk_server c' (sv_pending (dv_sv d)) (sv_quiesced (dv_sv d)) (sv_conn (dv_sv d)) true) (dv_express d) in
        match realize_bars cfg0 16 (map ri_flags (firstn 6 (cx_regs c))) with
        | None => (Crash OutOfBounds, d)
        | Some cfg1 =>
            let c1 := set_regs c (set_nth 7 r' (cx_regs c)) in
            let '(c2, pin) :=
              match cx_irqs c with
              | Some _ => (c1, false)
              | None => (set_irqt c1 (irqs_create (cx_irq_cfg c)), negb (irq_count (cx_irq_cfg c) IRQ_INTX =? 0))
              end in
            match (if pin then wr cfg1 61 1 1 else Some cfg1) with
            | None => (Crash OutOfBounds, d)
            | Some cfg2 =>
                match pc_caps (cx_pci c) with
                | [] => (Ok tt, done (set_pci c2 (set_cfg (cx_pci c) cfg2)))
                | _ =>
                    match rd cfg2 6 1 with
                    | None => (Crash OutOfBounds, d)
                    | Some v =>
                        match wr cfg2 6 1 (bf_set v 4 1 1) with
                        | None => (Crash OutOfBounds, d)
                        | Some cfg3 => (Ok tt, done (set_pci c2 (set_cfg (cx_pci c) cfg3)))
                        end
                    end
                end
            end
        end
    end.

(* The setup calls.  CDma is lib/libvfio-user.c:2124-2143 vfu_setup_device_dma (a second call drops the first
   controller), CReset and CQuiesce are 2108-2122.  CCap is lib/pci_caps.c:665-799: it is modelled for devices whose
   configuration space has the size of its region, and counted as a crash otherwise (the code compares with the size
   of the region and accesses the allocated memory).  CPoke: the device stores through the pointer that
   vfu_pci_get_config_space (lib/pci.c:524-529) returns, NULL as long as there is no configuration space. *)
Inductive call : Type :=
| CRegion (malloc : bool) (a : region_args)
| CReset (cb : bool)
| CQuiesce (cb : bool)
| CDma (register unregister : bool)
| CNrIrqs (type count : N)
| CIrqCb (type : N) (cb : bool)
| CMigration (version : Z) (transition read write : bool)
| CPciInit (type hdr_type : N)
| CPciId (vid did ssvid ssid : N)
| CPciClass (base sub pi : N)
| CCap (pos flags : N) (data : list N)
| CIoeventfd (shadow : bool) (idx : N) (io : ioeventfd)
| CRealize
| CPoke (off : N) (data : list N).

Definition ans {A B} (r : outcome A * B) : outcome unit :=
  match fst r with Ok _ => Ok tt | Err e => Err e | Crash c => Crash c end.
Definition dev_call (d : device) (k : call) : outcome unit * device :=
  let c := dv_ctx d in
  match k with
  | CRegion m a => let r := setup_region m (cx_regs c) a in (fst r, on_ctx d (set_regs c (snd r)))
  | CReset cb => (Ok tt, on_ctx d (set_reset c cb))
  | CQuiesce cb => (Ok tt, on_ctx d (set_quiesce c cb))
  | CDma r u => (Ok tt, on_ctx d (set_dma_cbs c (Some dma_create) r u))
  | CNrIrqs t n => let r := setup_nr_irqs (cx_irq_cfg c) t n in (fst r, on_ctx d (set_irq_cfg c (snd r)))
  | CIrqCb t b => let r := setup_irq_cb (cx_irq_cfg c) t b in (fst r, on_ctx d (set_irq_cfg c (snd r)))
  | CMigration v t rd wr => let r := setup_migration c v t rd wr in (fst r, on_ctx d (snd r))
  | CPciInit t h => pci_init d t h
  | CPciId v i sv si => set_hdr d (id_stores v i sv si)
  | CPciClass b s p => set_hdr d (class_stores b s p)
  | CCap pos flags data =>
      match nth_error (cx_regs c) 7 with
      | None => (Crash OutOfBounds, d)
      | Some r =>
          if negb (N.of_nat (length (pc_cfg (cx_pci c))) =? ri_size r) then (Crash OutOfBounds, d)
          else let r := add_capability (env_of c) (dv_express d) (cx_pci c) pos flags data in (ans r, on_ctx d (set_pci c (snd r)))
      end
  | CIoeventfd sh i io => let r := create_ioeventfd sh (cx_regs c) i io in (fst r, on_ctx d (set_regs c (snd r)))
  | CRealize => realize_ctx d
  | CPoke off data => let r := dev_poke (dv_sv d) off data in (ans r, mk_device (snd r) (dv_express d))
  end.
(* Calls one after another; the results, and the device unless one of them crashes. *)
Fixpoint dev_calls (d : device) (l : list call) : option device * list (outcome unit) :=
  match l with
  | [] => (Some d, [])
  | k :: l' =>
      match dev_call d k with
      | (Crash cr, _) => (None, [Crash cr])
      | (o, d') => let '(r, os) := dev_calls d' l' in (r, o :: os)
      end
  end.

(* lib/libvfio-user.c:1843-1870 vfu_destroy_ctx: what is observable (the listening socket, closed by
   lib/tran_sock.c:667-683, and memory that is freed are not modelled).  dma_controller_destroy
   (lib/dma.c:217-222) asserts that no region is left. *)
Definition destroy_ctx (s : server) (q lost : cb_answer) : outcome unit * list event :=
  let s0 := set_ctx s (set_quiesce (sv_ctx s) false) in
  let '(r, s1, ev) := reset_ctx s0 q lost in
  match r with
  | Crash c => (Crash c, ev)
  | _ =>
      match cx_dma (sv_ctx s1) with
      | Some d => match dm_regions d with [] => (Ok tt, ev) | _ => (Crash AssertFailed, ev) end
      | None => (Ok tt, ev)
      end
  end.
