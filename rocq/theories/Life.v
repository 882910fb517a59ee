(* The memory of a context from vfu_create_ctx to vfu_destroy_ctx: which calls of malloc/calloc/strdup and free, and which
   accesses, creating, setting up and destroying a device make.  Buffers are numbered in the order they are allocated (hev of
   Heap.v).  Simplification: the conditions on which the code branches other than pointers are arbitrary choices; Setup.v says what
   they are.  The memory of messages and of the dirty page log is in Mem.v and Heap.v. *)
From Coq Require Import NArith ZArith List Bool.
From Verif Require Import Base Heap Mem.
Import ListNotations.

(* lib/private.h:156-191 struct vfu_ctx: its pointers, None for NULL; lr_areas and lr_iofds are mmap_areas and the list of
   subregions of a region (lib/private.h:107-130). *)
Record lregion : Type := mk_lregion { lr_areas : option nat; lr_iofds : list nat }.
Record life : Type := mk_life {
  lf_self : nat; lf_uuid : nat; lf_reg_info : nat; lf_tran : option nat;
  lf_cfg : option nat; lf_irqs : option nat; lf_mig : option nat; lf_dma : option nat;
  lf_regions : list lregion; lf_realized : bool; lf_next : nat
}.
Definition lset_next (c : life) (n : nat) : life :=
  mk_life (lf_self c) (lf_uuid c) (lf_reg_info c) (lf_tran c) (lf_cfg c) (lf_irqs c) (lf_mig c) (lf_dma c) (lf_regions c) (lf_realized c) n.
Definition lset_cfg (c : life) (p : option nat) : life :=
  mk_life (lf_self c) (lf_uuid c) (lf_reg_info c) (lf_tran c) p (lf_irqs c) (lf_mig c) (lf_dma c) (lf_regions c) (lf_realized c) (lf_next c).
Definition lset_irqs (c : life) (p : option nat) : life :=
  mk_life (lf_self c) (lf_uuid c) (lf_reg_info c) (lf_tran c) (lf_cfg c) p (lf_mig c) (lf_dma c) (lf_regions c) (lf_realized c) (lf_next c).
Definition lset_mig (c : life) (p : option nat) : life :=
  mk_life (lf_self c) (lf_uuid c) (lf_reg_info c) (lf_tran c) (lf_cfg c) (lf_irqs c) p (lf_dma c) (lf_regions c) (lf_realized c) (lf_next c).
Definition lset_dma (c : life) (p : option nat) : life :=
  mk_life (lf_self c) (lf_uuid c) (lf_reg_info c) (lf_tran c) (lf_cfg c) (lf_irqs c) (lf_mig c) p (lf_regions c) (lf_realized c) (lf_next c).
Definition lset_regions (c : life) (l : list lregion) : life :=
  mk_life (lf_self c) (lf_uuid c) (lf_reg_info c) (lf_tran c) (lf_cfg c) (lf_irqs c) (lf_mig c) (lf_dma c) l (lf_realized c) (lf_next c).
Definition lset_realized (c : life) : life :=
  mk_life (lf_self c) (lf_uuid c) (lf_reg_info c) (lf_tran c) (lf_cfg c) (lf_irqs c) (lf_mig c) (lf_dma c) (lf_regions c) true (lf_next c).
(* include/libvfio-user.h VFU_PCI_DEV_NUM_REGIONS. *)
Definition NUM_REGIONS : nat := 9.

(* lib/libvfio-user.c:489-506 free_regions: the list of each region, element by element; LIST_REMOVE accesses the next one. *)
Fixpoint life_free_iofds (l : list nat) : list hev :=
  match l with
  | [] => []
  | b :: l' => [HUse b] ++ use (hd_error l') ++ [HFree b] ++ life_free_iofds l'
  end.

(* lib/libvfio-user.c:1800-1818 vfu_reset_ctx_quiesced: the controller, the interrupts and the transport are accessed. *)
Definition life_reset (c : life) : list hev := [HUse (lf_self c)] ++ use (lf_dma c) ++ use (lf_irqs c) ++ use (lf_tran c).

(* lib/libvfio-user.c:1843-1870 vfu_destroy_ctx of a context that has its regions, with free_sparse_mmap_areas (1788-1798),
   free_regions and the transport's fini (lib/tran_sock.c:667-683, lib/tran_pipe.c:447-454). *)
Definition life_destroy (c : life) : list hev :=
  life_reset c ++ free_ev (lf_cfg c) ++ use (lf_tran c) ++ free_ev (lf_tran c) ++ free_ev (lf_dma c) ++
  [HUse (lf_reg_info c)] ++ flat_map (fun r => free_ev (lr_areas r)) (lf_regions c) ++
  [HUse (lf_reg_info c)] ++ flat_map (fun r => life_free_iofds (lr_iofds r)) (lf_regions c) ++
  free_ev (Some (lf_reg_info c)) ++ free_ev (lf_mig c) ++ free_ev (lf_irqs c) ++
  [HUse (lf_self c)] ++ free_ev (Some (lf_uuid c)) ++ free_ev (Some (lf_self c)).

(* lib/libvfio-user.c:1880-1968 vfu_create_ctx: NULL is returned, a context, or reg_info is read through a NULL pointer (when the
   context is destroyed before its regions are allocated, 497-499 and 1796).  The transport's init allocates its data
   (lib/tran_sock.c:365-434, lib/tran_pipe.c:248-266) and, when it fails later, frees it. *)
Inductive created : Type := CreatedNull | CreatedNullRead | Created (c : life).
Definition life_create (checks ctx_ok uuid_ok regs_ok tran_ok init_ok : bool) (n : nat) : created * nat * list hev :=
  if negb checks then (CreatedNull, n, [])
  else
    match new ctx_ok n with
    | (None, n1, ev1) => (CreatedNull, n1, ev1)
    | (Some self, n1, ev1) =>
        match new uuid_ok n1 with
        | (None, n2, ev2) => (CreatedNullRead, n2, ev1 ++ ev2)
        | (Some uuid, n2, ev2) =>
            match new regs_ok n2 with
            | (None, n3, ev3) => (CreatedNullRead, n3, ev1 ++ ev2 ++ ev3)
            | (Some regs, n3, ev3) =>
                let rs := repeat (mk_lregion None []) NUM_REGIONS in
                let c t m := mk_life self uuid regs t None None None None rs false m in
                match new tran_ok n3 with
                | (None, n4, ev4) => (CreatedNull, n4, ev1 ++ ev2 ++ ev3 ++ ev4 ++ life_destroy (c None n4))
                | (Some t, n4, ev4) =>
                    if negb init_ok then (CreatedNull, n4, ev1 ++ ev2 ++ ev3 ++ ev4 ++ free_ev (Some t) ++ life_destroy (c None n4))
                    else (Created (c (Some t) n4), n4, ev1 ++ ev2 ++ ev3 ++ ev4)
                end
            end
        end
    end.

(* The setup calls that touch memory, with their choices. *)
Inductive life_op : Type :=
| LoRegion (idx : nat) (checks copies malloc : bool)   (* vfu_setup_region; copies: it has areas or a descriptor *)
| LoIoeventfd (idx : nat) (checks malloc : bool)       (* vfu_create_ioeventfd *)
| LoReset                                              (* the client is gone: vfu_reset_ctx *)
| LoPci (checks malloc : bool)                         (* vfu_pci_init *)
| LoRealize (cfg_ok irqs_ok : bool)                    (* vfu_realize_ctx *)
| LoDma (malloc : bool)                                (* vfu_setup_device_dma *)
| LoMigration (version malloc callbacks : bool).       (* vfu_setup_device_migration_callbacks *)

Fixpoint set_nth_lr (l : list lregion) (i : nat) (r : lregion) : list lregion :=
  match l, i with
  | [], _ => []
  | _ :: l', O => r :: l'
  | x :: l', S i' => x :: set_nth_lr l' i' r
  end.

(* lib/libvfio-user.c:2001-2106 copyin_mmap_areas, vfu_setup_region: the pointer is overwritten; if malloc fails, NULL is freed and
   the whole region is overwritten with zeros. *)
Definition life_region (idx : nat) (checks copies malloc : bool) (c : life) : life * list hev :=
  match nth_error (lf_regions c) idx with
  | Some r =>
      if negb checks then (c, [HUse (lf_self c)])
      else if copies then
        match new malloc (lf_next c) with
        | (Some p, n1, ev) =>
            (lset_next (lset_regions c (set_nth_lr (lf_regions c) idx (mk_lregion (Some p) (lr_iofds r)))) n1, [HUse (lf_self c); HUse (lf_reg_info c)] ++ ev ++ use (Some p))
        | (None, n1, ev) =>
            (lset_next (lset_regions c (set_nth_lr (lf_regions c) idx (mk_lregion None []))) n1, [HUse (lf_self c); HUse (lf_reg_info c)] ++ ev ++ free_ev None)
        end
      else (c, [HUse (lf_self c); HUse (lf_reg_info c)])
  | None => (c, [HUse (lf_self c)])
  end.

(* lib/libvfio-user.c:446-487 vfu_create_ioeventfd: inserted at the head of the list, whose first element is accessed. *)
Definition life_ioeventfd (idx : nat) (checks malloc : bool) (c : life) : life * list hev :=
  match nth_error (lf_regions c) idx with
  | Some r =>
      if negb checks then (c, [HUse (lf_self c); HUse (lf_reg_info c)])
      else
        match new malloc (lf_next c) with
        | (Some p, n1, ev) =>
            (lset_next (lset_regions c (set_nth_lr (lf_regions c) idx (mk_lregion (lr_areas r) (p :: lr_iofds r)))) n1,
             [HUse (lf_self c); HUse (lf_reg_info c)] ++ ev ++ use (Some p) ++ use (hd_error (lr_iofds r)))
        | (None, n1, ev) => (lset_next c n1, [HUse (lf_self c); HUse (lf_reg_info c)] ++ ev)
        end
  | None => (c, [HUse (lf_self c)])
  end.

(* lib/pci.c:454-504 vfu_pci_init. *)
Definition life_pci (checks malloc : bool) (c : life) : life * list hev :=
  if negb checks then (c, [HUse (lf_self c)])
  else match lf_cfg c with
  | Some _ => (c, [HUse (lf_self c)])
  | None =>
      match new malloc (lf_next c) with
      | (Some p, n1, ev) => (lset_next (lset_cfg c (Some p)) n1, [HUse (lf_self c)] ++ ev ++ [HUse (lf_reg_info c)])
      | (None, n1, ev) => (lset_next c n1, [HUse (lf_self c)] ++ ev)
      end
  end.

(* lib/libvfio-user.c:1699-1786 vfu_realize_ctx. *)
Definition life_realize (cfg_ok irqs_ok : bool) (c : life) : life * list hev :=
  if lf_realized c then (c, [HUse (lf_self c)])
  else
    let start := [HUse (lf_self c); HUse (lf_reg_info c)] in
    let '(cfg, n1, ev1) := match lf_cfg c with Some p => (Some p, lf_next c, []) | None => new cfg_ok (lf_next c) end in
    match cfg with
    | None => (lset_next c n1, start ++ ev1)
    | Some p =>
        let c1 := lset_next (lset_cfg c (Some p)) n1 in
        let '(irqs, n2, ev2) := match lf_irqs c with Some q => (Some q, n1, []) | None => new irqs_ok n1 end in
        match irqs with
        | None => (lset_next c1 n2, start ++ ev1 ++ [HUse p] ++ ev2)
        | Some q => (lset_realized (lset_next (lset_irqs c1 (Some q)) n2), start ++ ev1 ++ [HUse p] ++ ev2 ++ [HUse q; HUse p])
        end
    end.

(* lib/libvfio-user.c:2123-2141 vfu_setup_device_dma with lib/dma.c:83-104 dma_controller_create: the pointer is overwritten. *)
Definition life_dma (malloc : bool) (c : life) : life * list hev :=
  let '(p, n1, ev) := new malloc (lf_next c) in (lset_next (lset_dma c p) n1, [HUse (lf_self c)] ++ ev ++ use p).

(* lib/libvfio-user.c:2176-2198 vfu_setup_device_migration_callbacks with lib/migration.c:142-175 init_migration: the pointer is
   overwritten, with NULL if that fails. *)
Definition life_migration (version malloc callbacks : bool) (c : life) : life * list hev :=
  if negb version then (c, [HUse (lf_self c)])
  else
    match new malloc (lf_next c) with
    | (Some p, n1, ev) =>
        if callbacks then (lset_next (lset_mig c (Some p)) n1, [HUse (lf_self c)] ++ ev ++ [HUse p])
        else (lset_next (lset_mig c None) n1, [HUse (lf_self c)] ++ ev ++ [HUse p] ++ free_ev (Some p))
    | (None, n1, ev) => (lset_next (lset_mig c None) n1, [HUse (lf_self c)] ++ ev)
    end.

Definition life_step (c : life) (o : life_op) : life * list hev :=
  match o with
  | LoRegion idx checks copies malloc => life_region idx checks copies malloc c
  | LoIoeventfd idx checks malloc => life_ioeventfd idx checks malloc c
  | LoReset => (c, life_reset c)
  | LoPci checks malloc => life_pci checks malloc c
  | LoRealize cfg_ok irqs_ok => life_realize cfg_ok irqs_ok c
  | LoDma malloc => life_dma malloc c
  | LoMigration version malloc callbacks => life_migration version malloc callbacks c
  end.
Fixpoint life_steps (c : life) (l : list life_op) : life * list hev :=
  match l with
  | [] => (c, [])
  | o :: l' => let '(c1, ev) := life_step c o in let '(c2, ev2) := life_steps c1 l' in (c2, ev ++ ev2)
  end.
