(* What a request can change. *)
From Coq Require Import NArith ZArith List Bool.
From Verif Require Import Base Types Bytes Dma Dirty Irq Pci Handlers Server SpecServer.
Import ListNotations.
Open Scope N_scope.

(* Nothing that was fixed when the device was set up differs: regions, callbacks, interrupt counts, transfer limit. *)
Definition same_fixed (c c' : ctx) : Prop :=
  cx_regs c' = cx_regs c /\ cx_quiesce c' = cx_quiesce c /\ cx_reset c' = cx_reset c /\ cx_register c' = cx_register c /\
  cx_unregister c' = cx_unregister c /\ cx_irq_cfg c' = cx_irq_cfg c /\ cx_max_xfer c' = cx_max_xfer c.

(* The four parts of a device's state: registered memory and its dirty log, assigned interrupts, configuration space
   and the migration state.  (The position at which translation starts to search, cx_hint, is not visible: C09.) *)
Definition same_state (c c' : ctx) : Prop :=
  same_fixed c c' /\ cx_dma c' = cx_dma c /\ cx_irqs c' = cx_irqs c /\ cx_pci c' = cx_pci c /\ cx_mig c' = cx_mig c.

(* The descriptions of the registered regions, without the log. *)
Definition guest_memory (c : ctx) : option (list dma_info) := option_map (fun d => map rg_info (dm_regions d)) (cx_dma c).

(* What a request with this command may change: DMA_MAP (2) and DMA_UNMAP (3) the registered memory, DEVICE_SET_IRQS (8)
   the interrupts, REGION_WRITE (10) configuration space, DEVICE_RESET (13) the migration state, DEVICE_FEATURE (16) the
   migration state and the dirty log.  All others, REGION_READ among them, change nothing. *)
Definition about (cmd : N) (c c' : ctx) : Prop :=
  same_fixed c c' /\
  (cmd <> 2 -> cmd <> 3 -> guest_memory c' = guest_memory c) /\
  (cmd <> 2 -> cmd <> 3 -> cmd <> 16 -> cx_dma c' = cx_dma c) /\
  (cmd <> 8 -> cx_irqs c' = cx_irqs c) /\
  (cmd <> 10 -> cx_pci c' = cx_pci c) /\
  (cmd <> 13 -> cmd <> 16 -> cx_mig c' = cx_mig c).

(* The request that a step works on: the one it receives, or the one that has waited for the device to quiesce. *)
Inductive working_on (s : server) : step -> N -> list N -> Prop :=
| wo_received : forall en h fds b, en_rx en = RxMsg h fds b ->
    working_on s (SRun en) (hd_cmd h) (firstn (N.to_nat (hd_size h - 16)) (match b with inr b => b | inl _ => [] end))
| wo_waited : forall en m e, sv_pending s = PMsg m -> working_on s (SQuiesced e en) (hd_cmd (mg_hdr m)) (mg_body m).

(* The three requests of which a part can have happened when the client is told that they failed: an unmap that asks for
   the dirty pages (flags 1 at 4), a write to configuration space (region 7 at 8), and a change of the migration state
   (feature 2 in the low half of the flags at 4). *)
Definition may_stop_halfway (cmd : N) (b : list N) : Prop :=
  (cmd = 3 /\ rd b 4 4 = Some 1) \/ (cmd = 10 /\ rd b 8 4 = Some 7) \/
  (cmd = 16 /\ exists flags, rd b 4 4 = Some flags /\ flags mod 2 ^ 16 = 2).
