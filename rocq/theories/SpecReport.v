(* What may happen between the moment a device writes to guest memory and the client's question about it. *)
From Coq Require Import NArith ZArith List Bool.
From Verif Require Import Base Types Bytes Spec Dma Dirty DmaOps SpecDma Migr Irq Pci Handlers Server SpecServer.
Import ListNotations.
Open Scope N_scope.

(* The payload of a request with command cmd does not take away what is logged for the region at address base: a
   DMA_UNMAP (3) neither unmaps everything (flags 2) nor names this address; a DEVICE_FEATURE (16) neither stops
   logging (feature 7) nor asks for the report (feature 8) of this address.  Every other request is allowed.
   (struct vfio_user_dma_unmap: argsz at 0, flags at 4, address at 8; struct vfio_user_device_feature: argsz at 0,
   flags at 4 with the feature in the low 16 bits, and for a report the address at 8.) *)
Definition body_leaves (base cmd : N) (b : list N) : Prop :=
  (cmd = 3 -> rd b 4 4 <> Some 2 /\ rd b 8 8 <> Some base) /\
  (cmd = 16 -> forall flags, rd b 4 4 = Some flags -> flags mod 2 ^ 16 <> 7 /\ (flags mod 2 ^ 16 = 8 -> rd b 8 8 <> Some base)).

(* A step during which no such request arrives. *)
Definition leaves_log (base : N) (st : step) : Prop :=
  match st with
  | SRun en => match en_rx en with RxMsg h _ (inr b) => body_leaves base (hd_cmd h) b | _ => True end
  | _ => True
  end.

(* The device may write [addr, addr+len): it has asked for the translation with write access (PROT_WRITE = 2) and got
   the entries l. *)
Definition may_write (d : dma) (addr len : N) (l : list sg) : Prop :=
  exists hint max prot hint', N.testbit prot 1 = true /\ addr_to_sgl d hint addr len max prot = (SglOk l, hint').

(* struct vfio_user_device_feature followed by the range: a report (get, feature 8) for [addr, addr+len) in pages of
   pgsize bytes. *)
Record report_fields (b : list N) (argsz addr len pgsize : N) : Prop := {
  rf_argsz : rd b 0 4 = Some argsz; rf_flags : rd b 4 4 = Some (2 ^ 16 + 8);
  rf_addr : rd b 8 8 = Some addr; rf_len : rd b 16 8 = Some len; rf_pgsize : rd b 24 8 = Some pgsize
}.
