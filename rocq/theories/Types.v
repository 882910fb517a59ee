(* Records shared by several parts of the model, and the type of observable events. *)
From Verif Require Import Base.
From Coq Require Import NArith ZArith List.
Import ListNotations.
Open Scope N_scope.

(* include/libvfio-user.h vfu_dma_info_t: what the device is told about a DMA region.
   di_vaddr = None models vaddr == NULL. *)
Record dma_info : Type := mk_info {
  di_iova : N;            (* iova.iov_base *)
  di_len : N;             (* iova.iov_len *)
  di_vaddr : option N;    (* vaddr *)
  di_map_base : N;        (* mapping.iov_base *)
  di_map_len : N;         (* mapping.iov_len *)
  di_page_size : N;
  di_prot : N
}.

(* lib/dma.h:95-100 dma_memory_region_t.  rg_bitmap = None models dirty_bitmap == NULL. *)
Record region : Type := mk_region {
  rg_info : dma_info;
  rg_fd : Z;
  rg_off : N;
  rg_bitmap : option (list N)
}.

Definition rg_base (r : region) : N := di_iova (rg_info r).
Definition rg_len (r : region) : N := di_len (rg_info r).

(* lib/dma.h:102-109 dma_controller_t.  nregions is the length of dm_regions; unused slots of the
   array are not modelled (they are zeroed before reuse, dma.c:356). *)
Record dma : Type := mk_dma {
  dm_max_regions : nat;
  dm_max_size : N;
  dm_pgsize : N;                 (* dirty_pgsize *)
  dm_regions : list region
}.

Definition set_regions (d : dma) (rs : list region) : dma :=
  mk_dma (dm_max_regions d) (dm_max_size d) (dm_pgsize d) rs.

(* lib/dma.h:87-93 struct dma_sg. *)
Record sg : Type := mk_sg {
  sg_base : N;        (* dma_addr: base of the region *)
  sg_region : nat;
  sg_len : N;
  sg_off : N;
  sg_writeable : bool
}.

(* include/libvfio-user.h:305-311 vfu_reset_type_t. *)
Inductive reset_type : Type := ResetDevice | ResetLostConn | ResetPciFlr.

(* include/libvfio-user.h vfu_migr_state_t, the values passed to the transition callback. *)
Inductive vfu_migr_state : Type :=
| VFU_STOP | VFU_RUNNING | VFU_STOP_AND_COPY | VFU_PRE_COPY | VFU_RESUME.

(* A reply sent to the client: header fields, payload bytes and fds (lib/tran_sock.c:52-123). *)
Record reply : Type := mk_reply {
  rp_id : N; rp_cmd : N; rp_error : N; (* 0 = no error flag *)
  rp_body : list N; rp_fds : list Z
}.

(* Everything observable outside the library, in program order. *)
Inductive event : Type :=
| EvRegister (i : dma_info)                 (* dma_register callback *)
| EvUnregister (i : dma_info)               (* dma_unregister callback *)
| EvMunmap (base len : N)                   (* munmap *)
| EvClose (fd : Z)                          (* close *)
| EvQuiesce (answer : option N)             (* quiesce callback, and its answer: None success, Some errno *)
| EvReset (t : reset_type)                  (* reset callback *)
| EvTransition (s : vfu_migr_state)         (* migration transition callback *)
| EvReadData (size : N)                     (* migration read_data callback *)
| EvWriteData (data : list N)               (* migration write_data callback *)
| EvAccess (region : N) (write : bool) (off count : N) (data : list N) (* region access callback *)
| EvIrqState (index start count : N) (mask : bool)                     (* irq state callback *)
| EvSignal (fd : Z)                         (* eventfd_write *)
| EvReply (r : reply)                       (* message sent to the client *)
| EvDetach.                                 (* transport detached *)
