(* Model of the DMA region table and of address translation: lib/dma.c, lib/dma.h. *)
From Verif Require Import Base Types.
From Coq Require Import NArith ZArith List Bool.
Import ListNotations.
Open Scope N_scope.

(* What the operating system answers during one call of dma_controller_add_region:
   st_blksize of the new fd (None: fstat failed), whether two fds are the same file
   (dev/ino comparison, dma.c:70-81), the result of mmap (inr errno: MAP_FAILED) and
   whether calloc of the dirty bitmap succeeds.
   Simplification: st_blksize fits an int. *)
Record dma_os : Type := mk_os {
  os_blksize : option N;
  os_same_file : Z -> Z -> bool;
  os_mmap : N + N;
  os_calloc : bool
}.

(* lib/dma.h:83 iov_end: pointer arithmetic modulo 2^64. *)
Definition iov_end (r : region) : N := w64 (rg_base r + rg_len r).

(* lib/dma.c:70-81 fds_are_same_file: identical numbers are the same file without asking. *)
Definition fds_same (os : dma_os) (fd1 fd2 : Z) : bool :=
  if (fd1 =? fd2)%Z then true else os_same_file os fd1 fd2.

(* lib/common.h:121-141 close_safely: nothing for -1. *)
Definition close_ev (fd : Z) : list event :=
  if (fd =? -1)%Z then [] else [EvClose fd].

(* lib/dma.c:300-301 "the same exact region". *)
Definition same_range (r : region) (addr size : N) : bool :=
  (rg_base r =? addr) && (rg_len r =? size).

(* lib/dma.c:327-331 overlap test, with the wrapping ends of the C code. *)
Definition overlap_test (r : region) (addr size : N) : bool :=
  ((rg_base r <=? addr) && (addr <? iov_end r)) ||
  ((addr <=? rg_base r) && (rg_base r <? w64 (addr + size))).

(* lib/dma.c:296-337 the loop over existing regions.  Inl = return from the function. *)
Fixpoint add_scan (os : dma_os) (rs : list region) (idx : nat)
  (addr size : N) (fd : Z) (off prot : N) : option (outcome nat) :=
  match rs with
  | [] => None
  | r :: rest =>
      if same_range r addr size then
        if negb (off =? rg_off r) then Some (Err EINVAL)
        else if negb (fds_same os (rg_fd r) fd) then Some (Err EINVAL)
        else if negb (di_prot (rg_info r) =? prot) then Some (Err EINVAL)
        else Some (Ok idx)
      else if overlap_test r addr size then Some (Err EINVAL)
      else add_scan os rest (S idx) addr size fd off prot
  end.

(* lib/dma.c:258-273 dirty_page_logging_start_on_region (fd != -1 is checked by the callers). *)
Definition start_on_region (calloc_ok : bool) (r : region) (pgsize : N) : outcome region :=
  match get_bitmap_size (rg_len r) pgsize with
  | Err e => Err e
  | Crash c => Crash c
  | Ok size =>
      if calloc_ok
      then Ok (mk_region (rg_info r) (rg_fd r) (rg_off r) (Some (repeat 0 (N.to_nat size))))
      else Err ENOMEM
  end.

(* lib/dma.c:224-256 dma_map_region: offset is rounded down, the length is rounded up on its own.
   Simplification: mmap(2) never returns NULL (vm.mmap_min_addr), so vaddr <> NULL. *)
Definition map_region (os : dma_os) (r : region) : outcome region :=
  let i := rg_info r in
  let offset := round_down (rg_off r) (di_page_size i) in
  let mmap_len := round_up (di_len i) (di_page_size i) in
  match os_mmap os with
  | inr e => Err e
  | inl base =>
      Ok (mk_region
            (mk_info (di_iova i) (di_len i) (Some (w64 (base + (rg_off r - offset)))) base mmap_len
                     (di_page_size i) (di_prot i))
            (rg_fd r) (rg_off r) (rg_bitmap r))
  end.

(* lib/dma.c:275-397 dma_controller_add_region.  Returns the index, the new table and the fds
   closed inside the function (dma.c:389). *)
Definition add_region (os : dma_os) (d : dma) (addr size : N) (fd : Z) (off prot : N)
  : outcome nat * dma * list event :=
  if dm_max_size d <? size then (Err ENOSPC, d, [])
  else match add_scan os (dm_regions d) 0 addr size fd off prot with
  | Some r => (r, d, [])
  | None =>
    if Nat.eqb (length (dm_regions d)) (dm_max_regions d) then (Err EINVAL, d, [])
    else
      let idx := length (dm_regions d) in
      let fresh page_size :=
        mk_region (mk_info addr size None 0 0 page_size prot) fd off None in
      if (fd =? -1)%Z then
        (Ok idx, set_regions d (dm_regions d ++ [fresh PAGE_SIZE]), [])
      else match os_blksize os with
      | None => (Err EINVAL, d, [])
      | Some blk =>
          let r0 := fresh (N.max blk PAGE_SIZE) in
          match (if dm_pgsize d =? 0 then Ok r0
                 else start_on_region (os_calloc os) r0 (dm_pgsize d)) with
          | Err e => (Err e, d, [])
          | Crash c => (Crash c, d, [])
          | Ok r1 =>
              match map_region os r1 with
              | Ok r2 => (Ok idx, set_regions d (dm_regions d ++ [r2]), [])
              | Err e => (Err e, d, close_ev fd)
              | Crash c => (Crash c, d, [])
              end
          end
      end
  end.

(* lib/dma.c:105-125 dma_controller_unmap_region and 170-174: what happens to the memory and fd of a
   removed region.  [cb] says whether the device has a dma_unregister callback. *)
Definition release_region (cb : bool) (r : region) : outcome (list event) :=
  let unreg := if cb then [EvUnregister (rg_info r)] else [] in
  match di_vaddr (rg_info r) with
  | Some _ =>
      if (rg_fd r =? -1)%Z then Crash AssertFailed
      else Ok (unreg ++ [EvMunmap (di_map_base (rg_info r)) (di_map_len (rg_info r))]
                     ++ close_ev (rg_fd r))
  | None => if (rg_fd r =? -1)%Z then Ok unreg else Crash AssertFailed
  end.

(* lib/dma.c:146-180 dma_controller_remove_region. *)
Fixpoint remove_scan (cb : bool) (rs : list region) (addr size : N)
  : outcome (list event) * list region :=
  match rs with
  | [] => (Err ENOENT, [])
  | r :: rest =>
      if same_range r addr size then
        match release_region cb r with
        | Ok ev => (Ok ev, rest)
        | Err e => (Err e, rs)
        | Crash c => (Crash c, rs)
        end
      else let '(o, rest') := remove_scan cb rest addr size in (o, r :: rest')
  end.

Definition remove_region (cb : bool) (d : dma) (addr size : N) : outcome (list event) * dma :=
  let '(o, rs) := remove_scan cb (dm_regions d) addr size in (o, set_regions d rs).

(* lib/dma.c:182-215 dma_controller_remove_all_regions. *)
Fixpoint release_all (cb : bool) (rs : list region) : outcome (list event) :=
  match rs with
  | [] => Ok []
  | r :: rest =>
      match release_region cb r with
      | Ok ev =>
          match release_all cb rest with
          | Ok ev' => Ok (ev ++ ev')
          | o => o
          end
      | o => o
      end
  end.

Definition remove_all_regions (cb : bool) (d : dma) : outcome (list event) * dma :=
  match release_all cb (dm_regions d) with
  | Ok ev => (Ok ev, set_regions d [])
  | o => (o, d)
  end.

(* lib/libvfio-user.c:709-741, the part of handle_dma_map after argument validation: [cb] says whether the
   device has a dma_register callback.  On failure the fd taken from the message is closed (720), also when
   add_region has closed it already. *)
Definition dma_map_request (cb : bool) (os : dma_os) (d : dma) (addr size : N) (fd : Z) (off prot : N)
  : outcome unit * dma * list event :=
  match add_region os d addr size fd off prot with
  | (Err e, d', ev) => (Err e, d', ev ++ close_ev fd)
  | (Crash c, d', ev) => (Crash c, d', ev)
  | (Ok idx, d', ev) =>
      match nth_error (dm_regions d') idx with
      | None => (Crash OutOfBounds, d', ev)
      | Some r => (Ok tt, d', ev ++ if cb then [EvRegister (rg_info r)] else [])
      end
  end.

(* lib/dma.h:205-223 dma_init_sg. *)
Definition init_sg (r : region) (idx : nat) (addr len prot : N) : outcome sg :=
  if has prot PROT_WRITE && negb (has (di_prot (rg_info r)) PROT_WRITE) then Err EACCES
  else Ok (mk_sg (rg_base r) idx len (sub64 addr (rg_base r)) (has prot PROT_WRITE)).

(* Result of vfu_addr_to_sgl: number of entries and entries; -x-1 with errno 0; or -1 with an errno. *)
Inductive sgl_res : Type :=
| SglOk (l : list sg)
| SglShort (needed : nat)
| SglErr (e : N)
| SglCrash (c : crash).

(* State of the loop of _dma_addr_sg_split after one pass of the "for" over the regions:
   returned early, jumped to "out", or reached the end of the pass. *)
Inductive pass_res : Type :=
| PassErr (e : N)
| PassOut (cnt : nat) (acc : list sg)
| PassEnd (found : bool) (addr len : N) (cnt : nat) (acc : list sg).

(* lib/dma.c:410-437 one pass of the "for" loop.  The inner "while" (415) runs at most once per
   region and pass, because afterwards either len = 0 or dma_addr = region_end; it is modelled by "if".
   Simplification: max_nr_sgs fits an int. *)
Fixpoint split_pass (rs : list region) (idx : nat) (found : bool) (addr len : N)
  (cnt : nat) (acc : list sg) (max : nat) (prot : N) : pass_res :=
  match rs with
  | [] => PassEnd found addr len cnt acc
  | r :: rest =>
      if (rg_base r <=? addr) && (addr <? iov_end r) then
        let region_len := N.min (iov_end r - addr) len in
        let continue acc' :=
          let addr' := w64 (addr + region_len) in
          let len' := len - region_len in
          if len' =? 0 then PassOut (S cnt) acc'
          else split_pass rest (S idx) true addr' len' (S cnt) acc' max prot in
        if Nat.ltb cnt max then
          match init_sg r idx addr region_len prot with
          | Ok s => continue (acc ++ [s])
          | Err e => PassErr e
          | Crash _ => PassErr EINVAL
          end
        else continue acc
      else split_pass rest (S idx) found addr len cnt acc max prot
  end.

(* lib/dma.c:440-449 the code after label "out" when the last region was found. *)
Definition split_out (cnt : nat) (acc : list sg) (max : nat) : sgl_res :=
  if Nat.ltb max cnt then SglShort cnt else SglOk acc.

(* lib/dma.c:399-450 _dma_addr_sg_split: the outer "while (found && len > 0)".  [fuel] bounds the
   number of passes; running out of fuel is reported as a non-terminating loop. *)
Fixpoint split_loop (fuel : nat) (rs : list region) (addr len : N) (cnt : nat) (acc : list sg)
  (max : nat) (prot : N) : sgl_res :=
  if len =? 0 then split_out cnt acc max
  else match fuel with
  | O => SglCrash Diverges
  | S f =>
      match split_pass rs 0 false addr len cnt acc max prot with
      | PassErr e => SglErr e
      | PassOut cnt' acc' => split_out cnt' acc' max
      | PassEnd false _ _ _ _ => SglErr ENOENT
      | PassEnd true addr' len' cnt' acc' => split_loop f rs addr' len' cnt' acc' max prot
      end
  end.

Definition sg_split (d : dma) (addr len : N) (max : nat) (prot : N) : sgl_res :=
  split_loop (S (length (dm_regions d))) (dm_regions d) addr len 0 [] max prot.

(* lib/dma.h:238-267 dma_addr_to_sgl, with the thread-local region_hint as an explicit argument and
   result.  Reading the (zeroed or stale) slot of a hint >= nregions only leads to the slow path. *)
Definition addr_to_sgl (d : dma) (hint : nat) (addr len : N) (max : nat) (prot : N)
  : sgl_res * nat :=
  let slow :=
    match sg_split d addr len max prot with
    | SglOk [] => (SglOk [], hint)
    | SglOk (s :: l) => (SglOk (s :: l), sg_region s)
    | o => (o, hint)
    end in
  match nth_error (dm_regions d) hint with
  | Some r =>
      if Nat.ltb 0 max && (0 <? len) && (rg_base r <=? addr) && (w64 (addr + len) <=? iov_end r)
      then match init_sg r hint addr len prot with
           | Ok s => (SglOk [s], hint)
           | Err e => (SglErr e, hint)
           | Crash c => (SglCrash c, hint)
           end
      else slow
  | None => slow
  end.

(* lib/dma.h:269-307 dma_sgl_get: list of (iov_base, iov_len). *)
Fixpoint sgl_get (d : dma) (l : list sg) : outcome (list (N * N)) :=
  match l with
  | [] => Ok []
  | s :: rest =>
      match nth_error (dm_regions d) (sg_region s) with
      | None => Err EINVAL
      | Some r =>
          match di_vaddr (rg_info r) with
          | None => Err EFAULT
          | Some v =>
              match sgl_get d rest with
              | Ok iov => Ok ((w64 (v + sg_off s), sg_len s) :: iov)
              | o => o
              end
          end
      end
  end.

(* lib/dma.c:83-103 dma_controller_create as called by vfu_setup_device_dma
   (lib/libvfio-user.c:2108-2130) with MAX_DMA_REGIONS and MAX_DMA_SIZE (lib/private.h:49,53). *)
Definition MAX_DMA_REGIONS : nat := 64.
Definition MAX_DMA_SIZE : N := 8 * 1024 * 1024 * 1024 * 1024.
Definition dma_create : dma := mk_dma MAX_DMA_REGIONS MAX_DMA_SIZE 0 [].
