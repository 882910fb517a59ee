(* Conditions on histories of DMA operations used in the property statements. *)
From Verif Require Import Base Types Spec Dma DmaOps.
From Coq Require Import NArith ZArith List Bool.
Import ListNotations.
Open Scope N_scope.

(* A map request names a range that ends below 2^64. *)
Definition op_range_ok (o : dma_op) : Prop :=
  match o with
  | OpMap _ addr size _ _ _ => range_ok addr size
  | _ => True
  end.

(* The controller d is what is left after the device has been set up and the operations ops, each with a range
   ending below 2^64, have been performed; [ev] is everything that was observable meanwhile. *)
Definition reached (cb : bool) (ops : list dma_op) (d : dma) (ev : list event) : Prop :=
  Forall op_range_ok ops /\ dma_run cb dma_create ops = (d, ev).

(* What the operating system guarantees when a region is mapped in state d: the block size of the file is a
   power of two up to 2^40, and mmap returns user-space memory not in use by the regions already mapped. *)
Definition os_sane (d : dma) (o : dma_op) : Prop :=
  match o with
  | OpMap os addr size fd off prot =>
      forall blk, os_blksize os = Some blk ->
        (exists k, blk = 2 ^ k /\ k <= 40) /\
        forall base, os_mmap os = inl base ->
          base < 2 ^ 63 /\
          let pg := N.max blk 4096 in
          forall r h, In r (dm_regions d) -> mapping_holds r h ->
            ~ (base <= h < base + (size + pg - 1) / pg * pg)
  | _ => True
  end.

(* The client's file offset is a multiple of the page size used for the mapping. *)
Definition off_aligned (d : dma) (o : dma_op) : Prop :=
  match o with
  | OpMap os addr size fd off prot =>
      forall blk, os_blksize os = Some blk -> off mod (N.max blk 4096) = 0
  | _ => True
  end.

(* P holds of every operation in the state in which it is performed. *)
Fixpoint along (P : dma -> dma_op -> Prop) (cb : bool) (d : dma) (ops : list dma_op) : Prop :=
  match ops with
  | [] => True
  | o :: rest => P d o /\ along P cb (snd (fst (dma_step cb d o))) rest
  end.

(* Two file descriptors name the same file: equal numbers, or the OS says so. *)
Definition same_file (os : dma_os) (fd fd' : Z) : Prop := fd = fd' \/ os_same_file os fd fd' = true.

(* [r] is registered with exactly the range [addr, addr+size). *)
Definition registered (d : dma) (r : region) (addr size : N) : Prop :=
  In r (dm_regions d) /\ di_iova (rg_info r) = addr /\ di_len (rg_info r) = size.

(* What may happen between two reports for the region at address a: entries of file-backed regions are marked
   dirty, and reports for other addresses are requested (successfully or not). *)
Definition quiet (rs : list region) (a : N) (o : dma_op) : Prop :=
  match o with
  | OpMark l => Forall (markable rs) l
  | OpReport _ addr len _ _ _ => range_ok addr len /\ addr <> a
  | _ => False
  end.
