(* Model of vfu_sg_is_mappable. *)
From Coq Require Import NArith List.
From Verif Require Import Base Types Dma.
Import ListNotations.

(* lib/dma.c:52-55 dma_sg_is_mappable, lib/libvfio-user.c:2398-2402 vfu_sg_is_mappable: the region the entry names,
   without a check that it exists. *)
Definition sg_is_mappable (d : dma) (s : sg) : outcome bool :=
  match nth_error (dm_regions d) (sg_region s) with
  | None => Crash OutOfBounds
  | Some r => Ok (match di_vaddr (rg_info r) with Some _ => true | None => false end)
  end.
