(* What it means that the library's log names a page, and that the device marked it. *)
From Coq Require Import NArith ZArith List Bool.
From Verif Require Import Base Types Spec Dma Dirty Pci Handlers Server SpecServer.
Import ListNotations.
Open Scope N_scope.

(* The log kept in pages of pg bytes names page p of the region described by i. *)
Definition named (pg : N) (i : dma_info) (p : N) (d : dma) : Prop :=
  dm_pgsize d = pg /\ exists r bm, In r (dm_regions d) /\ rg_info r = i /\ rg_bitmap r = Some bm /\ page_set bm p.
Definition names (pg : N) (i : dma_info) (p : N) (s : server) : Prop :=
  exists d, cx_dma (sv_ctx s) = Some d /\ named pg i p d.

(* By marking the entries l in state s, the device marks page p of that region: logging runs with pages of pg bytes,
   some entry is for writing and refers to the region, and if it lies inside the region it has a byte in the page. *)
Definition marks (pg : N) (i : dma_info) (p : N) (s : server) (l : list sg) : Prop :=
  exists d e r, cx_dma (sv_ctx s) = Some d /\ dm_pgsize d = pg /\ In e l /\ sg_writeable e = true /\
    nth_error (dm_regions d) (sg_region e) = Some r /\ rg_info r = i /\
    (forall k, pg = 2 ^ k -> markable (dm_regions d) e -> touches pg e p).

(* Among the steps l, taken from s, the device marks that page. *)
Definition marked_among (pg : N) (i : dma_info) (p : N) (s : server) (l : list step) : Prop :=
  exists l1 m l2 s1 arr ev, l = l1 ++ SMark m :: l2 /\ history s l1 s1 arr ev /\ marks pg i p s1 m.
