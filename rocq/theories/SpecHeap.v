(* The rules of malloc and free, and what should happen to the memory of the dirty page log. *)
From Coq Require Import NArith ZArith List Bool.
From Verif Require Import Base Types Dma Dirty DmaOps Heap.
Import ListNotations.
Open Scope N_scope.

(* The buffers allocated and not yet freed after these calls; None if one of them breaks the rules: an allocation returns a
   buffer that is not allocated, only allocated buffers are freed or accessed. *)
Definition allocated (live : list nat) (b : nat) : bool := existsb (Nat.eqb b) live.
Fixpoint replay (live : list nat) (ev : list hev) : option (list nat) :=
  match ev with
  | [] => Some live
  | HAlloc b :: ev => if allocated live b then None else replay (live ++ [b]) ev
  | HFree b :: ev => if allocated live b then replay (filter (fun x => negb (Nat.eqb b x)) live) ev else None
  | HUse b :: ev => if allocated live b then replay live ev else None
  end.

(* The regions whose pages are n_logged. *)
Definition is_logged (r : region) : bool := match rg_bitmap r with Some _ => true | None => false end.
Definition n_logged (d : dma) : nat := length (filter is_logged (dm_regions d)).

(* How many logged regions a history removes from the table: unmapped, or given up because the client is gone. *)
Definition removal (o : dma_op) : bool := match o with OpUnmap _ _ | OpUnmapAll => true | _ => false end.
Fixpoint removed_logged (cb : bool) (d : dma) (ops : list dma_op) : nat :=
  match ops with
  | [] => 0
  | o :: rest =>
      let d1 := snd (fst (dma_step cb d o)) in
      ((if removal o then n_logged d - n_logged d1 else 0) + removed_logged cb d1 rest)%nat
  end.
