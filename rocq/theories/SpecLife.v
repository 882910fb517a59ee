(* What should happen to the memory of a context between its creation and its destruction. *)
From Coq Require Import NArith ZArith List Bool.
From Verif Require Import Base Heap SpecHeap Mem Life.
Import ListNotations.
Open Scope nat_scope.

(* The things a device is set up with once: the mappable areas of a region, the DMA callbacks, the migration callbacks. *)
Inductive thing : Type := TAreas (idx : nat) | TDma | TMigration.
Definition sets_up (o : life_op) : list thing :=
  match o with
  | LoRegion idx true true _ => [TAreas idx]
  | LoDma _ => [TDma]
  | LoMigration true _ _ => [TMigration]
  | _ => []
  end.
(* The call finds the memory for the areas of its region. *)
Definition areas_ok (o : life_op) : bool := match o with LoRegion _ true true malloc => malloc | _ => true end.

(* How many buffers a call makes the context forget without giving them back. *)
Definition held (p : option nat) : nat := match p with Some _ => 1 | None => 0 end.
Definition forgotten (c : life) (o : life_op) : nat :=
  match o with
  | LoRegion idx true true malloc =>
      match nth_error (lf_regions c) idx with
      | Some r => held (lr_areas r) + (if malloc then 0 else length (lr_iofds r))
      | None => 0
      end
  | LoDma _ => held (lf_dma c)
  | LoMigration true _ _ => held (lf_mig c)
  | _ => 0
  end.
Fixpoint forgotten_in (c : life) (l : list life_op) : nat :=
  match l with
  | [] => 0
  | o :: l' => forgotten c o + forgotten_in (fst (life_step c o)) l'
  end.

(* The buffers a context has. *)
Definition has (c : life) : nat :=
  held (lf_cfg c) + held (lf_tran c) + held (lf_dma c) + held (lf_irqs c) + held (lf_mig c) + 3 +
  fold_right (fun r n => held (lr_areas r) + length (lr_iofds r) + n) 0 (lf_regions c).
