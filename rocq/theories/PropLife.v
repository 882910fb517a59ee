(* C76: the memory of a context, from vfu_create_ctx to vfu_destroy_ctx.

   replay (SpecHeap.v) applies the rules of malloc and free to calls: None if a buffer is freed twice, or freed or accessed when it
   is not allocated. *)
From Coq Require Import NArith ZArith List Bool Lia.
From Verif Require Import Base Heap SpecHeap Mem MemProofs Life SpecLife LifeProofs.
Import ListNotations.
Open Scope nat_scope.
Ltac Zify.zify_post_hook ::= idtac.

(* A failed creation that returns NULL leaves nothing behind. *)
Theorem C76_create : forall checks ctx_ok uuid_ok regs_ok tran_ok init_ok n n' ev,
  life_create checks ctx_ok uuid_ok regs_ok tran_ok init_ok n = (CreatedNull, n', ev) -> replay [] ev = Some [].
Proof.
  intros checks ctx_ok uuid_ok regs_ok tran_ok init_ok n n' ev H. pose proof (create_ok n checks ctx_ok uuid_ok regs_ok tran_ok init_ok) as R. rewrite H in R.
  destruct (R [] [] (conj (below_nil n) (fun x => eq_refl))) as (live & E & Hh). rewrite app_nil_r in E. rewrite E. apply holds_length in Hh. now destruct live.
Qed.
Print Assumptions C76_create.
(* The socket cannot be bound: four buffers come and go. *)
Example C76_create_ex : snd (life_create true true true true true false 0) <> [] /\ fst (fst (life_create true true true true true false 0)) = CreatedNull /\
  length (filter (fun e => match e with HAlloc _ => true | _ => false end) (snd (life_create true true true true true false 0))) = 4.
Proof. repeat split. discriminate. Qed.

(* It returns NULL exactly if the arguments are wrong, the context itself cannot be allocated, or the transport fails; if the name
   or the regions cannot be allocated, the regions are read through a NULL pointer instead. *)
Theorem C76_create_outcome : forall checks ctx_ok uuid_ok regs_ok tran_ok init_ok n,
  match fst (fst (life_create checks ctx_ok uuid_ok regs_ok tran_ok init_ok n)) with
  | CreatedNull => checks = false \/ ctx_ok = false \/ (uuid_ok = true /\ regs_ok = true /\ (tran_ok = false \/ init_ok = false))
  | CreatedNullRead => checks = true /\ ctx_ok = true /\ (uuid_ok = false \/ regs_ok = false)
  | Created _ => checks = true /\ ctx_ok = true /\ uuid_ok = true /\ regs_ok = true /\ tran_ok = true /\ init_ok = true
  end.
Proof. intros [] [] [] [] [] [] n; cbn; auto 8. Qed.
Print Assumptions C76_create_outcome.

(* The claim that a creation that runs out of memory returns NULL is false. *)
Theorem C76_create_refuted : exists checks ctx_ok uuid_ok regs_ok tran_ok init_ok n,
  checks = true /\ ctx_ok = true /\ fst (fst (life_create checks ctx_ok uuid_ok regs_ok tran_ok init_ok n)) = CreatedNullRead.
Proof. exists true, true, false, true, true, true, 0. repeat split. Qed.
Print Assumptions C76_create_refuted.

(* Whatever calls set the device up, in whatever order, however often and whichever allocations fail: no call frees or accesses a
   buffer that is not allocated, and what is allocated afterwards is what the context has and what the calls made it forget. *)
Theorem C76_held : forall n n' c ev l, life_create true true true true true true n = (Created c, n', ev) ->
  exists live, replay [] (ev ++ snd (life_steps c l)) = Some live /\ NoDup live /\ length live = has (fst (life_steps c l)) + forgotten_in c l.
Proof.
  intros n n' c ev l H. pose proof (create_ok n true true true true true true) as R. rewrite H in R. destruct R as (R & _).
  pose proof (steps_life_ok l c []) as S1. destruct (life_steps c l) as [c1 ev1]. cbn [fst snd]. destruct S1 as (L & N & R1).
  destruct (runs_app _ _ _ _ _ _ _ _ R R1 [] [] (conj (below_nil n) (fun x => eq_refl))) as (live & E & Hh). rewrite app_nil_r in E. exists live.
  split; [exact E|]. split; [apply Hh|]. rewrite (holds_length _ _ _ Hh), app_length, owned_has, N. cbn [length]. lia.
Qed.
Print Assumptions C76_held.

(* The same when the context is then destroyed: what remains is what the calls made it forget. *)
Theorem C76_destroy : forall n n' c ev l, life_create true true true true true true n = (Created c, n', ev) ->
  exists live, replay [] (ev ++ snd (life_steps c l) ++ life_destroy (fst (life_steps c l))) = Some live /\ NoDup live /\ length live = forgotten_in c l.
Proof.
  intros n n' c ev l H. pose proof (create_ok n true true true true true true) as R. rewrite H in R. destruct R as (R & _).
  pose proof (steps_life_ok l c []) as S1. destruct (life_steps c l) as [c1 ev1]. cbn [fst snd]. destruct S1 as (L & N & R1).
  pose proof (runs_app _ _ _ _ _ _ _ _ R (runs_app _ _ _ _ _ _ _ _ R1 (runs_destroy c1 L _))) as R2.
  destruct (R2 [] [] (conj (below_nil n) (fun x => eq_refl))) as (live & E & Hh). rewrite app_nil_r in E. exists live.
  split; [exact E|]. split; [apply Hh|]. rewrite (holds_length _ _ _ Hh), N. cbn [length]. lia.
Qed.
Print Assumptions C76_destroy.

(* Missing for the full claim: a device that sets the areas of a region, its DMA callbacks or its migration callbacks up more than
   once, or for whose areas there is no memory. *)
Theorem C76_no_leak_partial : forall n n' c ev l, life_create true true true true true true n = (Created c, n', ev) ->
  NoDup (flat_map sets_up l) -> forallb areas_ok l = true ->
  replay [] (ev ++ snd (life_steps c l) ++ life_destroy (fst (life_steps c l))) = Some [].
Proof.
  intros n n' c ev l H N A. destruct (C76_destroy n n' c ev l H) as (live & E & _ & G). rewrite E.
  pose proof (create_ok n true true true true true true) as R. rewrite H in R. destruct R as (_ & E1 & E2 & E3).
  rewrite fresh_nothing in G; [now destruct live|exact N|exact A|]. intros [i| |] _; [|exact E1|exact E2].
  intros r X. rewrite E3 in X. apply nth_error_In, repeat_spec in X. now subst r.
Qed.
Print Assumptions C76_no_leak_partial.
(* A device with two mappable regions, an ioeventfd, everything else, and a client that comes and goes. *)
Definition ex_ctx : life := mk_life 0 1 2 (Some 3) None None None None (repeat (mk_lregion None []) 9) false 4.
Definition ex_setup : list life_op :=
  [LoPci true true; LoRegion 0 true true true; LoRegion 2 true true true; LoRegion 7 true false true; LoIoeventfd 0 true true; LoIoeventfd 0 true true;
   LoDma true; LoMigration true true true; LoRealize true true; LoRealize true true; LoReset; LoPci true true; LoMigration false true true].
Example C76_ex : life_create true true true true true true 0 = (Created ex_ctx, 4, [HAlloc 0; HAlloc 1; HAlloc 2; HAlloc 3]) /\
  NoDup (flat_map sets_up ex_setup) /\ forallb areas_ok ex_setup = true /\ has (fst (life_steps ex_ctx ex_setup)) = 12.
Proof. split; [reflexivity|]. split; [|split; reflexivity]. repeat (constructor; [cbn; intuition discriminate|]). constructor. Qed.

(* The claim that a destroyed context always gives everything back is false: a second vfu_setup_device_dma, a second set of
   migration callbacks even if it is refused, a second set of areas, or no memory for areas after an ioeventfd. *)
Theorem C76_leak_refuted : forall l, In l [[LoDma true; LoDma true]; [LoMigration true true true; LoMigration true true false];
    [LoRegion 0 true true true; LoRegion 0 true true true]; [LoIoeventfd 0 true true; LoRegion 0 true true false]] ->
  exists n n' c ev live, life_create true true true true true true n = (Created c, n', ev) /\
  replay [] (ev ++ snd (life_steps c l) ++ life_destroy (fst (life_steps c l))) = Some live /\ live <> [].
Proof.
  intros l I. exists 0, 4, ex_ctx, [HAlloc 0; HAlloc 1; HAlloc 2; HAlloc 3], [4]. split; [reflexivity|]. split; [|discriminate].
  cbn [In] in I. decompose [or] I; subst; try reflexivity. now exfalso.
Qed.
Print Assumptions C76_leak_refuted.

(* Realizing a context a second time does nothing, whether or not memory is left. *)
Theorem C76_realize_once : forall c c' ev a b, life_realize true true c = (c', ev) -> life_realize a b c' = (c', [HUse (lf_self c')]).
Proof.
  intros c c' ev a b. unfold life_realize at 1. destruct (lf_realized c) eqn:R.
  - intros E. injection E as <- _. unfold life_realize. now rewrite R.
  - destruct (lf_cfg c), (lf_irqs c); cbn; intros E; injection E as <- _; reflexivity.
Qed.
Print Assumptions C76_realize_once.

Example C76_realize_once_ex : lf_realized ex_ctx = false /\ lf_realized (fst (life_realize true true ex_ctx)) = true /\ snd (life_realize true true ex_ctx) <> [HUse (lf_self ex_ctx)].
Proof. vm_compute. repeat split; discriminate. Qed.
