(* Property C74: the memory of the dirty page log. *)
From Coq Require Import NArith ZArith List Bool Lia ZifyBool ZifyNat ZifyN.
From Verif Require Import Base Types Dma Dirty DmaOps Heap SpecHeap HeapProofs.
Import ListNotations.
Open Scope N_scope.
Ltac Zify.zify_post_hook ::= idtac.

(* Whatever is mapped, unmapped, logged, marked and reported, in whatever order, whichever allocations and mappings fail: the
   library never frees a buffer twice and never accesses one that it has freed or not yet allocated. *)
Theorem C74_safe : forall cb ops d h ev, heap_run cb dma_create heap_create ops = (d, h, ev) ->
  d = fst (dma_run cb dma_create ops) /\ exists live, replay [] ev = Some live.
Proof.
  intros cb ops d h ev H. destruct (run_ok cb _ _ _ _ _ _ _ _ create_inv H) as (D & live & R & _). split; [exact D|]. now exists live.
Qed.
Print Assumptions C74_safe.

(* Exactly the logged regions have a buffer, no two of them the same, and it is allocated. *)
Theorem C74_own : forall cb ops d h ev live, heap_run cb dma_create heap_create ops = (d, h, ev) -> replay [] ev = Some live ->
  length (h_ptr h) = length (dm_regions d) /\
  (forall i r, nth_error (dm_regions d) i = Some r ->
     (is_logged r = true -> exists b, nth_error (h_ptr h) i = Some (Some b) /\ In b live) /\
     (is_logged r = false -> nth_error (h_ptr h) i = Some None)) /\
  (forall i j b, nth_error (h_ptr h) i = Some (Some b) -> nth_error (h_ptr h) j = Some (Some b) -> i = j).
Proof.
  intros cb ops d h ev live H E. destruct (run_ok cb _ _ _ _ _ _ _ _ create_inv H) as (_ & live' & R & I). rewrite E in R. injection R as <-.
  pose proof (hi_len _ _ _ _ I) as L. destruct I as [I1 I2 I3 I4 I5 I6 I7]. split; [exact L|]. split.
  - intros i r N. apply (map_nth_error is_logged) in N. rewrite I1 in N. destruct (nth_error (h_ptr h) i) as [p|] eqn:P.
    + rewrite (map_nth_error is_some _ _ P) in N. injection N as N. split; intros X; rewrite X in N; destruct p as [b|]; try discriminate N; [|reflexivity].
      exists b. split; [reflexivity|]. apply I5. apply in_flat_map. exists (Some b). split; [eapply nth_error_In; exact P|now left].
    + apply nth_error_None in P. assert (Q : nth_error (map is_some (h_ptr h)) i = None) by (apply nth_error_None; rewrite map_length; exact P). congruence.
  - clear - I4. intros i j b. revert i j I4. generalize (h_ptr h). induction l as [|p l IH]; intros i j ND Hi Hj; [destruct i; discriminate Hi|].
    assert (X : forall k, nth_error l k = Some (Some b) -> In b (ids l)) by (intros k K; apply in_flat_map; exists (Some b); split; [eapply nth_error_In; exact K|now left]).
    destruct p as [b0|]; cbn [ids flat_map app] in ND.
    + inversion ND as [|? ? N0 ND']; subst. destruct i as [|i], j as [|j]; cbn [nth_error] in Hi, Hj; [reflexivity|..].
      * injection Hi as ->. destruct (N0 (X _ Hj)).
      * injection Hj as ->. destruct (N0 (X _ Hi)).
      * f_equal. exact (IH _ _ ND' Hi Hj).
    + destruct i as [|i], j as [|j]; cbn [nth_error] in Hi, Hj; try discriminate. f_equal. exact (IH _ _ ND Hi Hj).
Qed.
Print Assumptions C74_own.

(* What is allocated at any point: one buffer for each logged region in the table, and one for each that was removed from the
   table while it was logged. *)
Theorem C74_held : forall cb ops d h ev live, heap_run cb dma_create heap_create ops = (d, h, ev) -> replay [] ev = Some live ->
  length live = (n_logged d + removed_logged cb dma_create ops)%nat.
Proof.
  intros cb ops d h ev live H E. destruct (run_ok cb _ _ _ _ _ _ _ _ create_inv H) as (_ & live' & R & I). rewrite E in R. injection R as <-.
  rewrite (hi_count _ _ _ _ I), (logged_ids _ _ _ _ I). reflexivity.
Qed.
Print Assumptions C74_held.

(* If no region is removed while it is logged then all memory has been given back when logging is off. *)
Theorem C74_no_leak_partial : forall cb ops d h ev live, heap_run cb dma_create heap_create ops = (d, h, ev) -> replay [] ev = Some live ->
  dm_pgsize d = 0 -> (live = [] <-> removed_logged cb dma_create ops = 0%nat).
Proof.
  intros cb ops d h ev live H E Z. pose proof (C74_held _ _ _ _ _ _ H E) as L. destruct (run_ok cb _ _ _ _ _ _ _ _ create_inv H) as (_ & live' & R & I).
  assert (N : n_logged d = 0%nat).
  { pose proof (hi_off _ _ _ _ I Z) as F. unfold n_logged. clear - F. induction F as [|r rs E F IH]; [reflexivity|]. cbn [filter]. now rewrite E. }
  rewrite N in L. cbn in L. split; [intros ->; symmetry; exact L|]. intros X. rewrite X in L. now destruct live.
Qed.
Print Assumptions C74_no_leak_partial.

(* ---- A region removed while it is logged takes its buffer with it: neither stopping to log nor unmapping everything gives
   the memory back, and a client can repeat this as often as it likes. *)
Definition ex_os : dma_os := mk_os (Some 4096) (fun a b => (a =? b)%Z) (inl 1048576) true.
Definition ex_round : list dma_op := [OpMap ex_os 4096 8192 3%Z 0 3; OpUnmap 4096 8192].
Fixpoint ex_rounds (n : nat) : list dma_op := match n with O => [OpUnmapAll; OpLogStop] | S n => ex_round ++ ex_rounds n end.

Lemma rounds_end n : forall d, d = set_pgsize dma_create 4096 ->
  fst (dma_run true d (ex_rounds n)) = dma_create /\ removed_logged true d (ex_rounds n) = n.
Proof.
  induction n as [|n IH]; intros d ->; [split; vm_compute; reflexivity|]. cbn [ex_rounds ex_round app dma_run removed_logged].
  destruct (dma_step true (set_pgsize dma_create 4096) (OpMap ex_os 4096 8192 3%Z 0 3)) as [[o1 d1] e1] eqn:S1.
  destruct (dma_step true d1 (OpUnmap 4096 8192)) as [[o2 d2] e2] eqn:S2.
  assert (X : d1 = snd (fst (dma_step true (set_pgsize dma_create 4096) (OpMap ex_os 4096 8192 3%Z 0 3)))) by now rewrite S1.
  assert (Y : d2 = snd (fst (dma_step true d1 (OpUnmap 4096 8192)))) by now rewrite S2.
  assert (Z : d2 = set_pgsize dma_create 4096) by (rewrite Y, X; vm_compute; reflexivity).
  destruct (IH d2 Z) as (R & C). cbn [fst snd]. rewrite S2. cbn [fst snd].
  destruct (dma_run true d2 (ex_rounds n)) as [d3 e3]. cbn [fst snd] in *. split; [exact R|]. rewrite C.
  cbn [removal]. rewrite Nat.add_0_l. rewrite Z, X. vm_compute. reflexivity.
Qed.

Theorem C74_leak_refuted : forall n, exists ops d h ev live, heap_run true dma_create heap_create ops = (d, h, ev) /\ replay [] ev = Some live /\
  dm_regions d = [] /\ dm_pgsize d = 0 /\ length live = n.
Proof.
  intros n. set (ops := OpLogStart (fun _ => true) 4096 :: ex_rounds n).
  destruct (heap_run true dma_create heap_create ops) as [[d h] ev] eqn:H. destruct (C74_safe _ _ _ _ _ H) as (D & live & R).
  assert (E : d = dma_create /\ removed_logged true dma_create ops = n).
  { subst ops. cbn [dma_run removed_logged removal] in *.
    assert (S1 : dma_step true dma_create (OpLogStart (fun _ => true) 4096) = (Ok tt, set_pgsize dma_create 4096, [])) by (vm_compute; reflexivity).
    rewrite S1 in *. cbn [fst snd] in *. destruct (rounds_end n _ eq_refl) as (A & B). rewrite B. split; [|reflexivity].
    rewrite D. destruct (dma_run true (set_pgsize dma_create 4096) (ex_rounds n)). exact A. }
  destruct E as (E1 & E2). exists ops, d, h, ev, live. repeat (split; [first [exact H|exact R|rewrite E1; reflexivity]|]).
  rewrite (C74_held _ _ _ _ _ _ H R), E2, E1. reflexivity.
Qed.
Print Assumptions C74_leak_refuted.

(* Two regions, one of them logged from its mapping on and one whose mapping fails after its log has been allocated; pages are
   marked and reported, logging is stopped: everything is given back. *)
Definition ex_heap_ops : list dma_op :=
  [OpMap ex_os 4096 8192 3%Z 0 3; OpLogStart (fun _ => true) 4096; OpMap ex_os 16384 4096 4%Z 0 3;
   OpMap (mk_os (Some 4096) (fun a b => (a =? b)%Z) (inr 12) true) 32768 4096 5%Z 0 3; OpMap ex_os 65536 4096 (-1)%Z 0 3;
   OpMark [mk_sg 4096 0 100 0 true]; OpReport 0 4096 8192 4096 8 []; OpLogStop].
Example C74_safe_case : snd (heap_run true dma_create heap_create ex_heap_ops) =
  [HAlloc 0; HAlloc 1; HAlloc 2; HFree 2; HUse 0; HUse 0; HFree 0; HFree 1].
Proof. vm_compute. reflexivity. Qed.
Example C74_no_leak_case : replay [] (snd (heap_run true dma_create heap_create ex_heap_ops)) = Some [] /\
  removed_logged true dma_create ex_heap_ops = 0%nat /\ dm_pgsize (fst (fst (heap_run true dma_create heap_create ex_heap_ops))) = 0.
Proof. vm_compute. auto. Qed.
Example C74_held_case : replay [] (snd (heap_run true dma_create heap_create (OpLogStart (fun _ => true) 4096 :: ex_round ++ ex_round ++ [OpMap ex_os 4096 8192 3%Z 0 3]))) = Some [0; 1; 2]%nat.
Proof. vm_compute. reflexivity. Qed.
Example C74_own_case : h_ptr (snd (fst (heap_run true dma_create heap_create (OpLogStart (fun _ => true) 4096 :: ex_round ++ [OpMap ex_os 4096 8192 3%Z 0 3; OpMap ex_os 65536 4096 (-1)%Z 0 3])))) = [Some 1%nat; None].
Proof. vm_compute. reflexivity. Qed.
(* The second of three allocations fails when logging starts: the first is given back. *)
Example C74_start_case : snd (heap_run true dma_create heap_create
    [OpMap ex_os 4096 8192 3%Z 0 3; OpMap ex_os 16384 4096 4%Z 0 3; OpMap ex_os 32768 4096 4%Z 0 3; OpLogStart (fun i => negb (Nat.eqb i 1)) 4096]) =
  [HAlloc 0; HFree 0].
Proof. vm_compute. reflexivity. Qed.
