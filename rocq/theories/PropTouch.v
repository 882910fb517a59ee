(* C74: whose log marking and reporting access. *)
From Coq Require Import NArith ZArith List Bool Lia.
From Verif Require Import Base Types Dma Dirty DmaOps Heap SpecHeap HeapProofs ReportProofs PropHeap.
Import ListNotations.
Open Scope N_scope.
Ltac Zify.zify_post_hook ::= idtac.

Lemma set_nth_keeps {A} (l : list A) k x : length (set_nth k x l) = length l.
Proof. revert k. induction l as [|y l IH]; intros [|k]; cbn [set_nth length]; auto. Qed.
Lemma set_nth_other {A} (l : list A) k x i : k <> i -> nth_error (set_nth k x l) i = nth_error l i.
Proof. revert k i. induction l as [|y l IH]; intros [|k] [|i] N; cbn [set_nth nth_error]; auto; try congruence. Qed.
Lemma mark_touches ptr i : forall l d0 d d' r r1, length (dm_regions d) = length (dm_regions d0) -> dm_pgsize d = dm_pgsize d0 ->
  sgl_mark_dirty d l = Ok d' -> nth_error (dm_regions d) i = Some r -> nth_error (dm_regions d') i = Some r1 -> r <> r1 ->
  is_logged r = true /\ incl (use_ev (nth_error ptr i)) (heap_mark d0 ptr l).
Proof.
  induction l as [|s l IH]; intros d0 d d' r r1 L P H A B N; cbn [sgl_mark_dirty] in H; [injection H as <-; congruence|]. cbn [heap_mark].
  destruct (nth_error (dm_regions d) (sg_region s)) as [rs|] eqn:E; [|injection H as <-; congruence].
  destruct (nth_error (dm_regions d0) (sg_region s)) as [r0|] eqn:E0; [|apply nth_error_None in E0; assert (sg_region s < length (dm_regions d))%nat by (apply nth_error_Some; congruence); lia].
  rewrite <- P. destruct (sg_writeable s && (0 <? dm_pgsize d)); [|now apply (IH d0 d d' r r1)].
  destruct (mark_region (dm_pgsize d) rs s) as [r'|e|c] eqn:M; try discriminate H.
  destruct (Nat.eq_dec (sg_region s) i) as [<-|NE].
  - rewrite E in A. injection A as ->. split; [|apply incl_appl, incl_refl].
    unfold mark_region in M. unfold is_logged. destruct (rg_bitmap r); [reflexivity|discriminate M].
  - destruct (IH d0 (set_regions d (set_nth (sg_region s) r' (dm_regions d))) d' r r1) as (C & D); auto.
    + cbn [dm_regions set_regions]. now rewrite set_nth_keeps.
    + cbn [dm_regions set_regions]. now rewrite set_nth_other.
    + split; [exact C|]. now apply incl_appr.
Qed.
Lemma mark_uses_named d ptr b : forall l, In (HUse b) (heap_mark d ptr l) -> exists s, In s l /\ nth_error ptr (sg_region s) = Some (Some b).
Proof.
  induction l as [|s l IH]; cbn [heap_mark]; [intros []|]. destruct (nth_error (dm_regions d) (sg_region s)); [|intros []].
  assert (G : In (HUse b) (heap_mark d ptr l) -> exists s0, In s0 (s :: l) /\ nth_error ptr (sg_region s0) = Some (Some b)).
  { intros X. destruct (IH X) as (s0 & A & B). exists s0. split; [now right|exact B]. }
  destruct (sg_writeable s && (0 <? dm_pgsize d)); [|exact G]. intros X. apply in_app_or in X. destruct X as [X|X]; [|exact (G X)].
  exists s. split; [now left|]. destruct (nth_error ptr (sg_region s)) as [[b'|]|]; cbn [use_ev] in X; [|destruct X..]. destruct X as [X|[]]. now injection X as ->.
Qed.

Lemma report_touches d ptr hint addr len pg size buf o d' h' i r r1 : dirty_page_get d hint addr len pg size buf = (o, d', h') ->
  nth_error (dm_regions d) i = Some r -> nth_error (dm_regions d') i = Some r1 -> r <> r1 ->
  is_logged r = true /\ incl (use_ev (nth_error ptr i)) (heap_report d ptr hint addr len pg size).
Proof.
  intros H A B N. unfold dirty_page_get, heap_report in *. destruct (addr_to_sgl d hint addr len 1 0) as [x h0]. cbn [fst].
  destruct x as [[|s l]|k|e|c]; try (injection H as <- <- <-; congruence).
  destruct (negb (sg_base s =? addr) || negb (sg_len s =? len)); [injection H as <- <- <-; congruence|].
  destruct (dm_pgsize d =? 0); [injection H as <- <- <-; congruence|].
  destruct ((pg =? 0) || negb (pow2_or_zero pg)); [injection H as <- <- <-; congruence|].
  destruct (get_bitmap_size len (dm_pgsize d)) as [ss|e|c]; [|injection H as <- <- <-; congruence|destruct (get_bitmap_size len pg); injection H as <- <- <-; congruence].
  destruct (get_bitmap_size len pg) as [cs|e|c]; [|injection H as <- <- <-; congruence..].
  destruct (negb (size =? cs)); [injection H as <- <- <-; congruence|].
  destruct (nth_error (dm_regions d) (sg_region s)) as [r0|] eqn:E; [|injection H as <- <- <-; congruence].
  destruct (rg_fd r0 =? -1)%Z; [injection H as <- <- <-; congruence|].
  destruct (rg_bitmap r0) as [bm|] eqn:EB; [|injection H as <- <- <-; congruence].
  destruct (report_bitmap (dm_pgsize d) pg ss cs bm buf) as [[out bm']|e|c]; [|injection H as <- <- <-; congruence..].
  injection H as <- <- <-. cbn [dm_regions set_regions] in B.
  destruct (Nat.eq_dec (sg_region s) i) as [<-|NE]; [|rewrite set_nth_other in B by exact NE; congruence].
  rewrite E in A. injection A as ->. split; [unfold is_logged; now rewrite EB|apply incl_refl].
Qed.
Lemma report_uses_named d ptr hint addr len pg size b : In (HUse b) (heap_report d ptr hint addr len pg size) ->
  exists i r, nth_error (dm_regions d) i = Some r /\ rg_base r = addr /\ nth_error ptr i = Some (Some b).
Proof.
  unfold heap_report. destruct (addr_to_sgl d hint addr len 1 0) as [x h0] eqn:S. cbn [fst].
  destruct x as [[|s l]|k|e|c]; try (intros []).
  destruct (negb (sg_base s =? addr) || negb (sg_len s =? len)) eqn:Q; [intros []|].
  destruct (dm_pgsize d =? 0); [intros []|]. destruct ((pg =? 0) || negb (pow2_or_zero pg)); [intros []|].
  destruct (get_bitmap_size len (dm_pgsize d)); [|intros []..]. destruct (get_bitmap_size len pg) as [cs|e|c]; [|intros []..]. destruct (negb (size =? cs)); [intros []|].
  destruct (nth_error (dm_regions d) (sg_region s)) as [r0|] eqn:E; [|intros []]. destruct (rg_fd r0 =? -1)%Z; [intros []|].
  intros X. exists (sg_region s), r0. split; [exact E|]. split.
  - apply addr_to_sgl_good in S. inversion S as [|? ? G _]; subst. destruct G as ((r1 & G1 & G2) & _). rewrite E in G1. injection G1 as <-. apply orb_false_elim in Q. destruct Q as (Q & _). apply negb_false_iff, N.eqb_eq in Q. congruence.
  - destruct (nth_error ptr (sg_region s)) as [[b'|]|]; cbn [use_ev] in X; [|destruct X..]. destruct X as [X|[]]. now injection X as ->.
Qed.

(* Marking pages and reporting them accesses the buffers of the regions concerned: a region whose log such an operation changes has
   its buffer accessed, and no buffer is accessed but those of the regions the operation names. *)
Definition names (d : dma) (o : dma_op) (i : nat) : Prop :=
  match o with
  | OpMark l => In i (map sg_region l)
  | OpReport _ addr _ _ _ _ => exists r, nth_error (dm_regions d) i = Some r /\ rg_base r = addr
  | _ => False
  end.
Theorem C74_accesses : forall cb ops d h ev o, heap_run cb dma_create heap_create ops = (d, h, ev) ->
  match o with OpMark _ | OpReport _ _ _ _ _ _ => True | _ => False end ->
  let d1 := snd (fst (dma_step cb d o)) in let ev1 := snd (heap_step d h o) in
  (forall i r r1, nth_error (dm_regions d) i = Some r -> nth_error (dm_regions d1) i = Some r1 -> r <> r1 ->
     exists b, nth_error (h_ptr h) i = Some (Some b) /\ In (HUse b) ev1) /\
  (forall b, In (HUse b) ev1 -> exists i, names d o i /\ nth_error (h_ptr h) i = Some (Some b)).
Proof.
  intros cb ops d h ev o H O. cbv zeta. destruct (C74_safe _ _ _ _ _ H) as (_ & live & R). destruct (C74_own _ _ _ _ _ _ H R) as (_ & Own & _).
  assert (G : forall i r l, nth_error (dm_regions d) i = Some r -> is_logged r = true /\ incl (use_ev (nth_error (h_ptr h) i)) l ->
    exists b, nth_error (h_ptr h) i = Some (Some b) /\ In (HUse b) l).
  { intros i r l E (L & I). destruct (proj1 (Own i r E) L) as (b & Eb & _). exists b. split; [exact Eb|]. apply I. rewrite Eb. now left. }
  destruct o as [| | | | |l|hint addr len pg size buf]; try destruct O; cbn [dma_step heap_step snd names]; split.
  - intros i r r1 A B N. destruct (sgl_mark_dirty d l) as [d'|e|c] eqn:M; cbn [fst snd] in B; try congruence.
    apply (G i r _ A). eapply mark_touches; eauto.
  - intros b X. apply mark_uses_named in X. destruct X as (s & I & E). exists (sg_region s). split; [now apply in_map|exact E].
  - intros i r r1 A B N. destruct (dirty_page_get d hint addr len pg size buf) as [[x d'] h'] eqn:M.
    apply (G i r _ A). eapply report_touches; [exact M|exact A| |exact N]. destruct x; cbn [fst snd] in B; try exact B.
    congruence.
  - intros b X. apply report_uses_named in X. destruct X as (i & r & A & B & E). exists i. split; [now exists r|exact E].
Qed.
Print Assumptions C74_accesses.
(* Two logged regions: a mark and a report of the second, each changing its log. *)
Definition ex_touch : list dma_op :=
  [OpLogStart (fun _ => true) 4096; OpMap PropHeap.ex_os 4096 8192 3%Z 0 3; OpMap PropHeap.ex_os 65536 4096 4%Z 0 3].
Definition ex_mark2 : dma_op := OpMark [mk_sg 65536 1 100 0 true].
Definition ex_report2 : dma_op := OpReport 0 65536 4096 4096 8 (repeat 0 8).
Example C74_accesses_case :
  snd (heap_step (fst (fst (heap_run true dma_create heap_create ex_touch))) (snd (fst (heap_run true dma_create heap_create ex_touch))) ex_mark2) = [HUse 1] /\
  snd (heap_step (fst (fst (heap_run true dma_create heap_create (ex_touch ++ [ex_mark2])))) (snd (fst (heap_run true dma_create heap_create (ex_touch ++ [ex_mark2])))) ex_report2) = [HUse 1] /\
  map rg_bitmap (dm_regions (snd (fst (dma_step true (fst (fst (heap_run true dma_create heap_create ex_touch))) ex_mark2)))) <>
  map rg_bitmap (dm_regions (fst (fst (heap_run true dma_create heap_create ex_touch)))).
Proof. split; [|split]; vm_compute; [reflexivity..|discriminate]. Qed.
