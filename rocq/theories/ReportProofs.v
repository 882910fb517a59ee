(* The log of one page along a history of a server. *)
From Coq Require Import NArith ZArith List Bool Lia ZifyBool ZifyNat ZifyN.
From Verif Require Import Base Types Bytes Spec Dma Dirty DmaOps SpecDma DmaProofs DmaDisjoint DmaSgl DmaMap DmaRemap DirtyProofs DirtyScale DirtyHist
  Migr Irq Pci Handlers Server SpecServer SpecMsg HandlersProofs HandlersDma ServerProofs ServerDma SpecReport.
Import ListNotations.
Open Scope N_scope.
Ltac Zify.zify_post_hook ::= idtac.

(* Page p of the region with description i is logged, in pages of pg bytes. *)
Definition marked (pg : N) (i : dma_info) (fd : Z) (p : N) (d : dma) : Prop :=
  dm_pgsize d = pg /\ pg <> 0 /\ exists r bm, In r (dm_regions d) /\ rg_info r = i /\ rg_fd r = fd /\ rg_bitmap r = Some bm /\ page_set bm p.

(* ---------- operations *)

Definition base_ok (rs : list region) (s : sg) : Prop := exists r, nth_error rs (sg_region s) = Some r /\ sg_base s = rg_base r.

Lemma init_sg_base r idx addr len prot s : init_sg r idx addr len prot = Ok s -> sg_region s = idx /\ sg_base s = rg_base r /\ sg_writeable s = has prot PROT_WRITE.
Proof. unfold init_sg. destruct (has prot PROT_WRITE && negb (has (di_prot (rg_info r)) PROT_WRITE)); [discriminate|]. intros H. injection H as <-. auto. Qed.

Definition sg_good (rs : list region) (prot : N) (s : sg) : Prop := base_ok rs s /\ sg_writeable s = has prot PROT_WRITE.
Definition pass_good (rs : list region) (prot : N) (p : pass_res) : Prop :=
  match p with PassErr _ => True | PassOut _ ac => Forall (sg_good rs prot) ac | PassEnd _ _ _ _ ac => Forall (sg_good rs prot) ac end.

Lemma split_pass_good all prot rs : forall pre found addr len cnt ac max, all = pre ++ rs -> Forall (sg_good all prot) ac ->
  pass_good all prot (split_pass rs (length pre) found addr len cnt ac max prot).
Proof.
  induction rs as [|r rs IH]; intros pre found addr len cnt ac max E A; cbn [split_pass]; [exact A|].
  assert (E' : all = (pre ++ [r]) ++ rs) by (rewrite <- app_assoc; exact E).
  assert (L : S (length pre) = length (pre ++ [r])) by (rewrite app_length; cbn; lia).
  destruct ((rg_base r <=? addr) && (addr <? iov_end r)); [|rewrite L; now apply IH].
  destruct (Nat.ltb cnt max).
  - destruct (init_sg r (length pre) addr (N.min (iov_end r - addr) len) prot) as [s|e|c] eqn:Q; [|exact Logic.I..].
    apply init_sg_base in Q. destruct Q as (Q1 & Q2 & Q3).
    assert (A' : Forall (sg_good all prot) (ac ++ [s])).
    { apply Forall_app. split; [exact A|]. constructor; [|constructor]. split; [|exact Q3]. exists r. rewrite Q1, E. split; [|exact Q2].
      rewrite nth_error_app2, Nat.sub_diag by lia. reflexivity. }
    destruct (len - N.min (iov_end r - addr) len =? 0); [exact A'|]. rewrite L. now apply IH.
  - destruct (len - N.min (iov_end r - addr) len =? 0); [exact A|]. rewrite L. now apply IH.
Qed.

Lemma split_loop_good fuel : forall rs addr len cnt ac max prot l, Forall (sg_good rs prot) ac -> split_loop fuel rs addr len cnt ac max prot = SglOk l -> Forall (sg_good rs prot) l.
Proof.
  induction fuel as [|f IH]; intros rs addr len cnt ac max prot l A; cbn [split_loop].
  - destruct (len =? 0); [|discriminate]. unfold split_out. destruct (Nat.ltb max cnt); [discriminate|]. intros H. now injection H as <-.
  - assert (O : forall c a, Forall (sg_good rs prot) a -> split_out c a max = SglOk l -> Forall (sg_good rs prot) l).
    { unfold split_out. intros c a Ha. destruct (Nat.ltb max c); [discriminate|]. intros H. now injection H as <-. }
    destruct (len =? 0); [now apply O|]. pose proof (split_pass_good rs prot rs [] false addr len cnt ac max eq_refl A) as P. cbn [length] in P.
    destruct (split_pass rs 0 false addr len cnt ac max prot) as [e|cnt' ac'|[|] addr' len' cnt' ac']; try discriminate; [now apply O|now apply IH].
Qed.

Lemma addr_to_sgl_good d hint addr len max prot l h : addr_to_sgl d hint addr len max prot = (SglOk l, h) -> Forall (sg_good (dm_regions d) prot) l.
Proof.
  unfold addr_to_sgl. intros H.
  assert (S : (match sg_split d addr len max prot with SglOk [] => (SglOk [], hint) | SglOk (s :: l) => (SglOk (s :: l), sg_region s) | o => (o, hint) end) = (SglOk l, h) -> Forall (sg_good (dm_regions d) prot) l).
  { destruct (sg_split d addr len max prot) as [[|s l0]| | |] eqn:Q; intros X; try discriminate X; injection X as <- <-; [constructor|].
    unfold sg_split in Q. eapply split_loop_good; [|exact Q]. constructor. }
  destruct (nth_error (dm_regions d) hint) as [r|] eqn:N; [|exact (S H)].
  destruct (Nat.ltb 0 max && (0 <? len) && (rg_base r <=? addr) && (w64 (addr + len) <=? iov_end r)); [|exact (S H)].
  destruct (init_sg r hint addr len prot) as [s| |] eqn:Q; try discriminate H. injection H as <- <-. apply init_sg_base in Q. destruct Q as (Q1 & Q2 & Q3).
  constructor; [|constructor]. split; [exists r; rewrite Q1; auto|exact Q3].
Qed.

Lemma report_other_base d hint addr len cp size buf o d' h r : dirty_page_get d hint addr len cp size buf = (o, d', h) ->
  In r (dm_regions d) -> rg_base r <> addr -> In r (dm_regions d') /\ dm_pgsize d' = dm_pgsize d.
Proof.
  intros H Hin Hb. apply In_nth_error in Hin. destruct Hin as (i & Hn).
  assert (SAME : In r (dm_regions d) /\ dm_pgsize d = dm_pgsize d) by (split; [eapply nth_error_In; eauto|reflexivity]).
  unfold dirty_page_get in H. destruct (addr_to_sgl d hint addr len 1 0) as [res hint'] eqn:E.
  destruct res as [[|s l]|n|e|c]; try (injection H as _ <- _; exact SAME).
  apply addr_to_sgl_good in E. inversion E as [|? ? ((r' & Hr' & Hbase) & _) _]; subst.
  destruct (N.eqb_spec (sg_base s) addr) as [Ea|Ea]; cbn [negb orb] in H; [|injection H as _ <- _; exact SAME].
  destruct (negb (sg_len s =? len)); [injection H as _ <- _; exact SAME|].
  destruct (dm_pgsize d =? 0); [injection H as _ <- _; exact SAME|].
  destruct ((cp =? 0) || negb (pow2_or_zero cp)); [injection H as _ <- _; exact SAME|].
  destruct (get_bitmap_size len (dm_pgsize d)); try (injection H as _ <- _; exact SAME);
    destruct (get_bitmap_size len cp) as [n0| |]; try (injection H as _ <- _; exact SAME).
  destruct (negb (size =? n0)); [injection H as _ <- _; exact SAME|].
  rewrite Hr' in H. destruct (rg_fd r' =? -1)%Z; [injection H as _ <- _; exact SAME|].
  destruct (rg_bitmap r') as [bm|]; [|injection H as _ <- _; exact SAME].
  destruct (report_bitmap _ _ _ _ _ _) as [[out bm']| |]; injection H as _ <- _; try exact SAME.
  split; [|reflexivity]. change (In r (set_nth (sg_region s) (set_bitmap r' (Some bm')) (dm_regions d))).
  apply nth_error_In with i. rewrite set_nth_neq; [exact Hn|]. intros X. subst i. rewrite Hn in Hr'. injection Hr' as <-. congruence.
Qed.

Section Page.
Variables (pg : N) (i : dma_info) (fd : Z) (p : N).
Let marked := marked pg i fd p.

Lemma marked_in d d' : (forall r, In r (dm_regions d) -> rg_info r = i -> In r (dm_regions d')) -> dm_pgsize d' = dm_pgsize d -> marked d -> marked d'.
Proof. intros A B (P & N & r & bm & R1 & R2 & R3 & R4 & R5). split; [congruence|]. split; [exact N|]. exists r, bm. auto 6. Qed.

Lemma marked_report d hint addr len cp size buf o d' h : dirty_page_get d hint addr len cp size buf = (o, d', h) -> addr <> di_iova i -> marked d -> marked d'.
Proof.
  intros H N M. pose proof M as (_ & _ & r0 & _ & R0 & R1 & _). apply (marked_in d d'); [| |exact M].
  - intros r Hr E. eapply report_other_base; [exact H|exact Hr|]. unfold rg_base. rewrite E. auto.
  - eapply report_other_base; [exact H|exact R0|]. unfold rg_base. rewrite R1. auto.
Qed.

Lemma remove_scan_other cb rs addr size o rs' r : remove_scan cb rs addr size = (o, rs') -> In r rs -> rg_base r <> addr -> In r rs'.
Proof.
  revert o rs'. induction rs as [|x rs IH]; intros o rs' H Hin N; [contradiction|]. cbn [remove_scan] in H. destruct (same_range x addr size) eqn:S.
  - destruct Hin as [->|Hin]; [unfold same_range in S; lia|]. destruct (release_region cb x); injection H as <- <-; [exact Hin|right; exact Hin..].
  - destruct (remove_scan cb rs addr size) as [o1 r1] eqn:Q. injection H as <- <-. destruct Hin as [->|Hin]; [now left|right]. eapply IH; eauto.
Qed.

Lemma marked_remove cb d addr size o d' : remove_region cb d addr size = (o, d') -> addr <> di_iova i -> marked d -> marked d'.
Proof.
  intros H N. unfold remove_region in H. destruct (remove_scan cb (dm_regions d) addr size) as [o1 rs] eqn:Q. injection H as <- <-.
  apply marked_in; [|reflexivity]. intros r Hr E. change (In r rs). eapply remove_scan_other; [exact Q|exact Hr|]. unfold rg_base. rewrite E. auto.
Qed.

Lemma marked_add os d addr size f off prot o d' ev : add_region os d addr size f off prot = (o, d', ev) -> marked d -> marked d'.
Proof.
  intros H M. unfold add_region in H.
  repeat match type of H with (match ?x with _ => _ end) = _ => destruct x end;
  injection H as _ <- _; try exact M; (apply (marked_in d); [|reflexivity|exact M]; intros r Hr _; change (In r (dm_regions d ++ [_])); apply in_or_app; now left) || idtac.
  all: apply (marked_in d); [|reflexivity|exact M]; intros r Hr _; unfold set_regions; cbn [dm_regions]; apply in_or_app; now left.
Qed.
Lemma marked_map cb os d addr size f off prot o d' ev : dma_map_request cb os d addr size f off prot = (o, d', ev) -> marked d -> marked d'.
Proof.
  unfold dma_map_request. intros H M. destruct (add_region os d addr size f off prot) as [[o1 d1] ev1] eqn:Q.
  assert (M1 : marked d1) by (eapply marked_add; eauto).
  destruct o1 as [n| |]; [destruct (nth_error (dm_regions d1) n)|..]; injection H as _ <- _; exact M1.
Qed.

Lemma marked_start calloc d pgsize o d' : logging_start calloc d pgsize = (o, d') -> marked d -> marked d'.
Proof.
  intros H M. pose proof M as (P & N & _). unfold logging_start in H. destruct (pgsize =? 0); [injection H as _ <-; exact M|].
  assert (E : 0 <? dm_pgsize d = true) by lia. rewrite E in H. destruct (negb (dm_pgsize d =? pgsize)); injection H as _ <-; exact M.
Qed.

Lemma marked_mark l : forall d d', sgl_mark_dirty d l = Ok d' -> marked d -> marked d'.
Proof.
  induction l as [|s l IH]; intros d d' H M; cbn [sgl_mark_dirty] in H; [now injection H as <-|].
  destruct (nth_error (dm_regions d) (sg_region s)) as [r|] eqn:N; [|now injection H as <-].
  destruct (sg_writeable s && (0 <? dm_pgsize d)); [|eapply IH; eauto].
  destruct (mark_region (dm_pgsize d) r s) as [r'| |] eqn:Q; try discriminate H. eapply IH; [exact H|].
  unfold mark_region in Q. destruct (rg_bitmap r) as [bm|] eqn:B; [|discriminate Q].
  destruct (or_bytes bm (mark_ops (pg_start (sg_off s) (dm_pgsize d)) (pg_end (sg_off s) (sg_len s) (dm_pgsize d)))) as [bm'| |] eqn:O; try discriminate Q. injection Q as <-.
  destruct M as (P & Nz & r1 & bm1 & R1 & R2 & R3 & R4 & R5). split; [exact P|]. split; [exact Nz|].
  apply In_nth_error in R1. destruct R1 as (j & R1).
  change (dm_regions (set_regions d (set_nth (sg_region s) (set_bitmap r (Some bm')) (dm_regions d)))) with (set_nth (sg_region s) (set_bitmap r (Some bm')) (dm_regions d)).
  destruct (Nat.eq_dec (sg_region s) j) as [<-|Nj].
  - rewrite N in R1. injection R1 as <-. rewrite B in R4. injection R4 as <-.
    exists (set_bitmap r (Some bm')), bm'. split; [|split; [exact R2|split; [exact R3|split; [reflexivity|]]]].
    + eapply nth_error_In. apply set_nth_eq. apply nth_error_Some. congruence.
    + apply (or_bytes_bits _ _ _ O). now left.
  - exists r1, bm1. split; [|auto]. eapply nth_error_In. rewrite set_nth_neq by exact Nj. exact R1.
Qed.

(* ---------- messages *)

Definition cmarked (c : ctx) : Prop := exists d, cx_dma c = Some d /\ marked d.
Lemma cmarked_same c c' : cx_dma c' = cx_dma c -> cmarked c -> cmarked c'.
Proof. intros E (d & D & M). exists d. split; [congruence|exact M]. Qed.
Lemma cmarked_set c d h : marked d -> cmarked (set_dma c d h).
Proof. intros M. exists d. split; [destruct c; reflexivity|exact M]. Qed.

Lemma map_marked c d o body fds r c' fds' ev : handle_dma_map c d o body fds = (r, c', fds', ev) -> cx_dma c = Some d -> cmarked c -> cmarked c'.
Proof.
  intros H D CM. assert (M : marked d) by (destruct CM as (d0 & D0 & M); rewrite D in D0; injection D0 as <-; exact M).
  unfold handle_dma_map in H.
  assert (K : forall r0 fds0, (r0, c, fds0, @nil event) = (r, c', fds', ev) -> cmarked c') by (intros r0 f0 Q; injection Q as _ <- _ _; exact CM).
  destruct (N.of_nat (length body) <? 32); [eapply K; exact H|]. needs H; try (eapply K; exact H).
  destruct (n <? 32); [eapply K; exact H|]. destruct (negb (N.ldiff n0 3 =? 0)); [eapply K; exact H|].
  destruct (match fds with [] => ((-1)%Z, []) | f :: fs => (f, (-1)%Z :: fs) end) as [f rest].
  destruct (negb (Nat.eqb (length fds) 0) && (f <? 0)%Z); [eapply K; exact H|].
  match type of H with context [dma_map_request ?a ?b ?x ?y ?z ?u ?v ?w] => destruct (dma_map_request a b x y z u v w) as [[res d'] ev1] eqn:Q end.
  injection H as _ <- _ _. apply cmarked_set. eapply marked_map; eauto.
Qed.

Lemma unmap_marked c d o body r c' ev : handle_dma_unmap c d o body = (r, c', ev) -> no_crash r -> cx_dma c = Some d -> body_leaves (di_iova i) 3 body -> cmarked c -> cmarked c'.
Proof.
  intros H NC D (BL & _) CM. destruct (BL eq_refl) as (B1 & B2). clear BL.
  assert (M : marked d) by (destruct CM as (d0 & D0 & M); rewrite D in D0; injection D0 as <-; exact M).
  unfold handle_dma_unmap in H.
  assert (K : forall r0, (r0, c, @nil event) = (r, c', ev) -> cmarked c') by (intros r0 Q; injection Q as _ <- _; exact CM).
  needs H; [|eapply K; exact H].
  destruct (n =? UNMAP_DIRTY); [|destruct (n =? UNMAP_ALL) eqn:EA; [|destruct (n =? 0)]].
  - needs H; try (eapply K; exact H). destruct (N.of_nat (length body) <? 40); [eapply K; exact H|].
    needs H; try (eapply K; exact H). destruct ((n1 <? satadd_u64 40 n0) || (MAX_XFER <? n1)); [eapply K; exact H|].
    assert (Na : n2 <> di_iova i) by congruence.
    destruct (dirty_page_get d (cx_hint c) n2 n3 n4 n0 (fit (N.to_nat n0) (or_junk o))) as [[[bm|e|cr] d1] h1] eqn:Q; apply marked_report in Q; auto.
    + destruct (remove_region (cx_unregister c) d1 n2 n3) as [[ev2|e|cr] d2] eqn:Q2; injection H as <- <- <-;
        apply cmarked_set; eapply marked_remove; eauto.
    + injection H as <- <- <-. now apply cmarked_set.
    + injection H as <- <- <-. now apply cmarked_set.
  - exfalso. apply B1. change UNMAP_ALL with 2 in EA. f_equal. lia.
  - destruct (N.of_nat (length body) <? 24); [eapply K; exact H|].
    needs H; try (eapply K; exact H). destruct ((n0 <? 24) || (MAX_XFER <? n0)); [eapply K; exact H|].
    assert (Na : n1 <> di_iova i) by congruence.
    destruct (remove_region (cx_unregister c) d n1 n2) as [[ev2|e|cr] d2] eqn:Q; injection H as <- <- <-; apply cmarked_set; eapply marked_remove; eauto.
  - eapply K; exact H.
Qed.

Lemma feature_mask f : N.land f FEATURE_MASK = f mod 2 ^ 16.
Proof. change FEATURE_MASK with (N.ones 16). apply N.land_ones. Qed.

Lemma feature_marked c o body r c' ev : handle_device_feature c o body = (r, c', ev) -> body_leaves (di_iova i) 16 body -> cmarked c -> cmarked c'.
Proof.
  intros H (_ & BL) CM. specialize (BL eq_refl). unfold handle_device_feature in H.
  assert (K : forall r0, (r0, c, @nil event) = (r, c', ev) -> cmarked c') by (intros r0 Q; injection Q as _ <- _; exact CM).
  destruct (N.of_nat (length body) <? 8); [eapply K; exact H|]. needs H; try (eapply K; exact H). rename n into argsz, n0 into flags.
  destruct (BL _ eq_refl) as (N7 & N8). rewrite <- feature_mask in N7, N8. revert H N7 N8. generalize (N.land flags FEATURE_MASK) as f. intros f H N7 N8.
  destruct (negb (N.land flags (feature_supported (cx_mig c) f) =? N.ldiff flags FEATURE_MASK) || (feature_supported (cx_mig c) f =? 0)) eqn:SU; [eapply K; exact H|].
  destruct CM as (d & D & M). assert (CM : cmarked c) by (exists d; auto).
  destruct (N.ldiff flags FEATURE_MASK =? FEATURE_GET) eqn:OG.
  - destruct (is_migration_feature f); [eapply K; exact H|]. destruct (is_dma_feature f) eqn:DF; [|eapply K; exact H].
    destruct (dma_feature_get c argsz flags body) as [r1 c1] eqn:Q. injection H as <- <- <-. unfold dma_feature_get in Q. rewrite D in Q.
    assert (K1 : forall r0, (r0, c) = (r1, c1) -> cmarked c1) by (intros r0 X; injection X as _ <-; exact CM).
    needs Q; try (eapply K1; exact Q). destruct (get_bitmap_size n n0) as [bsize| |]; [|eapply K1; exact Q..].
    destruct (argsz <? 32 + bsize); [eapply K1; exact Q|]. needs Q; [|eapply K1; exact Q].
    destruct (N.eq_dec n1 (di_iova i)) as [Ei|Ei].
    + exfalso. assert (F : f = 6 \/ f = 8).
      { unfold is_dma_feature in DF. change FEATURE_DMA_LOGGING_START with 6 in DF. change FEATURE_DMA_LOGGING_STOP with 7 in DF. change FEATURE_DMA_LOGGING_REPORT with 8 in DF. lia. }
      destruct F as [->| ->]; [|apply (N8 eq_refl); congruence].
      apply orb_false_iff in SU. destruct SU as (SU & _). apply negb_false_iff, N.eqb_eq in SU. apply N.eqb_eq in OG. rewrite OG in SU.
      assert (T : N.testbit (N.land flags (feature_supported (cx_mig c) 6)) 16 = true) by (rewrite SU; reflexivity).
      rewrite N.land_spec in T. destruct (cx_mig c); cbn in T; rewrite andb_false_r in T; discriminate T.
    + destruct (dirty_page_get d (cx_hint c) n1 n n0 bsize (zeros (N.to_nat bsize))) as [[[bm|e|cr] d1] h1] eqn:G; apply marked_report in G; auto; injection Q as <- <-; now apply cmarked_set.
  - destruct (N.ldiff flags FEATURE_MASK =? FEATURE_SET).
    + destruct (argsz <? N.of_nat (length body)); [eapply K; exact H|]. destruct (is_migration_feature f).
      * unfold migration_feature_set in H. destruct (negb (f =? FEATURE_MIG_DEVICE_STATE)); [eapply K; exact H|]. needs H; [|eapply K; exact H].
        destruct (cx_mig c) as [cur|]; [|eapply K; exact H]. destruct (migration_set_state (or_trans o) cur n) as [[res cur'] ev1].
        injection H as _ <- _. eapply cmarked_same; [|exact CM]. destruct c; reflexivity.
      * destruct (is_dma_feature f); [|eapply K; exact H]. destruct (dma_feature_set c o f body) as [r1 c1] eqn:Q. injection H as <- <- <-.
        unfold dma_feature_set in Q. rewrite D in Q. destruct (f =? FEATURE_DMA_LOGGING_START).
        { needs Q; [|injection Q as <- <-; exact CM]. destruct (logging_start (or_calloc o) d n) as [res d'] eqn:L. apply marked_start in L; [|exact M]. injection Q as <- <-. now apply cmarked_set. }
        destruct (f =? FEATURE_DMA_LOGGING_STOP) eqn:E7; [exfalso; apply N7; change FEATURE_DMA_LOGGING_STOP with 7 in E7; lia|].
        injection Q as <- <-. exact CM.
    + destruct (negb (has (N.ldiff flags FEATURE_MASK) FEATURE_PROBE)); [eapply K; exact H|]. destruct (argsz <? N.of_nat (length body)); eapply K, H.
Qed.

Lemma dispatch_marked c o cmd body fds r c' fds' ev : dispatch c o cmd body fds = (r, c', fds', ev) -> no_crash r -> body_leaves (di_iova i) cmd body -> cmarked c -> cmarked c'.
Proof.
  intros H NC BL CM. unfold dispatch in H.
  assert (K : forall r0 f0 e0, (r0, c, f0, e0) = (r, c', fds', ev) -> cmarked c') by (intros r0 f0 e0 Q; injection Q as _ <- _ _; exact CM).
  destruct (cmd =? CMD_DMA_MAP); [destruct (cx_dma c) as [d|] eqn:D; [eapply map_marked; eauto|eapply K; exact H]|].
  destruct (cmd =? CMD_DMA_UNMAP) eqn:E3.
  { assert (cmd = 3) by (change CMD_DMA_UNMAP with 3 in E3; lia). subst cmd. destruct (cx_dma c) as [d|] eqn:D; [|eapply K; exact H].
    destruct (handle_dma_unmap c d o body) as [[r1 c1] ev1] eqn:Q. injection H as <- <- <- <-. eapply unmap_marked; eauto. }
  destruct (cmd =? CMD_GET_INFO); [eapply K; exact H|]. destruct (cmd =? CMD_GET_REGION_INFO); [eapply K; exact H|].
  destruct (cmd =? CMD_GET_REGION_IO_FDS); [eapply K; exact H|]. destruct (cmd =? CMD_GET_IRQ_INFO); [eapply K; exact H|].
  destruct (cmd =? CMD_SET_IRQS).
  { destruct (cx_irqs c) as [t|]; [|eapply K; exact H]. destruct (set_irqs (cx_irq_cfg c) t (or_efd o) body fds) as [[[r1 t1] f1] ev1].
    injection H as _ <- _ _. eapply cmarked_same; [|exact CM]. destruct c; reflexivity. }
  destruct (cmd =? CMD_REGION_READ).
  { destruct (handle_region_access c o false body) as [[r1 c1] ev1] eqn:Q. injection H as _ <- _ _. apply handle_access_shape in Q. destruct Q as [(q & ->) _].
    eapply cmarked_same; [|exact CM]. destruct c; reflexivity. }
  destruct (cmd =? CMD_REGION_WRITE).
  { destruct (handle_region_access c o true body) as [[r1 c1] ev1] eqn:Q. injection H as _ <- _ _. apply handle_access_shape in Q. destruct Q as [(q & ->) _].
    eapply cmarked_same; [|exact CM]. destruct c; reflexivity. }
  destruct (cmd =? CMD_RESET).
  { unfold device_reset in H. destruct (cx_reset c); [destruct (or_reset o 0%nat)|]; injection H as _ <- _ _; try exact CM; (eapply cmarked_same; [|exact CM]; destruct c; reflexivity). }
  destruct (cmd =? CMD_FEATURE) eqn:E16.
  { assert (cmd = 16) by (change CMD_FEATURE with 16 in E16; lia). subst cmd. destruct (handle_device_feature c o body) as [[r1 c1] ev1] eqn:Q. injection H as <- <- <- <-.
    eapply feature_marked; eauto. }
  destruct (cmd =? CMD_MIG_READ); [destruct (mig_data_read (cx_mig c) (cx_max_xfer c) (or_data o) body) as [r1 ev1]; eapply K; exact H|].
  destruct (cmd =? CMD_MIG_WRITE); [destruct (mig_data_write (cx_mig c) (cx_max_xfer c) (or_data o) body) as [r1 ev1]; eapply K; exact H|].
  eapply K; exact H.
Qed.

(* ---------- steps *)

Definition pending_leaves (s : server) : Prop := match sv_pending s with PMsg m => body_leaves (di_iova i) (hd_cmd (mg_hdr m)) (mg_body m) | _ => True end.
Let smarked (s : server) : Prop := cmarked (sv_ctx s) /\ pending_leaves s.

Lemma leaves_firstn base cmd n l : body_leaves base cmd l -> body_leaves base cmd (firstn n l).
Proof.
  intros (A & B). split.
  - intros E. destruct (A E) as (A1 & A2). split; intros X; apply rd_firstn in X; contradiction.
  - intros E flags X. apply rd_firstn in X. destruct (B E _ X) as (B1 & B2). split; [exact B1|]. intros F Y. apply rd_firstn in Y. now apply (B2 F).
Qed.
Lemma leaves_nil base cmd : body_leaves base cmd [].
Proof. split; [intros _; split; discriminate|]. intros _ flags X. discriminate X. Qed.

Lemma accepted_leaves base s h fds rbody body en : en_rx en = RxMsg h fds rbody -> accepted s h rbody body -> leaves_log base (SRun en) -> body_leaves base (hd_cmd h) body.
Proof.
  intros X [b V B _] M. unfold leaves_log in M. rewrite X in M. destruct (hd_size h =? 16).
  - injection B as <-. apply leaves_nil.
  - destruct rbody as [e|l]; [discriminate B|]. unfold recv_body in B.
    destruct (N.of_nat (length (firstn (N.to_nat (hd_size h - 16)) l)) =? 0); [discriminate B|].
    destruct (negb (N.of_nat (length (firstn (N.to_nat (hd_size h - 16)) l)) =? hd_size h - 16)); [discriminate B|]. injection B as <-.
    now apply leaves_firstn.
Qed.

Lemma lost_detach s : In EvDetach (lost_events s).
Proof. unfold lost_events. rewrite !in_app_iff. cbn. tauto. Qed.

Lemma reply_marked s en h r o s' ev : reply_case s en h r o s' ev -> ~ In EvDetach ev -> smarked s -> smarked s'.
Proof.
  intros [W|W S|e W S E|e e' W S E Q P Qr|e s1 W S E Q P] ND M; auto.
  - destruct (e' =? EBUSY); [|exact M]. split; [apply M|exact Logic.I].
  - exfalso. apply ND. rewrite in_app_iff. right. apply lost_detach.
Qed.

Lemma handled_marked s en m o s' ev : handled s en m o s' ev -> body_leaves (di_iova i) (hd_cmd (mg_hdr m)) (mg_body m) -> ~ In EvDetach ev -> smarked s -> smarked s'.
Proof.
  intros [err body fds c1 fds' ev1 o1 s1 ev2 D K F R] BL ND (M & P). rewrite !in_app_iff in ND.
  eapply reply_marked; [exact R|tauto|]. split; [|exact P]. change (cmarked c1). eapply dispatch_marked; [exact D|exact Logic.I|exact BL|exact M].
Qed.

Lemma step_marked s st o s' ev : step_case s st o s' ev -> leaves_log (di_iova i) st -> ~ In EvDetach ev -> smarked s -> smarked s'.
Proof.
  intros C L ND M. destruct C; try exact M.
  - destruct (e' =? EBUSY); [split; [apply M|exact Logic.I]|exact M].
  - exfalso. apply ND. rewrite in_app_iff. right. apply lost_detach.
  - rewrite !in_app_iff in ND. eapply reply_marked; eauto.
  - split; [apply M|]. change (body_leaves (di_iova i) (hd_cmd h) body). eapply accepted_leaves; eauto.
  - rewrite in_app_iff in ND. change (smarked s'). eapply handled_marked; [eassumption|eapply accepted_leaves; eauto|tauto|exact M].
  - split; [|exact Logic.I]. assert (B : body_leaves (di_iova i) (hd_cmd (mg_hdr m)) (mg_body m)).
    { destruct M as (_ & P). unfold pending_leaves in P. match goal with X : sv_pending s = PMsg m |- _ => rewrite X in P end. exact P. }
    match goal with X : handled _ _ _ _ _ _ |- _ => apply handled_marked in X; [|exact B|exact ND|exact M] end. match goal with X : smarked _ |- _ => apply X end.
  - exfalso. apply ND. apply lost_detach.
  - split; [apply M|exact Logic.I].
  - split; [|apply M]. destruct M as ((d0 & D0 & M) & _). match goal with X : cx_dma (sv_ctx s) = Some d |- _ => rewrite X in D0; injection D0 as <- end.
    apply cmarked_set. eapply marked_mark; eauto.
  - unfold dev_hint. destruct (cx_dma (sv_ctx s)) eqn:D; [|exact M]. split; [|apply M]. eapply cmarked_same; [|apply M]. cbn. congruence.
Qed.

Lemma history_marked s l s' arr ev : history s l s' arr ev -> sinv s -> Forall (leaves_log (di_iova i)) l -> ~ In EvDetach ev -> smarked s -> smarked s'.
Proof.
  induction 1 as [s|s st o s1 ev1 l s2 arr ev2 H NC T IH]; intros SI F ND M; [exact M|]. rewrite in_app_iff in ND. inversion F; subst.
  apply step_cases in H; [|exact SI|exact NC]. destruct (step_kept _ _ _ _ _ SI H) as (_ & SI'). apply IH; auto. eapply step_marked; eauto.
Qed.
End Page.

(* ---------- marking *)

(* Marking the translation of a range leaves a mark on the page of each of its bytes. *)
Lemma mark_markable k l : forall d d', inv d -> dm_pgsize d = 2 ^ k -> sgl_mark_dirty d l = Ok d' ->
  Forall (fun s => sg_inside (dm_regions d) s /\ sg_len s <> 0 /\ sg_writeable s = true) l -> Forall (markable (dm_regions d)) l.
Proof.
  induction l as [|s l IH]; intros d d' I P H F; [constructor|]. inversion F as [|? ? ((r & N & B & O) & L & W) F']; subst.
  cbn [sgl_mark_dirty] in H. rewrite N, W in H. assert (PZ : 2 ^ k <> 0) by (apply N.pow_nonzero; discriminate).
  replace (0 <? dm_pgsize d) with true in H by (rewrite P; lia). cbn [andb] in H.
  destruct (mark_region (dm_pgsize d) r s) as [r'| |] eqn:Q; try discriminate H.
  assert (NF : rg_fd r <> (-1)%Z).
  { unfold mark_region in Q. destruct (rg_bitmap r) eqn:Bm; [|discriminate Q]. pose proof (proj1 (Forall_forall _ _) (inv_bm _ I) r (nth_error_In _ _ N)) as X.
    unfold bm_ok in X. rewrite Bm in X. apply X. }
  assert (H1 : sgl_mark_dirty d [s] = Ok (set_regions d (set_nth (sg_region s) r' (dm_regions d)))).
  { cbn [sgl_mark_dirty]. rewrite N, W. replace (0 <? dm_pgsize d) with true by (rewrite P; lia). cbn [andb]. rewrite Q. reflexivity. }
  destruct (sgl_mark_dirty_inv _ _ _ I H1) as (I1 & S1 & P1). constructor.
  - split; [exact L|]. exists r. auto.
  - assert (F1 : Forall (markable (dm_regions (set_regions d (set_nth (sg_region s) r' (dm_regions d))))) l).
    { eapply IH; [exact I1|congruence|exact H|]. eapply Forall_impl; [|exact F']. intros x ((rx & Nx & Bx & Ox) & Lx & Wx). split; [|auto].
      destruct (F2_nth_ex _ _ _ S1 _ _ Nx) as (ry & Ny & (E & _)). exists ry. rewrite E. auto. }
    eapply Forall_impl; [|exact F1]. intros x (Lx & rx & Nx & Fx & Ox). split; [exact Lx|].
    assert (BK : exists ry, nth_error (dm_regions d) (sg_region x) = Some ry /\ same_shape ry rx).
    { clear - S1 Nx. revert rx Nx. generalize (sg_region x) as j. revert S1. generalize (dm_regions (set_regions d (set_nth (sg_region s) r' (dm_regions d)))) as rs'. generalize (dm_regions d) as rs.
      intros rs rs' S1. induction S1 as [|a b la lb Hab _ IH]; intros j rx Nx; destruct j; cbn in *; try discriminate; eauto. injection Nx as <-. eauto. }
    destruct BK as (ry & Ny & (E & Ef & _)). exists ry. rewrite <- Ef, <- E. auto.
Qed.

Lemma tiles_find l : forall a b x, tiles l a b -> a <= x < b -> exists s, In s l /\ sg_base s + sg_off s <= x < sg_base s + sg_off s + sg_len s.
Proof.
  induction l as [|s l IH]; intros a b x T R; cbn [tiles] in T; [lia|]. destruct T as (E & L & T).
  destruct (N.lt_ge_cases x (a + sg_len s)) as [X|X]; [exists s; split; [now left|lia]|]. destruct (IH _ _ x T ltac:(lia)) as (s1 & S1 & S2). exists s1. split; [now right|exact S2].
Qed.
Lemma tiles_nonempty l : forall a b, tiles l a b -> Forall (fun s => sg_len s <> 0) l.
Proof. induction l as [|s l IH]; intros a b T; [constructor|]. destruct T as (_ & L & T). constructor; [lia|eauto]. Qed.

Lemma mark_marks d k addr len l d' r a : inv d -> inv2 d -> dm_max_size d <= 8 * 2 ^ 40 -> dm_pgsize d = 2 ^ k -> range_ok addr len -> may_write d addr len l ->
  sgl_mark_dirty d l = Ok d' -> In r (dm_regions d) -> covers r a -> addr <= a < addr + len ->
  rg_fd r <> (-1)%Z /\ marked (2 ^ k) (rg_info r) (rg_fd r) ((a - rg_base r) / 2 ^ k) d'.
Proof.
  intros I I2 MX P RO (hint & max & prot & h' & PW & TR) MK Hr Ca Ra.
  destruct (sgl_ok_tiles _ _ _ _ _ _ _ _ I2 RO TR) as (T & SI & _ & _). pose proof (addr_to_sgl_good _ _ _ _ _ _ _ _ TR) as G.
  assert (W : has prot PROT_WRITE = true) by (rewrite has_write; exact PW).
  assert (F : Forall (fun s => sg_inside (dm_regions d) s /\ sg_len s <> 0 /\ sg_writeable s = true) l).
  { pose proof (tiles_nonempty _ _ _ T) as NE. rewrite Forall_forall in *. intros s Hs. split; [auto|]. split; [auto|]. destruct (G s Hs) as (_ & ->). exact W. }
  pose proof (mark_markable k l d d' I P MK F) as MM. destruct (mark_list k l d I P MX MM) as (d1 & E & LG). rewrite MK in E. injection E as <-.
  destruct (tiles_find _ _ _ a T Ra) as (s & Hs & Rs). pose proof (proj1 (Forall_forall _ _) F s Hs) as ((r1 & N1 & B1 & O1) & L1 & W1).
  apply In_nth_error in Hr. destruct Hr as (j & Nj).
  assert (Ej : sg_region s = j).
  { destruct I2 as (_ & DJ). apply (DJ (sg_region s) j r1 r a N1 Nj); [|exact Ca]. unfold covers. rewrite <- B1. lia. }
  rewrite Ej, Nj in N1. injection N1 as <-.
  assert (LP : logged d' j ((a - rg_base r) / 2 ^ k)).
  { apply LG. right. exists s. split; [exact Hs|]. split; [exact W1|]. split; [exact Ej|]. exists (a - rg_base r). split; [|reflexivity]. unfold rg_base. rewrite <- B1. lia. }
  destruct (sgl_mark_dirty_inv _ _ _ I MK) as (_ & SH & PP). destruct (F2_nth_ex _ _ _ SH _ _ Nj) as (r' & Nj' & (Ei & Ef & _)).
  destruct LP as (rl & bm & Nl & Bm & PS). rewrite Nj' in Nl. injection Nl as <-.
  split.
  - destruct (proj1 (Forall_forall _ _) MM s Hs) as (_ & rm & Nm & Fm & _). rewrite Ej, Nj in Nm. injection Nm as <-. exact Fm.
  - split; [congruence|]. split; [apply N.pow_nonzero; discriminate|]. exists r', bm. split; [eapply nth_error_In; exact Nj'|]. auto.
Qed.

