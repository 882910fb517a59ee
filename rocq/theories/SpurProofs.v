(* Nothing but the device's own marking puts a page into the log. *)
From Coq Require Import NArith ZArith List Bool Lia ZifyBool ZifyNat ZifyN.
From Verif Require Import Base Types Bytes BytesProofs BufProofs Spec Dma Dirty DmaOps SpecDma DmaProofs DmaDisjoint DmaSgl DmaRemap DirtyProofs DirtyHist PropDma PropDirty Migr Irq SpecIrq Pci Handlers
  SpecHandlers HandlersProofs HandlersDma Server SpecServer ServerProofs PropServer SpecMsg ServerDma PropDmaMsg PropPipe SpecSpur.
Import ListNotations.
Open Scope N_scope.
Ltac Zify.zify_post_hook ::= idtac.

Lemma log_after_set bm bm' p : log_after bm bm' -> page_set bm' p -> page_set bm p.
Proof.
  intros (k & Hk & ->) H. unfold page_set in *. set (j := N.to_nat (p / 8)) in *.
  destruct (lt_dec j k) as [L|L].
  - rewrite app_nth1 in H by (rewrite repeat_length; exact L). rewrite nth_repeat in H. rewrite N.bits_0 in H. discriminate H.
  - rewrite app_nth2, repeat_length in H by (rewrite repeat_length; lia). rewrite nth_skipn in H. replace (k + (j - k))%nat with j in H by lia. exact H.
Qed.

Section Page.
Variables (pg : N) (i : dma_info) (p : N).
Let named := named pg i p.

Lemma named_in d d' : (forall r bm, In r (dm_regions d') -> rg_info r = i -> rg_bitmap r = Some bm -> page_set bm p ->
    exists r0 bm0, In r0 (dm_regions d) /\ rg_info r0 = i /\ rg_bitmap r0 = Some bm0 /\ page_set bm0 p) ->
  dm_pgsize d' = dm_pgsize d -> named d' -> named d.
Proof. intros A B (P & r & bm & R1 & R2 & R3 & R4). split; [congruence|]. eauto. Qed.

Lemma named_sub d d' : (forall r, In r (dm_regions d') -> In r (dm_regions d)) -> dm_pgsize d' = dm_pgsize d -> named d' -> named d.
Proof. intros A. apply named_in. intros r bm R1 R2 R3 R4. exists r, bm. auto. Qed.

Lemma named_report d hint addr len cp size buf o d' h : dirty_page_get d hint addr len cp size buf = (o, d', h) -> named d' -> named d.
Proof.
  intros H. assert (SAME : named d -> named d) by auto.
  unfold dirty_page_get in H. destruct (addr_to_sgl d hint addr len 1 0) as [res hint'].
  destruct res as [[|s l]|n|e|c]; try (injection H as _ <- _; exact SAME).
  destruct (negb (sg_base s =? addr) || negb (sg_len s =? len)); [injection H as _ <- _; exact SAME|].
  destruct (dm_pgsize d =? 0); [injection H as _ <- _; exact SAME|].
  destruct ((cp =? 0) || negb (pow2_or_zero cp)); [injection H as _ <- _; exact SAME|].
  destruct (get_bitmap_size len (dm_pgsize d)) as [n1| |]; try (injection H as _ <- _; exact SAME);
    destruct (get_bitmap_size len cp) as [n0| |]; try (injection H as _ <- _; exact SAME).
  destruct (negb (size =? n0)); [injection H as _ <- _; exact SAME|].
  destruct (nth_error (dm_regions d) (sg_region s)) as [r|] eqn:N; [|injection H as _ <- _; exact SAME].
  destruct (rg_fd r =? -1)%Z; [injection H as _ <- _; exact SAME|].
  destruct (rg_bitmap r) as [bm|] eqn:B; [|injection H as _ <- _; exact SAME].
  destruct (report_bitmap (dm_pgsize d) cp n1 n0 bm buf) as [[out bm']| |] eqn:Q; injection H as _ <- _; try exact SAME.
  apply report_bitmap_log in Q. apply named_in; [|reflexivity]. intros r1 bm1 R1 R2 R3 R4.
  change (In r1 (set_nth (sg_region s) (set_bitmap r (Some bm')) (dm_regions d))) in R1.
  apply In_nth_error in R1. destruct R1 as (j & R1). destruct (Nat.eq_dec (sg_region s) j) as [<-|Nj].
  - rewrite set_nth_eq in R1 by (apply nth_error_Some; congruence). injection R1 as <-. injection R3 as <-.
    exists r, bm. split; [eapply nth_error_In; eauto|]. split; [exact R2|]. split; [exact B|]. eapply log_after_set; eauto.
  - rewrite set_nth_neq in R1 by exact Nj. exists r1, bm1. split; [eapply nth_error_In; eauto|auto].
Qed.

Lemma remove_scan_sub cb rs addr size o rs' r : remove_scan cb rs addr size = (o, rs') -> In r rs' -> In r rs.
Proof.
  revert o rs'. induction rs as [|x rs IH]; intros o rs' H Hin; cbn [remove_scan] in H; [injection H as <- <-; exact Hin|].
  destruct (same_range x addr size).
  - destruct (release_region cb x); injection H as <- <-; [right; exact Hin|exact Hin..].
  - destruct (remove_scan cb rs addr size) as [o1 r1] eqn:Q. injection H as <- <-. destruct Hin as [->|Hin]; [now left|right]. eapply IH; eauto.
Qed.

Lemma named_remove cb d addr size o d' : remove_region cb d addr size = (o, d') -> named d' -> named d.
Proof.
  intros H. unfold remove_region in H. destruct (remove_scan cb (dm_regions d) addr size) as [o1 rs] eqn:Q. injection H as <- <-.
  apply named_sub; [|reflexivity]. intros r Hr. eapply remove_scan_sub; eauto.
Qed.

Lemma named_remove_all cb d o d' : remove_all_regions cb d = (o, d') -> named d' -> named d.
Proof.
  intros H. unfold remove_all_regions in H. destruct (release_all cb (dm_regions d)); injection H as <- <-; auto.
  apply named_sub; [|reflexivity]. intros r [].
Qed.

Lemma named_snoc d r : match rg_bitmap r with Some bm => ~ page_set bm p | None => True end -> named (set_regions d (dm_regions d ++ [r])) -> named d.
Proof.
  intros Z. apply named_in; [|reflexivity]. intros r1 bm R1 R2 R3 R4. change (In r1 (dm_regions d ++ [r])) in R1.
  apply in_app_or in R1. destruct R1 as [R1|[<-|[]]]; [exists r1, bm; auto|]. rewrite R3 in Z. contradiction.
Qed.

Lemma start_on_blank ok r pgsize r' : start_on_region ok r pgsize = Ok r' -> match rg_bitmap r' with Some bm => ~ page_set bm p | None => True end.
Proof.
  unfold start_on_region. destruct (get_bitmap_size (rg_len r) pgsize); try discriminate. destruct ok; [|discriminate]. intros H. injection H as <-. apply page_set_repeat0.
Qed.

Lemma map_region_bitmap os r r' : map_region os r = Ok r' -> rg_bitmap r' = rg_bitmap r.
Proof. unfold map_region. destruct (os_mmap os); intros H; [injection H as <-; reflexivity|discriminate H]. Qed.

Lemma named_add os d addr size f off prot o d' ev : add_region os d addr size f off prot = (o, d', ev) -> named d' -> named d.
Proof.
  intros H. assert (SAME : named d -> named d) by auto. unfold add_region in H.
  destruct (dm_max_size d <? size); [injection H as _ <- _; exact SAME|].
  destruct (add_scan os (dm_regions d) 0 addr size f off prot); [injection H as _ <- _; exact SAME|].
  destruct (Nat.eqb (length (dm_regions d)) (dm_max_regions d)); [injection H as _ <- _; exact SAME|].
  destruct (f =? -1)%Z; [injection H as _ <- _; apply named_snoc; exact Logic.I|].
  destruct (os_blksize os) as [blk|]; [|injection H as _ <- _; exact SAME].
  match type of H with context [match (if ?b then Ok ?r0 else ?x) with _ => _ end] =>
    assert (Z : match (if b then Ok r0 else x) with Ok r1 => match rg_bitmap r1 with Some bm => ~ page_set bm p | None => True end | _ => True end) end.
  { destruct (dm_pgsize d =? 0); [exact Logic.I|].
    match goal with |- match ?x with _ => _ end => destruct x eqn:Q end; auto. eapply start_on_blank; eauto. }
  match type of H with context [match (if ?b then Ok ?r0 else ?x) with _ => _ end] => destruct (if b then Ok r0 else x) as [r1|e|c] end; [|injection H as _ <- _; exact SAME..].
  destruct (map_region os r1) as [r2|e|c] eqn:Q; injection H as _ <- _; try exact SAME. apply map_region_bitmap in Q. apply named_snoc. rewrite Q. exact Z.
Qed.

Lemma named_map cb os d addr size f off prot o d' ev : dma_map_request cb os d addr size f off prot = (o, d', ev) -> named d' -> named d.
Proof.
  unfold dma_map_request. intros H. destruct (add_region os d addr size f off prot) as [[o1 d1] ev1] eqn:Q. pose proof (named_add _ _ _ _ _ _ _ _ _ _ Q) as NQ.
  destruct o1 as [n| |]; [destruct (nth_error (dm_regions d1) n)|..]; injection H as _ <- _; exact NQ.
Qed.

Lemma start_scan_blank calloc pgsize rs : forall idx o rs', start_scan calloc idx rs pgsize = (o, rs') ->
  (forall r, In r rs -> rg_bitmap r = None) -> forall r, In r rs' -> match rg_bitmap r with Some bm => ~ page_set bm p | None => True end.
Proof.
  induction rs as [|x rs IH]; intros idx o rs' H Z r Hr; cbn [start_scan] in H; [injection H as <- <-; contradiction|].
  assert (Zx : rg_bitmap x = None) by (apply Z; now left). assert (Zr : forall y, In y rs -> rg_bitmap y = None) by (intros y Hy; apply Z; now right).
  destruct (rg_fd x =? -1)%Z.
  - destruct (start_scan calloc (S idx) rs pgsize) as [o1 r1] eqn:Q. specialize (IH _ _ _ Q Zr).
    destruct o1 as [[]| |]; injection H as <- <-; (destruct Hr as [<-|Hr]; [|now apply IH]); [rewrite Zx; exact Logic.I|exact Logic.I..].
  - destruct (start_on_region (calloc idx) x pgsize) as [x'| |] eqn:S.
    + apply start_on_blank in S. destruct (start_scan calloc (Datatypes.S idx) rs pgsize) as [o1 r1] eqn:Q. specialize (IH _ _ _ Q Zr).
      destruct o1 as [[]| |]; injection H as <- <-; (destruct Hr as [<-|Hr]; [|now apply IH]); [exact S|exact Logic.I..].
    + injection H as <- <-. rewrite (Z r Hr). exact Logic.I.
    + injection H as <- <-. rewrite (Z r Hr). exact Logic.I.
Qed.

Lemma named_start calloc d pgsize o d' : inv d -> logging_start calloc d pgsize = (o, d') -> named d' -> named d.
Proof.
  intros I H. unfold logging_start in H. destruct (pgsize =? 0); [injection H as _ <-; auto|].
  destruct (0 <? dm_pgsize d) eqn:E; [destruct (negb (dm_pgsize d =? pgsize)); injection H as _ <-; auto|].
  destruct (start_scan calloc 0 (dm_regions d) pgsize) as [o1 rs] eqn:Q.
  assert (Z : forall r, In r rs -> match rg_bitmap r with Some bm => ~ page_set bm p | None => True end).
  { eapply start_scan_blank; [exact Q|]. intros r Hr. pose proof (proj1 (Forall_forall _ _) (inv_bm _ I) r Hr) as X. unfold bm_ok in X.
    destruct (rg_bitmap r); [|reflexivity]. destruct X as (X & _). lia. }
  intros (_ & r & bm & R1 & R2 & R3 & R4). exfalso. assert (In r rs) by (destruct o1 as [[]| |]; injection H as _ <-; exact R1).
  specialize (Z r H0). rewrite R3 in Z. contradiction.
Qed.

Lemma named_stop d : named (logging_stop d) -> named d.
Proof.
  unfold logging_stop. destruct (dm_pgsize d =? 0); [auto|]. intros (_ & r & bm & R1 & R2 & R3 & R4). exfalso.
  change (In r (map (fun r => set_bitmap r None) (dm_regions d))) in R1. apply in_map_iff in R1. destruct R1 as (x & <- & _). discriminate R3.
Qed.

(* The entry e of a marking of d puts page p of region i into the log. *)
Definition entry_marks (d : dma) (e : sg) : Prop :=
  exists r, dm_pgsize d = pg /\ sg_writeable e = true /\ nth_error (dm_regions d) (sg_region e) = Some r /\ rg_info r = i /\
    (forall k, pg = 2 ^ k -> markable (dm_regions d) e -> touches pg e p).

Lemma named_mark l : forall d d', inv d -> dm_max_size d <= 8 * 2 ^ 40 -> sgl_mark_dirty d l = Ok d' -> named d' -> named d \/ exists e, In e l /\ entry_marks d e.
Proof.
  induction l as [|s l IH]; intros d d' I MX H M; cbn [sgl_mark_dirty] in H; [injection H as <-; now left|].
  destruct (nth_error (dm_regions d) (sg_region s)) as [r|] eqn:N; [|injection H as <-; now left].
  destruct (sg_writeable s && (0 <? dm_pgsize d)) eqn:W.
  2: { destruct (IH _ _ I MX H M) as [X|(e & Hi & X)]; [now left|right]. exists e. split; [now right|exact X]. }
  apply andb_true_iff in W. destruct W as (W & PZ).
  destruct (mark_region (dm_pgsize d) r s) as [r'| |] eqn:Q; try discriminate H.
  pose proof Q as Q0. apply mark_region_ok in Q0. destruct Q0 as (SH & BO).
  pose proof (proj1 (Forall_forall _ _) (inv_bm _ I) r (nth_error_In _ _ N)) as BM.
  pose proof (proj1 (Forall_forall _ _) (inv_size _ I) r (nth_error_In _ _ N)) as SZ. cbv beta in SZ.
  set (d1 := set_regions d (set_nth (sg_region s) r' (dm_regions d))) in *.
  assert (I1 : inv d1) by (eapply inv_set_region; eauto; apply BO; [lia|exact BM]).
  assert (S1 : Forall2 same_shape (dm_regions d) (dm_regions d1)) by (eapply set_nth_shape; eauto).
  destruct (IH d1 d' I1 MX H M) as [X|(e & Hi & (re & E1 & E2 & E3 & E4 & E5))].
  - destruct X as (P & r1 & bm1 & R1 & R2 & R3 & R4). apply In_nth_error in R1. destruct R1 as (j & R1).
    change (nth_error (set_nth (sg_region s) r' (dm_regions d)) j = Some r1) in R1.
    destruct (Nat.eq_dec (sg_region s) j) as [<-|Nj].
    + rewrite set_nth_eq in R1 by (apply nth_error_Some; congruence). injection R1 as <-.
      assert (RI : rg_info r = i) by (destruct SH as (X & _); congruence).
      destruct (rg_bitmap r) as [bm|] eqn:B; [|unfold mark_region in Q; rewrite B in Q; discriminate Q].
      destruct (N.testbit (nth (N.to_nat (p / 8)) bm 0) (p mod 8)) eqn:T.
      * left. split; [exact P|]. exists r, bm. split; [eapply nth_error_In; eauto|]. split; [exact RI|]. split; [exact B|exact T].
      * right. exists s. split; [now left|]. exists r. split; [exact P|]. split; [exact W|]. split; [exact N|]. split; [exact RI|].
        intros k Ek (ML & r2 & MN & _ & MB). rewrite N in MN. injection MN as <-.
        assert (P2 : dm_pgsize d = 2 ^ k) by (etransitivity; [exact P|exact Ek]). rewrite P2 in BM, Q.
        destruct (mark_region_total k r s bm) as (bm' & Z1 & _ & Z2); auto.
        { eapply N.le_trans; [exact SZ|exact MX]. }
        rewrite Z1 in Q. injection Q as <-. injection R3 as <-. rewrite Ek. apply Z2 in R4. destruct R4 as [R4|R4]; [|exact R4].
        unfold page_set in R4. rewrite T in R4. discriminate R4.
    + rewrite set_nth_neq in R1 by exact Nj. left. split; [exact P|]. exists r1, bm1. split; [eapply nth_error_In; eauto|auto].
  - right. exists e. split; [now right|].
    assert (BK : exists ry, nth_error (dm_regions d) (sg_region e) = Some ry /\ same_shape ry re).
    { clear - S1 E3. revert re E3. generalize (sg_region e) as j. revert S1. generalize (dm_regions d1) as rs'. generalize (dm_regions d) as rs.
      intros rs rs' S1. induction S1 as [|a b la lb Hab _ IH]; intros j rx Nx; destruct j; cbn in *; try discriminate; eauto. injection Nx as <-. eauto. }
    destruct BK as (ry & Ny & (Ei & Ef & _)). exists ry. split; [exact E1|]. split; [exact E2|]. split; [exact Ny|]. split; [congruence|].
    intros k Ek MK. apply (E5 k Ek). eapply markable_shape; eauto.
Qed.

(* ---------- messages *)

Definition cnamed (c : ctx) : Prop := exists d, cx_dma c = Some d /\ named d.
Lemma cnamed_same c c' : cx_dma c' = cx_dma c -> cnamed c' -> cnamed c.
Proof. intros E (d & D & M). exists d. split; [congruence|exact M]. Qed.
Lemma cnamed_set c d d' h : cx_dma c = Some d -> (named d' -> named d) -> cnamed (set_dma c d' h) -> cnamed c.
Proof. intros D A (d1 & D1 & M). exists d. split; [exact D|]. apply A. destruct c. cbn in D1. injection D1 as ->. exact M. Qed.

Lemma map_named c d o body fds r c' fds' ev : handle_dma_map c d o body fds = (r, c', fds', ev) -> cx_dma c = Some d -> cnamed c' -> cnamed c.
Proof.
  intros H D. unfold handle_dma_map in H.
  assert (K : forall r0 fds0, (r0, c, fds0, @nil event) = (r, c', fds', ev) -> cnamed c' -> cnamed c) by (intros r0 f0 Q; injection Q as _ <- _ _; auto).
  destruct (N.of_nat (length body) <? 32); [eapply K; exact H|]. needs H; try (eapply K; exact H).
  destruct (n <? 32); [eapply K; exact H|]. destruct (negb (N.ldiff n0 3 =? 0)); [eapply K; exact H|].
  destruct (match fds with [] => ((-1)%Z, []) | f :: fs => (f, (-1)%Z :: fs) end) as [f rest].
  destruct (negb (Nat.eqb (length fds) 0) && (f <? 0)%Z); [eapply K; exact H|].
  match type of H with context [dma_map_request ?a ?b ?x ?y ?z ?u ?v ?w] => destruct (dma_map_request a b x y z u v w) as [[res d'] ev1] eqn:Q end.
  injection H as _ <- _ _. eapply cnamed_set; [exact D|]. eapply named_map; eauto.
Qed.

Lemma unmap_named c d o body r c' ev : handle_dma_unmap c d o body = (r, c', ev) -> cx_dma c = Some d -> cnamed c' -> cnamed c.
Proof.
  intros H D. unfold handle_dma_unmap in H.
  assert (K : forall r0, (r0, c, @nil event) = (r, c', ev) -> cnamed c' -> cnamed c) by (intros r0 Q; injection Q as _ <- _; auto).
  needs H; [|eapply K; exact H].
  destruct (n =? UNMAP_DIRTY); [|destruct (n =? UNMAP_ALL) eqn:EA; [|destruct (n =? 0)]].
  - needs H; try (eapply K; exact H). destruct (N.of_nat (length body) <? 40); [eapply K; exact H|].
    needs H; try (eapply K; exact H). destruct ((n1 <? satadd_u64 40 n0) || (MAX_XFER <? n1)); [eapply K; exact H|].
    destruct (dirty_page_get d (cx_hint c) n2 n3 n4 n0 (fit (N.to_nat n0) (or_junk o))) as [[[bm|e|cr] d1] h1] eqn:Q; pose proof (named_report _ _ _ _ _ _ _ _ _ _ Q) as NQ.
    + destruct (remove_region (cx_unregister c) d1 n2 n3) as [[ev2|e|cr] d2] eqn:Q2; injection H as <- <- <-; pose proof (named_remove _ _ _ _ _ _ Q2) as NQ2;
        (eapply cnamed_set; [exact D|auto]).
    + injection H as <- <- <-. eapply cnamed_set; eauto.
    + injection H as <- <- <-. eapply cnamed_set; eauto.
  - do 4 (needs H; try (eapply K; exact H); try match type of H with (if ?b then _ else _) = _ => destruct b; [eapply K; exact H|] end).
    destruct (remove_all_regions (cx_unregister c) d) as [[ev2|e|cr] d2] eqn:Q; injection H as <- <- <-; pose proof (named_remove_all _ _ _ _ Q) as NQ; eapply cnamed_set; eauto.
  - destruct (N.of_nat (length body) <? 24); [eapply K; exact H|].
    needs H; try (eapply K; exact H). destruct ((n0 <? 24) || (MAX_XFER <? n0)); [eapply K; exact H|].
    destruct (remove_region (cx_unregister c) d n1 n2) as [[ev2|e|cr] d2] eqn:Q; injection H as <- <- <-; pose proof (named_remove _ _ _ _ _ _ Q) as NQ; eapply cnamed_set; eauto.
  - eapply K; exact H.
Qed.

Lemma feature_named c o body r c' ev : cinv c -> handle_device_feature c o body = (r, c', ev) -> cnamed c' -> cnamed c.
Proof.
  intros CI H. unfold handle_device_feature in H.
  assert (K : forall r0, (r0, c, @nil event) = (r, c', ev) -> cnamed c' -> cnamed c) by (intros r0 Q; injection Q as _ <- _; auto).
  destruct (N.of_nat (length body) <? 8); [eapply K; exact H|]. needs H; try (eapply K; exact H). rename n into argsz, n0 into flags.
  revert H. generalize (N.land flags FEATURE_MASK) as f. intros f H.
  destruct (negb (N.land flags (feature_supported (cx_mig c) f) =? N.ldiff flags FEATURE_MASK) || (feature_supported (cx_mig c) f =? 0)); [eapply K; exact H|].
  destruct (N.ldiff flags FEATURE_MASK =? FEATURE_GET).
  - destruct (is_migration_feature f); [eapply K; exact H|]. destruct (is_dma_feature f); [|eapply K; exact H].
    destruct (dma_feature_get c argsz flags body) as [r1 c1] eqn:Q. injection H as <- <- <-. unfold dma_feature_get in Q.
    assert (K1 : forall r0, (r0, c) = (r1, c1) -> cnamed c1 -> cnamed c) by (intros r0 X; injection X as _ <-; auto).
    destruct (cx_dma c) as [d|] eqn:D; [|repeat match type of Q with (match ?x with _ => _ end) = _ => destruct x end; (eapply K1; exact Q) || (injection Q as <- <-; auto)].
    needs Q; try (eapply K1; exact Q). destruct (get_bitmap_size n n0) as [bsize| |]; [|eapply K1; exact Q..].
    destruct (argsz <? 32 + bsize); [eapply K1; exact Q|]. needs Q; [|eapply K1; exact Q].
    destruct (dirty_page_get d (cx_hint c) n1 n n0 bsize (zeros (N.to_nat bsize))) as [[[bm|e|cr] d1] h1] eqn:G; pose proof (named_report _ _ _ _ _ _ _ _ _ _ G) as NG; injection Q as <- <-; eapply cnamed_set; eauto.
  - destruct (N.ldiff flags FEATURE_MASK =? FEATURE_SET).
    + destruct (argsz <? N.of_nat (length body)); [eapply K; exact H|]. destruct (is_migration_feature f).
      * unfold migration_feature_set in H. destruct (negb (f =? FEATURE_MIG_DEVICE_STATE)); [eapply K; exact H|]. needs H; [|eapply K; exact H].
        destruct (cx_mig c) as [cur|]; [|eapply K; exact H]. destruct (migration_set_state (or_trans o) cur n) as [[res cur'] ev1].
        injection H as _ <- _. apply cnamed_same. destruct c; reflexivity.
      * destruct (is_dma_feature f); [|eapply K; exact H]. destruct (dma_feature_set c o f body) as [r1 c1] eqn:Q. injection H as <- <- <-.
        unfold dma_feature_set in Q. destruct (cx_dma c) as [d|] eqn:D; [|injection Q as <- <-; auto]. destruct (f =? FEATURE_DMA_LOGGING_START).
        { needs Q; [|injection Q as <- <-; auto]. destruct (logging_start (or_calloc o) d n) as [res d'] eqn:L.
          assert (NL := named_start _ _ _ _ _ (ci_dma _ CI d D) L). injection Q as <- <-. eapply cnamed_set; eauto. }
        destruct (f =? FEATURE_DMA_LOGGING_STOP); injection Q as <- <-; auto. eapply cnamed_set; [exact D|apply named_stop].
    + destruct (negb (has (N.ldiff flags FEATURE_MASK) FEATURE_PROBE)); [eapply K; exact H|]. destruct (argsz <? N.of_nat (length body)); eapply K, H.
Qed.

Lemma dispatch_named c o cmd body fds r c' fds' ev : cinv c -> dispatch c o cmd body fds = (r, c', fds', ev) -> cnamed c' -> cnamed c.
Proof.
  intros CI H. unfold dispatch in H.
  assert (K : forall r0 f0 e0, (r0, c, f0, e0) = (r, c', fds', ev) -> cnamed c' -> cnamed c) by (intros r0 f0 e0 Q; injection Q as _ <- _ _; auto).
  destruct (cmd =? CMD_DMA_MAP); [destruct (cx_dma c) as [d|] eqn:D; [eapply map_named; eauto|eapply K; exact H]|].
  destruct (cmd =? CMD_DMA_UNMAP) eqn:E3.
  { destruct (cx_dma c) as [d|] eqn:D; [|eapply K; exact H].
    destruct (handle_dma_unmap c d o body) as [[r1 c1] ev1] eqn:Q. injection H as <- <- <- <-. eapply unmap_named; eauto. }
  destruct (cmd =? CMD_GET_INFO); [eapply K; exact H|]. destruct (cmd =? CMD_GET_REGION_INFO); [eapply K; exact H|].
  destruct (cmd =? CMD_GET_REGION_IO_FDS); [eapply K; exact H|]. destruct (cmd =? CMD_GET_IRQ_INFO); [eapply K; exact H|].
  destruct (cmd =? CMD_SET_IRQS).
  { destruct (cx_irqs c) as [t|]; [|eapply K; exact H]. destruct (set_irqs (cx_irq_cfg c) t (or_efd o) body fds) as [[[r1 t1] f1] ev1].
    injection H as _ <- _ _. apply cnamed_same. destruct c; reflexivity. }
  destruct (cmd =? CMD_REGION_READ).
  { destruct (handle_region_access c o false body) as [[r1 c1] ev1] eqn:Q. injection H as _ <- _ _. apply handle_access_shape in Q. destruct Q as [(q & ->) _].
    apply cnamed_same. destruct c; reflexivity. }
  destruct (cmd =? CMD_REGION_WRITE).
  { destruct (handle_region_access c o true body) as [[r1 c1] ev1] eqn:Q. injection H as _ <- _ _. apply handle_access_shape in Q. destruct Q as [(q & ->) _].
    apply cnamed_same. destruct c; reflexivity. }
  destruct (cmd =? CMD_RESET).
  { unfold device_reset in H. destruct (cx_reset c); [destruct (or_reset o 0%nat)|]; injection H as _ <- _ _; auto; (apply cnamed_same; destruct c; reflexivity). }
  destruct (cmd =? CMD_FEATURE) eqn:E16.
  { destruct (handle_device_feature c o body) as [[r1 c1] ev1] eqn:Q. injection H as <- <- <- <-. eapply feature_named; eauto. }
  destruct (cmd =? CMD_MIG_READ); [destruct (mig_data_read (cx_mig c) (cx_max_xfer c) (or_data o) body) as [r1 ev1]; eapply K; exact H|].
  destruct (cmd =? CMD_MIG_WRITE); [destruct (mig_data_write (cx_mig c) (cx_max_xfer c) (or_data o) body) as [r1 ev1]; eapply K; exact H|].
  eapply K; exact H.
Qed.

(* ---------- steps *)

Lemma names_cnamed s : names pg i p s <-> cnamed (sv_ctx s).
Proof. reflexivity. Qed.

Lemma loss_named s s' lost : loss_post s s' lost -> ~ cnamed (sv_ctx s').
Proof.
  intros (R & _) (d & D & (_ & r & bm & R1 & _)). unfold regions_of in R. rewrite D in R. rewrite R in R1. contradiction.
Qed.

Lemma reply_named s en h r o s' ev : reply_case s en h r o s' ev -> cnamed (sv_ctx s') -> cnamed (sv_ctx s).
Proof.
  intros [W|W S|e W S E|e e' W S E Q P Qr|e s1 W S E Q P] M; auto.
  - destruct (e' =? EBUSY); exact M.
  - destruct (loss_named _ _ _ P M).
Qed.

Lemma handled_named s en m o s' ev : cinv (sv_ctx s) -> handled s en m o s' ev -> cnamed (sv_ctx s') -> cnamed (sv_ctx s).
Proof.
  intros CI [err body fds c1 fds' ev1 o1 s1 ev2 D K F R] M. eapply dispatch_named; [exact CI|exact D|].
  apply reply_named in R; [|exact M]. exact R.
Qed.

Lemma step_named s st o s' ev : sinv s -> (forall d, cx_dma (sv_ctx s) = Some d -> dm_max_size d <= 8 * 2 ^ 40) ->
  step_case s st o s' ev -> names pg i p s' -> names pg i p s \/ exists l, st = SMark l /\ marks pg i p s l.
Proof.
  intros SI MX C M. rewrite names_cnamed in *.
  assert (CI : cinv (sv_ctx s)) by apply SI.
  destruct C; auto; try (left; exact M).
  - left. destruct (e' =? EBUSY); exact M.
  - destruct (loss_named _ _ _ H3 M).
  - left. eapply reply_named; eauto.
  - left. assert (X : cnamed (sv_ctx (set_quiesced s q))); [|exact X]. eapply handled_named; [|eassumption|exact M]. exact CI.
  - left. assert (X : cnamed (sv_ctx (set_quiesced s true))); [|exact X]. eapply handled_named; [|eassumption|exact M]. exact CI.
  - exfalso. eapply (loss_named (set_quiesced s true)); [eassumption|exact M].
  - assert (I : inv d) by (destruct CI as [CI0 _]; auto). destruct M as (d1 & D1 & M). destruct (sv_ctx s) eqn:ES. cbn in D1. injection D1 as <-.
    rewrite <- ES in *. destruct (named_mark l d d' I (MX d H) H0 M) as [X|(e & Hi & (r & X1 & X2 & X3 & X4 & X5))].
    + left. exists d. auto.
    + right. exists l. split; [reflexivity|]. exists d, e, r. auto 8.
  - left. unfold dev_hint in M. destruct (cx_dma (sv_ctx s)) eqn:D; [|exact M]. eapply cnamed_same; [|exact M]. cbn. congruence.
Qed.
End Page.

Lemma reachable_step s st o s' ev : reachable s -> sv_step s st = (o, s', ev) -> (forall c, o <> Crash c) -> reachable s'.
Proof.
  intros (s0 & l & arr & e & F & H) ST NC. exists s0, (l ++ [st]). eexists _, _. split; [exact F|]. eapply history_app; [exact H|]. econstructor; [exact ST|exact NC|constructor].
Qed.

Lemma history_named pg i p s l s' arr ev : history s l s' arr ev -> reachable s -> names pg i p s' -> names pg i p s \/ marked_among pg i p s l.
Proof.
  induction 1 as [s|s st o s1 ev1 l s2 arr ev2 H NC T IH]; intros R M; [now left|].
  destruct (IH (reachable_step _ _ _ _ _ R H NC) M) as [M1|(l1 & m & l2 & s3 & a3 & e3 & -> & H3 & K)].
  - pose proof (step_cases _ _ _ _ _ (reachable_sinv _ R) H NC) as C.
    assert (MX : forall d, cx_dma (sv_ctx s) = Some d -> dm_max_size d <= 8 * 2 ^ 40) by (intros d D; destruct (reachable_controller _ _ R D) as (_ & _ & ->); reflexivity).
    destruct (step_named pg i p _ _ _ _ _ (reachable_sinv _ R) MX C M1) as [X|(m & -> & X)]; [now left|right].
    exists [], m, l, s, [], []. split; [reflexivity|]. split; [constructor|exact X].
  - right. exists (st :: l1), m, l2, s3. eexists _, _. split; [reflexivity|]. split; [econstructor; eauto|exact K].
Qed.

Lemma fresh_named pg i p s : fresh s -> ~ names pg i p s.
Proof. intros (([E|E] & _) & _) (d & D & (_ & r & bm & R & _)); rewrite E in D; try discriminate D. injection D as <-. contradiction. Qed.
