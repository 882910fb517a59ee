(* What each handler leaves alone. *)
From Coq Require Import NArith ZArith List Bool Lia ZifyBool ZifyNat ZifyN.
From Verif Require Import Base Types Bytes BytesProofs BufProofs Spec Dma Dirty DmaOps SpecDma DmaProofs PropDma Migr Irq SpecIrq Pci Handlers
  SpecHandlers HandlersProofs HandlersDma Server SpecServer ServerProofs PropServer SpecMsg ServerDma PropDmaMsg SpecOnly.
Import ListNotations.
Open Scope N_scope.
Ltac Zify.zify_post_hook ::= idtac.

Lemma fixed_refl c : same_fixed c c.
Proof. unfold same_fixed. auto 10. Qed.
Lemma state_refl c : same_state c c.
Proof. unfold same_state. auto using fixed_refl. Qed.
Lemma about_refl cmd c : about cmd c c.
Proof. unfold about. auto 8 using fixed_refl. Qed.
Lemma state_about cmd c c' : same_state c c' -> about cmd c c'.
Proof. intros (F & D & I & P & M). unfold about, guest_memory. rewrite D. auto 8. Qed.
Lemma state_hint c d h : cx_dma c = Some d -> same_state c (set_dma c d h).
Proof. intros D. destruct c; cbn in *. unfold same_state, same_fixed. cbn. auto 15. Qed.
Lemma about_dma cmd c d d' h : cx_dma c = Some d -> cmd = 2 \/ cmd = 3 -> about cmd c (set_dma c d' h).
Proof. intros D E. destruct c. unfold about, same_fixed, guest_memory. cbn. repeat split; intros; try reflexivity; tauto. Qed.
Lemma about_log c d d' h : cx_dma c = Some d -> map rg_info (dm_regions d') = map rg_info (dm_regions d) -> about 16 c (set_dma c d' h).
Proof. intros D E. destruct c. cbn in D. subst. unfold about, same_fixed, guest_memory. cbn. rewrite E. repeat split; intros; try reflexivity; tauto. Qed.

Lemma infos_of (rs rs' : list region) : Forall2 same_shape rs rs' -> map rg_info rs' = map rg_info rs.
Proof. induction 1 as [|a b l l' (E & _) _ IH]; [reflexivity|]. cbn. now rewrite E, IH. Qed.

Lemma get_failed d hint addr len cp size buf o d' h : dirty_page_get d hint addr len cp size buf = (o, d', h) -> (forall x, o <> Ok x) -> d' = d.
Proof.
  intros H NO. unfold dirty_page_get in H. destruct (addr_to_sgl d hint addr len 1 0) as [res hint'].
  repeat match type of H with
  | (_, ?x, _) = _ => injection H as Ho <- _; try reflexivity; exfalso; eapply NO; symmetry; exact Ho
  | match ?x with _ => _ end = _ => destruct x
  end.
Qed.

Lemma remove_failed cb d addr size o d' : remove_region cb d addr size = (o, d') -> (forall x, o <> Ok x) -> d' = d.
Proof.
  intros H NO. unfold remove_region in H. destruct (remove_scan cb (dm_regions d) addr size) as [o1 rs] eqn:Q. injection H as <- <-.
  assert (E : rs = dm_regions d).
  { revert o1 rs Q NO. generalize (dm_regions d) as l. induction l as [|x l IH]; intros o1 rs Q NO; cbn [remove_scan] in Q; [now injection Q as <- <-|].
    destruct (same_range x addr size).
    - destruct (release_region cb x); injection Q as <- <-; [eelim NO; reflexivity|reflexivity..].
    - destruct (remove_scan cb l addr size) as [o2 r2] eqn:E. injection Q as <- <-. f_equal. now apply (IH o2). }
  rewrite E. destruct d; reflexivity.
Qed.

Lemma remove_all_failed cb d o d' : remove_all_regions cb d = (o, d') -> (forall x, o <> Ok x) -> d' = d.
Proof. intros H NO. unfold remove_all_regions in H. destruct (release_all cb (dm_regions d)); injection H as <- <-; [eelim NO; reflexivity|reflexivity..]. Qed.

Lemma map_failed cb os d addr size fd off prot o d' ev : dma_map_request cb os d addr size fd off prot = (o, d', ev) -> (forall x, o <> Ok x) -> (forall x, o <> Crash x) -> d' = d.
Proof.
  intros H NO NC. destruct o as [x|e|c]; [now destruct (NO x)| |now destruct (NC c)]. eapply C02_failed_map_unchanged; eauto.
Qed.

Lemma start_scan_none calloc pgsize rs : forall idx o rs', start_scan calloc idx rs pgsize = (o, rs') ->
  (forall r, In r rs -> rg_bitmap r = None) -> (forall x, o <> Ok x) -> rs' = rs.
Proof.
  induction rs as [|x rs IH]; intros idx o rs' H Z NO; cbn [start_scan] in H; [now injection H as <- <-|].
  assert (Zx : set_bitmap x None = x) by (pose proof (Z x (or_introl eq_refl)) as B; destruct x; cbn in *; subst; reflexivity).
  assert (Zr : forall y, In y rs -> rg_bitmap y = None) by (intros y Hy; apply Z; now right).
  destruct (rg_fd x =? -1)%Z.
  - destruct (start_scan calloc (S idx) rs pgsize) as [o1 r1] eqn:Q. specialize (IH _ _ _ Q Zr).
    destruct o1 as [[]| |]; injection H as <- <-; [now destruct (NO tt)|rewrite Zx, IH; [reflexivity|discriminate]..].
  - destruct (start_on_region (calloc idx) x pgsize) as [x'| |] eqn:S; [|now injection H as <- <-..].
    destruct (start_scan calloc (Datatypes.S idx) rs pgsize) as [o1 r1] eqn:Q. specialize (IH _ _ _ Q Zr).
    destruct o1 as [[]| |]; injection H as <- <-; [now destruct (NO tt)|rewrite Zx, IH; [reflexivity|discriminate]..].
Qed.

Lemma start_failed calloc d pgsize o d' : inv d -> logging_start calloc d pgsize = (o, d') -> (forall x, o <> Ok x) -> d' = d.
Proof.
  intros I H NO. unfold logging_start in H. destruct (pgsize =? 0); [now injection H as _ <-|].
  destruct (0 <? dm_pgsize d) eqn:E; [destruct (negb (dm_pgsize d =? pgsize)); now injection H as _ <-|].
  destruct (start_scan calloc 0 (dm_regions d) pgsize) as [o1 rs] eqn:Q.
  assert (NO1 : forall x, o1 <> Ok x) by (intros [] ->; injection H as <- _; now apply (NO tt)).
  apply start_scan_none in Q; [|intros r Hr; pose proof (proj1 (Forall_forall _ _) (inv_bm _ I) r Hr) as X; unfold bm_ok in X; destruct (rg_bitmap r); [destruct X as (X & _); lia|reflexivity]|exact NO1].
  destruct o1 as [[]| |]; [now destruct (NO1 tt)|injection H as _ <-; rewrite Q; destruct d; reflexivity..].
Qed.

Lemma bind_no_err ix n : forall i l t e1 t1 f1 ev1, bind_loop t ix i n l <> (Err e1, t1, f1, ev1).
Proof.
  induction n as [|n IH]; intros i l t e1 t1 f1 ev1 Q; cbn [bind_loop] in Q; [discriminate Q|].
  destruct (get_efd t ix i); [|discriminate Q]. destruct l as [|fd l]; [discriminate Q|]. destruct (fd <? 0)%Z; [discriminate Q|].
  destruct (bind_loop (set_efd t ix i fd) ix (i + 1) n l) as [[[o2 t2] f2] ev2] eqn:E. injection Q as -> _ _ _. eapply IH; exact E.
Qed.

Lemma set_irqs_failed c t ans body fds e out f t' fds' ev : set_irqs c t ans body fds = (HReply e out f, t', fds', ev) -> e <> 0 -> t' = t.
Proof.
  intros H NE. unfold set_irqs in H. destruct (N.of_nat (length body) <? 20); [injection H as _ _ _ <- _ _; reflexivity|].
  needs H; try discriminate H. destruct (negb (set_irqs_valid c (N.of_nat (length body)) n n0 n1 n2 n3 (N.of_nat (length fds)))); [injection H as _ _ _ <- _ _; reflexivity|].
  destruct ((N.land n0 IRQ_ACTION_TYPE_MASK =? IRQ_ACTION_MASK) || (N.land n0 IRQ_ACTION_TYPE_MASK =? IRQ_ACTION_UNMASK)).
  { destruct (irqs_set_state c n1 n2 n3 n0); try discriminate H; injection H as _ _ _ <- _ _; reflexivity. }
  destruct (((N.land n0 IRQ_DATA_TYPE_MASK =? IRQ_DATA_NONE) && (n3 =? 0)) || ((N.land n0 IRQ_DATA_TYPE_MASK =? IRQ_DATA_EVENTFD) && (N.of_nat (length fds) =? 0))).
  { destruct (irqs_disable c t n1 n2 n3) as [[[u|e1|cr] t1] ev1] eqn:Q; try discriminate H; [injection H as <- _ _ _ _ _; now destruct NE|]. exfalso. clear - Q.
    unfold irqs_disable in Q. destruct (negb (w32 (n2 + n3) <=? irq_count c n1)); [discriminate Q|]. revert t t1 ev1 Q.
    generalize (N.to_nat ((if n3 =? 0 then irq_count c n1 else n3) - n2)) as m. generalize n2 as i. intros i m. revert i. induction m as [|m IH]; intros i t t1 ev1 Q; cbn [disable_loop] in Q; [discriminate Q|].
    destruct (((n1 =? IRQ_ERR) || (n1 =? IRQ_REQ)) && negb (i =? 0)); [discriminate Q|]. destruct (get_efd t n1 i); [|discriminate Q]. destruct (disable_loop (set_efd t n1 i (-1)%Z) n1 (i + 1) m) as [[o2 t2] ev2] eqn:E.
    injection Q as -> _ _. eapply IH; exact E. }
  destruct (N.land n0 IRQ_DATA_TYPE_MASK =? IRQ_DATA_EVENTFD).
  { match type of H with context [bind_loop t ?a ?b ?n ?l] => destruct (bind_loop t a b n l) as [[[[u|e1|cr] t1] f1] ev1] eqn:Q end;
      [injection H as <- _ _ _ _ _; now destruct NE|now apply bind_no_err in Q|discriminate H]. }
  match type of H with context [signal_loop ?a ?b ?x ?n ?l ?z ?w] => destruct (signal_loop a b x n l z w) as [[u|e1|cr] ev1] end; try discriminate H; injection H as _ _ _ <- _ _; reflexivity.
Qed.

(* ---------- messages *)

Lemma map_about c d o body fds r c' fds' ev : handle_dma_map c d o body fds = (r, c', fds', ev) -> cx_dma c = Some d ->
  about 2 c c' /\ (forall e out f, r = HReply e out f -> e <> 0 -> same_state c c').
Proof.
  intros H D. unfold handle_dma_map in H.
  assert (K : forall r0 fds0, (r0, c, fds0, @nil event) = (r, c', fds', ev) -> about 2 c c' /\ (forall e out f, r = HReply e out f -> e <> 0 -> same_state c c'))
    by (intros r0 f0 Q; injection Q as _ <- _ _; auto using about_refl, state_refl).
  destruct (N.of_nat (length body) <? 32); [eapply K; exact H|]. needs H; try (eapply K; exact H).
  destruct (n <? 32); [eapply K; exact H|]. destruct (negb (N.ldiff n0 3 =? 0)); [eapply K; exact H|].
  destruct (match fds with [] => ((-1)%Z, []) | f :: fs => (f, (-1)%Z :: fs) end) as [f rest].
  destruct (negb (Nat.eqb (length fds) 0) && (f <? 0)%Z); [eapply K; exact H|].
  match type of H with context [dma_map_request ?a ?b ?x ?y ?z ?u ?v ?w] => destruct (dma_map_request a b x y z u v w) as [[res d'] ev1] eqn:Q end.
  injection H as Er <- _ _. split; [eapply about_dma; eauto|]. intros e out f1 E NE. subst r.
  destruct res as [u|e1|cr]; [injection E as E _ _; now destruct NE| |discriminate E].
  assert (d' = d) by (eapply map_failed; [exact Q|discriminate|discriminate]). subst d'. now apply state_hint.
Qed.

Lemma unmap_about c d o body r c' ev : cinv c -> handle_dma_unmap c d o body = (r, c', ev) -> cx_dma c = Some d ->
  about 3 c c' /\
  (forall e out f, r = HReply e out f -> e <> 0 -> rd body 4 4 <> Some 1 -> same_state c c') /\
  (forall e out f, r = HReply e out f -> e <> 0 -> guest_memory c' = guest_memory c).
Proof.
  intros CI H D. unfold handle_dma_unmap in H.
  assert (SS : same_state c c' -> about 3 c c' /\ (forall e out f, r = HReply e out f -> e <> 0 -> rd body 4 4 <> Some 1 -> same_state c c') /\
    (forall e out f, r = HReply e out f -> e <> 0 -> guest_memory c' = guest_memory c)).
  { intros S. split; [now apply state_about|]. split; [auto|]. intros _ _ _ _ _. unfold guest_memory. destruct S as (_ & -> & _). reflexivity. }
  assert (K : forall r0, (r0, c, @nil event) = (r, c', ev) -> same_state c c') by (intros r0 Q; injection Q as _ <- _; apply state_refl).
  assert (OKR : forall out, r = HReply 0 out [] -> about 3 c c' -> about 3 c c' /\ (forall e out f, r = HReply e out f -> e <> 0 -> rd body 4 4 <> Some 1 -> same_state c c') /\
    (forall e out f, r = HReply e out f -> e <> 0 -> guest_memory c' = guest_memory c)).
  { intros out E A. split; [exact A|]. split; intros e o1 f E1; rewrite E in E1; injection E1 as <- _ _; intros NE; now destruct NE. }
  assert (CR : forall cr, r = HCrash cr -> about 3 c c' -> about 3 c c' /\ (forall e out f, r = HReply e out f -> e <> 0 -> rd body 4 4 <> Some 1 -> same_state c c') /\
    (forall e out f, r = HReply e out f -> e <> 0 -> guest_memory c' = guest_memory c)).
  { intros cr E A. split; [exact A|]. split; intros e o1 f E1; rewrite E in E1; discriminate E1. }
  needs H; [|eapply SS, K; exact H].
  destruct (n =? UNMAP_DIRTY) eqn:ED; [|destruct (n =? UNMAP_ALL) eqn:EA; [|destruct (n =? 0)]].
  - apply N.eqb_eq in ED. change UNMAP_DIRTY with 1 in ED. subst n.
    needs H; try (eapply SS, K; exact H). destruct (N.of_nat (length body) <? 40); [eapply SS, K; exact H|].
    needs H; try (eapply SS, K; exact H). destruct ((n0 <? satadd_u64 40 n) || (MAX_XFER <? n0)); [eapply SS, K; exact H|].
    destruct (dirty_page_get d (cx_hint c) n1 n2 n3 n (fit (N.to_nat n) (or_junk o))) as [[[bm|e|cr] d1] h1] eqn:Q.
    + assert (I1 : map rg_info (dm_regions d1) = map rg_info (dm_regions d)) by (apply infos_of; eapply dirty_page_get_inv; [exact (ci_dma _ CI d D)|exact Q]).
      destruct (remove_region (cx_unregister c) d1 n1 n2) as [[ev2|e|cr] d2] eqn:Q2; injection H as <- <- <-.
      * eapply OKR; [reflexivity|eapply about_dma; eauto].
      * assert (d2 = d1) by (eapply remove_failed; [exact Q2|discriminate]). subst d2. split; [eapply about_dma; eauto|]. split; [intros; congruence|].
        intros _ _ _ _ _. destruct c; cbn in *. subst. unfold guest_memory. cbn. now rewrite I1.
      * eapply CR; [reflexivity|eapply about_dma; eauto].
    + apply get_failed in Q; [|discriminate]. subst d1. injection H as <- <- <-. apply SS. now apply state_hint.
    + apply get_failed in Q; [|discriminate]. subst d1. injection H as <- <- <-. apply SS. now apply state_hint.
  - do 4 (needs H; try (eapply SS, K; exact H); try match type of H with (if ?b then _ else _) = _ => destruct b; [eapply SS, K; exact H|] end).
    destruct (remove_all_regions (cx_unregister c) d) as [[ev2|e|cr] d2] eqn:Q; injection H as <- <- <-.
    + eapply OKR; [reflexivity|eapply about_dma; eauto].
    + apply remove_all_failed in Q; [|discriminate]. subst d2. apply SS. now apply state_hint.
    + eapply CR; [reflexivity|eapply about_dma; eauto].
  - destruct (N.of_nat (length body) <? 24); [eapply SS, K; exact H|].
    needs H; try (eapply SS, K; exact H). destruct ((n0 <? 24) || (MAX_XFER <? n0)); [eapply SS, K; exact H|].
    destruct (remove_region (cx_unregister c) d n1 n2) as [[ev2|e|cr] d2] eqn:Q; injection H as <- <- <-.
    + eapply OKR; [reflexivity|eapply about_dma; eauto].
    + apply remove_failed in Q; [|discriminate]. subst d2. apply SS. now apply state_hint.
    + eapply CR; [reflexivity|eapply about_dma; eauto].
  - eapply SS, K; exact H.
Qed.

Lemma stop_infos d : map rg_info (dm_regions (logging_stop d)) = map rg_info (dm_regions d).
Proof. unfold logging_stop. destruct (dm_pgsize d =? 0); [reflexivity|]. unfold set_pgsize, set_regions. cbn [dm_regions]. rewrite map_map. reflexivity. Qed.

Lemma about_mig cmd c m : cmd = 13 \/ cmd = 16 -> about cmd c (set_mig c m).
Proof. intros E. destruct c. unfold about, same_fixed, guest_memory. cbn. repeat split; intros; try reflexivity; tauto. Qed.

Lemma feature_about c o body r c' ev : cinv c -> handle_device_feature c o body = (r, c', ev) ->
  about 16 c c' /\
  (forall e out f, r = HReply e out f -> e <> 0 -> (forall flags, rd body 4 4 = Some flags -> flags mod 2 ^ 16 <> 2) -> same_state c c') /\
  (forall e out f, r = HReply e out f -> e <> 0 -> cx_dma c' = cx_dma c).
Proof.
  intros CI H. unfold handle_device_feature in H.
  assert (SS : same_state c c' -> about 16 c c' /\ (forall e out f, r = HReply e out f -> e <> 0 -> (forall flags, rd body 4 4 = Some flags -> flags mod 2 ^ 16 <> 2) -> same_state c c') /\
    (forall e out f, r = HReply e out f -> e <> 0 -> cx_dma c' = cx_dma c)).
  { intros S. split; [now apply state_about|]. split; [auto|]. intros. apply S. }
  assert (K : forall r0, (r0, c, @nil event) = (r, c', ev) -> same_state c c') by (intros r0 Q; injection Q as _ <- _; apply state_refl).
  assert (OKR : (forall e out f, r = HReply e out f -> e = 0) -> about 16 c c' -> about 16 c c' /\ (forall e out f, r = HReply e out f -> e <> 0 -> (forall flags, rd body 4 4 = Some flags -> flags mod 2 ^ 16 <> 2) -> same_state c c') /\
    (forall e out f, r = HReply e out f -> e <> 0 -> cx_dma c' = cx_dma c)).
  { intros E A. split; [exact A|]. split; intros e o1 f E1; apply E in E1; intros NE; now destruct NE. }
  destruct (N.of_nat (length body) <? 8); [eapply SS, K; exact H|]. needs H; try (eapply SS, K; exact H). rename n into argsz, n0 into flags.
  assert (FM : N.land flags FEATURE_MASK = flags mod 2 ^ 16) by (change FEATURE_MASK with (N.ones 16); apply N.land_ones).
  revert H FM. generalize (N.land flags FEATURE_MASK) as f. intros f H FM.
  destruct (negb (N.land flags (feature_supported (cx_mig c) f) =? N.ldiff flags FEATURE_MASK) || (feature_supported (cx_mig c) f =? 0)); [eapply SS, K; exact H|].
  destruct (N.ldiff flags FEATURE_MASK =? FEATURE_GET).
  - destruct (is_migration_feature f); [eapply SS, K; exact H|]. destruct (is_dma_feature f); [|eapply SS, K; exact H].
    destruct (dma_feature_get c argsz flags body) as [r1 c1] eqn:Q. injection H as <- <- <-. unfold dma_feature_get in Q.
    assert (K1 : forall r0, (r0, c) = (r1, c1) -> same_state c c1) by (intros r0 X; injection X as _ <-; apply state_refl).
    destruct (cx_dma c) as [d|] eqn:D; [|repeat match type of Q with (match ?x with _ => _ end) = _ => destruct x end; (eapply SS, K1; exact Q) || (injection Q as <- <-; apply SS, state_refl)].
    needs Q; try (eapply SS, K1; exact Q). destruct (get_bitmap_size n n0) as [bsize| |]; [|eapply SS, K1; exact Q..].
    destruct (argsz <? 32 + bsize); [eapply SS, K1; exact Q|]. needs Q; [|eapply SS, K1; exact Q].
    destruct (dirty_page_get d (cx_hint c) n1 n n0 bsize (zeros (N.to_nat bsize))) as [[[bm|e|cr] d1] h1] eqn:G; injection Q as <- <-.
    + apply OKR; [intros e out f0 E; now injection E as <- _ _|]. eapply about_log; [exact D|]. apply infos_of. eapply dirty_page_get_inv; [exact (ci_dma _ CI d D)|exact G].
    + apply get_failed in G; [|discriminate]. subst d1. apply SS. now apply state_hint.
    + apply get_failed in G; [|discriminate]. subst d1. apply SS. now apply state_hint.
  - destruct (N.ldiff flags FEATURE_MASK =? FEATURE_SET).
    + destruct (argsz <? N.of_nat (length body)); [eapply SS, K; exact H|]. destruct (is_migration_feature f) eqn:MF.
      * unfold migration_feature_set in H. destruct (negb (f =? FEATURE_MIG_DEVICE_STATE)) eqn:F2; [eapply SS, K; exact H|]. needs H; [|eapply SS, K; exact H].
        destruct (cx_mig c) as [cur|]; [|eapply SS, K; exact H]. destruct (migration_set_state (or_trans o) cur n) as [[res cur'] ev1].
        injection H as _ <- _. split; [apply about_mig; auto|]. split; [|intros; destruct c; reflexivity].
        intros e out f0 _ _ NF. exfalso. apply (NF flags eq_refl). rewrite <- FM. change FEATURE_MIG_DEVICE_STATE with 2 in F2. lia.
      * destruct (is_dma_feature f); [|eapply SS, K; exact H]. destruct (dma_feature_set c o f body) as [r1 c1] eqn:Q. injection H as <- <- <-.
        unfold dma_feature_set in Q. destruct (cx_dma c) as [d|] eqn:D; [|injection Q as <- <-; apply SS, state_refl]. destruct (f =? FEATURE_DMA_LOGGING_START).
        { needs Q; [|injection Q as <- <-; apply SS, state_refl]. destruct (logging_start (or_calloc o) d n) as [res d'] eqn:L.
          pose proof (ci_dma _ CI d D) as I. injection Q as <- <-. destruct res as [u|e|cr].
          - apply OKR; [intros e out f0 E; now injection E as <- _ _|]. eapply about_log; [exact D|]. apply infos_of. eapply logging_start_spec; [exact I|exact L].
          - apply start_failed in L; [|exact I|discriminate]. subst d'. apply SS. now apply state_hint.
          - apply start_failed in L; [|exact I|discriminate]. subst d'. apply SS. now apply state_hint. }
        destruct (f =? FEATURE_DMA_LOGGING_STOP); injection Q as <- <-; [|apply SS, state_refl].
        apply OKR; [intros e out f0 E; now injection E as <- _ _|]. eapply about_log; [exact D|apply stop_infos].
    + destruct (negb (has (N.ldiff flags FEATURE_MASK) FEATURE_PROBE)); [eapply SS, K; exact H|]. destruct (argsz <? N.of_nat (length body)); eapply SS, K, H.
Qed.

Lemma access_write_about c o body r c' ev : handle_region_access c o true body = (r, c', ev) ->
  about 10 c c' /\ (rd body 8 4 <> Some 7 -> same_state c c').
Proof.
  intros H. unfold handle_region_access in H.
  assert (SS : same_state c c' -> about 10 c c' /\ (rd body 8 4 <> Some 7 -> same_state c c')) by (intros S; split; [now apply state_about|auto]).
  assert (K : forall r0, (r0, c, @nil event) = (r, c', ev) -> same_state c c') by (intros r0 Q; injection Q as _ <- _; apply state_refl).
  destruct (N.of_nat (length body) <? 16); [eapply SS, K; exact H|]. needs H; try (eapply SS, K; exact H).
  match type of H with (if ?b then _ else _) = _ => destruct b; [eapply SS, K; exact H|] end. destruct (n1 =? 0); [eapply SS, K; exact H|].
  destruct (region_access c o n0 true n n1 (skipn 16 body)) as [[[res buf] c1] ev1] eqn:A.
  assert (E : c' = c1) by (destruct res as [x| |]; [destruct (x =? n1)|..]; injection H as _ <- _; reflexivity). subst c1. clear H.
  unfold region_access in A. destruct (nth_error (cx_regs c) (N.to_nat n0)) as [rg|]; [|injection A as _ _ <- _; apply SS, state_refl].
  destruct ((n0 =? CFG_REGION) && negb (has (ri_flags rg) REGION_FLAG_ALWAYS_CB)) eqn:CF.
  - destruct (config_write (env_of c) (cx_pci c) (or_access o) (or_reset o) n (skipn 16 body)) as [[res1 q] ev2]. injection A as _ _ <- _.
    split; [destruct c; unfold about, same_fixed, guest_memory; cbn; repeat split; intros; try reflexivity; tauto|].
    intros N7. exfalso. apply N7. change CFG_REGION with 7 in CF. f_equal. lia.
  - destruct (negb (ri_cb rg)); [injection A as _ _ <- _; apply SS, state_refl|].
    destruct (or_access o 0%nat n n1); injection A as _ _ <- _; apply SS, state_refl.
Qed.

Lemma access_read_same c o body r c' ev : handle_region_access c o false body = (r, c', ev) -> c' = c.
Proof.
  intros H. unfold handle_region_access in H.
  destruct (N.of_nat (length body) <? 16); [now injection H as _ <- _|]. needs H; try now injection H as _ <- _.
  match type of H with (if ?b then _ else _) = _ => destruct b; [now injection H as _ <- _|] end. destruct (n1 =? 0); [now injection H as _ <- _|].
  destruct (region_access c o n0 false n n1 []) as [[[res buf] c1] ev1] eqn:A.
  assert (E : c' = c1) by (destruct res as [x| |]; [destruct (x =? n1)|..]; injection H as _ <- _; reflexivity). subst c1. clear H.
  unfold region_access in A. destruct (nth_error (cx_regs c) (N.to_nat n0)) as [rg|]; [|now injection A as _ _ <- _].
  destruct ((n0 =? CFG_REGION) && negb (has (ri_flags rg) REGION_FLAG_ALWAYS_CB)).
  - destruct (config_read (env_of c) (cx_pci c) (or_access o) n n1) as [[res1 q] ev2]. now injection A as _ _ <- _.
  - destruct (negb (ri_cb rg)); [now injection A as _ _ <- _|]. destruct (or_access o 0%nat n n1); now injection A as _ _ <- _.
Qed.

Lemma dispatch_about c o cmd body fds r c' fds' ev : cinv c -> dispatch c o cmd body fds = (r, c', fds', ev) ->
  about cmd c c' /\
  (forall e out f, r = HReply e out f -> e <> 0 -> ~ may_stop_halfway cmd body -> same_state c c') /\
  (forall e out f, r = HReply e out f -> e <> 0 -> guest_memory c' = guest_memory c /\ cx_irqs c' = cx_irqs c /\ (cmd <> 3 -> cx_dma c' = cx_dma c) /\ (cmd <> 16 -> cx_mig c' = cx_mig c)).
Proof.
  intros CI H. unfold dispatch in H.
  match goal with |- ?G => assert (SS : same_state c c' -> G) end.
  { intros S. split; [now apply state_about|]. split; [auto|]. intros. destruct S as (_ & D & I & P & M). unfold guest_memory. rewrite D. auto. }
  assert (K : forall r0 f0 e0, (r0, c, f0, e0) = (r, c', fds', ev) -> same_state c c') by (intros r0 f0 e0 Q; injection Q as _ <- _ _; apply state_refl).
  destruct (cmd =? CMD_DMA_MAP) eqn:E2.
  { assert (cmd = 2) by (change CMD_DMA_MAP with 2 in E2; lia). subst cmd. destruct (cx_dma c) as [d|] eqn:D; [|eapply SS, K; exact H].
    destruct (map_about _ _ _ _ _ _ _ _ _ H D) as (A & B). split; [exact A|]. split; [intros; eapply B; eauto|].
    intros e out f E NE. destruct (B e out f E NE) as (_ & Dd & I & P & M). unfold guest_memory. rewrite Dd, D. auto. }
  destruct (cmd =? CMD_DMA_UNMAP) eqn:E3.
  { assert (cmd = 3) by (change CMD_DMA_UNMAP with 3 in E3; lia). subst cmd. destruct (cx_dma c) as [d|] eqn:D; [|eapply SS, K; exact H].
    destruct (handle_dma_unmap c d o body) as [[r1 c1] ev1] eqn:Q. injection H as <- <- <- <-. destruct (unmap_about _ _ _ _ _ _ _ CI Q D) as (A & B & G).
    split; [exact A|]. split; [intros e out f E NE NH; apply (B e out f E NE); intros X; apply NH; left; auto|].
    intros e out f E NE. split; [eapply G; eauto|]. destruct A as (_ & _ & _ & A1 & A2 & A3). split; [apply A1; discriminate|]. split; [intros X; now destruct X|]. intros _. apply A3; discriminate. }
  destruct (cmd =? CMD_GET_INFO); [eapply SS, K; exact H|]. destruct (cmd =? CMD_GET_REGION_INFO); [eapply SS, K; exact H|].
  destruct (cmd =? CMD_GET_REGION_IO_FDS); [eapply SS, K; exact H|]. destruct (cmd =? CMD_GET_IRQ_INFO); [eapply SS, K; exact H|].
  destruct (cmd =? CMD_SET_IRQS) eqn:E8.
  { assert (cmd = 8) by (change CMD_SET_IRQS with 8 in E8; lia). subst cmd. destruct (cx_irqs c) as [t|] eqn:IR; [|eapply SS, K; exact H].
    destruct (set_irqs (cx_irq_cfg c) t (or_efd o) body fds) as [[[r1 t1] f1] ev1] eqn:Q. injection H as <- <- _ _.
    assert (A : about 8 c (set_irqt c t1)) by (destruct c; unfold about, same_fixed, guest_memory; cbn; repeat split; intros; try reflexivity; tauto).
    assert (B : forall e out f, r1 = HReply e out f -> e <> 0 -> same_state c (set_irqt c t1)).
    { intros e out f -> NE. apply set_irqs_failed in Q; [|exact NE]. subst t1. destruct c; cbn in IR; subst; unfold same_state, same_fixed; cbn; auto 15. }
    split; [exact A|]. split; [intros; eapply B; eauto|]. intros e out f E NE. destruct (B e out f E NE) as (_ & Dd & I & P & M). unfold guest_memory. rewrite Dd. rewrite <- IR. auto. }
  destruct (cmd =? CMD_REGION_READ).
  { destruct (handle_region_access c o false body) as [[r1 c1] ev1] eqn:Q. injection H as _ <- _ _. apply access_read_same in Q. subst c1. apply SS, state_refl. }
  destruct (cmd =? CMD_REGION_WRITE) eqn:E10.
  { assert (cmd = 10) by (change CMD_REGION_WRITE with 10 in E10; lia). subst cmd. destruct (handle_region_access c o true body) as [[r1 c1] ev1] eqn:Q. injection H as _ <- _ _.
    apply access_write_about in Q. destruct Q as (A & B). split; [exact A|]. split; [intros e out f E NE NH; apply B; intros X; apply NH; right; left; auto|].
    intros _ _ _ _ _. destruct A as (_ & A0 & A1 & A2 & A3 & A4). split; [apply A0; discriminate|]. split; [apply A2; discriminate|]. split; intros _; [apply A1|apply A4]; discriminate. }
  destruct (cmd =? CMD_RESET) eqn:E13.
  { assert (cmd = 13) by (change CMD_RESET with 13 in E13; lia). subst cmd. destruct (device_reset c (or_reset o 0%nat) ResetDevice) as [[res c1] ev1] eqn:Q. injection H as <- <- _ _. unfold device_reset in Q.
    assert (OKR : res = Ok tt -> c1 = set_mig c (match cx_mig c with Some _ => Some ST_RUNNING | None => None end) -> about 13 c c1 /\
      (forall e out f, match res with Ok _ => HReply 0 [] [] | Err e0 => herr e0 | Crash cr => HCrash cr end = HReply e out f -> e <> 0 -> ~ may_stop_halfway 13 body -> same_state c c1) /\
      (forall e out f, match res with Ok _ => HReply 0 [] [] | Err e0 => herr e0 | Crash cr => HCrash cr end = HReply e out f -> e <> 0 -> guest_memory c1 = guest_memory c /\ cx_irqs c1 = cx_irqs c /\ (13 <> 3 -> cx_dma c1 = cx_dma c) /\ (13 <> 16 -> cx_mig c1 = cx_mig c))).
    { intros -> ->. split; [apply about_mig; auto|]. split; intros e out f E NE; injection E as <- _ _; now destruct NE. }
    destruct (cx_reset c); [destruct (or_reset o 0%nat)|].
    - injection Q as <- <- <-. apply SS, state_refl.
    - injection Q as <- <- <-. now apply OKR.
    - injection Q as <- <- <-. now apply OKR. }
  destruct (cmd =? CMD_FEATURE) eqn:E16.
  { assert (cmd = 16) by (change CMD_FEATURE with 16 in E16; lia). subst cmd. destruct (handle_device_feature c o body) as [[r1 c1] ev1] eqn:Q. injection H as <- <- <- <-.
    destruct (feature_about _ _ _ _ _ _ CI Q) as (A & B & G). split; [exact A|]. split.
    - intros e out f E NE NH. apply (B e out f E NE). intros flags X Y. apply NH. right. right. eauto.
    - intros e out f E NE. destruct A as (_ & A0 & _ & A1 & A2 & _). split; [apply A0; discriminate|]. split; [apply A1; discriminate|]. split; [intros _; eapply G; eauto|intros X; now destruct X]. }
  destruct (cmd =? CMD_MIG_READ); [destruct (mig_data_read (cx_mig c) (cx_max_xfer c) (or_data o) body) as [r1 ev1]; eapply SS, K; exact H|].
  destruct (cmd =? CMD_MIG_WRITE); [destruct (mig_data_write (cx_mig c) (cx_max_xfer c) (or_data o) body) as [r1 ev1]; eapply SS, K; exact H|].
  eapply SS, K; exact H.
Qed.
