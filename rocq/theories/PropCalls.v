(* C52: what each setup call does. *)
From Coq Require Import NArith ZArith List Bool Lia ZifyBool ZifyNat ZifyN.
From Verif Require Import Base Types Bytes BytesProofs BufProofs Spec Dma Migr Irq Pci Handlers HandlersProofs Server SpecServer Setup SpecSetup PropSetup.
Import ListNotations.
Open Scope N_scope.
Ltac Zify.zify_post_hook ::= idtac.

Ltac unchanged := unfold changes_only, dv_ctx, on_ctx;
  cbn [dv_sv dv_express set_ctx sv_ctx sv_pending sv_quiesced sv_conn sv_realized set_regs set_pci set_reset set_quiesce set_dma_cbs set_irq_cfg set_mig set_cfg
    cx_regs cx_pci cx_quiesce cx_reset cx_dma cx_register cx_unregister cx_irq_cfg cx_mig cx_irqs cx_hint cx_max_xfer pc_cfg pc_caps pc_ext_caps pc_exp_off ic_count ic_state_cb];
  cbn [In]; intuition auto.

(* The callbacks for reset, quiesce and DMA are set as given; with DMA callbacks the device starts with an empty table. *)
Theorem C52_callbacks : forall d cb r u,
  (exists d', dev_call d (CReset cb) = (Ok tt, d') /\ changes_only [ResetCb] d d' /\ cx_reset (dv_ctx d') = cb) /\
  (exists d', dev_call d (CQuiesce cb) = (Ok tt, d') /\ changes_only [QuiesceCb] d d' /\ cx_quiesce (dv_ctx d') = cb) /\
  (exists d' t, dev_call d (CDma r u) = (Ok tt, d') /\ changes_only [Dma_] d d' /\ cx_dma (dv_ctx d') = Some t /\ dm_regions t = [] /\ dm_pgsize t = 0 /\
     cx_register (dv_ctx d') = r /\ cx_unregister (dv_ctx d') = u).
Proof.
  intros d cb r u. split; [|split].
  - eexists. split; [reflexivity|]. split; [unchanged|reflexivity].
  - eexists. split; [reflexivity|]. split; [unchanged|reflexivity].
  - eexists _, _. split; [reflexivity|]. split; [unchanged|]. repeat split; reflexivity.
Qed.
Print Assumptions C52_callbacks.

(* The number of vectors of one of the five types (INTx, MSI, MSI-X, error, request), and their state callback. *)
Theorem C52_vectors : forall d t n b, length (ic_count (cx_irq_cfg (dv_ctx d))) = 5%nat -> length (ic_state_cb (cx_irq_cfg (dv_ctx d))) = 5%nat ->
  (t < 5 ->
    (exists d', dev_call d (CNrIrqs t n) = (Ok tt, d') /\ changes_only [Vectors] d d' /\
       nth_error (ic_count (cx_irq_cfg (dv_ctx d'))) (N.to_nat t) = Some n /\
       only_at (N.to_nat t) (ic_count (cx_irq_cfg (dv_ctx d))) (ic_count (cx_irq_cfg (dv_ctx d')))) /\
    (exists d', dev_call d (CIrqCb t b) = (Ok tt, d') /\ changes_only [VectorCbs] d d' /\
       nth_error (ic_state_cb (cx_irq_cfg (dv_ctx d'))) (N.to_nat t) = Some b /\
       only_at (N.to_nat t) (ic_state_cb (cx_irq_cfg (dv_ctx d))) (ic_state_cb (cx_irq_cfg (dv_ctx d'))))) /\
  (5 <= t -> dev_call d (CNrIrqs t n) = (Err EINVAL, d) /\ dev_call d (CIrqCb t b) = (Err EINVAL, d)).
Proof.
  intros d t n b L1 L2. cbn [dev_call]. unfold setup_nr_irqs, setup_irq_cb, NUM_IRQS. split; intros T.
  - replace (5 <=? t) with false by lia. cbn [fst snd]. split; eexists; (split; [reflexivity|]); (split; [unchanged|]);
      unfold dv_ctx, on_ctx; cbn [dv_sv set_ctx sv_ctx set_irq_cfg cx_irq_cfg ic_count ic_state_cb]; fold (dv_ctx d).
    + split; [apply DmaProofs.set_nth_eq; lia|]. split; [apply DmaProofs.set_nth_length|]. intros j Hj. apply DmaProofs.set_nth_neq. congruence.
    + split; [apply DmaProofs.set_nth_eq; lia|]. split; [apply DmaProofs.set_nth_length|]. intros j Hj. apply DmaProofs.set_nth_neq. congruence.
  - replace (5 <=? t) with true by lia. cbn [fst snd]. now rewrite set_irq_cfg_same, on_ctx_same.
Qed.
Print Assumptions C52_vectors.

(* Migration: version 2 with all three callbacks; the device then is in the state running (2 in the protocol). *)
Theorem C52_migration : forall d v t r w,
  (v = 2%Z /\ t = true /\ r = true /\ w = true ->
     exists d', dev_call d (CMigration v t r w) = (Ok tt, d') /\ changes_only [Migration] d d' /\ cx_mig (dv_ctx d') = Some 2) /\
  (~ (v = 2%Z /\ t = true /\ r = true /\ w = true) -> fst (dev_call d (CMigration v t r w)) = Err EINVAL /\ changes_only [Migration] d (snd (dev_call d (CMigration v t r w)))).
Proof.
  intros d v t r w. cbn [dev_call]. unfold setup_migration. split.
  - intros (-> & -> & -> & ->). cbn [negb andb Z.eqb Pos.eqb fst snd]. eexists. split; [reflexivity|]. split; [unchanged|reflexivity].
  - intros H. destruct (Z.eqb_spec v 2) as [->|]; cbn [negb]; [|cbn [fst snd]; split; [reflexivity|unchanged]].
    destruct (t && r && w) eqn:E; cbn [negb fst snd]; [|split; [reflexivity|unchanged]].
    exfalso. apply H. destruct t, r, w; try discriminate E; auto.
Qed.
Print Assumptions C52_migration.

(* Initialising the configuration space: types 0 (conventional), 1 (PCI-X), 2 (PCI-X 2.0) and 3 (Express), header type 0,
   and only once.  It then is 256 or 4096 bytes, all zero, and region 7 readable, writeable and of that size. *)
Theorem C52_pci_init : forall d type hdr, length (cx_regs (dv_ctx d)) = 9%nat ->
  (type < 4 /\ hdr = 0 /\ pc_cfg (cx_pci (dv_ctx d)) = [] ->
     exists d' r r', dev_call d (CPciInit type hdr) = (Ok tt, d') /\ changes_only [Config; Regions; Express] d d' /\
       let size := if type <? 2 then 256 else 4096 in
       pc_cfg (cx_pci (dv_ctx d')) = repeat 0 (N.to_nat size) /\ (dv_express d' = true <-> 2 <= type) /\
       only_at 7 (cx_regs (dv_ctx d)) (cx_regs (dv_ctx d')) /\
       nth_error (cx_regs (dv_ctx d)) 7 = Some r /\ nth_error (cx_regs (dv_ctx d')) 7 = Some r' /\ ri_flags r' = 3 /\ ri_size r' = size /\
       ri_cb r' = ri_cb r /\ ri_areas r' = ri_areas r /\ ri_fd r' = ri_fd r /\ ri_off r' = ri_off r /\ ri_subs r' = ri_subs r) /\
  (~ (type < 4 /\ hdr = 0 /\ pc_cfg (cx_pci (dv_ctx d)) = []) -> exists e, dev_call d (CPciInit type hdr) = (Err e, d) /\ (e = EINVAL \/ e = EEXIST)).
Proof.
  intros d type hdr L. cbn [dev_call]. unfold pci_init. split.
  - intros (T & -> & Z). replace (4 <=? type) with false by lia. cbn [negb N.eqb]. rewrite Z.
    destruct (nth_error (cx_regs (dv_ctx d)) 7) as [r|] eqn:R; [|apply nth_error_None in R; lia].
    replace (2 <=? type) with (negb (type <? 2)) by lia. unfold zeros, PCI_CFG_SPACE_SIZE, PCI_CFG_SPACE_EXP_SIZE.
    destruct (N.ltb_spec type 2) as [Q|Q]; cbn [negb]; (eexists _, r, _; split; [reflexivity|]; split; [unchanged|]; cbv zeta;
      unfold dv_ctx; cbn [dv_sv dv_express set_ctx sv_ctx set_regs cx_regs set_pci cx_pci set_cfg pc_cfg]; fold (dv_ctx d);
      split; [reflexivity|]; split; [split; auto; try discriminate; lia|]; split; [split; [apply DmaProofs.set_nth_length|intros j Hj; apply DmaProofs.set_nth_neq; congruence]|];
      split; [reflexivity|]; split; [apply DmaProofs.set_nth_eq; lia|]; repeat split; reflexivity).
  - intros H. destruct (N.leb_spec 4 type) as [Q|Q]; [eauto|]. destruct (N.eqb_spec hdr 0) as [->|]; cbn [negb]; [|eauto].
    destruct (pc_cfg (cx_pci (dv_ctx d))) as [|x y] eqn:Z; [|eauto]. exfalso. apply H. auto.
Qed.
Print Assumptions C52_pci_init.

Lemma wr2 l off v l' : wr l off 2 v = Some l' -> with_bytes l [(off, lo v); (S off, hi v)] l'.
Proof.
  intros W. split; [exact (wr_length _ _ _ _ _ W)|]. split.
  - intros x u [E|[E|[]]]; injection E as <- <-; rewrite (wr_nth _ _ _ _ _ _ W).
    + replace (Nat.leb off off && Nat.ltb off (off + 2)) with true by lia. rewrite Nat.sub_diag. reflexivity.
    + replace (Nat.leb off (S off) && Nat.ltb (S off) (off + 2)) with true by lia. replace (S off - off)%nat with 1%nat by lia. reflexivity.
  - intros x H. cbn [map fst In] in H. rewrite (wr_nth _ _ _ _ _ _ W). now replace (Nat.leb off x && Nat.ltb x (off + 2)) with false by lia.
Qed.
Lemma wr1b l off v l' : wr l off 1 v = Some l' -> with_bytes l [(off, lo v)] l'.
Proof.
  intros W. split; [exact (wr_length _ _ _ _ _ W)|]. split.
  - intros x u [E|[]]. injection E as <- <-. rewrite (wr1 _ _ _ _ _ W). now rewrite Nat.eqb_refl.
  - intros x H. cbn [map fst In] in H. rewrite (wr1 _ _ _ _ _ W). destruct (Nat.eqb_spec x off); [subst; tauto|reflexivity].
Qed.
Lemma with_app a l1 b l2 c : with_bytes a l1 b -> with_bytes b l2 c -> (forall x, In x (map fst l1) -> ~ In x (map fst l2)) -> with_bytes a (l1 ++ l2) c.
Proof.
  intros (A1 & A2 & A3) (B1 & B2 & B3) D. split; [congruence|]. split.
  - intros x v H. apply in_app_or in H. destruct H as [H|H]; [|auto]. rewrite B3; [auto|]. apply D. apply in_map_iff. now exists (x, v).
  - intros x H. rewrite map_app, in_app_iff in H. rewrite B3, A3; tauto.
Qed.

(* Vendor and device id at 0 and 2, subsystem vendor and subsystem id at 44 and 46, little endian. *)
Theorem C52_pci_id : forall d vid did svid sid, (64 <= length (pc_cfg (cx_pci (dv_ctx d))))%nat ->
  exists d', dev_call d (CPciId vid did svid sid) = (Ok tt, d') /\ changes_only [Config] d d' /\
    with_bytes (pc_cfg (cx_pci (dv_ctx d)))
      [(0%nat, lo vid); (1%nat, hi vid); (2%nat, lo did); (3%nat, hi did); (44%nat, lo svid); (45%nat, hi svid); (46%nat, lo sid); (47%nat, hi sid)]
      (pc_cfg (cx_pci (dv_ctx d'))).
Proof.
  intros d vid did svid sid L. cbn [dev_call]. unfold set_hdr, id_stores. cbn [stores]. cbv zeta. set (cfg := pc_cfg (cx_pci (dv_ctx d))) in *.
  destruct (wr_some cfg 0 2 vid ltac:(lia)) as [c1 W1]. rewrite W1. pose proof (wr_length _ _ _ _ _ W1).
  destruct (wr_some c1 2 2 did ltac:(lia)) as [c2 W2]. rewrite W2. pose proof (wr_length _ _ _ _ _ W2).
  destruct (wr_some c2 44 2 svid ltac:(lia)) as [c3 W3]. rewrite W3. pose proof (wr_length _ _ _ _ _ W3).
  destruct (wr_some c3 46 2 sid ltac:(lia)) as [c4 W4]. rewrite W4. eexists. split; [reflexivity|]. split; [unchanged|].
  change (pc_cfg (cx_pci (dv_ctx (on_ctx d (set_pci (dv_ctx d) (set_cfg (cx_pci (dv_ctx d)) c4)))))) with c4.
  change (with_bytes cfg ((([(0%nat, lo vid); (1%nat, hi vid)] ++ [(2%nat, lo did); (3%nat, hi did)]) ++ [(44%nat, lo svid); (45%nat, hi svid)]) ++ [(46%nat, lo sid); (47%nat, hi sid)]) c4).
  repeat eapply with_app; try (eapply wr2; eassumption); cbn [map fst In app]; intros x H' H''; intuition (subst; discriminate).
Qed.
Print Assumptions C52_pci_id.

(* Base class at 11, sub-class at 10, programming interface at 9. *)
Theorem C52_pci_class : forall d base sub pi, (64 <= length (pc_cfg (cx_pci (dv_ctx d))))%nat ->
  exists d', dev_call d (CPciClass base sub pi) = (Ok tt, d') /\ changes_only [Config] d d' /\
    with_bytes (pc_cfg (cx_pci (dv_ctx d))) [(11%nat, lo base); (10%nat, lo sub); (9%nat, lo pi)] (pc_cfg (cx_pci (dv_ctx d'))).
Proof.
  intros d base sub pi L. cbn [dev_call]. unfold set_hdr, class_stores. cbn [stores]. cbv zeta. set (cfg := pc_cfg (cx_pci (dv_ctx d))) in *.
  destruct (wr_some cfg 11 1 base ltac:(lia)) as [c1 W1]. rewrite W1. pose proof (wr_length _ _ _ _ _ W1).
  destruct (wr_some c1 10 1 sub ltac:(lia)) as [c2 W2]. rewrite W2. pose proof (wr_length _ _ _ _ _ W2).
  destruct (wr_some c2 9 1 pi ltac:(lia)) as [c3 W3]. rewrite W3. eexists. split; [reflexivity|]. split; [unchanged|].
  change (pc_cfg (cx_pci (dv_ctx (on_ctx d (set_pci (dv_ctx d) (set_cfg (cx_pci (dv_ctx d)) c3)))))) with c3.
  change (with_bytes cfg (([(11%nat, lo base)] ++ [(10%nat, lo sub)]) ++ [(9%nat, lo pi)]) c3).
  repeat eapply with_app; try (eapply wr1b; eassumption); cbn [map fst In app]; intros x H' H''; intuition (subst; discriminate).
Qed.
Print Assumptions C52_pci_class.

(* The other calls: registering a region and an I/O event descriptor change the regions only (C52_region; below), adding a
   capability the configuration space and the records of capabilities (C47). *)
Theorem C52_other_calls : forall d m a pos fl data sh i io,
  changes_only [Regions] d (snd (dev_call d (CRegion m a))) /\ changes_only [Regions] d (snd (dev_call d (CIoeventfd sh i io))) /\
  changes_only [Config; Capabilities] d (snd (dev_call d (CCap pos fl data))).
Proof.
  intros d m a pos fl data sh i io. cbn [dev_call]. cbn [snd]. split; [unchanged|]. split; [unchanged|].
  destruct (nth_error (cx_regs (dv_ctx d)) 7); [|unchanged]. destruct (negb _); unchanged.
Qed.
Print Assumptions C52_other_calls.

(* The device's own stores while it is set up: within configuration space, the bytes given are there and nothing else
   changes; anything else, in particular before there is a configuration space, is an overrun. *)
Theorem C52_poke : forall d off data, let size := N.of_nat (length (pc_cfg (cx_pci (dv_ctx d)))) in
  (off + N.of_nat (length data) <= size -> exists d', dev_call d (CPoke off data) = (Ok tt, d') /\ changes_only [Config] d d' /\
     length (pc_cfg (cx_pci (dv_ctx d'))) = length (pc_cfg (cx_pci (dv_ctx d))) /\
     forall x, nth (N.to_nat x) (pc_cfg (cx_pci (dv_ctx d'))) 0 =
       if (off <=? x) && (x <? off + N.of_nat (length data)) then nth (N.to_nat (x - off)) data 0 else nth (N.to_nat x) (pc_cfg (cx_pci (dv_ctx d))) 0) /\
  (size < off + N.of_nat (length data) -> fst (dev_call d (CPoke off data)) = Crash OutOfBounds).
Proof.
  intros d off data size. cbn [dev_call]. unfold dev_poke. fold (dv_ctx d). cbv zeta. split; intros H.
  - destruct (put_slice_some (pc_cfg (cx_pci (dv_ctx d))) (N.to_nat off) data) as (cfg & E); [lia|]. rewrite E. cbn [fst snd ans]. eexists. split; [reflexivity|].
    split; [unchanged|]. split; [exact (put_slice_length _ _ _ _ E)|]. intros x.
    change (nth (N.to_nat x) cfg 0 = if (off <=? x) && (x <? off + N.of_nat (length data)) then nth (N.to_nat (x - off)) data 0 else nth (N.to_nat x) (pc_cfg (cx_pci (dv_ctx d))) 0).
    rewrite (put_slice_nth _ _ _ _ _ E).
    replace (Nat.leb (N.to_nat off) (N.to_nat x) && Nat.ltb (N.to_nat x) (N.to_nat off + length data)) with ((off <=? x) && (x <? off + N.of_nat (length data))) by lia.
    now rewrite N2Nat.inj_sub.
  - destruct (put_slice (pc_cfg (cx_pci (dv_ctx d))) (N.to_nat off) data) as [cfg|] eqn:E; [|reflexivity]. apply put_slice_bound in E. lia.
Qed.
Print Assumptions C52_poke.
Example C52_poke_case : fst (dev_call ex_ready (CPoke 8 [5])) = Ok tt /\ nth 8 (pc_cfg (cx_pci (dv_ctx (snd (dev_call ex_ready (CPoke 8 [5])))))) 0 = 5 /\
  length (pc_cfg (cx_pci (dv_ctx ex_ready))) = 256%nat /\ fst (dev_call ex_ready (CPoke 256 [5])) = Crash OutOfBounds /\ fst (dev_call ex_dev (CPoke 0 [5])) = Crash OutOfBounds.
Proof. repeat split; vm_compute; reflexivity. Qed.

(* An I/O event descriptor (of the bytes from ie_gpa to ie_gpa + ie_size of the region) is added, in front of the others,
   exactly if the region exists and contains those bytes, and there is a shadow descriptor only if the library is built
   for that. *)
Theorem C52_ioeventfd : forall d sh i io, length (cx_regs (dv_ctx d)) = 9%nat -> ie_gpa io + ie_size io < 2 ^ 64 ->
  let ok := i < 9 /\ (ie_shadow_fd io <> (-1)%Z -> sh = true) /\ (forall r, nth_error (cx_regs (dv_ctx d)) (N.to_nat i) = Some r -> ie_gpa io + ie_size io <= ri_size r) in
  (ok -> exists d' r r', dev_call d (CIoeventfd sh i io) = (Ok tt, d') /\ only_at (N.to_nat i) (cx_regs (dv_ctx d)) (cx_regs (dv_ctx d')) /\
     nth_error (cx_regs (dv_ctx d)) (N.to_nat i) = Some r /\ nth_error (cx_regs (dv_ctx d')) (N.to_nat i) = Some r' /\
     ri_subs r' = io :: ri_subs r /\ ri_flags r' = ri_flags r /\ ri_size r' = ri_size r /\ ri_cb r' = ri_cb r /\ ri_areas r' = ri_areas r /\
     ri_fd r' = ri_fd r /\ ri_off r' = ri_off r) /\
  (~ ok -> dev_call d (CIoeventfd sh i io) = (Err EINVAL, d)).
Proof.
  intros d sh i io L W ok. cbn [dev_call]. unfold create_ioeventfd.
  assert (REF : (Err EINVAL : outcome unit, on_ctx d (set_regs (dv_ctx d) (cx_regs (dv_ctx d)))) = (Err EINVAL, d)) by (now rewrite set_regs_same, on_ctx_same).
  destruct (negb sh && negb (ie_shadow_fd io =? -1)%Z) eqn:E1; cbn [fst snd].
  { split; [|intros _; exact REF]. intros (_ & H & _). destruct sh; [discriminate E1|]. specialize (H ltac:(lia)). discriminate H. }
  assert (K1 : ie_shadow_fd io <> (-1)%Z -> sh = true) by (intros H; destruct sh; [reflexivity|lia]).
  destruct (N.leb_spec 9 i) as [Q|Q]; cbn [fst snd]; [split; [intros (H & _); lia|intros _; exact REF]|].
  destruct (nth_error (cx_regs (dv_ctx d)) (N.to_nat i)) as [r|] eqn:R; [|apply nth_error_None in R; lia].
  unfold w64. rewrite N.mod_small by (change two64 with (2 ^ 64); exact W).
  destruct (N.ltb_spec (ri_size r) (ie_gpa io + ie_size io)) as [S|S]; cbn [fst snd].
  - split; [|intros _; exact REF]. intros (_ & _ & H). specialize (H r eq_refl). lia.
  - split; [|intros H; exfalso; apply H; split; [exact Q|split; [exact K1|intros r0 E; injection E as <-; exact S]]].
    intros _. eexists _, r, _. split; [reflexivity|]. unfold dv_ctx, on_ctx. cbn [dv_sv set_ctx sv_ctx set_regs cx_regs]. fold (dv_ctx d).
    split; [split; [apply DmaProofs.set_nth_length|intros j Hj; apply DmaProofs.set_nth_neq; congruence]|].
    split; [reflexivity|]. split; [apply DmaProofs.set_nth_eq; lia|]. repeat split; reflexivity.
Qed.
Print Assumptions C52_ioeventfd.

(* The hypotheses of these theorems hold of devices being set up. *)
Example C52_calls_case : length (cx_regs (dv_ctx ex_ready)) = 9%nat /\ length (ic_count (cx_irq_cfg (dv_ctx ex_ready))) = 5%nat /\
  length (ic_state_cb (cx_irq_cfg (dv_ctx ex_ready))) = 5%nat /\ length (pc_cfg (cx_pci (dv_ctx ex_ready))) = 256%nat /\
  firstn 4 (pc_cfg (cx_pci (dv_ctx (snd (dev_call ex_ready (CPciId 4660 22136 1 2)))))) = [52; 18; 120; 86] /\
  fst (dev_call ex_ready (CPciInit 1 0)) = Err EEXIST /\ fst (dev_call ex_ready (CIoeventfd false 0 (mk_ioefd 252 4 7 0 0 (-1) 0))) = Ok tt.
Proof. repeat split; vm_compute; reflexivity. Qed.
