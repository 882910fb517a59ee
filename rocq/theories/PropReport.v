(* Property C59: guest memory the device writes is reported to the client as dirty. *)
From Coq Require Import NArith ZArith List Bool Lia ZifyBool ZifyNat ZifyN.
From Verif Require Import Base Types Bytes BytesProofs BufProofs Spec Dma Dirty DmaOps SpecDma DmaProofs DmaDisjoint DmaSgl DmaRemap DirtyProofs DirtyHist PropDma PropDirty Migr Irq SpecIrq Pci Handlers
  SpecHandlers HandlersProofs HandlersDma Server SpecServer ServerProofs PropServer SpecMsg ServerDma PropDmaMsg PropPipe SpecReport ReportProofs.
Import ListNotations.
Open Scope N_scope.
Ltac Zify.zify_post_hook ::= idtac.

(* What the two theorems below share. *)
Lemma write_kept s0 hist s arr0 ev0 d k addr len l mid s2 arr ev r a :
  fresh s0 -> history s0 hist s arr0 ev0 -> Forall maps_ok hist -> sv_pending s = PNone -> cx_dma (sv_ctx s) = Some d -> dm_pgsize d = 2 ^ k ->
  range_ok addr len -> may_write d addr len l -> history s (SMark l :: mid) s2 arr ev -> Forall maps_ok mid ->
  Forall (leaves_log (di_iova (rg_info r))) mid -> ~ In EvDetach ev -> In r (dm_regions d) -> covers r a -> addr <= a < addr + len ->
  (exists arr2 ev2, history s0 (hist ++ SMark l :: mid) s2 arr2 ev2) /\ Forall maps_ok (hist ++ SMark l :: mid) /\
  exists d2 i r2, cx_dma (sv_ctx s2) = Some d2 /\ dm_pgsize d2 = 2 ^ k /\ nth_error (dm_regions d2) i = Some r2 /\ rg_info r2 = rg_info r /\ rg_fd r2 <> (-1)%Z /\
    logged d2 i ((a - di_iova (rg_info r)) / 2 ^ k).
Proof.
  intros F H M0 PN D PG RO MW H1 M1 LV ND Hr Ca Ra.
  destruct (server_controller _ _ _ _ _ _ F H D) as (ops & evd & R & O & _). assert (RD : reached true ops d evd) by (split; auto).
  destruct (reached_inv _ _ _ _ RD) as (I & I2 & _).
  split; [eexists _, _; eapply history_app; eauto|]. split; [apply Forall_app; split; [exact M0|constructor; [exact Logic.I|exact M1]]|].
  inversion H1 as [|? ? o s1 ev1 ? ? arr1 ev2 ST NC H2]; subst. rewrite in_app_iff in ND.
  cbn [sv_step] in ST. unfold dev_mark in ST. rewrite D in ST. destruct (sgl_mark_dirty d l) as [d1|e|cr] eqn:MK.
  - injection ST as <- <- <-. destruct (mark_marks d k addr len l d1 r a I I2 (reached_max _ _ _ _ RD) PG RO MW MK Hr Ca Ra) as (NF & MM).
    assert (SI : sinv (set_ctx s (set_dma (sv_ctx s) d1 (cx_hint (sv_ctx s))))).
    { assert (H3 : history s [SMark l] (set_ctx s (set_dma (sv_ctx s) d1 (cx_hint (sv_ctx s)))) (arrived s (SMark l) ++ []) ([] ++ [])).
      { apply h_cons with (o := Ok 0) (s1 := set_ctx s (set_dma (sv_ctx s) d1 (cx_hint (sv_ctx s)))); [|intros c; discriminate|constructor].
        cbn [sv_step]. unfold dev_mark. rewrite D, MK. reflexivity. }
      exact (proj2 (history_kept _ _ _ _ _ (history_app _ _ _ _ _ _ _ _ _ H H3) (fresh_sinv _ F))). }
    assert (PL : pending_leaves (rg_info r) (set_ctx s (set_dma (sv_ctx s) d1 (cx_hint (sv_ctx s))))).
    { unfold pending_leaves. change (sv_pending (set_ctx s (set_dma (sv_ctx s) d1 (cx_hint (sv_ctx s))))) with (sv_pending s). rewrite PN. exact Logic.I. }
    pose proof (history_marked _ _ _ _ _ _ _ _ _ H2 SI LV ltac:(tauto) (conj (cmarked_set _ _ _ _ (sv_ctx s) d1 (cx_hint (sv_ctx s)) MM) PL)) as ((d2 & D2 & P2 & _ & r2 & bm & R1 & R2 & R3 & R4 & R5) & _).
    apply In_nth_error in R1. destruct R1 as (i & R1). exists d2, i, r2. split; [exact D2|]. split; [exact P2|]. split; [exact R1|]. split; [exact R2|]. split; [congruence|].
    exists r2, bm. split; [exact R1|]. split; [exact R4|exact R5].
  - exfalso. clear - MK. revert d MK. induction l as [|x l IH]; intros d MK; cbn [sgl_mark_dirty] in MK; [discriminate|].
    destruct (nth_error (dm_regions d) (sg_region x)); [|discriminate]. destruct (sg_writeable x && (0 <? dm_pgsize d)); [|eauto].
    destruct (mark_region (dm_pgsize d) r x) as [r'|e1|c1] eqn:Q; [eauto| |discriminate]. injection MK as ->. unfold mark_region in Q.
    destruct (rg_bitmap r); [|discriminate]. destruct (or_bytes l0 _) eqn:OB; try discriminate. injection Q as ->. clear - OB. revert l0 OB.
    induction (mark_ops _ _) as [|(p & q) ops IH]; intros bm OB; cbn [or_bytes] in OB; [discriminate|]. destruct (or_byte bm p q) eqn:OO; [eauto| |discriminate].
    unfold or_byte in OO. destruct (nth_error bm (N.to_nat p)); discriminate OO.
  - exfalso. injection ST as <- <- <-. now apply (NC cr).
Qed.

(* The device may write to [addr, addr+len) and, having written, marks the entries of the translation dirty.  Whatever
   happens then (other requests, resets, quiescing, more marks, maps and unmaps of other ranges), as long as the
   connection stays and nobody asks for this region's log, stops logging or unmaps the region, the next report for
   the region says that the page of every byte of the range in that region is dirty. *)
Theorem C59_write_reported : forall s0 hist s arr0 ev0 d k addr len l mid s2 arr ev r a en id body fds argsz bsize,
  fresh s0 -> history s0 hist s arr0 ev0 -> Forall maps_ok hist -> sv_pending s = PNone ->
  cx_dma (sv_ctx s) = Some d -> dm_pgsize d = 2 ^ k -> k <= 63 ->
  range_ok addr len -> may_write d addr len l ->
  history s (SMark l :: mid) s2 arr ev -> Forall maps_ok mid -> Forall (leaves_log (di_iova (rg_info r))) mid -> ~ In EvDetach ev ->
  In r (dm_regions d) -> covers r a -> addr <= a < addr + len ->
  request s2 en id 16 body fds -> cx_mig (sv_ctx s2) <> None ->
  report_fields body argsz (di_iova (rg_info r)) (di_len (rg_info r)) (2 ^ k) -> bitmap_bytes (di_len (rg_info r)) (2 ^ k) bsize -> 32 + bsize <= argsz ->
  exists s' bm, responds s2 en id 16 0 (le_bytes 4 (32 + bsize) ++ le_bytes 4 (2 ^ 16 + 8) ++ le_bytes 8 (di_iova (rg_info r)) ++
      le_bytes 8 (di_len (rg_info r)) ++ le_bytes 8 (2 ^ k) ++ bm) s' [] /\
    page_set bm ((a - di_iova (rg_info r)) / 2 ^ k).
Proof.
  intros s0 hist s arr0 ev0 d k addr len l mid s2 arr ev r a en id body fds argsz bsize F H M0 PN D PG K63 RO MW H1 M1 LV ND Hr Ca Ra RQ MG [A0 A1 A2 A3 A4] BB Z.
  destruct (write_kept _ _ _ _ _ _ _ _ _ _ _ _ _ _ _ _ F H M0 PN D PG RO MW H1 M1 LV ND Hr Ca Ra) as ((arr2 & ev2 & H2) & M2 & d2 & i & r2 & D2 & P2 & N2 & E2 & F2 & L2).
  rewrite <- E2 in A2, A3, BB.
  destruct (C13_report_request _ _ _ _ _ _ _ _ _ _ _ _ _ _ _ F H2 M2 RQ MG D2 N2 F2 P2 K63 A0 A1 A2 A3 A4 BB Z) as (s' & d' & bm & RS & _ & _ & PS & _).
  rewrite E2 in RS. exists s', bm. split; [exact RS|]. now apply PS.
Qed.
Print Assumptions C59_write_reported.

(* So does the bitmap returned when the region is unmapped instead (DMA_UNMAP with flags 1). *)
Theorem C59_write_in_unmap : forall s0 hist s arr0 ev0 d k addr len l mid s2 arr ev r a en id body fds argsz bsize,
  fresh s0 -> history s0 hist s arr0 ev0 -> Forall maps_ok hist -> sv_pending s = PNone ->
  cx_dma (sv_ctx s) = Some d -> dm_pgsize d = 2 ^ k -> k <= 63 ->
  range_ok addr len -> may_write d addr len l ->
  history s (SMark l :: mid) s2 arr ev -> Forall maps_ok mid -> Forall (leaves_log (di_iova (rg_info r))) mid -> ~ In EvDetach ev ->
  In r (dm_regions d) -> covers r a -> addr <= a < addr + len ->
  request s2 en id 3 body fds ->
  unmap_fields body argsz 1 (di_iova (rg_info r)) (di_len (rg_info r)) -> rd body 24 8 = Some (2 ^ k) -> rd body 32 8 = Some bsize ->
  bitmap_bytes (di_len (rg_info r)) (2 ^ k) bsize -> 40 + bsize <= argsz <= 1024 * 1024 ->
  exists s' bm evu, responds s2 en id 3 0 (firstn 40 body ++ bm) s' evu /\ N.of_nat (length bm) = bsize /\
    page_set bm ((a - di_iova (rg_info r)) / 2 ^ k).
Proof.
  intros s0 hist s arr0 ev0 d k addr len l mid s2 arr ev r a en id body fds argsz bsize F H M0 PN D PG K63 RO MW H1 M1 LV ND Hr Ca Ra RQ UF A5 A6 BB Z.
  destruct (write_kept _ _ _ _ _ _ _ _ _ _ _ _ _ _ _ _ F H M0 PN D PG RO MW H1 M1 LV ND Hr Ca Ra) as ((arr2 & ev2 & H2) & M2 & d2 & i & r2 & D2 & P2 & N2 & E2 & F2 & L2).
  rewrite <- E2 in UF, BB. destruct (nth_error_split _ _ N2) as (l1 & l2 & EL & LL).
  destruct (C13_unmap_with_bitmap _ _ _ _ _ _ _ _ _ _ _ _ _ _ _ _ F H2 M2 RQ D2 EL F2 P2 K63 UF A5 A6 BB Z) as (s' & bm & RS & _ & LB & PS).
  exists s', bm, (gives_up s2 r2). split; [exact RS|]. split; [exact LB|]. apply PS. rewrite LL. exact L2.
Qed.
Print Assumptions C59_write_in_unmap.

(* A server with one region of 16 pages on which logging has been started; the device writes 8192 bytes at 0x11ffc;
   then a second region is mapped, a report for it is asked for, and the device is reset. *)
Definition ex_started : server := fst (sv_run (ex_server true) (ex_steps ++ [SRun (ex_ask 16 ex_start [])])).
Definition ex_other : list N := le_bytes 4 40 ++ le_bytes 4 (2 ^ 16 + 8) ++ le_bytes 8 262144 ++ le_bytes 8 8192 ++ le_bytes 8 4096.
Definition ex_between : list step := [SRun (ex_ask 2 (ex_map_at 262144 8192 1) []); SRun (ex_ask 16 ex_other []); SRun (ex_ask 13 [] [])].
Definition ex_after : server := fst (sv_run ex_started (SMark [mk_sg 65536 0 8192 8188 true] :: ex_between)).

Example C59_case : exists d r,
  cx_dma (sv_ctx ex_started) = Some d /\ dm_pgsize d = 2 ^ 12 /\ In r (dm_regions d) /\ covers r 81000 /\ sv_pending ex_started = PNone /\
  (exists arr ev, history (ex_server true) (ex_steps ++ [SRun (ex_ask 16 ex_start [])]) ex_started arr ev) /\
  may_write d 73724 8192 [mk_sg 65536 0 8192 8188 true] /\
  (exists arr ev, history ex_started (SMark [mk_sg 65536 0 8192 8188 true] :: ex_between) ex_after arr ev /\ ~ In EvDetach ev /\ (3 <= length (replies ev))%nat) /\
  Forall (leaves_log (di_iova (rg_info r))) ex_between /\ Forall maps_ok ex_between /\
  report_fields ex_report 40 (di_iova (rg_info r)) (di_len (rg_info r)) (2 ^ 12) /\
  request ex_after (ex_ask 16 ex_report []) 7 16 ex_report [] /\ cx_mig (sv_ctx ex_after) <> None /\ length (regions_of ex_after) = 2%nat /\
  exists s' ev, sv_step ex_after (SRun (ex_ask 16 ex_report [])) = (Ok 1, s', ev) /\
     In (EvReply (mk_reply 7 16 0 (ex_report ++ [14; 0; 0; 0; 0; 0; 0; 0]) [])) ev.
Proof.
  eexists _, _. split; [vm_compute; reflexivity|]. split; [vm_compute; reflexivity|]. split; [now left|]. split; [vm_compute; split; [discriminate|reflexivity]|]. split; [vm_compute; reflexivity|].
  split.
  { destruct (history_run (ex_server true) (ex_steps ++ [SRun (ex_ask 16 ex_start [])]) ex_started (snd (sv_run (ex_server true) (ex_steps ++ [SRun (ex_ask 16 ex_start [])])))) as (arr & H);
      [vm_compute; reflexivity|vm_compute; repeat constructor|]. eauto. }
  split; [exists 0%nat, 4%nat, 2; eexists; split; [reflexivity|vm_compute; reflexivity]|].
  split.
  { destruct (history_run ex_started (SMark [mk_sg 65536 0 8192 8188 true] :: ex_between) ex_after (snd (sv_run ex_started (SMark [mk_sg 65536 0 8192 8188 true] :: ex_between)))) as (arr & H);
      [vm_compute; reflexivity|vm_compute; repeat constructor|]. eexists _, _. split; [exact H|]. split; [vm_compute; intuition discriminate|vm_compute; lia]. }
  split.
  { constructor; [|constructor; [|constructor; [|constructor]]].
    - split; intros X; discriminate X.
    - split; [intros X; discriminate X|]. intros _ f X. vm_compute in X. injection X as <-. split; [vm_compute; discriminate|]. intros _. vm_compute. discriminate.
    - split; intros X; discriminate X. }
  split; [constructor; [|constructor; [|constructor; [|constructor]]]; [intros _ a b A B; vm_compute in A, B; injection A as <-; injection B as <-; vm_compute; reflexivity|intros X; discriminate X..]|].
  split; [constructor; vm_compute; reflexivity|].
  split; [constructor; [vm_compute; auto|eexists; split; [reflexivity|]; vm_compute; repeat split; auto; discriminate|reflexivity|reflexivity|vm_compute; split; discriminate]|].
  split; [vm_compute; discriminate|]. split; [vm_compute; reflexivity|].
  eexists _, _. split; [vm_compute; reflexivity|]. vm_compute. tauto.
Qed.

(* The two conditions on the requests in between cannot be dropped in favour of "nobody asked about this page". *)

(* A report about the first page of a region forgets what is logged for the pages behind it: the report for the whole
   region that follows says that page 1, to which the device has written and about which nobody has asked, is clean. *)
Definition ex_report_first : list N := le_bytes 4 40 ++ le_bytes 4 (2 ^ 16 + 8) ++ le_bytes 8 65536 ++ le_bytes 8 4096 ++ le_bytes 8 4096.
Theorem C59_report_of_a_part_refuted : exists s0 hist s arr ev d r s1 ev1 s2 ev2 out bm,
  fresh s0 /\ history s0 hist s arr ev /\ Forall maps_ok hist /\ cx_dma (sv_ctx s) = Some d /\ dm_pgsize d = 2 ^ 12 /\ nth_error (dm_regions d) 0 = Some r /\
  covers r 69632 /\ logged d 0 ((69632 - di_iova (rg_info r)) / 2 ^ 12) /\
  request s (ex_ask 16 ex_report_first []) 7 16 ex_report_first [] /\ report_fields ex_report_first 40 (di_iova (rg_info r)) (2 ^ 12) (2 ^ 12) /\
  ~ (di_iova (rg_info r) <= 69632 < di_iova (rg_info r) + 2 ^ 12) /\
  sv_step s (SRun (ex_ask 16 ex_report_first [])) = (Ok 1, s1, ev1) /\ In (EvReply (mk_reply 7 16 0 out [])) ev1 /\
  report_fields ex_report 40 (di_iova (rg_info r)) (di_len (rg_info r)) (2 ^ 12) /\
  sv_step s1 (SRun (ex_ask 16 ex_report [])) = (Ok 1, s2, ev2) /\ In (EvReply (mk_reply 7 16 0 (ex_report ++ bm) [])) ev2 /\
  ~ page_set bm ((69632 - di_iova (rg_info r)) / 2 ^ 12).
Proof.
  destruct ex_log_history as (arr & ev & H & M). exists (ex_server true), ex_log_steps, ex_log, arr, ev. eexists _, _, _, _, _, _, _, [0; 0; 0; 0; 0; 0; 0; 0].
  split; [apply ex_fresh|]. split; [exact H|]. split; [exact M|]. split; [vm_compute; reflexivity|]. split; [vm_compute; reflexivity|]. split; [vm_compute; reflexivity|].
  split; [vm_compute; split; [discriminate|reflexivity]|]. split; [eexists _, _; split; [vm_compute; reflexivity|split; vm_compute; reflexivity]|].
  split; [constructor; [vm_compute; auto|eexists; split; [reflexivity|]; vm_compute; repeat split; auto; discriminate|reflexivity|reflexivity|vm_compute; split; discriminate]|].
  split; [constructor; vm_compute; reflexivity|]. split; [vm_compute; intros (_ & X); discriminate X|].
  split; [vm_compute; reflexivity|]. split; [vm_compute; left; reflexivity|]. split; [constructor; vm_compute; reflexivity|].
  split; [vm_compute; reflexivity|]. split; [vm_compute; tauto|vm_compute; discriminate].
Qed.
Print Assumptions C59_report_of_a_part_refuted.

(* A DMA_UNMAP with the dirty page bitmap that is refused, because no region has the size named, has emptied the
   region's log all the same; its reply carries no bitmap, so the pages are lost to the client. *)
Definition ex_unmap_part : list N := le_bytes 4 48 ++ le_bytes 4 1 ++ le_bytes 8 65536 ++ le_bytes 8 4096 ++ le_bytes 8 4096 ++ le_bytes 8 8.
Theorem C59_refused_unmap_refuted : exists s0 hist s arr ev d r s1 ev1 s2 ev2 e bm,
  fresh s0 /\ history s0 hist s arr ev /\ Forall maps_ok hist /\ cx_dma (sv_ctx s) = Some d /\ dm_pgsize d = 2 ^ 12 /\ nth_error (dm_regions d) 0 = Some r /\
  covers r 69632 /\ logged d 0 ((69632 - di_iova (rg_info r)) / 2 ^ 12) /\
  request s (ex_ask 3 ex_unmap_part []) 7 3 ex_unmap_part [] /\ unmap_fields ex_unmap_part 48 1 (di_iova (rg_info r)) (2 ^ 12) /\
  sv_step s (SRun (ex_ask 3 ex_unmap_part [])) = (Ok 1, s1, ev1) /\ e <> 0 /\ In (EvReply (mk_reply 7 3 e [] [])) ev1 /\
  map rg_info (regions_of s1) = map rg_info (regions_of s) /\
  report_fields ex_report 40 (di_iova (rg_info r)) (di_len (rg_info r)) (2 ^ 12) /\
  sv_step s1 (SRun (ex_ask 16 ex_report [])) = (Ok 1, s2, ev2) /\ In (EvReply (mk_reply 7 16 0 (ex_report ++ bm) [])) ev2 /\
  ~ page_set bm ((69632 - di_iova (rg_info r)) / 2 ^ 12).
Proof.
  destruct ex_log_history as (arr & ev & H & M). exists (ex_server true), ex_log_steps, ex_log, arr, ev. eexists _, _, _, _, _, _, ENOENT, [0; 0; 0; 0; 0; 0; 0; 0].
  split; [apply ex_fresh|]. split; [exact H|]. split; [exact M|]. split; [vm_compute; reflexivity|]. split; [vm_compute; reflexivity|]. split; [vm_compute; reflexivity|].
  split; [vm_compute; split; [discriminate|reflexivity]|]. split; [eexists _, _; split; [vm_compute; reflexivity|split; vm_compute; reflexivity]|].
  split; [constructor; [vm_compute; auto|eexists; split; [reflexivity|]; vm_compute; repeat split; auto; discriminate|reflexivity|reflexivity|vm_compute; split; discriminate]|].
  split; [constructor; vm_compute; try reflexivity; lia|].
  split; [vm_compute; reflexivity|]. split; [discriminate|]. split; [vm_compute; tauto|]. split; [vm_compute; reflexivity|]. split; [constructor; vm_compute; reflexivity|].
  split; [vm_compute; reflexivity|]. split; [vm_compute; tauto|vm_compute; discriminate].
Qed.
Print Assumptions C59_refused_unmap_refuted.
