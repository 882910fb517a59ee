(* DMA_MAP and DMA_UNMAP as the client sees them: messages on the socket, and histories of the server. *)
From Coq Require Import NArith ZArith List Bool Lia ZifyBool ZifyNat ZifyN.
From Verif Require Import Base Types Bytes BytesProofs BufProofs Spec Dma Dirty DmaOps SpecDma DmaProofs DmaDisjoint DmaRemap DirtyProofs PropDma PropDirty Migr Irq SpecIrq IrqProofs PropIrq Pci Handlers
  SpecHandlers HandlersProofs PropHandlers HandlersDma Server SpecServer ServerProofs PropServer SpecMsg ServerDma.
Import ListNotations.
Open Scope N_scope.
Ltac Zify.zify_post_hook ::= idtac.

(* ---------- histories *)

(* Whatever requests arrive, in whatever order and with whatever losses of the connection, no guest address
   belongs to two regions, as long as every range asked for ends below 2^64. *)
Theorem C01_server : forall s0 l s arr ev, fresh s0 -> history s0 l s arr ev -> Forall maps_ok l -> regions_disjoint (regions_of s).
Proof.
  intros s0 l s arr ev F H M. unfold regions_of. destruct (cx_dma (sv_ctx s)) as [d|] eqn:D.
  - destruct (server_controller _ _ _ _ _ _ F H D) as (ops & evd & R & O & _). apply (C01_regions_disjoint true ops d evd). split; auto.
  - intros i j ri rj a A. destruct i; discriminate A.
Qed.
Print Assumptions C01_server.

Lemma ex_maps_ok : Forall maps_ok ex_steps.
Proof.
  constructor; [exact Logic.I|]. constructor; [|constructor; [|constructor]].
  - intros _ addr size A B. vm_compute in A, B. injection A as <-. injection B as <-. reflexivity.
  - intros C. discriminate C.
Qed.

Example C01_server_case : exists arr ev, history (ex_server true) ex_steps (ex_busy true) arr ev /\ Forall maps_ok ex_steps /\ length (regions_of (ex_busy true)) = 1%nat.
Proof.
  destruct (history_run (ex_server true) ex_steps (ex_busy true) (snd (sv_run (ex_server true) ex_steps))) as (arr & H).
  - vm_compute; reflexivity.
  - vm_compute; repeat constructor.
  - exists arr, (concat (map snd (snd (sv_run (ex_server true) ex_steps)))). split; [exact H|]. split; [exact ex_maps_ok|vm_compute; reflexivity].
Qed.

(* Whatever the client does, the table holds at most 64 regions of at most 8 TiB. *)
Theorem C02_server : forall s, reachable s ->
  (length (regions_of s) <= 64)%nat /\ Forall (fun r => di_len (rg_info r) <= 8 * 2 ^ 40) (regions_of s).
Proof.
  intros s (s0 & l & arr & ev & F & H). unfold regions_of. destruct (cx_dma (sv_ctx s)) as [d|] eqn:D.
  - destruct (server_controller _ _ _ _ _ _ F H D) as (ops & evd & R & _). exact (C02_limits _ _ _ _ R).
  - split; [apply Nat.le_0_l|constructor].
Qed.
Print Assumptions C02_server.

Lemma dma_events_in e ev : is_dma_event e = true -> In e (dma_events ev) <-> In e ev.
Proof. intros H. unfold dma_events. rewrite filter_In. tauto. Qed.

Lemma knows_filter i : forall ev, device_knows (dma_events ev) i <-> device_knows ev i.
Proof.
  intros ev. split.
  - induction ev as [|e ev IH]; intros (b & a & E & N).
    + destruct b; discriminate.
    + destruct (is_dma_event e) eqn:K; cbn in E; rewrite K in E.
      * destruct b as [|e' b].
        -- injection E as -> E. exists [], ev. split; [reflexivity|]. intros I. apply N. rewrite <- E. now apply dma_events_in.
        -- injection E as -> E. destruct IH as (b' & a' & E' & N'); [exists b, a; auto|]. exists (e' :: b'), a'. split; [now rewrite E'|exact N'].
      * destruct IH as (b' & a' & E' & N'); [exists b, a; auto|]. exists (e :: b'), a'. split; [now rewrite E'|exact N'].
  - intros (b & a & -> & N). exists (dma_events b), (dma_events a). split; [rewrite dma_events_app; reflexivity|].
    intros I. apply N. exact (proj1 (dma_events_in (EvUnregister i) a eq_refl) I).
Qed.

(* At every moment the regions of the table are those the device has been told about and not told to forget. *)
Theorem C05_server : forall s0 l s arr ev i, fresh s0 -> cx_dma (sv_ctx s0) <> None ->
  cx_register (sv_ctx s0) = true -> cx_unregister (sv_ctx s0) = true -> history s0 l s arr ev ->
  (In i (map rg_info (regions_of s)) <-> device_knows ev i).
Proof.
  intros s0 l s arr ev i F D0 A B H. unfold regions_of.
  assert (S : same_setup (sv_ctx s0) (sv_ctx s)) by (exact (k_setup _ _ (proj1 (history_kept _ _ _ _ _ H (fresh_sinv _ F))))).
  destruct (cx_dma (sv_ctx s)) as [d|] eqn:D.
  - destruct (server_controller _ _ _ _ _ _ F H D) as (ops & evd & R & _ & V). rewrite (C05_device_view _ _ _ i R), <- (knows_filter i evd), V by auto. apply knows_filter.
  - exfalso. apply D0. destruct S as (_ & _ & _ & _ & _ & _ & _ & (_ & N) & _). auto.
Qed.
Print Assumptions C05_server.

Example C05_server_case : exists arr ev r, history (ex_server true) ex_steps (ex_busy true) arr ev /\
  cx_register (sv_ctx (ex_server true)) = true /\ cx_unregister (sv_ctx (ex_server true)) = true /\ regions_of (ex_busy true) = [r] /\ device_knows ev (rg_info r).
Proof.
  destruct C01_server_case as (arr & ev & H & _). destruct (regions_of (ex_busy true)) as [|r [|]] eqn:E; try (vm_compute in E; discriminate).
  exists arr, ev, r. split; [exact H|]. split; [reflexivity|]. split; [reflexivity|]. split; [reflexivity|].
  assert (D : cx_dma (sv_ctx (ex_server true)) <> None) by discriminate.
  pose proof (C05_server (ex_server true) ex_steps (ex_busy true) arr ev (rg_info r) (ex_fresh true) D eq_refl eq_refl H) as K.
  rewrite E in K. apply K. now left.
Qed.

(* Translation at any moment of a history: the entries tile the range inside registered regions. *)
Theorem C06_server : forall s0 l s arr ev d hint addr len max prot sgl hint', fresh s0 -> history s0 l s arr ev -> Forall maps_ok l ->
  cx_dma (sv_ctx s) = Some d -> range_ok addr len -> addr_to_sgl d hint addr len max prot = (SglOk sgl, hint') ->
  tiles sgl addr (addr + len) /\ Forall (sg_inside (regions_of s)) sgl /\ (length sgl <= max)%nat.
Proof.
  intros s0 l s arr ev d hint addr len max prot sgl hint' F H M D RO T. unfold regions_of. rewrite D.
  destruct (server_controller _ _ _ _ _ _ F H D) as (ops & evd & R & O & _). apply (C06_sgl_tiles true ops d evd hint _ _ _ prot _ hint'); auto. split; auto.
Qed.
Print Assumptions C06_server.

(* ---------- single requests *)

Lemma request_step s en id cmd body fds err out ofds c' fds' ev : reachable s -> request s en id cmd body fds ->
  dispatch (sv_ctx s) (en_or en) cmd body fds = (HReply err out ofds, c', fds', ev) ->
  sv_step s (SRun en) = (Ok 1, set_ctx s c',
    (if needs_quiesce (sv_ctx s) cmd body then [EvQuiesce None] else []) ++ ev ++ EvReply (mk_reply id cmd err out ofds) :: closes_of fds').
Proof.
  intros RE [(R & P & C) (h & X & V & W & <- & <- & Z) Q S (M1 & M3)] D.
  destruct (reachable_sinv _ RE) as (_ & Q0 & _).
  assert (SE : should_exec (cx_mig (sv_ctx s)) (hd_cmd h) = true).
  { unfold should_exec, is_stopped_and_copying, is_stopped, ST_STOP, ST_STOP_COPY. destruct (cx_mig (sv_ctx s)) as [m|]; [|reflexivity].
    replace (m =? 1) with false by (symmetry; apply N.eqb_neq; congruence). replace (m =? 3) with false by (symmetry; apply N.eqb_neq; congruence). reflexivity. }
  assert (B : (if hd_size h =? 16 then Ok [] else recv_body (hd_size h - 16) (inr body)) = Ok body).
  { rewrite Z. destruct body as [|b body]; [reflexivity|]. set (l := b :: body). assert (L : N.of_nat (length l) <> 0) by (unfold l; cbn [length]; lia).
    replace (16 + N.of_nat (length l) =? 16) with false by lia. unfold recv_body. replace (16 + N.of_nat (length l) - 16) with (N.of_nat (length l)) by lia.
    rewrite Nat2N.id, firstn_all. replace (N.of_nat (length l) =? 0) with false by lia. rewrite N.eqb_refl. reflexivity. }
  cbn [sv_step]. rewrite R, P. cbn [negb]. unfold run_iter, get_request. rewrite C, X. cbn [negb]. apply valid_hdr_iff in V. rewrite V. cbn [negb].
  rewrite B, SE. cbn [negb].
  assert (DR : forall s1, do_reply s1 en h err out ofds = (Ok tt, s1, [EvReply (mk_reply (hd_id h) (hd_cmd h) err out ofds)])).
  { intros s1. unfold do_reply. rewrite has_no_reply, W, S. reflexivity. }
  destruct (needs_quiesce (sv_ctx s) (hd_cmd h) body).
  - rewrite Q. unfold handle_request. cbn [mg_hdr mg_body mg_fds set_quiesced sv_ctx]. rewrite D, DR. unfold free_msg. rewrite close_all_spec, <- app_assoc.
    destruct s; cbn in *; subst; reflexivity.
  - unfold handle_request. cbn [mg_hdr mg_body mg_fds]. rewrite D, DR. unfold free_msg. rewrite close_all_spec, <- app_assoc.
    destruct s; cbn in *; subst; reflexivity.
Qed.

Lemma closes_only fds e : In e (closes_of fds) -> exists fd, e = EvClose fd.
Proof. unfold closes_of. rewrite in_map_iff. intros (fd & <- & _). eauto. Qed.

Lemma request_responds s en id cmd body fds err out c' fds' ev : reachable s -> request s en id cmd body fds ->
  dispatch (sv_ctx s) (en_or en) cmd body fds = (HReply err out [], c', fds', ev) -> (forall r, ~ In (EvReply r) ev) ->
  responds s en id cmd err out (set_ctx s c') ev.
Proof.
  intros RE RQ D N. exists (if needs_quiesce (sv_ctx s) cmd body then [EvQuiesce None] else []), (closes_of fds').
  split; [destruct (needs_quiesce _ _ _); auto|]. split; [apply closes_only|]. split; [exact N|]. exact (request_step _ _ _ _ _ _ _ _ _ _ _ _ RE RQ D).
Qed.

Lemma same_ctx s : set_ctx s (sv_ctx s) = s.
Proof. destruct s; reflexivity. Qed.

(* A device without a DMA controller (vfu_setup_device_dma was not called) accepts and ignores DMA requests. *)
Theorem C01_no_controller : forall s en id cmd body fds, reachable s -> request s en id cmd body fds -> cx_dma (sv_ctx s) = None ->
  cmd = 2 \/ cmd = 3 -> responds s en id cmd 0 [] s [].
Proof.
  intros s en id cmd body fds RE RQ D C. rewrite <- (same_ctx s) at 2. apply request_responds with (body := body) (fds := fds) (fds' := fds); auto.
  unfold dispatch, CMD_DMA_MAP, CMD_DMA_UNMAP. rewrite D. destruct C as [-> | ->]; reflexivity.
Qed.
Print Assumptions C01_no_controller.

(* A DMA_MAP request whose fields make no sense is refused and changes nothing. *)
Theorem C02_malformed_map : forall s en id body fds, reachable s -> request s en id 2 body fds -> cx_dma (sv_ctx s) <> None ->
  ((length body < 32)%nat \/ exists argsz flags off addr size, map_fields body argsz flags off addr size /\
     (argsz < 32 \/ 4 <= flags \/ exists fd fds0, fds = fd :: fds0 /\ (fd < 0)%Z)) ->
  responds s en id 2 EINVAL [] s [].
Proof.
  intros s en id body fds RE RQ D C. destruct (cx_dma (sv_ctx s)) as [d|] eqn:Ed; [|congruence]. rewrite <- (same_ctx s) at 2.
  assert (X : exists fds', handle_dma_map (sv_ctx s) d (en_or en) body fds = (HReply EINVAL [] [], sv_ctx s, fds', [])).
  { unfold handle_dma_map. destruct C as [C|(argsz & flags & off & addr & size & [L A1 A2 A3 A4 A5] & C)].
    - replace (N.of_nat (length body) <? 32) with true by lia. eauto.
    - replace (N.of_nat (length body) <? 32) with false by lia. rewrite A1, A2, A3, A4, A5. cbn [need].
      destruct (argsz <? 32) eqn:E1; [eauto|]. destruct (negb (N.ldiff flags 3 =? 0)) eqn:E2; [eauto|].
      destruct C as [C|[C|(fd & fds0 & -> & C)]]; [lia| |].
      + exfalso. assert (Z : N.ldiff flags 3 = 0) by lia. change 3 with (N.ones 2) in Z. rewrite N.ldiff_ones_r, N.shiftl_eq_0_iff, N.shiftr_div_pow2 in Z.
        change (2 ^ 2) with 4 in Z. pose proof (N.div_le_mono 4 flags 4 ltac:(discriminate) C) as K. rewrite Z in K. now apply N.le_0_r in K.
      + cbn [length Nat.eqb negb andb]. replace (fd <? 0)%Z with true by lia. eauto. }
  destruct X as (fds' & X). apply request_responds with (body := body) (fds := fds) (fds' := fds'); auto.
  unfold dispatch. cbn [N.eqb Pos.eqb CMD_DMA_MAP]. rewrite Ed. exact X.
Qed.
Print Assumptions C02_malformed_map.

Lemma map_prot flags : flags < 4 -> (if has flags 1 then PROT_READ else 0) + (if has flags 2 then PROT_WRITE else 0) = flags /\ N.ldiff flags 3 = 0.
Proof. intros H. assert (flags = 0 \/ flags = 1 \/ flags = 2 \/ flags = 3) as [E|[E|[E|E]]] by lia; subst flags; split; reflexivity. Qed.

Lemma map_dispatch s en body fds d argsz flags off addr size : cx_dma (sv_ctx s) = Some d -> map_fields body argsz flags off addr size ->
  32 <= argsz -> flags < 4 -> Forall (fun fd => (0 <= fd)%Z) (firstn 1 fds) ->
  dispatch (sv_ctx s) (en_or en) 2 body fds =
    let '(res, d', ev) := dma_map_request (cx_register (sv_ctx s)) (or_os (en_or en)) d addr size (hd (-1)%Z fds) off flags in
    (match res with Ok _ => HReply 0 [] [] | Err e => herr e | Crash cr => HCrash cr end, set_dma (sv_ctx s) d' (cx_hint (sv_ctx s)),
     match fds with [] => [] | _ :: fs => (-1)%Z :: fs end, ev).
Proof.
  intros D [L A1 A2 A3 A4 A5] Z F P. unfold dispatch. cbn [N.eqb Pos.eqb CMD_DMA_MAP]. rewrite D. unfold handle_dma_map.
  replace (N.of_nat (length body) <? 32) with false by lia. rewrite A1, A2, A3, A4, A5. cbn [need]. replace (argsz <? 32) with false by lia.
  destruct (map_prot flags F) as (Ep & El). rewrite El. cbn [N.eqb negb]. rewrite Ep. destruct fds as [|fd fds].
  - cbn [length Nat.eqb negb andb hd]. destruct (dma_map_request _ _ _ _ _ _ _ _) as ((res, d'), ev). reflexivity.
  - cbn [length Nat.eqb negb andb hd]. cbn [firstn] in P. inversion P; subst. replace (fd <? 0)%Z with false by lia.
    destruct (dma_map_request _ _ _ _ _ _ _ _) as ((res, d'), ev). reflexivity.
Qed.

Lemma start_err b r pg e : start_on_region b r pg = Err e -> e <> 0.
Proof.
  unfold start_on_region, get_bitmap_size. destruct (pg =? 0); [intros H; injection H as <-; discriminate|]. destruct (rg_len r <? pg); [intros H; injection H as <-; discriminate|].
  destruct b; intros H; [discriminate H|injection H as <-; discriminate].
Qed.

Lemma add_err os d addr size fd off prot e d' ev : add_region os d addr size fd off prot = (Err e, d', ev) -> os_mmap os <> inr 0 -> e <> 0.
Proof.
  unfold add_region. intros H M. destruct (dm_max_size d <? size); [injection H as <- _ _; discriminate|].
  destruct (add_scan os (dm_regions d) 0 addr size fd off prot) as [o|] eqn:S.
  { injection H as -> _ _. revert S. generalize 0%nat as k. induction (dm_regions d) as [|r rs IH]; intros k S; [discriminate S|]. cbn [add_scan] in S.
    destruct (same_range r addr size).
    - destruct (negb _); [injection S as <-; discriminate|]. destruct (negb _); [injection S as <-; discriminate|]. destruct (negb _); [injection S as <-; discriminate|discriminate S].
    - destruct (overlap_test r addr size); [injection S as <-; discriminate|]. eapply IH; eauto. }
  destruct (Nat.eqb _ _); [injection H as <- _ _; discriminate|]. destruct (fd =? -1)%Z; [discriminate H|].
  destruct (os_blksize os) as [blk|]; [|injection H as <- _ _; discriminate].
  destruct (if dm_pgsize d =? 0 then _ else _) as [r1|e1|c1] eqn:S1; [|injection H as <- _ _|discriminate H].
  - unfold map_region in H. destruct (os_mmap os) as [b|e2]; [discriminate H|]. injection H as <- _ _. congruence.
  - destruct (dm_pgsize d =? 0); [discriminate S1|]. eapply start_err; eauto.
Qed.

Lemma add_err_events os d addr size fd off prot e d' ev : add_region os d addr size fd off prot = (Err e, d', ev) -> forall x, In x ev -> exists fd, x = EvClose fd.
Proof.
  unfold add_region. intros H. destruct (dm_max_size d <? size); [injection H as _ _ <-; contradiction|].
  destruct (add_scan os (dm_regions d) 0 addr size fd off prot) as [o|]; [injection H as _ _ <-; contradiction|].
  destruct (Nat.eqb _ _); [injection H as _ _ <-; contradiction|]. destruct (fd =? -1)%Z eqn:F; [discriminate H|].
  destruct (os_blksize os) as [blk|]; [|injection H as _ _ <-; contradiction].
  destruct (if dm_pgsize d =? 0 then _ else _) as [r1|e1|c1]; [|injection H as _ _ <-; contradiction|discriminate H].
  unfold map_region in H. destruct (os_mmap os); [discriminate H|]. injection H as _ _ <-. unfold close_ev. rewrite F. intros x [<-|[]]; eauto.
Qed.

Lemma reachable_controller s d : reachable s -> cx_dma (sv_ctx s) = Some d -> inv d /\ dm_max_regions d = 64%nat /\ dm_max_size d = 8 * 2 ^ 40.
Proof.
  intros RE D. split; [exact (ci_dma _ (proj1 (reachable_sinv _ RE)) d D)|]. destruct RE as (s0 & l & arr & ev & F & H).
  destruct (server_controller _ _ _ _ _ _ F H D) as (ops & evd & R & _). apply DmaMap.run_limits in R. unfold DmaMap.limits in R. injection R as -> ->. split; reflexivity.
Qed.

(* A well-formed DMA_MAP request.  (A failing mmap sets errno.)  Either the range is new, small enough and there is
   room: it is added with exactly the attributes asked for and the device is told; or it is registered already
   with the same attributes; or the client gets an error and the table stays as it is. *)
Theorem C02_map_request : forall s en id body fds d argsz flags off addr size, reachable s -> request s en id 2 body fds ->
  cx_dma (sv_ctx s) = Some d -> map_fields body argsz flags off addr size -> 32 <= argsz -> flags < 4 ->
  Forall (fun fd => (0 <= fd)%Z) (firstn 1 fds) -> os_mmap (or_os (en_or en)) <> inr 0 ->
  exists err s' ev, responds s en id 2 err [] s' ev /\
    ((err = 0 /\ exists r, with_dma s (set_regions d (dm_regions d ++ [r])) s' /\
        (forall r', ~ registered d r' addr size) /\ (length (dm_regions d) < 64)%nat /\ size <= 8 * 2 ^ 40 /\
        di_iova (rg_info r) = addr /\ di_len (rg_info r) = size /\ di_prot (rg_info r) = flags /\ rg_fd r = hd (-1)%Z fds /\ rg_off r = off /\
        (di_vaddr (rg_info r) = None <-> fds = []) /\
        ev = (if cx_register (sv_ctx s) then [EvRegister (rg_info r)] else []))
     \/ (err = 0 /\ with_dma s d s' /\ exists r, registered d r addr size /\ rg_off r = off /\ di_prot (rg_info r) = flags /\
           same_file (or_os (en_or en)) (rg_fd r) (hd (-1)%Z fds) /\
           ev = (if cx_register (sv_ctx s) then [EvRegister (rg_info r)] else []))
     \/ (err <> 0 /\ with_dma s d s' /\ forall e, In e ev -> exists fd, e = EvClose fd)).
Proof.
  intros s en id body fds d argsz flags off addr size RE RQ D MF Z F P MM.
  pose proof (map_dispatch s en body fds d argsz flags off addr size D MF Z F P) as X.
  destruct (reachable_controller _ _ RE D) as (I & MR & MS).
  unfold dma_map_request in X. destruct (add_region (or_os (en_or en)) d addr size (hd (-1)%Z fds) off flags) as ((o, d1), ev1) eqn:A. destruct o as [n|e|c].
  - destruct (add_region_ok _ _ _ _ _ _ _ _ _ _ A) as (-> & SZ & [(-> & r & N & K & Eo & Ep & Ef)|(r & -> & -> & NO & LN & K & Ef & Eo & Ep & FO & BO & VA & _)]).
    + rewrite N in X. exists 0. eexists. exists (if cx_register (sv_ctx s) then [EvRegister (rg_info r)] else []). split.
      { eapply request_responds; [exact RE|exact RQ|exact X|]. intros rr. destruct (cx_register (sv_ctx s)); cbn; intuition discriminate. }
      right; left. split; [reflexivity|]. split; [exists (cx_hint (sv_ctx s)); reflexivity|]. exists r. injection K as K1 K2.
      split; [split; [eapply nth_error_In; eauto|split; [exact K1|exact K2]]|]. split; [exact Eo|]. split; [exact Ep|]. split; [|reflexivity].
      unfold fds_same in Ef. unfold same_file. destruct (Z.eqb_spec (rg_fd r) (hd (-1)%Z fds)); [now left|]. now right.
    + cbn [dm_regions set_regions] in X. rewrite nth_error_app2, Nat.sub_diag in X by lia. cbn [nth_error] in X.
      exists 0. eexists. exists (if cx_register (sv_ctx s) then [EvRegister (rg_info r)] else []). split.
      { eapply request_responds; [exact RE|exact RQ|exact X|]. intros rr. destruct (cx_register (sv_ctx s)); cbn; intuition discriminate. }
      left. split; [reflexivity|]. exists r. injection K as K1 K2. split; [exists (cx_hint (sv_ctx s)); reflexivity|].
      split. { intros r' (R1 & R2 & R3). rewrite Forall_forall in NO. destruct (NO r' R1) as (NS & _). unfold same_range, rg_base, rg_len in NS. rewrite R2, R3, !N.eqb_refl in NS. discriminate NS. }
      split; [pose proof (inv_cnt _ I); lia|]. split; [lia|]. split; [exact K1|]. split; [exact K2|]. split; [exact Ep|]. split; [exact Ef|]. split; [exact Eo|].
      split; [|reflexivity]. unfold fd_ok in FO. rewrite Ef in FO. destruct fds as [|fd fds]; cbn [hd] in *.
      * split; [reflexivity|]. intros _. apply FO. reflexivity.
      * split; [|discriminate]. intros V. apply FO in V. cbn [firstn] in P. inversion P; subst. lia.
  - exists e. eexists. eexists. split.
    { eapply request_responds; [exact RE|exact RQ|exact X|]. intros r Hi. apply in_app_or in Hi. destruct Hi as [Hi|Hi].
      - destruct (add_err_events _ _ _ _ _ _ _ _ _ _ A _ Hi) as (? & E); discriminate E.
      - unfold close_ev in Hi. destruct (_ =? _)%Z; [contradiction|]. destruct Hi as [Hi|[]]; discriminate Hi. }
    right; right. split; [eapply add_err; eauto|]. apply add_region_fail in A as E. subst d1. split; [exists (cx_hint (sv_ctx s)); reflexivity|].
    intros x Hi. apply in_app_or in Hi. destruct Hi as [Hi|Hi]; [eapply add_err_events; eauto|].
    unfold close_ev in Hi. destruct (_ =? _)%Z; [contradiction|]. destruct Hi as [Hi|[]]; eauto.
  - exfalso. eapply add_region_no_crash; eauto.
Qed.
Print Assumptions C02_map_request.

(* Another client request, on the server of the examples: 8 KiB at 0x40000, no file. *)
Definition ex_map_at (addr size flags : N) : list N := le_bytes 4 32 ++ le_bytes 4 flags ++ le_bytes 8 0 ++ le_bytes 8 addr ++ le_bytes 8 size.
Definition ex_ask (cmd : N) (body : list N) (fds : list Z) : env := ex_env (RxMsg (mk_header 7 cmd (16 + N.of_nat (length body)) 0 0) fds (inr body)).
Lemma ex_request q cmd body fds : N.of_nat (length body) <= 1024 -> body <> [] -> request (ex_busy q) (ex_ask cmd body fds) 7 cmd body fds.
Proof.
  intros L NE. constructor; try reflexivity.
  - destruct q; vm_compute; auto.
  - exists (mk_header 7 cmd (16 + N.of_nat (length body)) 0 0). split; [reflexivity|]. split.
    + unfold valid_hdr. cbn [hd_flags hd_size hd_cmd]. split; [reflexivity|]. split; [lia|]. intros E. destruct body; [congruence|]. cbn [length] in E. lia.
    + repeat split.
  - destruct q; vm_compute; split; discriminate.
Qed.

Example C02_map_request_case : exists err s' ev, responds (ex_busy true) (ex_ask 2 (ex_map_at 262144 8192 1) []) 7 2 err [] s' ev /\
  err = 0 /\ length (regions_of s') = 2%nat /\ ev = [EvRegister (mk_info 262144 8192 None 0 0 4096 1)].
Proof.
  eexists _, _, _. split; [eapply request_responds with (fds := []); [apply ex_busy_reachable|apply ex_request; [vm_compute; discriminate|discriminate]|vm_compute; reflexivity|]|].
  - intros r [H|[]]. discriminate H.
  - vm_compute. auto.
Qed.

(* A request without a file for a new range that touches no other is accepted while there is room. (A region of
   length 0 counts as touching a range that contains its address.) *)
Theorem C02_map_accepted : forall s en id body d argsz flags off addr size, reachable s -> request s en id 2 body [] ->
  cx_dma (sv_ctx s) = Some d -> map_fields body argsz flags off addr size -> 32 <= argsz -> flags < 4 ->
  0 < size <= 8 * 2 ^ 40 -> range_ok addr size -> (length (dm_regions d) < 64)%nat ->
  (forall r, In r (dm_regions d) -> (di_iova (rg_info r) < addr /\ di_iova (rg_info r) + di_len (rg_info r) <= addr) \/ addr + size <= di_iova (rg_info r)) ->
  exists s', responds s en id 2 0 [] s' (if cx_register (sv_ctx s) then [EvRegister (mk_info addr size None 0 0 4096 flags)] else []) /\
    with_dma s (set_regions d (dm_regions d ++ [mk_region (mk_info addr size None 0 0 4096 flags) (-1) off None])) s'.
Proof.
  intros s en id body d argsz flags off addr size RE RQ D MF Z F SZ RO LN AP.
  pose proof (map_dispatch s en body [] d argsz flags off addr size D MF Z F (Forall_nil _)) as X.
  destruct (reachable_controller _ _ RE D) as (I & MR & MS). cbn [hd] in X. unfold range_ok in RO. change (2 ^ 64) with two64 in RO.
  assert (SC : forall os rs k, (forall r, In r rs -> (di_iova (rg_info r) < addr /\ di_iova (rg_info r) + di_len (rg_info r) <= addr) \/ addr + size <= di_iova (rg_info r)) -> add_scan os rs k addr size (-1)%Z off flags = None).
  { intros os rs. induction rs as [|r rs IH]; intros k A; [reflexivity|]. cbn [add_scan].
    assert (Hr := A r (or_introl eq_refl)).
    replace (same_range r addr size) with false by (unfold same_range, rg_base, rg_len; lia).
    replace (overlap_test r addr size) with false; [apply IH; intros x Hx; apply A; now right|].
    symmetry. unfold overlap_test, iov_end, rg_base, rg_len. rewrite (w64_small (addr + size)) by exact RO.
    assert (W : w64 (di_iova (rg_info r) + di_len (rg_info r)) <= di_iova (rg_info r) + di_len (rg_info r)) by (apply N.mod_le; discriminate). lia. }
  unfold dma_map_request, add_region in X. rewrite MS in X. replace (8 * 2 ^ 40 <? size) with false in X by lia. rewrite SC in X by exact AP.
  rewrite MR in X. replace (Nat.eqb (length (dm_regions d)) 64) with false in X by (symmetry; apply Nat.eqb_neq; lia).
  cbn [Z.eqb Pos.eqb] in X. cbn [dm_regions set_regions] in X. rewrite nth_error_app2, Nat.sub_diag in X by lia. cbn [nth_error rg_info app] in X.
  eexists. split.
  - eapply request_responds; [exact RE|exact RQ|exact X|]. intros rr. destruct (cx_register (sv_ctx s)); cbn; intuition discriminate.
  - exists (cx_hint (sv_ctx s)). reflexivity.
Qed.
Print Assumptions C02_map_accepted.

(* ---------- unmapping *)

Lemma slice_firstn b n : (n <= length b)%nat -> slice b 0 n = Some (firstn n b).
Proof. intros H. unfold slice. replace (Nat.leb (0 + n) (length b)) with true by (symmetry; apply Nat.leb_le; lia). reflexivity. Qed.

Lemma release_one s r : fd_ok r -> release_region (cx_unregister (sv_ctx s)) r = Ok (gives_up s r).
Proof.
  intros F. pose proof (release_all_spec s [r] (Forall_cons _ F (Forall_nil _))) as R. cbn [release_all map concat] in R.
  destruct (release_region _ r); [|discriminate R|discriminate R]. rewrite !app_nil_r in R. exact R.
Qed.

Lemma remove_one s d l r l' : inv d -> dm_regions d = l ++ r :: l' ->
  remove_region (cx_unregister (sv_ctx s)) d (di_iova (rg_info r)) (di_len (rg_info r)) = (Ok (gives_up s r), set_regions d (l ++ l')).
Proof.
  intros I E. assert (FO : fd_ok r). { pose proof (inv_fd _ I) as F. rewrite E in F. apply Forall_app in F. destruct F as (_ & F). now inversion F. }
  unfold remove_region. rewrite E. assert (K : Forall (fun x => key x <> key r) l).
  { pose proof (inv_key _ I) as N. rewrite E, map_app in N. cbn [map] in N. apply NoDup_remove_2 in N. rewrite Forall_forall. intros x Hx C. apply N. apply in_or_app. left. rewrite <- C. now apply in_map. }
  assert (S : remove_scan (cx_unregister (sv_ctx s)) (l ++ r :: l') (di_iova (rg_info r)) (di_len (rg_info r)) = (Ok (gives_up s r), l ++ l')); [|now rewrite S].
  clear E. induction K as [|x l Kx K IH]; cbn [app remove_scan].
  - replace (same_range r (di_iova (rg_info r)) (di_len (rg_info r))) with true by (unfold same_range, rg_base, rg_len; rewrite !N.eqb_refl; reflexivity).
    now rewrite release_one.
  - replace (same_range x (di_iova (rg_info r)) (di_len (rg_info r))) with false; [now rewrite IH|].
    symmetry. unfold same_range. unfold key in Kx. unfold rg_base, rg_len in *. apply andb_false_iff. rewrite !N.eqb_neq.
    destruct (N.eq_dec (di_iova (rg_info x)) (di_iova (rg_info r))) as [A|A]; [|now left]. right. intros B. apply Kx. now rewrite A, B.
Qed.

Lemma gives_up_no_reply s r rp : ~ In (EvReply rp) (gives_up s r).
Proof. intros H. apply gives_up_in in H. exact H. Qed.

(* DMA_UNMAP of one range (flags 0): exactly the region with that range goes, the device is told, its mapping and
   descriptor are released, and the reply repeats the request; if there is no such region the client gets ENOENT. *)
Theorem C04_unmap_request : forall s en id body fds d argsz addr size, reachable s -> request s en id 3 body fds ->
  cx_dma (sv_ctx s) = Some d -> unmap_fields body argsz 0 addr size -> 24 <= argsz <= 1024 * 1024 ->
  (forall l r l', dm_regions d = l ++ r :: l' -> di_iova (rg_info r) = addr -> di_len (rg_info r) = size ->
     exists s', responds s en id 3 0 (firstn 24 body) s' (gives_up s r) /\ with_dma s (set_regions d (l ++ l')) s') /\
  ((forall r, ~ registered d r addr size) -> exists s', responds s en id 3 ENOENT [] s' [] /\ with_dma s d s').
Proof.
  intros s en id body fds d argsz addr size RE RQ D [L A1 A2 A3 A4] Z. destruct (reachable_controller _ _ RE D) as (I & _).
  assert (X : dispatch (sv_ctx s) (en_or en) 3 body fds =
    match remove_region (cx_unregister (sv_ctx s)) d addr size with
    | (Ok ev, d2) => (HReply 0 (firstn 24 body) [], set_dma (sv_ctx s) d2 (cx_hint (sv_ctx s)), fds, ev)
    | (Err e, d2) => (herr e, set_dma (sv_ctx s) d2 (cx_hint (sv_ctx s)), fds, [])
    | (Crash cr, d2) => (HCrash cr, set_dma (sv_ctx s) d2 (cx_hint (sv_ctx s)), fds, [])
    end).
  { unfold dispatch. cbn [N.eqb Pos.eqb CMD_DMA_MAP CMD_DMA_UNMAP]. rewrite D. unfold handle_dma_unmap. rewrite A2. cbn [need UNMAP_DIRTY UNMAP_ALL N.eqb].
    replace (N.of_nat (length body) <? 24) with false by lia. rewrite A1, A3, A4, slice_firstn by exact L. cbn [need]. unfold MAX_XFER.
    replace ((argsz <? 24) || (1048576 <? argsz)) with false by lia. destruct (remove_region _ d addr size) as ([ev|e|c], d2); reflexivity. }
  split.
  - intros l r l' E Ea Es. subst addr size. rewrite (remove_one s d l r l' I E) in X. eexists. split; [|exists (cx_hint (sv_ctx s)); reflexivity].
    eapply request_responds; [exact RE|exact RQ|exact X|]. apply gives_up_no_reply.
  - intros N. destruct (remove_region_spec (cx_unregister (sv_ctx s)) d addr size I) as [(l & r & l' & ev & E & K & _)|(_ & R)].
    + exfalso. injection K as K1 K2. apply (N r). split; [rewrite E; apply in_or_app; right; now left|]. split; [exact K1|exact K2].
    + rewrite R in X. eexists. split; [|exists (cx_hint (sv_ctx s)); reflexivity]. eapply request_responds; [exact RE|exact RQ|exact X|]. intros r [].
Qed.
Print Assumptions C04_unmap_request.

Definition ex_unmap (flags addr size : N) : list N := le_bytes 4 24 ++ le_bytes 4 flags ++ le_bytes 8 addr ++ le_bytes 8 size.
Example C04_unmap_request_case : exists s', responds (ex_busy true) (ex_ask 3 (ex_unmap 0 65536 65536) []) 7 3 0 (ex_unmap 0 65536 65536) s'
    [EvUnregister (mk_info 65536 65536 (Some 8192000) 8192000 65536 4096 3); EvMunmap 8192000 65536; EvClose 5] /\ regions_of s' = [].
Proof.
  eexists. split; [eapply request_responds with (fds := []); [apply ex_busy_reachable|apply ex_request; [vm_compute; discriminate|discriminate]|vm_compute; reflexivity|]|].
  - intros r [H|[H|[H|[]]]]; discriminate H.
  - vm_compute. reflexivity.
Qed.

(* DMA_UNMAP of everything (flags 2, address and size 0): every region goes and the device is told, in order. *)
Theorem C04_unmap_all_request : forall s en id body fds d argsz, reachable s -> request s en id 3 body fds ->
  cx_dma (sv_ctx s) = Some d -> unmap_fields body argsz 2 0 0 -> 24 <= argsz <= 1024 * 1024 ->
  exists s', responds s en id 3 0 (firstn 24 body) s' (concat (map (gives_up s) (dm_regions d))) /\ with_dma s (set_regions d []) s'.
Proof.
  intros s en id body fds d argsz RE RQ D [L A1 A2 A3 A4] Z. destruct (reachable_controller _ _ RE D) as (I & _).
  pose proof (release_all_spec s _ (inv_fd _ I)) as RA.
  eexists. split; [|exists (cx_hint (sv_ctx s)); reflexivity]. eapply request_responds; [exact RE|exact RQ| |].
  - unfold dispatch. cbn [N.eqb Pos.eqb CMD_DMA_MAP CMD_DMA_UNMAP]. rewrite D. unfold handle_dma_unmap. rewrite A2. cbn [need UNMAP_DIRTY UNMAP_ALL N.eqb Pos.eqb].
    rewrite A3. cbn [need N.eqb negb]. rewrite A4. cbn [need N.eqb negb]. replace (N.of_nat (length body) <? 24) with false by lia.
    rewrite A1, slice_firstn by exact L. cbn [need]. unfold MAX_XFER. replace ((argsz <? 24) || (1048576 <? argsz)) with false by lia.
    unfold remove_all_regions. rewrite RA. reflexivity.
  - intros rp H. apply in_concat in H. destruct H as (x & X & H). apply in_map_iff in X. destruct X as (r & <- & _). eapply gives_up_no_reply; eauto.
Qed.
Print Assumptions C04_unmap_all_request.

(* A DMA_UNMAP request whose fields make no sense is refused and changes nothing. *)
Theorem C04_malformed_unmap : forall s en id body fds argsz flags addr size, reachable s -> request s en id 3 body fds ->
  cx_dma (sv_ctx s) <> None -> unmap_fields body argsz flags addr size ->
  2 < flags \/ (flags = 2 /\ (addr <> 0 \/ size <> 0)) \/ (flags <> 1 /\ (argsz < 24 \/ 1024 * 1024 < argsz)) ->
  responds s en id 3 EINVAL [] s [].
Proof.
  intros s en id body fds argsz flags addr size RE RQ D [L A1 A2 A3 A4] C. destruct (cx_dma (sv_ctx s)) as [d|] eqn:Ed; [|congruence].
  rewrite <- (same_ctx s) at 2. eapply request_responds; [exact RE|exact RQ| |intros r []].
  unfold dispatch. cbn [N.eqb Pos.eqb CMD_DMA_MAP CMD_DMA_UNMAP]. rewrite Ed. unfold handle_dma_unmap. rewrite A2. cbn [need]. unfold UNMAP_DIRTY, UNMAP_ALL, MAX_XFER.
  rewrite (slice_firstn body 24) by exact L. replace (flags =? 1) with false by lia. rewrite A1, A3, A4. cbn [need]. replace (N.of_nat (length body) <? 24) with false by lia.
  destruct (flags =? 2) eqn:F2.
  - destruct (addr =? 0) eqn:Ea; cbn [negb]; [|reflexivity]. destruct (size =? 0) eqn:Es; cbn [negb]; [|reflexivity].
    replace ((argsz <? 24) || (1048576 <? argsz)) with true by lia. reflexivity.
  - destruct (flags =? 0) eqn:F0; [|reflexivity]. replace ((argsz <? 24) || (1048576 <? argsz)) with true by lia. reflexivity.
Qed.
Print Assumptions C04_malformed_unmap.

(* DMA_UNMAP with the dirty page bitmap (flags 1): the request repeats in the reply, followed by one bit per page
   saying exactly which pages were logged as dirty; the region goes; all others keep their logs. *)
Theorem C13_unmap_with_bitmap : forall s0 hist s arr evh en id body fds d argsz l r l' k bsize,
  fresh s0 -> history s0 hist s arr evh -> Forall maps_ok hist -> request s en id 3 body fds ->
  cx_dma (sv_ctx s) = Some d -> dm_regions d = l ++ r :: l' -> rg_fd r <> (-1)%Z -> dm_pgsize d = 2 ^ k -> k <= 63 ->
  unmap_fields body argsz 1 (di_iova (rg_info r)) (di_len (rg_info r)) -> rd body 24 8 = Some (2 ^ k) -> rd body 32 8 = Some bsize ->
  bitmap_bytes (di_len (rg_info r)) (2 ^ k) bsize -> 40 + bsize <= argsz <= 1024 * 1024 ->
  exists s' bm, responds s en id 3 0 (firstn 40 body ++ bm) s' (gives_up s r) /\ with_dma s (set_regions d (l ++ l')) s' /\
    N.of_nat (length bm) = bsize /\ forall p, page_set bm p <-> logged d (length l) p.
Proof.
  intros s0 hist s arr evh en id body fds d argsz l r l' k bsize F H M RQ D E NF PG K63 [L A1 A2 A3 A4] A5 A6 BB Z.
  assert (RE : reachable s) by (exists s0, hist, arr, evh; auto).
  destruct (server_controller _ _ _ _ _ _ F H D) as (ops & evd & R & O & _). assert (RD : reached true ops d evd) by (split; auto).
  destruct (reached_inv _ _ _ _ RD) as (I & I2 & _).
  assert (Hn : nth_error (dm_regions d) (length l) = Some r) by (rewrite E, nth_error_app2, Nat.sub_diag by lia; reflexivity).
  assert (Hin : In r (dm_regions d)) by (eapply nth_error_In; eauto).
  pose proof (proj1 (Forall_forall _ _) (inv_bm _ I) r Hin) as Hok. unfold bm_ok in Hok. rewrite PG in Hok.
  destruct (rg_bitmap r) as [bm|] eqn:Eb; [|exfalso; destruct Hok as [Hz|]; [apply N.pow_nonzero in Hz; [contradiction|discriminate]|contradiction]].
  destruct Hok as (_ & _ & sz & Hsz & Hlen & _). assert (sz = N.of_nat (length bm)) by lia. subst sz.
  assert (Hs : rg_len r < 2 ^ 64 - 64).
  { pose proof (proj1 (Forall_forall _ _) (inv_size _ I) r Hin) as X. cbv beta in X. pose proof (reached_max _ _ _ _ RD). change (2 ^ 64 - 64) with 18446744073709551552. change (2 ^ 40) with 1099511627776 in *. lia. }
  assert (bsize = N.of_nat (length bm)) by (eapply DirtyHist.bitmap_bytes_unique; [exact BB|]; apply DirtyHist.bitmap_size_exact; [exact Hs|exact Hsz]). subst bsize.
  destruct (report_exact d (cx_hint (sv_ctx s)) (length l) r bm k _ _ _ (fit (N.to_nat (N.of_nat (length bm))) (or_junk (en_or en))) I I2 Hn Eb PG K63 Hsz Hsz) as (h & G).
  unfold report_bitmap in G. rewrite N.eqb_refl, Nat2N.id, get_same_full in G.
  set (r' := set_bitmap r (Some (repeat 0 (length bm)))) in G.
  assert (E' : set_nth (length l) r' (dm_regions d) = l ++ r' :: l').
  { rewrite E. clear. induction l as [|x l IH]; [reflexivity|]. cbn [length app set_nth]. now rewrite IH. }
  rewrite E' in G. set (d1 := set_regions d (l ++ r' :: l')) in G.
  assert (I1 : inv d1).
  { exact (proj1 (dirty_page_get_inv _ _ _ _ _ _ _ _ _ _ I G)). }
  assert (RM : remove_region (cx_unregister (sv_ctx s)) d1 (rg_base r) (rg_len r) = (Ok (gives_up s r), set_regions d (l ++ l'))).
  { exact (remove_one s d1 l r' l' I1 eq_refl). }
  assert (L40 : (40 <= length body)%nat). { unfold rd, slice in A6. destruct (Nat.leb (32 + 8) (length body)) eqn:Q; [apply Nat.leb_le in Q; lia|discriminate A6]. }
  exists (set_ctx s (set_dma (sv_ctx s) (set_regions d (l ++ l')) h)), bm. split; [|split; [exists h; reflexivity|split; [reflexivity|]]].
  - eapply request_responds; [exact RE|exact RQ| |apply gives_up_no_reply].
    unfold dispatch. cbn [N.eqb Pos.eqb CMD_DMA_MAP CMD_DMA_UNMAP]. rewrite D. unfold handle_dma_unmap. rewrite A2. cbn [need UNMAP_DIRTY UNMAP_ALL N.eqb Pos.eqb].
    rewrite A6. cbn [need]. replace (N.of_nat (length body) <? 40) with false by lia. rewrite A1, A3, A4, A5, slice_firstn by exact L40. cbn [need].
    unfold MAX_XFER, satadd_u64. change (1024 * 1024) with 1048576 in Z. rewrite (w64_small (40 + N.of_nat (length bm))) by (unfold two64; lia).
    replace (40 + N.of_nat (length bm) <? 40) with false by lia. replace ((argsz <? 40 + N.of_nat (length bm)) || (1048576 <? argsz)) with false by lia.
    rewrite Nat2N.id. unfold rg_base, rg_len in G. rewrite G. unfold rg_base, rg_len in RM. rewrite RM. reflexivity.
  - intros p. unfold logged. split; [intros P; exists r, bm; auto|]. intros (r1 & bm1 & N1 & B1 & P). congruence.
Qed.
Print Assumptions C13_unmap_with_bitmap.

(* DMA logging report (device feature 8, get) for a region, in pages of the size logging was started with: the reply
   repeats the question and says exactly which pages were logged as dirty; that log is then empty, the others
   are as before. *)
Theorem C13_report_request : forall s0 hist s arr evh en id body fds d argsz i r k bsize,
  fresh s0 -> history s0 hist s arr evh -> Forall maps_ok hist -> request s en id 16 body fds -> cx_mig (sv_ctx s) <> None ->
  cx_dma (sv_ctx s) = Some d -> nth_error (dm_regions d) i = Some r -> rg_fd r <> (-1)%Z -> dm_pgsize d = 2 ^ k -> k <= 63 ->
  rd body 0 4 = Some argsz -> rd body 4 4 = Some (2 ^ 16 + 8) -> rd body 8 8 = Some (di_iova (rg_info r)) ->
  rd body 16 8 = Some (di_len (rg_info r)) -> rd body 24 8 = Some (2 ^ k) ->
  bitmap_bytes (di_len (rg_info r)) (2 ^ k) bsize -> 32 + bsize <= argsz ->
  exists s' d' bm, responds s en id 16 0 (le_bytes 4 (32 + bsize) ++ le_bytes 4 (2 ^ 16 + 8) ++ le_bytes 8 (di_iova (rg_info r)) ++
      le_bytes 8 (di_len (rg_info r)) ++ le_bytes 8 (2 ^ k) ++ bm) s' [] /\
    with_dma s d' s' /\ N.of_nat (length bm) = bsize /\ (forall p, page_set bm p <-> logged d i p) /\
    map rg_info (dm_regions d') = map rg_info (dm_regions d) /\ (forall j p, logged d' j p <-> j <> i /\ logged d j p).
Proof.
  intros s0 hist s arr evh en id body fds d argsz i r k bsize F H M RQ MG D Hn NF PG K63 A0 A1 A2 A3 A4 BB Z.
  assert (RE : reachable s) by (exists s0, hist, arr, evh; auto).
  destruct (server_controller _ _ _ _ _ _ F H D) as (ops & evd & R & O & _). assert (RD : reached true ops d evd) by (split; auto).
  destruct (reached_inv _ _ _ _ RD) as (I & I2 & _). assert (Hin : In r (dm_regions d)) by (eapply nth_error_In; eauto).
  destruct (C13_report_returns_and_clears true ops d evd i r k (cx_hint (sv_ctx s)) (zeros (N.to_nat bsize)) RD Hn NF PG K63) as (size & bm & d' & h & G & BS & LB & PS & LG).
  assert (ES : size = bsize) by (eapply DirtyHist.bitmap_bytes_unique; eauto). rewrite ES in G, BS, LB.
  destruct (dirty_page_get_inv _ _ _ _ _ _ _ _ _ _ I G) as (_ & SH & _).
  assert (GB : get_bitmap_size (di_len (rg_info r)) (2 ^ k) = Ok bsize).
  { pose proof (proj1 (Forall_forall _ _) (inv_bm _ I) r Hin) as Hok. unfold bm_ok in Hok. rewrite PG in Hok.
    destruct (rg_bitmap r) as [bm0|]; [|exfalso; destruct Hok as [Hz|]; [apply N.pow_nonzero in Hz; [contradiction|discriminate]|contradiction]].
    destruct Hok as (_ & _ & sz & Hsz & _). unfold rg_len in Hsz. rewrite Hsz. f_equal. eapply DirtyHist.bitmap_bytes_unique; [|exact BB].
    apply DirtyHist.bitmap_size_exact; [|exact Hsz].
    pose proof (proj1 (Forall_forall _ _) (inv_size _ I) r Hin) as X. cbv beta in X. pose proof (reached_max _ _ _ _ RD). unfold rg_len in X. change (2 ^ 64 - 64) with 18446744073709551552. change (2 ^ 40) with 1099511627776 in *. lia. }
  assert (L : (32 <= length body)%nat). { unfold rd, slice in A4. destruct (Nat.leb (24 + 8) (length body)) eqn:Q; [apply Nat.leb_le in Q; lia|discriminate A4]. }
  exists (set_ctx s (set_dma (sv_ctx s) d' h)), d', bm. split; [|split; [exists h; reflexivity|split; [exact LB|split; [exact PS|split; [now apply shape_infos in SH|exact LG]]]]].
  eapply request_responds; [exact RE|exact RQ| |intros x []].
  change (dispatch (sv_ctx s) (en_or en) 16 body fds) with (let '(r, c', ev) := handle_device_feature (sv_ctx s) (en_or en) body in (r, c', fds, ev)).
  unfold handle_device_feature. replace (N.of_nat (length body) <? 8) with false by lia. rewrite A0, A1. cbn [need].
  destruct (cx_mig (sv_ctx s)) as [m|]; [|congruence].
  change (N.ldiff (2 ^ 16 + 8) FEATURE_MASK) with FEATURE_GET. change (N.land (2 ^ 16 + 8) FEATURE_MASK) with 8.
  change (feature_supported (Some m) 8) with (N.lor FEATURE_GET FEATURE_PROBE). change (N.land (2 ^ 16 + 8) (N.lor FEATURE_GET FEATURE_PROBE)) with FEATURE_GET.
  rewrite N.eqb_refl. change (negb true || (N.lor FEATURE_GET FEATURE_PROBE =? 0)) with false. cbv iota.
  change (is_migration_feature 8) with false. change (is_dma_feature 8) with true. cbv iota.
  unfold dma_feature_get. rewrite D, A3, A4. cbn [need]. rewrite GB. replace (argsz <? 32 + bsize) with false by lia. rewrite A2. cbn [need]. rewrite G. reflexivity.
Qed.
Print Assumptions C13_report_request.

(* A server on which logging of pages of 4 KiB has been started and the device has written 8192 bytes at 0x11ffc. *)
Definition ex_start : list N := le_bytes 4 32 ++ le_bytes 4 (2 ^ 17 + 6) ++ le_bytes 8 4096 ++ le_bytes 4 0 ++ le_bytes 4 0 ++ zeros 8.
Definition ex_log_steps : list step := ex_steps ++ [SRun (ex_ask 16 ex_start []); SMark [mk_sg 65536 0 8192 8188 true]].
Definition ex_log : server := fst (sv_run (ex_server true) ex_log_steps).
Lemma ex_log_history : exists arr ev, history (ex_server true) ex_log_steps ex_log arr ev /\ Forall maps_ok ex_log_steps.
Proof.
  destruct (history_run (ex_server true) ex_log_steps ex_log (snd (sv_run (ex_server true) ex_log_steps))) as (arr & H).
  - vm_compute; reflexivity.
  - vm_compute; repeat constructor.
  - exists arr, (concat (map snd (snd (sv_run (ex_server true) ex_log_steps)))). split; [exact H|]. apply Forall_app. split; [exact ex_maps_ok|].
    constructor; [intros C; discriminate C|]. constructor; [exact Logic.I|constructor].
Qed.
Definition ex_log_pages (s : server) : list N := match cx_dma (sv_ctx s) with Some d => match dm_regions d with r :: _ => match rg_bitmap r with Some bm => bm | None => [] end | [] => [] end | None => [] end.
Definition ex_unmap_bm : list N := le_bytes 4 48 ++ le_bytes 4 1 ++ le_bytes 8 65536 ++ le_bytes 8 65536 ++ le_bytes 8 4096 ++ le_bytes 8 8.
Definition ex_report : list N := le_bytes 4 40 ++ le_bytes 4 (2 ^ 16 + 8) ++ le_bytes 8 65536 ++ le_bytes 8 65536 ++ le_bytes 8 4096.
Example C13_message_case : ex_log_pages ex_log = [14; 0; 0; 0; 0; 0; 0; 0] /\
  unmap_fields ex_unmap_bm 48 1 65536 65536 /\ bitmap_bytes 65536 (2 ^ 12) 8 /\
  (exists s' ev, sv_step ex_log (SRun (ex_ask 3 ex_unmap_bm [])) = (Ok 1, s', ev) /\ regions_of s' = [] /\
     In (EvReply (mk_reply 7 3 0 (ex_unmap_bm ++ [14; 0; 0; 0; 0; 0; 0; 0]) [])) ev) /\
  (exists s' ev, sv_step ex_log (SRun (ex_ask 16 ex_report [])) = (Ok 1, s', ev) /\ ex_log_pages s' = [0; 0; 0; 0; 0; 0; 0; 0] /\
     In (EvReply (mk_reply 7 16 0 (ex_report ++ [14; 0; 0; 0; 0; 0; 0; 0]) [])) ev).
Proof.
  split; [vm_compute; reflexivity|]. split; [constructor; vm_compute; try reflexivity; lia|]. split; [exists 16; vm_compute; repeat split; discriminate|].
  split; eexists _, _; (split; [vm_compute; reflexivity|]); split; [vm_compute; reflexivity|vm_compute; tauto|vm_compute; reflexivity|vm_compute; tauto].
Qed.
