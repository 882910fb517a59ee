(* C79: logging dirty pages does not change what other requests do. *)
From Coq Require Import NArith ZArith List Bool Lia ZifyBool ZifyNat ZifyN.
From Verif Require Import Base Types Bytes BytesProofs Spec Dma Dirty DmaOps SpecDma DmaProofs Migr Irq SpecIrq IrqProofs PropIrq Pci Handlers
  SpecHandlers HandlersProofs HandlersDma Server SpecServer ServerProofs PropServer.
Import ListNotations.
Open Scope N_scope.
Ltac Zify.zify_post_hook ::= idtac.

(* The same server, but that logs no dirty pages, and starts afresh to look for DMA addresses (C09: that is not observable). *)
Definition bare (r : region) : region := mk_region (rg_info r) (rg_fd r) (rg_off r) None.
Definition unlogged_dma (d : dma) : dma := mk_dma (dm_max_regions d) (dm_max_size d) 0 (map bare (dm_regions d)).
Definition unlogged_ctx (c : ctx) : ctx :=
  mk_ctx (option_map unlogged_dma (cx_dma c)) 0%nat (cx_regs c) (cx_pci c) (cx_quiesce c) (cx_reset c) (cx_register c) (cx_unregister c)
    (cx_mig c) (cx_irq_cfg c) (cx_irqs c) (cx_max_xfer c).
Definition unlogged (s : server) : server := mk_server (unlogged_ctx (sv_ctx s)) (sv_pending s) (sv_quiesced s) (sv_conn s) (sv_realized s).

(* The request that a step may carry out: command, payload, descriptors, and what happens meanwhile. *)
Definition works_on (s : server) (st : step) (cmd : N) (body : list N) (fds : list Z) (o : oracle) : Prop :=
  match st with
  | SRun en => exists h b, en_rx en = RxMsg h fds b /\ cmd = hd_cmd h /\ body = firstn (N.to_nat (hd_size h - 16)) match b with inr l => l | inl _ => [] end /\ o = en_or en
  | SQuiesced _ en => exists m, sv_pending s = PMsg m /\ cmd = hd_cmd (mg_hdr m) /\ body = mg_body m /\ fds = mg_fds m /\ o = en_or en
  | _ => False
  end.

(* Requests about the log: device features 6 to 8 (start, stop, report), and unmap requests with flag 1 (report). *)
Definition about_log (cmd : N) (body : list N) : Prop :=
  (cmd = 16 /\ exists f, rd body 4 4 = Some f /\ 6 <= f mod 2 ^ 16 <= 8) \/ (cmd = 3 /\ rd body 4 4 = Some 1).
(* A request to map memory for which, if pages are logged, a bitmap can be had: the memory is at least a page. *)
Definition loggable (c : ctx) (o : oracle) (cmd : N) (body : list N) (fds : list Z) : Prop :=
  forall d size, cx_dma c = Some d -> cmd = 2 -> fds <> [] -> rd body 24 8 = Some size ->
    dm_pgsize d = 0 \/ (dm_pgsize d <= size /\ os_calloc (or_os o) = true).
(* The steps the theorem is about. *)
Definition not_about_log (s : server) (st : step) : Prop :=
  match st with
  | SMark _ | SLookup _ => False
  | _ => forall cmd body fds o, works_on s st cmd body fds o -> ~ about_log cmd body /\ loggable (sv_ctx s) o cmd body fds
  end.

(* ---------- the DMA controller *)

Lemma add_scan_bare os rs : forall i addr size fd off prot, add_scan os (map bare rs) i addr size fd off prot = add_scan os rs i addr size fd off prot.
Proof.
  induction rs as [|r rs IH]; intros; [reflexivity|]. cbn [map add_scan]. unfold same_range, overlap_test, iov_end, rg_base, rg_len. cbn [bare rg_info rg_fd rg_off].
  rewrite IH. reflexivity.
Qed.

Lemma add_bare os d addr size fd off prot : fd = (-1)%Z \/ dm_pgsize d = 0 \/ (dm_pgsize d <= size /\ os_calloc os = true) ->
  add_region os (unlogged_dma d) addr size fd off prot = let '(o, d1, ev) := add_region os d addr size fd off prot in (o, unlogged_dma d1, ev).
Proof.
  intros H. unfold add_region. cbn [unlogged_dma dm_max_size dm_regions dm_max_regions dm_pgsize]. rewrite add_scan_bare, map_length.
  destruct (dm_max_size d <? size); [reflexivity|]. destruct (add_scan os (dm_regions d) 0 addr size fd off prot); [reflexivity|].
  destruct (Nat.eqb (length (dm_regions d)) (dm_max_regions d)); [reflexivity|].
  assert (SR : forall r, unlogged_dma (set_regions d (dm_regions d ++ [r])) = set_regions (unlogged_dma d) (map bare (dm_regions d) ++ [bare r]))
    by (intros r; unfold unlogged_dma, set_regions; cbn; now rewrite map_app).
  destruct (fd =? -1)%Z eqn:Ef; [now rewrite SR|]. destruct (os_blksize os) as [blk|]; [|reflexivity]. change (0 =? 0) with true. cbv iota.
  assert (E : exists bm, (if dm_pgsize d =? 0 then Ok (mk_region (mk_info addr size None 0 0 (N.max blk PAGE_SIZE) prot) fd off None)
    else start_on_region (os_calloc os) (mk_region (mk_info addr size None 0 0 (N.max blk PAGE_SIZE) prot) fd off None) (dm_pgsize d)) =
    Ok (mk_region (mk_info addr size None 0 0 (N.max blk PAGE_SIZE) prot) fd off bm)).
  { destruct (dm_pgsize d =? 0) eqn:Ep; [eauto|]. destruct H as [->|[H|(H & C)]]; [discriminate Ef|lia|].
    unfold start_on_region, get_bitmap_size. rewrite Ep. unfold rg_len. cbn [rg_info di_len]. replace (size <? dm_pgsize d) with false by lia. cbv iota. rewrite C. eauto. }
  destruct E as [bm E]. rewrite E. unfold map_region. cbn [rg_info rg_off di_page_size di_len rg_fd rg_bitmap di_iova di_prot]. destruct (os_mmap os) as [base|e]; [|reflexivity]. now rewrite SR.
Qed.

Lemma map_bare cb os d addr size fd off prot : fd = (-1)%Z \/ dm_pgsize d = 0 \/ (dm_pgsize d <= size /\ os_calloc os = true) ->
  dma_map_request cb os (unlogged_dma d) addr size fd off prot = let '(o, d1, ev) := dma_map_request cb os d addr size fd off prot in (o, unlogged_dma d1, ev).
Proof.
  intros H. unfold dma_map_request. rewrite add_bare by exact H. destruct (add_region os d addr size fd off prot) as [[[i|e|c] d1] ev]; [|reflexivity..].
  cbn [unlogged_dma dm_regions]. rewrite nth_error_map. destruct (nth_error (dm_regions d1) i); reflexivity.
Qed.

Lemma remove_scan_bare cb rs addr size : remove_scan cb (map bare rs) addr size = let '(o, rs') := remove_scan cb rs addr size in (o, map bare rs').
Proof.
  induction rs as [|r rs IH]; [reflexivity|]. cbn [map remove_scan]. change (same_range (bare r) addr size) with (same_range r addr size).
  destruct (same_range r addr size); [|rewrite IH; destruct (remove_scan cb rs addr size); reflexivity].
  change (release_region cb (bare r)) with (release_region cb r). destruct (release_region cb r); reflexivity.
Qed.
Lemma remove_bare cb d addr size : remove_region cb (unlogged_dma d) addr size = let '(o, d1) := remove_region cb d addr size in (o, unlogged_dma d1).
Proof. unfold remove_region. cbn [unlogged_dma dm_regions]. rewrite remove_scan_bare. destruct (remove_scan cb (dm_regions d) addr size). reflexivity. Qed.
Lemma release_bare cb rs : release_all cb (map bare rs) = release_all cb rs.
Proof. induction rs as [|r rs IH]; [reflexivity|]. cbn [map release_all]. change (release_region cb (bare r)) with (release_region cb r). now rewrite IH. Qed.
Lemma remove_all_bare cb d : remove_all_regions cb (unlogged_dma d) = let '(o, d1) := remove_all_regions cb d in (o, unlogged_dma d1).
Proof. unfold remove_all_regions. cbn [unlogged_dma dm_regions]. rewrite release_bare. destruct (release_all cb (dm_regions d)); reflexivity. Qed.

(* ---------- requests *)

Lemma set_dma_bare c d h : unlogged_ctx (set_dma c d h) = set_dma (unlogged_ctx c) (unlogged_dma d) 0%nat.
Proof. reflexivity. Qed.

Lemma access_bare c o w body : handle_region_access (unlogged_ctx c) o w body = let '(r, c1, ev) := handle_region_access c o w body in (r, unlogged_ctx c1, ev).
Proof.
  unfold handle_region_access. destruct (N.of_nat (length body) <? 16); [reflexivity|].
  destruct (rd body 0 8) as [off|]; [|reflexivity]. destruct (rd body 8 4) as [rg|]; [|reflexivity]. destruct (rd body 12 4) as [cnt|]; [|reflexivity]. cbn [need].
  change (valid_region_access (unlogged_ctx c)) with (valid_region_access c). destruct (negb (valid_region_access c _ w off rg cnt)); [reflexivity|]. destruct (cnt =? 0); [reflexivity|].
  assert (E : forall data, region_access (unlogged_ctx c) o rg w off cnt data = let '(res, buf, c1, ev) := region_access c o rg w off cnt data in (res, buf, unlogged_ctx c1, ev)).
  { intros data. unfold region_access. change (cx_regs (unlogged_ctx c)) with (cx_regs c). change (env_of (unlogged_ctx c)) with (env_of c). change (cx_pci (unlogged_ctx c)) with (cx_pci c).
    destruct (nth_error (cx_regs c) (N.to_nat rg)) as [r|]; [|reflexivity]. destruct ((rg =? CFG_REGION) && negb (has (ri_flags r) REGION_FLAG_ALWAYS_CB)).
    - destruct w; [destruct (config_write (env_of c) (cx_pci c) (or_access o) (or_reset o) off data) as [[a b] e]; reflexivity|destruct (config_read (env_of c) (cx_pci c) (or_access o) off cnt) as [[a b] e]; reflexivity].
    - destruct (negb (ri_cb r)); [reflexivity|]. destruct (or_access o 0%nat off cnt); reflexivity. }
  rewrite E. destruct (region_access c o rg w off cnt _) as [[[res buf] c1] ev]. destruct res as [n|e|cr]; [destruct (n =? cnt)|..]; reflexivity.
Qed.

Lemma reset_bare c ans t : device_reset (unlogged_ctx c) ans t = let '(r, c1, ev) := device_reset c ans t in (r, unlogged_ctx c1, ev).
Proof. unfold device_reset. change (cx_reset (unlogged_ctx c)) with (cx_reset c). destruct (cx_reset c); [destruct ans|]; reflexivity. Qed.

Lemma feature_bare c o body : ~ about_log 16 body ->
  handle_device_feature (unlogged_ctx c) o body = let '(r, c1, ev) := handle_device_feature c o body in (r, unlogged_ctx c1, ev).
Proof.
  intros NL. unfold handle_device_feature. destruct (N.of_nat (length body) <? 8); [reflexivity|].
  destruct (rd body 0 4) as [argsz|]; [|reflexivity]. destruct (rd body 4 4) as [f|] eqn:Ef; [|reflexivity]. cbn [need]. change (cx_mig (unlogged_ctx c)) with (cx_mig c).
  assert (D : is_dma_feature (N.land f FEATURE_MASK) = false).
  { destruct (is_dma_feature (N.land f FEATURE_MASK)) eqn:D; [|reflexivity]. exfalso. apply NL. left. split; [reflexivity|]. exists f. split; [exact Ef|].
    rewrite <- N.land_ones. change (N.ones 16) with FEATURE_MASK. unfold is_dma_feature in D. change FEATURE_DMA_LOGGING_START with 6 in D. change FEATURE_DMA_LOGGING_STOP with 7 in D. change FEATURE_DMA_LOGGING_REPORT with 8 in D. lia. }
  rewrite D. destruct (negb _ || _); [reflexivity|]. destruct (N.ldiff f FEATURE_MASK =? FEATURE_GET).
  - destruct (is_migration_feature (N.land f FEATURE_MASK)); [|reflexivity]. reflexivity.
  - destruct (N.ldiff f FEATURE_MASK =? FEATURE_SET).
    + destruct (argsz <? N.of_nat (length body)); [reflexivity|]. destruct (is_migration_feature (N.land f FEATURE_MASK)); [|reflexivity].
      unfold migration_feature_set. change (cx_mig (unlogged_ctx c)) with (cx_mig c). destruct (negb _); [reflexivity|]. destruct (rd body 8 4) as [stt|]; [|reflexivity]. cbn [need].
      destruct (cx_mig c) as [cur|]; [|reflexivity]. destruct (migration_set_state (or_trans o) cur stt) as [[res cur'] ev]. destruct res; reflexivity.
    + destruct (negb (has _ FEATURE_PROBE)); [reflexivity|]. destruct (argsz <? N.of_nat (length body)); reflexivity.
Qed.

Lemma dma_map_bare c d o body fds : cx_dma c = Some d -> loggable c o 2 body fds ->
  handle_dma_map (unlogged_ctx c) (unlogged_dma d) o body fds = let '(r, c1, f, ev) := handle_dma_map c d o body fds in (r, unlogged_ctx c1, f, ev).
Proof.
  intros Ed L. unfold handle_dma_map. destruct (N.of_nat (length body) <? 32); [reflexivity|].
  destruct (rd body 0 4) as [argsz|]; [|reflexivity]. destruct (rd body 4 4) as [fl|]; [|reflexivity]. destruct (rd body 8 8) as [off|]; [|reflexivity].
  destruct (rd body 16 8) as [addr|]; [|reflexivity]. destruct (rd body 24 8) as [size|] eqn:Es; [|reflexivity]. cbn [need].
  destruct (argsz <? 32); [reflexivity|]. destruct (negb (N.ldiff fl 3 =? 0)); [reflexivity|].
  change (cx_register (unlogged_ctx c)) with (cx_register c).
  destruct fds as [|fd fs]; cbn [length Nat.eqb negb andb].
  - rewrite map_bare by now left. destruct (dma_map_request _ _ d addr size (-1) off _) as [[res d1] ev]. destruct res; reflexivity.
  - destruct (fd <? 0)%Z; [reflexivity|]. rewrite map_bare by (right; apply (L d size Ed eq_refl); [discriminate|exact Es]).
    destruct (dma_map_request _ _ d addr size fd off _) as [[res d1] ev]. destruct res; reflexivity.
Qed.

Lemma unmap_bare c d o body : ~ about_log 3 body ->
  handle_dma_unmap (unlogged_ctx c) (unlogged_dma d) o body = let '(r, c1, ev) := handle_dma_unmap c d o body in (r, unlogged_ctx c1, ev).
Proof.
  intros NL. unfold handle_dma_unmap. destruct (rd body 4 4) as [f|] eqn:Ef; [|reflexivity]. cbn [need]. change UNMAP_DIRTY with 1.
  destruct (f =? 1) eqn:E1; [exfalso; apply NL; right; split; [reflexivity|]; rewrite Ef; f_equal; lia|].
  change (cx_unregister (unlogged_ctx c)) with (cx_unregister c). change (cx_hint (unlogged_ctx c)) with 0%nat.
  destruct (f =? UNMAP_ALL).
  - destruct (rd body 8 8) as [addr|]; [|reflexivity]. cbn [need]. destruct (negb (addr =? 0)); [reflexivity|]. destruct (rd body 16 8) as [size|]; [|reflexivity]. cbn [need].
    destruct (negb (size =? 0)); [reflexivity|]. destruct (N.of_nat (length body) <? 24); [reflexivity|]. destruct (rd body 0 4) as [argsz|]; [|reflexivity]. cbn [need].
    destruct (slice body 0 24) as [hdr|]; [|reflexivity]. cbn [need]. destruct (_ || _); [reflexivity|]. rewrite remove_all_bare. destruct (remove_all_regions (cx_unregister c) d) as [[ev|e|cr] d1]; reflexivity.
  - destruct (f =? 0); [|reflexivity]. destruct (N.of_nat (length body) <? 24); [reflexivity|]. destruct (rd body 0 4) as [argsz|]; [|reflexivity]. cbn [need].
    destruct (rd body 8 8) as [addr|]; [|reflexivity]. destruct (rd body 16 8) as [size|]; [|reflexivity]. cbn [need].
    destruct (slice body 0 24) as [hdr|]; [|reflexivity]. cbn [need]. destruct (_ || _); [reflexivity|]. rewrite remove_bare. destruct (remove_region (cx_unregister c) d addr size) as [[ev|e|cr] d1]; reflexivity.
Qed.

Lemma dispatch_bare c o cmd body fds : ~ about_log cmd body -> loggable c o cmd body fds ->
  dispatch (unlogged_ctx c) o cmd body fds = let '(r, c1, f, ev) := dispatch c o cmd body fds in (r, unlogged_ctx c1, f, ev).
Proof.
  intros NL L. unfold dispatch. change (cx_dma (unlogged_ctx c)) with (option_map unlogged_dma (cx_dma c)).
  destruct (cmd =? CMD_DMA_MAP) eqn:E2.
  { apply N.eqb_eq in E2. subst cmd. destruct (cx_dma c) as [d|] eqn:Ed; [|reflexivity]. exact (dma_map_bare c d o body fds Ed L). }
  destruct (cmd =? CMD_DMA_UNMAP) eqn:E3.
  { apply N.eqb_eq in E3. subst cmd. destruct (cx_dma c) as [d|] eqn:Ed; [|reflexivity]. cbn [option_map]. rewrite (unmap_bare c d o body NL). destruct (handle_dma_unmap c d o body) as [[r c1] ev]. reflexivity. }
  destruct (cmd =? CMD_GET_INFO); [reflexivity|]. destruct (cmd =? CMD_GET_REGION_INFO); [reflexivity|]. destruct (cmd =? CMD_GET_REGION_IO_FDS); [reflexivity|].
  destruct (cmd =? CMD_GET_IRQ_INFO); [reflexivity|].
  change (cx_irqs (unlogged_ctx c)) with (cx_irqs c). change (cx_irq_cfg (unlogged_ctx c)) with (cx_irq_cfg c).
  destruct (cmd =? CMD_SET_IRQS). { destruct (cx_irqs c) as [t|]; [|reflexivity]. destruct (set_irqs (cx_irq_cfg c) t (or_efd o) body fds) as [[[r t'] f] ev]. reflexivity. }
  destruct (cmd =? CMD_REGION_READ). { rewrite access_bare. destruct (handle_region_access c o false body) as [[r c1] ev]. reflexivity. }
  destruct (cmd =? CMD_REGION_WRITE). { rewrite access_bare. destruct (handle_region_access c o true body) as [[r c1] ev]. reflexivity. }
  destruct (cmd =? CMD_RESET). { rewrite reset_bare. destruct (device_reset c (or_reset o 0%nat) ResetDevice) as [[r c1] ev]. destruct r; reflexivity. }
  destruct (cmd =? CMD_FEATURE) eqn:E16. { apply N.eqb_eq in E16. subst cmd. rewrite feature_bare by exact NL. destruct (handle_device_feature c o body) as [[r c1] ev]. reflexivity. }
  change (cx_mig (unlogged_ctx c)) with (cx_mig c). change (cx_max_xfer (unlogged_ctx c)) with (cx_max_xfer c).
  destruct (cmd =? CMD_MIG_READ). { destruct (mig_data_read (cx_mig c) (cx_max_xfer c) (or_data o) body) as [r ev]. reflexivity. }
  destruct (cmd =? CMD_MIG_WRITE). { destruct (mig_data_write (cx_mig c) (cx_max_xfer c) (or_data o) body) as [r ev]. reflexivity. }
  reflexivity.
Qed.

(* ---------- the server *)

Lemma lost_bare s lost : reset_ctx_quiesced (unlogged s) lost = let '(r, s1, ev) := reset_ctx_quiesced s lost in (r, unlogged s1, ev).
Proof.
  unfold reset_ctx_quiesced. change (sv_ctx (unlogged s)) with (unlogged_ctx (sv_ctx s)). set (c := sv_ctx s).
  assert (E : (match cx_dma (unlogged_ctx c) with Some d => let '(r, d') := remove_all_regions (cx_unregister (unlogged_ctx c)) d in (r, set_dma (unlogged_ctx c) d' (cx_hint (unlogged_ctx c))) | None => (Ok [], unlogged_ctx c) end) =
    let '(r, c1) := (match cx_dma c with Some d => let '(r, d') := remove_all_regions (cx_unregister c) d in (r, set_dma c d' (cx_hint c)) | None => (Ok [], c) end) in (r, unlogged_ctx c1)).
  { change (cx_dma (unlogged_ctx c)) with (option_map unlogged_dma (cx_dma c)). destruct (cx_dma c) as [d|]; [|reflexivity]. cbn [option_map]. change (cx_unregister (unlogged_ctx c)) with (cx_unregister c).
    rewrite remove_all_bare. destruct (remove_all_regions (cx_unregister c) d) as [r d1]. reflexivity. }
  rewrite E. destruct (match cx_dma c with Some d => _ | None => _ end) as [[ev1|e|cr] c1]; [|reflexivity..].
  rewrite reset_bare. destruct (device_reset c1 lost ResetLostConn) as [[r c2] ev2]. change (cx_irqs (unlogged_ctx c2)) with (cx_irqs c2). change (cx_irq_cfg (unlogged_ctx c2)) with (cx_irq_cfg c2).
  destruct (cx_irqs c2) as [t|]; [destruct (irqs_reset (cx_irq_cfg c2) t) as [[[u|e|cr] t'] ev]|]; reflexivity.
Qed.

Lemma reset_ctx_bare s q lost : reset_ctx (unlogged s) q lost = let '(r, s1, ev) := reset_ctx s q lost in (r, unlogged s1, ev).
Proof.
  unfold reset_ctx. change (cx_quiesce (sv_ctx (unlogged s))) with (cx_quiesce (sv_ctx s)). change (sv_pending (unlogged s)) with (sv_pending s). rewrite lost_bare.
  destruct (cx_quiesce (sv_ctx s) && _); [|reflexivity]. destruct q as [e|]; [destruct (e =? EBUSY); reflexivity|]. destruct (reset_ctx_quiesced s lost) as [[r s1] ev]. reflexivity.
Qed.

Lemma do_reply_bare s en h err body fds : do_reply (unlogged s) en h err body fds = let '(r, s1, ev) := do_reply s en h err body fds in (r, unlogged s1, ev).
Proof. unfold do_reply. destruct (has (hd_flags h) F_NO_REPLY); [reflexivity|]. destruct (en_send en) as [e|]; [|reflexivity]. destruct (_ || _); [apply reset_ctx_bare|reflexivity]. Qed.

Lemma refuse_bare s en h fds err : refuse (unlogged s) en h fds err = let '(r, s1, ev) := refuse s en h fds err in (r, unlogged s1, ev).
Proof. unfold refuse. rewrite do_reply_bare. destruct (do_reply s en h err [] []) as [[o s1] ev]. destruct o; reflexivity. Qed.

Lemma handle_bare s en m : ~ about_log (hd_cmd (mg_hdr m)) (mg_body m) -> loggable (sv_ctx s) (en_or en) (hd_cmd (mg_hdr m)) (mg_body m) (mg_fds m) ->
  handle_request (unlogged s) en m = let '(o, s1, f, ev) := handle_request s en m in (o, unlogged s1, f, ev).
Proof.
  intros NL L. unfold handle_request. change (sv_ctx (unlogged s)) with (unlogged_ctx (sv_ctx s)). rewrite dispatch_bare by assumption.
  destruct (dispatch (sv_ctx s) (en_or en) _ _ _) as [[[r c1] f] ev]. destruct r as [err body rf|cr]; [|reflexivity].
  change (set_ctx (unlogged s) (unlogged_ctx c1)) with (unlogged (set_ctx s c1)). rewrite do_reply_bare. destruct (do_reply (set_ctx s c1) en _ err body rf) as [[o s2] ev2]. reflexivity.
Qed.

Lemma get_bare s en : get_request (unlogged s) en = let '(g, s1, ev) := get_request s en in (g, unlogged s1, ev).
Proof.
  unfold get_request. change (sv_conn (unlogged s)) with (sv_conn s). destruct (sv_conn s); cbn [negb]; [|reflexivity]. destruct (en_rx en) as [e|h fds b].
  - destruct (_ || _); [|reflexivity]. rewrite reset_ctx_bare. destruct (reset_ctx s _ _) as [[o s1] ev]. destruct o; reflexivity.
  - rewrite refuse_bare. destruct (negb (is_valid_header h)); [reflexivity|]. destruct (if hd_size h =? 16 then _ else _) as [bd|e|cr]; [|apply refuse_bare|reflexivity].
    change (cx_mig (sv_ctx (unlogged s))) with (cx_mig (sv_ctx s)). destruct (negb (should_exec _ _)); [reflexivity|].
    assert (Q : needs_quiesce (sv_ctx (unlogged s)) (hd_cmd h) bd = needs_quiesce (sv_ctx s) (hd_cmd h) bd).
    { unfold needs_quiesce. change (sv_ctx (unlogged s)) with (unlogged_ctx (sv_ctx s)). cbn [unlogged_ctx cx_quiesce cx_dma cx_pci]. destruct (cx_dma (sv_ctx s)); reflexivity. }
    rewrite Q. clear Q. destruct (needs_quiesce (sv_ctx s) (hd_cmd h) bd); [|reflexivity]. destruct (en_quiesce en) as [e|]; [|reflexivity]. destruct (e =? EBUSY); [reflexivity|].
    rewrite refuse_bare. destruct (refuse s en h fds e) as [[g s1] ev]. reflexivity.
Qed.

Lemma got_works s en m s1 ev : get_request s en = (GotMsg m, s1, ev) -> sv_pending s = PNone ->
  works_on s (SRun en) (hd_cmd (mg_hdr m)) (mg_body m) (mg_fds m) (en_or en) /\ sv_ctx s1 = sv_ctx s.
Proof.
  intros H P. unfold get_request in H. destruct (negb (sv_conn s)); [discriminate H|]. destruct (en_rx en) as [e|h fds b] eqn:X.
  - destruct (_ || _) in H; [|discriminate H]. destruct (reset_ctx _ _ _) as [[o s2] ev2]. destruct o; discriminate H.
  - assert (RF : forall e, (let '(g, s', ev') := refuse s en h fds e in (g, s', ev')) <> (GotMsg m, s1, ev)).
    { intros e. unfold refuse. destruct (do_reply s en h e [] []) as [[o s2] ev2]. destruct o; discriminate. }
    assert (RF' : forall e l, (let '(g, s', ev') := refuse s en h fds e in (g, s', l ++ ev')) <> (GotMsg m, s1, ev)).
    { intros e l. unfold refuse. destruct (do_reply s en h e [] []) as [[o s2] ev2]. destruct o; discriminate. }
    assert (RF2 : forall e, refuse s en h fds e <> (GotMsg m, s1, ev)) by (intros e Y; apply (RF e); rewrite Y; reflexivity).
    destruct (negb (is_valid_header h)) eqn:V; [now apply RF2 in H|].
    destruct (if hd_size h =? 16 then _ else _) as [bd|e|cr] eqn:B; [|now apply RF2 in H|discriminate H].
    destruct (negb (should_exec _ _)); [now apply RF2 in H|].
    assert (W : works_on s (SRun en) (hd_cmd h) bd fds (en_or en)).
    { exists h, b. split; [exact X|]. split; [reflexivity|]. split; [|reflexivity]. destruct (hd_size h =? 16) eqn:Z.
      - injection B as <-. replace (hd_size h - 16) with 0 by lia. reflexivity.
      - unfold recv_body in B. destruct b as [e|l]; [discriminate B|]. destruct (_ =? 0) in B; [discriminate B|]. destruct (negb _) in B; [discriminate B|]. now injection B as <-. }
    destruct (needs_quiesce _ _ _).
    + destruct (en_quiesce en) as [e|]; [destruct (e =? EBUSY); [discriminate H|exfalso; exact (RF' e [EvQuiesce (Some e)] H)]|]. injection H as <- <- <-. split; [exact W|reflexivity].
    + injection H as <- <- <-. split; [exact W|reflexivity].
Qed.

(* A step that is not about the log does the same to a server that logs and to one that does not: the call returns the
   same, the same happens, and afterwards the servers again differ in the log alone. *)
Theorem C79_step_partial : forall s st o s1 ev, not_about_log s st -> sv_step s st = (o, s1, ev) -> sv_step (unlogged s) st = (o, unlogged s1, ev).
Proof.
  intros s st o s1 ev NL H.
  assert (E : sv_step (unlogged s) st = let '(o, s1, ev) := sv_step s st in (o, unlogged s1, ev)); [|now rewrite E, H].
  clear H o s1 ev. destruct st as [en|e en|mx|l|hi|v an|of da]; cbn [not_about_log sv_step] in *; try contradiction.
  - change (sv_realized (unlogged s)) with (sv_realized s). change (sv_pending (unlogged s)) with (sv_pending s). destruct (negb (sv_realized s)); [reflexivity|].
    destruct (sv_pending s) eqn:P; [|reflexivity..]. unfold run_iter. rewrite get_bare. destruct (get_request s en) as [[g s1] ev] eqn:G. destruct g as [m|e|cr]; [|reflexivity..].
    destruct (got_works _ _ _ _ _ G P) as [W Ec]. destruct (NL _ _ _ _ W) as [N1 N2]. rewrite <- Ec in N2. rewrite handle_bare by assumption.
    destruct (handle_request s1 en m) as [[[o s2] f] ev2]. destruct o; reflexivity.
  - unfold device_quiesced. change (cx_quiesce (sv_ctx (unlogged s))) with (cx_quiesce (sv_ctx s)). change (sv_pending (unlogged s)) with (sv_pending s).
    destruct (negb (cx_quiesce (sv_ctx s))); [reflexivity|]. destruct (sv_pending s) as [|m|] eqn:P; [reflexivity|..]; (destruct (e =? 0); [|reflexivity]);
      change (set_quiesced (unlogged s) true) with (unlogged (set_quiesced s true)).
    + assert (W : works_on s (SQuiesced e en) (hd_cmd (mg_hdr m)) (mg_body m) (mg_fds m) (en_or en)) by (exists m; auto). destruct (NL _ _ _ _ W) as [N1 N2].
      rewrite handle_bare by assumption. destruct (handle_request (set_quiesced s true) en m) as [[[o s2] f] ev2]. destruct o; reflexivity.
    + rewrite lost_bare. destruct (reset_ctx_quiesced (set_quiesced s true) (en_lost en)) as [[o s2] ev2]. destruct o; reflexivity.
  - change (sv_conn (unlogged s)) with (sv_conn s). destruct (sv_conn s); reflexivity.
  - change (cx_irqs (sv_ctx (unlogged s))) with (cx_irqs (sv_ctx s)). destruct (cx_irqs (sv_ctx s)) as [t|]; [|reflexivity]. destruct (irq_trigger t an v) as [o ev]. destruct o; reflexivity.
  - unfold dev_poke. change (cx_pci (sv_ctx (unlogged s))) with (cx_pci (sv_ctx s)). destruct (put_slice _ _ da); reflexivity.
Qed.
Print Assumptions C79_step_partial.

(* ---------- requests about the log *)

(* Steps about the log: the device marks pages or looks addresses up; a client starts or stops logging or asks for a
   report with a device feature request (not with an unmap), the device does not put off quiescing and the reply can be
   sent. *)
Definition log_step (st : step) : Prop :=
  match st with
  | SMark _ | SLookup _ => True
  | SRun en => exists h fds b f, en_rx en = RxMsg h fds b /\ hd_cmd h = 16 /\
      rd (firstn (N.to_nat (hd_size h - 16)) match b with inr l => l | inl _ => [] end) 4 4 = Some f /\ 6 <= f mod 2 ^ 16 <= 8 /\
      en_send en = None /\ en_quiesce en <> Some EBUSY
  | _ => False
  end.

Lemma set_nth_bare rs : forall i r b, nth_error rs i = Some r -> map bare (set_nth i (set_bitmap r b) rs) = map bare rs.
Proof.
  induction rs as [|x rs IH]; intros [|i] r b H; cbn [nth_error] in H; try discriminate H.
  - injection H as <-. reflexivity.
  - cbn [set_nth map]. f_equal. now apply IH.
Qed.

Lemma start_scan_bare calloc pg rs : forall i, map bare (snd (start_scan calloc i rs pg)) = map bare rs.
Proof.
  induction rs as [|r rs IH]; intros i; [reflexivity|]. cbn [start_scan].
  destruct (rg_fd r =? -1)%Z.
  - specialize (IH (S i)). destruct (start_scan calloc (S i) rs pg) as [[[]|e|c] rs']; cbn [snd map] in *; now rewrite IH.
  - destruct (start_on_region (calloc i) r pg) as [r'|e|c] eqn:E; [|reflexivity..].
    assert (B : bare r' = bare r) by (unfold start_on_region in E; destruct (get_bitmap_size _ _); try discriminate E; destruct (calloc i); [injection E as <-; reflexivity|discriminate E]).
    specialize (IH (S i)). destruct (start_scan calloc (S i) rs pg) as [[[]|e|c] rs']; cbn [snd map] in *; now rewrite IH, ?B.
Qed.

Lemma start_bare calloc d pg : unlogged_dma (snd (logging_start calloc d pg)) = unlogged_dma d.
Proof.
  unfold logging_start. destruct (pg =? 0); [reflexivity|]. destruct (0 <? dm_pgsize d); [destruct (negb _); reflexivity|].
  pose proof (start_scan_bare calloc pg (dm_regions d) 0%nat) as E. destruct (start_scan calloc 0 (dm_regions d) pg) as [[[]|e|c] rs]; unfold unlogged_dma; cbn [snd set_pgsize set_regions dm_max_regions dm_max_size dm_regions] in *; now rewrite E.
Qed.

Lemma stop_bare d : unlogged_dma (logging_stop d) = unlogged_dma d.
Proof. unfold logging_stop. destruct (dm_pgsize d =? 0); [reflexivity|]. unfold unlogged_dma. cbn [set_pgsize set_regions dm_max_regions dm_max_size dm_regions]. now rewrite map_map. Qed.

Lemma report_bare d hint addr len pg size buf : unlogged_dma (snd (fst (dirty_page_get d hint addr len pg size buf))) = unlogged_dma d.
Proof.
  unfold dirty_page_get. destruct (addr_to_sgl d hint addr len 1 0) as [res h']. destruct res as [l|n|e|c]; try reflexivity. destruct l as [|s l]; [reflexivity|].
  destruct (_ || _); [reflexivity|]. destruct (dm_pgsize d =? 0); [reflexivity|]. destruct (_ || _); [reflexivity|].
  destruct (get_bitmap_size len (dm_pgsize d)) as [ss|e|c]; destruct (get_bitmap_size len pg) as [cs|e'|c']; try reflexivity. destruct (negb (size =? cs)); [reflexivity|].
  destruct (nth_error (dm_regions d) (sg_region s)) as [r|] eqn:En; [|reflexivity]. destruct (rg_fd r =? -1)%Z; [reflexivity|]. destruct (rg_bitmap r) as [bm|]; [|reflexivity].
  destruct (report_bitmap _ _ _ _ _ _) as [[out bm']|e|c]; [|reflexivity..]. unfold unlogged_dma. cbn [fst snd set_regions dm_max_regions dm_max_size dm_regions]. now rewrite set_nth_bare.
Qed.

Lemma mark_bare l : forall d d', sgl_mark_dirty d l = Ok d' -> unlogged_dma d' = unlogged_dma d.
Proof.
  induction l as [|s l IH]; intros d d' H; cbn [sgl_mark_dirty] in H; [now injection H as <-|].
  destruct (nth_error (dm_regions d) (sg_region s)) as [r|] eqn:En; [|now injection H as <-]. destruct (_ && _); [|now apply IH].
  destruct (mark_region (dm_pgsize d) r s) as [r'|e|c] eqn:M; try discriminate H. apply IH in H. rewrite H. unfold mark_region in M. destruct (rg_bitmap r); [|discriminate M].
  destruct (or_bytes _ _) in M; try discriminate M. injection M as <-. unfold unlogged_dma. cbn [set_regions dm_max_regions dm_max_size dm_regions]. now rewrite set_nth_bare.
Qed.

Lemma set_dma_same c d d' h : cx_dma c = Some d -> unlogged_dma d' = unlogged_dma d -> unlogged_ctx (set_dma c d' h) = unlogged_ctx c.
Proof.
  intros Ed E. unfold unlogged_ctx, set_dma. cbn [cx_dma cx_hint cx_regs cx_pci cx_quiesce cx_reset cx_register cx_unregister cx_mig cx_irq_cfg cx_irqs cx_max_xfer].
  rewrite Ed. cbn [option_map]. now rewrite E.
Qed.

Lemma log_feature c o body f : rd body 4 4 = Some f -> 6 <= f mod 2 ^ 16 <= 8 ->
  unlogged_ctx (snd (fst (handle_device_feature c o body))) = unlogged_ctx c /\ snd (handle_device_feature c o body) = [].
Proof.
  intros Ef R. unfold handle_device_feature. destruct (N.of_nat (length body) <? 8); [auto|]. destruct (rd body 0 4) as [argsz|]; [|auto]. rewrite Ef. cbn [need].
  rewrite <- N.land_ones in R. change (N.ones 16) with FEATURE_MASK in R.
  assert (M : is_migration_feature (N.land f FEATURE_MASK) = false) by (unfold is_migration_feature; change FEATURE_MIGRATION with 1; change FEATURE_MIG_DEVICE_STATE with 2; lia).
  rewrite M. destruct (negb _ || _); [auto|].
  assert (SD : forall d d' h, cx_dma c = Some d -> unlogged_dma d' = unlogged_dma d -> unlogged_ctx (set_dma c d' h) = unlogged_ctx c).
  { exact (set_dma_same c). }
  destruct (N.ldiff f FEATURE_MASK =? FEATURE_GET).
  - destruct (is_dma_feature _); [|auto]. unfold dma_feature_get. destruct (cx_dma c) as [d|] eqn:Ed; [|auto]. destruct (rd body 16 8) as [len|]; [|auto]. destruct (rd body 24 8) as [pg|]; [|auto]. cbn [need].
    destruct (get_bitmap_size len pg) as [bs|e|cr]; [|auto..]. destruct (argsz <? 32 + bs); [auto|]. destruct (rd body 8 8) as [iova|]; [|auto]. cbn [need].
    pose proof (report_bare d (cx_hint c) iova len pg bs (zeros (N.to_nat bs))) as E. destruct (dirty_page_get _ _ _ _ _ _ _) as [[[bm|e|cr] d'] h']; cbn [fst snd] in *; (split; [now apply (SD d)|reflexivity]).
  - destruct (N.ldiff f FEATURE_MASK =? FEATURE_SET).
    + destruct (argsz <? _); [auto|]. destruct (is_dma_feature _); [|auto]. unfold dma_feature_set. destruct (cx_dma c) as [d|] eqn:Ed; [|auto].
      destruct (_ =? FEATURE_DMA_LOGGING_START).
      * destruct (rd body 8 8) as [pg|]; [|auto]. cbn [need]. pose proof (start_bare (or_calloc o) d pg) as E. destruct (logging_start _ d pg) as [res d']. cbn [fst snd] in *. split; [now apply (SD d)|reflexivity].
      * destruct (_ =? FEATURE_DMA_LOGGING_STOP); [|auto]. split; [apply (SD d); [reflexivity|apply stop_bare]|reflexivity].
    + destruct (negb _); [auto|]. destruct (argsz <? _); auto.
Qed.

Lemma unlogged_set s c : unlogged_ctx c = unlogged_ctx (sv_ctx s) -> unlogged (set_ctx s c) = unlogged s.
Proof. intros E. unfold unlogged. cbn [set_ctx sv_ctx sv_pending sv_quiesced sv_conn sv_realized]. now rewrite E. Qed.

(* A step about the log changes nothing but the log, and nothing else comes of it than the reply, asking the device to
   quiesce, and closing descriptors sent along. *)
Definition bookkeeping (e : event) : Prop := match e with EvReply _ | EvQuiesce _ | EvClose _ => True | _ => False end.
Theorem C79_log_only : forall s st o s1 ev, reachable s -> log_step st -> sv_step s st = (o, s1, ev) -> (forall c, o <> Crash c) ->
  unlogged s1 = unlogged s /\ Forall bookkeeping ev.
Proof.
  intros s st o s1 ev RE L H NC. pose proof (reachable_sinv _ RE) as (_ & Q0 & _).
  destruct st as [en|e en|mx|l|hi|v an|of da]; cbn [log_step sv_step] in *; try contradiction.
  - destruct L as (h & fds & b & f & X & C & Ef & R & Sd & Qb). destruct (negb (sv_realized s)); [injection H as <- <- <-; auto|].
    destruct (sv_pending s) eqn:P; [|injection H as <- <- <-; auto..].
    assert (CL : forall l, Forall bookkeeping (close_all l)) by (intros l; rewrite close_all_spec; unfold closes_of; apply Forall_forall; intros x Ix; apply in_map_iff in Ix; destruct Ix as (y & <- & _); exact I).
    assert (DR : forall s' err body rf, exists ev', do_reply s' en h err body rf = (Ok tt, s', ev') /\ Forall bookkeeping ev').
    { intros s' err body rf. unfold do_reply. rewrite Sd. destruct (has (hd_flags h) F_NO_REPLY); eexists; (split; [reflexivity|]); repeat constructor. }
    assert (RF : forall e, exists ev', refuse s en h fds e = (GotErr ENOMSG, s, ev') /\ Forall bookkeeping ev').
    { intros e. unfold refuse. destruct (DR s e [] []) as (ev' & -> & F). eexists. split; [reflexivity|]. apply Forall_app. split; [exact F|apply CL]. }
    assert (RF2 : forall e, run_iter s en = (Ok 0, s, e) -> Forall bookkeeping e -> unlogged s1 = unlogged s /\ Forall bookkeeping ev).
    { intros e E F. rewrite E in H. injection H as <- <- <-. auto. }
    assert (HR : forall m s', hd_cmd (mg_hdr m) = 16 -> mg_hdr m = h -> mg_body m = firstn (N.to_nat (hd_size h - 16)) match b with inr l => l | inl _ => [] end -> mg_fds m = fds ->
      exists o2 s2 ev2, handle_request s' en m = (o2, s2, fds, ev2) /\ unlogged s2 = unlogged s' /\ Forall bookkeeping ev2).
    { intros m s' Cm Hm Bm Fm. unfold handle_request. rewrite Cm, Bm, Fm, Hm. unfold dispatch. cbn [N.eqb Pos.eqb CMD_DMA_MAP CMD_DMA_UNMAP CMD_GET_INFO CMD_GET_REGION_INFO CMD_GET_REGION_IO_FDS CMD_GET_IRQ_INFO CMD_SET_IRQS CMD_REGION_READ CMD_REGION_WRITE CMD_RESET CMD_FEATURE].
      destruct (log_feature (sv_ctx s') (en_or en) _ f Ef R) as [E1 E2]. destruct (handle_device_feature (sv_ctx s') (en_or en) _) as [[r c1] ev1]. cbn [fst snd] in E1, E2. subst ev1.
      destruct r as [err body rf|cr]; [|do 3 eexists; split; [reflexivity|]; split; [now apply unlogged_set|constructor]].
      destruct (DR (set_ctx s' c1) err body rf) as (ev' & E & F). rewrite E. do 3 eexists. split; [reflexivity|]. split; [now apply unlogged_set|exact F]. }
    unfold run_iter, get_request in H, RF2. destruct (sv_conn s); cbn [negb] in H, RF2; [|injection H as <- <- <-; auto]. rewrite X in H, RF2.
    destruct (negb (is_valid_header h)); [destruct (RF EINVAL) as (ev' & E & F); rewrite E in RF2; exact (RF2 _ eq_refl F)|].
    destruct (if hd_size h =? 16 then _ else _) as [bd|e|cr] eqn:B; [|destruct (RF e) as (ev' & E & F); rewrite E in RF2; exact (RF2 _ eq_refl F)|injection H as <- <- <-; now destruct (NC cr)].
    destruct (negb (should_exec _ _)); [destruct (RF EINVAL) as (ev' & E & F); rewrite E in RF2; exact (RF2 _ eq_refl F)|].
    assert (Eb : bd = firstn (N.to_nat (hd_size h - 16)) match b with inr l => l | inl _ => [] end).
    { destruct (hd_size h =? 16) eqn:Z.
      - injection B as <-. replace (hd_size h - 16) with 0 by lia. reflexivity.
      - unfold recv_body in B. destruct b as [e|l]; [discriminate B|]. destruct (_ =? 0) in B; [discriminate B|]. destruct (negb _) in B; [discriminate B|]. now injection B as <-. }
    assert (FIN : forall s' q, unlogged (set_quiesced s' false) = unlogged s -> Forall bookkeeping q ->
      (let '(o0, s2, fds', ev2) := handle_request s' en (mk_msg h bd fds) in
       match o0 with Ok _ => (Ok 1, set_quiesced s2 false, q ++ ev2 ++ free_msg fds') | Err e => (Err e, set_quiesced s2 false, q ++ ev2 ++ free_msg fds') | Crash cr => (Crash cr, s2, q ++ ev2) end) = (o, s1, ev) ->
      unlogged s1 = unlogged s /\ Forall bookkeeping ev).
    { intros s' q U F Y. destruct (HR (mk_msg h bd fds) s' C eq_refl Eb eq_refl) as (o2 & s2 & ev2 & E & U2 & F2). rewrite E in Y.
      assert (U3 : unlogged (set_quiesced s2 false) = unlogged s). { rewrite <- U. unfold unlogged, set_quiesced in *. cbn in *. congruence. }
      destruct o2 as [u|e|cr]; [..|injection Y as <- <- <-; now destruct (NC cr)]; injection Y as <- <- <-; (split; [exact U3|]); apply Forall_app; (split; [exact F|]); apply Forall_app; (split; [exact F2|apply CL]). }
    destruct (needs_quiesce _ _ _).
    + destruct (en_quiesce en) as [e|] eqn:Eq.
      * destruct (e =? EBUSY) eqn:Ee; [exfalso; apply Qb; f_equal; lia|]. destruct (RF e) as (ev' & E & F). rewrite E in RF2. apply (RF2 (EvQuiesce (Some e) :: ev') eq_refl). now constructor.
      * apply (FIN (set_quiesced s true) [EvQuiesce None]); [unfold unlogged, set_quiesced; cbn; now rewrite Q0|repeat constructor|]. destruct (handle_request (set_quiesced s true) en _) as [[[o0 s2] f0] ev2]. destruct o0; exact H.
    + apply (FIN s []); [unfold unlogged, set_quiesced; cbn; now rewrite Q0|constructor|]. destruct (handle_request s en _) as [[[o0 s2] f0] ev2]. destruct o0; exact H.
  - unfold dev_mark in H. destruct (cx_dma (sv_ctx s)) as [d|] eqn:Ed; [|injection H as <- <- <-; auto]. destruct (sgl_mark_dirty d l) as [d'|e|cr] eqn:M; injection H as <- <- <-; auto.
    split; [|constructor]. apply unlogged_set. apply (set_dma_same _ d); [exact Ed|exact (mark_bare _ _ _ M)].
  - injection H as <- <- <-. split; [|constructor]. unfold dev_hint. destruct (cx_dma (sv_ctx s)) as [d|] eqn:Ed; [|reflexivity]. now apply unlogged_set, (set_dma_same _ d).
Qed.
Print Assumptions C79_log_only.

(* Histories without crashes: l' are the steps of l that are not about the log, and ev what comes of them. *)
Inductive apart_from_log : server -> list step -> server -> list step -> list event -> Prop :=
| al_nil : forall s, apart_from_log s [] s [] []
| al_other : forall s st o s1 ev1 l s2 l' ev2,
    sv_step s st = (o, s1, ev1) -> (forall c, o <> Crash c) -> not_about_log s st -> apart_from_log s1 l s2 l' ev2 ->
    apart_from_log s (st :: l) s2 (st :: l') (ev1 ++ ev2)
| al_log : forall s st o s1 ev1 l s2 l' ev2,
    sv_step s st = (o, s1, ev1) -> (forall c, o <> Crash c) -> log_step st -> apart_from_log s1 l s2 l' ev2 ->
    apart_from_log s (st :: l) s2 l' ev2.

(* The same comes of the other steps if logging is left out. *)
Theorem C79_history_partial : forall s l s' l' ev, reachable s -> apart_from_log s l s' l' ev ->
  exists arr, history (unlogged s) l' (unlogged s') arr ev.
Proof.
  intros s l s' l' ev R H. induction H as [s|s st o s1 ev1 l s2 l' ev2 S NC NL _ IH|s st o s1 ev1 l s2 l' ev2 S NC L _ IH].
  - eexists. constructor.
  - destruct IH as [arr IH]; [eapply reachable_step; eauto|]. eexists. eapply h_cons; [exact (C79_step_partial _ _ _ _ _ NL S)|exact NC|exact IH].
  - destruct IH as [arr IH]; [eapply reachable_step; eauto|]. destruct (C79_log_only _ _ _ _ _ R L S NC) as [E _]. rewrite E in IH. exists arr. exact IH.
Qed.
Print Assumptions C79_history_partial.

(* A server with a client and 64 KiB mapped at 0x10000.  Pages of 4 KiB are logged; 16 KiB are mapped at 0x100000; the
   device marks the second page of the first region and the client gets a report; the first region is unmapped, and
   logging is stopped. *)
Definition lg_start (id pg : N) : env := ex_env (RxMsg (mk_header id 16 40 0 0) [] (inr (le_bytes 4 24 ++ le_bytes 4 (6 + 2 ^ 17) ++ le_bytes 8 pg ++ zeros 8))).
Definition lg_stop (id : N) : env := ex_env (RxMsg (mk_header id 16 24 0 0) [] (inr (le_bytes 4 8 ++ le_bytes 4 (7 + 2 ^ 17)))).
Definition lg_report (id : N) : env :=
  ex_env (RxMsg (mk_header id 16 48 0 0) [] (inr (le_bytes 4 40 ++ le_bytes 4 (8 + 2 ^ 16) ++ le_bytes 8 65536 ++ le_bytes 8 65536 ++ le_bytes 8 4096))).
Definition lg_map (id size : N) : env :=
  ex_env (RxMsg (mk_header id 2 48 0 0) [6%Z] (inr (le_bytes 4 32 ++ le_bytes 4 3 ++ le_bytes 8 0 ++ le_bytes 8 1048576 ++ le_bytes 8 size))).
Definition lg_s1 (pg : N) : server := snd (fst (sv_step (ex_busy true) (SRun (lg_start 3 pg)))).
Definition lg_s2 : server := snd (fst (sv_step (lg_s1 4096) (SRun (lg_map 4 16384)))).
Definition lg_mark : list sg := [mk_sg 65536 0 4096 4096 true].
Definition lg_s3 : server := snd (fst (sv_step lg_s2 (SMark lg_mark))).
Definition lg_s4 : server := snd (fst (sv_step lg_s3 (SRun (lg_report 5)))).
Definition lg_s5 : server := snd (fst (sv_step lg_s4 (SRun (ex_unmap 6 None)))).
Definition lg_s6 : server := snd (fst (sv_step lg_s5 (SRun (lg_stop 7)))).
Definition lg_steps : list step := [SRun (lg_start 3 4096); SRun (lg_map 4 16384); SMark lg_mark; SRun (lg_report 5); SRun (ex_unmap 6 None); SRun (lg_stop 7)].

Lemma lg_step_eq s st : sv_step s st = (fst (fst (sv_step s st)), snd (fst (sv_step s st)), snd (sv_step s st)).
Proof. destruct (sv_step s st) as [[o s'] ev]. reflexivity. Qed.

Lemma lg_reachable : reachable (ex_busy true).
Proof.
  destruct (history_run (ex_server true) ex_steps (ex_busy true) (snd (sv_run (ex_server true) ex_steps))) as [arr H].
  - unfold ex_busy. now destruct (sv_run (ex_server true) ex_steps).
  - vm_compute. repeat constructor.
  - exists (ex_server true), ex_steps, arr. eexists. split; [apply ex_fresh|exact H].
Qed.

Example C79_case : reachable (ex_busy true) /\
  apart_from_log (ex_busy true) lg_steps lg_s6 [SRun (lg_map 4 16384); SRun (ex_unmap 6 None)]
    (snd (sv_step (lg_s1 4096) (SRun (lg_map 4 16384))) ++ snd (sv_step lg_s4 (SRun (ex_unmap 6 None))) ++ []) /\
  match cx_dma (sv_ctx lg_s3) with Some d => map rg_bitmap (dm_regions d) = [Some [2; 0; 0; 0; 0; 0; 0; 0]; Some [0; 0; 0; 0; 0; 0; 0; 0]] | None => False end /\
  length (snd (sv_step (lg_s1 4096) (SRun (lg_map 4 16384)))) = 3%nat.
Proof.
  split; [|split; [|split; vm_compute; reflexivity]].
  { exact lg_reachable. }
  assert (T1 : sv_step (ex_busy true) (SRun (lg_start 3 4096)) = (fst (fst (sv_step (ex_busy true) (SRun (lg_start 3 4096)))), (lg_s1 4096), snd (sv_step (ex_busy true) (SRun (lg_start 3 4096))))) by apply lg_step_eq.
  assert (N1 : forall c, fst (fst (sv_step (ex_busy true) (SRun (lg_start 3 4096)))) <> Crash c) by (vm_compute; discriminate).
  assert (T2 : sv_step (lg_s1 4096) (SRun (lg_map 4 16384)) = (fst (fst (sv_step (lg_s1 4096) (SRun (lg_map 4 16384)))), lg_s2, snd (sv_step (lg_s1 4096) (SRun (lg_map 4 16384))))) by apply lg_step_eq.
  assert (N2 : forall c, fst (fst (sv_step (lg_s1 4096) (SRun (lg_map 4 16384)))) <> Crash c) by (vm_compute; discriminate).
  assert (T3 : sv_step lg_s2 (SMark lg_mark) = (fst (fst (sv_step lg_s2 (SMark lg_mark))), lg_s3, snd (sv_step lg_s2 (SMark lg_mark)))) by apply lg_step_eq.
  assert (N3 : forall c, fst (fst (sv_step lg_s2 (SMark lg_mark))) <> Crash c) by (vm_compute; discriminate).
  assert (T4 : sv_step lg_s3 (SRun (lg_report 5)) = (fst (fst (sv_step lg_s3 (SRun (lg_report 5)))), lg_s4, snd (sv_step lg_s3 (SRun (lg_report 5))))) by apply lg_step_eq.
  assert (N4 : forall c, fst (fst (sv_step lg_s3 (SRun (lg_report 5)))) <> Crash c) by (vm_compute; discriminate).
  assert (T5 : sv_step lg_s4 (SRun (ex_unmap 6 None)) = (fst (fst (sv_step lg_s4 (SRun (ex_unmap 6 None)))), lg_s5, snd (sv_step lg_s4 (SRun (ex_unmap 6 None))))) by apply lg_step_eq.
  assert (N5 : forall c, fst (fst (sv_step lg_s4 (SRun (ex_unmap 6 None)))) <> Crash c) by (vm_compute; discriminate).
  assert (T6 : sv_step lg_s5 (SRun (lg_stop 7)) = (fst (fst (sv_step lg_s5 (SRun (lg_stop 7)))), lg_s6, snd (sv_step lg_s5 (SRun (lg_stop 7))))) by apply lg_step_eq.
  assert (N6 : forall c, fst (fst (sv_step lg_s5 (SRun (lg_stop 7)))) <> Crash c) by (vm_compute; discriminate).
  assert (LG : forall id f sz l, 6 <= f mod 2 ^ 16 <= 8 -> rd (firstn (N.to_nat (sz - 16)) l) 4 4 = Some f -> log_step (SRun (ex_env (RxMsg (mk_header id 16 sz 0 0) [] (inr l))))).
  { intros id f sz l R E. do 4 eexists. split; [reflexivity|]. split; [reflexivity|]. split; [exact E|]. split; [exact R|]. split; [reflexivity|discriminate]. }
  eapply (al_log _ _ _ _ _ _ _ _ _ T1 N1); [apply (LG _ (6 + 2 ^ 17)); [vm_compute; split; discriminate|vm_compute; reflexivity]|].
  eapply (al_other _ _ _ _ _ _ _ _ _ T2 N2); [ |].
  { intros cmd body fds o (h & b & X & -> & -> & ->). injection X as <- <- <-. split.
    - intros [[Q _]|[Q _]]; discriminate Q.
    - intros d size Ed _ _ Es. right. vm_compute in Ed. vm_compute in Es. injection Ed as <-. injection Es as <-. split; [vm_compute; discriminate|reflexivity]. }
  eapply (al_log _ _ _ _ _ _ _ _ _ T3 N3); [exact I|].
  eapply (al_log _ _ _ _ _ _ _ _ _ T4 N4); [apply (LG _ (8 + 2 ^ 16)); [vm_compute; split; discriminate|vm_compute; reflexivity]|].
  eapply (al_other _ _ _ _ _ _ _ _ _ T5 N5); [ |].
  { intros cmd body fds o (h & b & X & -> & -> & ->). injection X as <- <- <-. split.
    - intros [[Q _]|[_ Q]]; [discriminate Q|vm_compute in Q; discriminate Q].
    - intros d size Ed Q. discriminate Q. }
  eapply (al_log _ _ _ _ _ _ _ _ _ T6 N6); [apply (LG _ (7 + 2 ^ 17)); [vm_compute; split; discriminate|vm_compute; reflexivity]|].
  apply al_nil.
Qed.

(* Without the condition the claim is false: while pages of 64 KiB are logged, 4 KiB of memory cannot be mapped, and the
   client is told that its request is invalid. *)
Theorem C79_small_map_refuted : exists s st s1 i, reachable s /\ (forall cmd body fds o, works_on s st cmd body fds o -> cmd = 2) /\
  sv_step s st = (Ok 1, s, [EvQuiesce None; EvClose 6; EvReply (mk_reply 4 2 22 [] [])]) /\
  sv_step (unlogged s) st = (Ok 1, s1, [EvQuiesce None; EvRegister i; EvReply (mk_reply 4 2 0 [] [])]) /\
  di_iova i = 1048576 /\ di_len i = 4096.
Proof.
  exists (lg_s1 65536), (SRun (lg_map 4 4096)). do 2 eexists. split; [eapply reachable_step; [exact lg_reachable|apply lg_step_eq|vm_compute; discriminate]|].
  split; [intros cmd body fds o (h & b & X & -> & _); injection X as <- _ _; reflexivity|].
  split; [vm_compute; reflexivity|]. split; [vm_compute; reflexivity|]. split; reflexivity.
Qed.
Print Assumptions C79_small_map_refuted.
