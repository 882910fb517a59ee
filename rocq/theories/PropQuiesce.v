(* C24: disruptive callbacks are only made while the device is quiesced. *)
From Coq Require Import NArith ZArith List Bool Lia ZifyBool ZifyNat ZifyN.
From Verif Require Import Base Types Bytes BytesProofs Spec Dma Dirty DmaOps SpecDma DmaProofs Migr Irq SpecIrq IrqProofs PropIrq Pci Handlers
  SpecHandlers HandlersProofs PropHandlers HandlersDma Server SpecServer ServerProofs PropServer.
Import ListNotations.
Open Scope N_scope.
Ltac Zify.zify_post_hook ::= idtac.

(* ---------- which config space writes start a function level reset *)

Lemma cap_write_flr e cfg c off data ans o cfg' ev r : cap_write e cfg c off data ans = (o, cfg', ev) -> In (EvReset r) ev ->
  cp_ext c = false /\ cp_id c = PCI_CAP_ID_EXP /\ off - cp_off c = 8 /\ length data = 2%nat.
Proof.
  intros H I. unfold cap_write in H.
  assert (NIL : ev = [] -> False) by (intros ->; destruct I).
  destruct (cp_ext c).
  { exfalso. apply NIL. destruct (cp_id c =? PCI_EXT_CAP_ID_DSN); [injection H as <- <- <-; reflexivity|]. destruct (put_slice cfg (N.to_nat off) data); injection H as <- <- <-; reflexivity. }
  destruct (cp_id c =? PCI_CAP_ID_PM).
  { exfalso. apply NIL. unfold cap_write_pm in H. repeat match type of H with (if ?x then _ else _) = _ => destruct x | (match ?x with _ => _ end) = _ => destruct x end; injection H as <- <- <-; reflexivity. }
  destruct (cp_id c =? PCI_CAP_ID_EXP) eqn:E.
  - split; [reflexivity|]. split; [apply N.eqb_eq; exact E|]. unfold cap_write_px in H.
    destruct (negb (N.of_nat (length data) =? 2)) eqn:L; [exfalso; apply NIL; injection H as <- <- <-; reflexivity|].
    destruct (off - cp_off c =? 8) eqn:R8; [lia|]. exfalso. apply NIL.
    destruct ((off - cp_off c =? 16) || (off - cp_off c =? 24) || (off - cp_off c =? 28) || (off - cp_off c =? 56)); [injection H as <- <- <-; reflexivity|].
    destruct ((off - cp_off c =? 40) || (off - cp_off c =? 48)); [|injection H as <- <- <-; reflexivity].
    destruct (put_slice cfg (N.to_nat (cp_off c + (off - cp_off c))) data); injection H as <- <- <-; reflexivity.
  - exfalso. apply NIL. destruct (cp_id c =? PCI_CAP_ID_MSI).
    { unfold cap_write_msi, need in H. repeat match type of H with (if ?x then _ else _) = _ => destruct x | (match ?x with _ => _ end) = _ => destruct x end; injection H as <- <- <-; reflexivity. }
    destruct (cp_id c =? PCI_CAP_ID_MSIX).
    { unfold cap_write_msix, need in H. repeat match type of H with (if ?x then _ else _) = _ => destruct x | (match ?x with _ => _ end) = _ => destruct x end; injection H as <- <- <-; reflexivity. }
    destruct (put_slice cfg (N.to_nat off) data); injection H as <- <- <-; reflexivity.
Qed.

Lemma cap_find_in p off count c : cap_find_by_offset p off count = Some c -> In c (pc_caps p ++ pc_ext_caps p).
Proof.
  unfold cap_find_by_offset. intros H. apply in_or_app.
  destruct (find (fun c0 => ranges_intersect off count (cp_off c0) (cp_size c0)) (pc_caps p)) as [c1|] eqn:F.
  - injection H as <-. apply find_some in F. left. apply F.
  - apply find_some in H. right. apply H.
Qed.

Definition devctl_in (p : pci) (off count : N) : Prop :=
  exists c, In c (pc_caps p ++ pc_ext_caps p) /\ cp_ext c = false /\ cp_id c = PCI_CAP_ID_EXP /\ off <= cp_off c + 8 /\ cp_off c + 10 <= off + count.

Lemma write_segment_flr e p off buf ans rans o cfg' ev r : write_segment e p off buf ans rans = Some (o, cfg', ev) -> In (EvReset r) ev ->
  devctl_in p off (N.of_nat (length buf)).
Proof.
  intros H I. unfold write_segment in H. destruct (next_segment p (N.of_nat (length buf)) off true) as [n| |n|c n] eqn:Sg.
  - destruct (hdr_write e (pc_cfg p) off buf) as [[u|er|cr] c1]; injection H as <- <- <-; destruct I.
  - discriminate H.
  - unfold nonstd_write in H. destruct (pe_cfg_cb e); injection H as <- <- <-; [destruct I as [I|[]]; discriminate I|destruct I].
  - destruct (has (cp_flags c) CAP_FLAG_READONLY); [injection H as <- <- <-; destruct I|].
    destruct (has (cp_flags c) CAP_FLAG_CALLBACK).
    { unfold nonstd_write in H. destruct (pe_cfg_cb e); injection H as <- <- <-; [destruct I as [I|[]]; discriminate I|destruct I]. }
    destruct (off - cp_off c <? cp_hdr_size c); [injection H as <- <- <-; destruct I|].
    destruct (cap_write e (pc_cfg p) c off (firstn (N.to_nat n) buf) rans) as [[o1 c1] ev1] eqn:W.
    assert (Ev : ev = ev1) by (destruct o1; injection H as _ _ <-; reflexivity). subst ev1.
    destruct (cap_write_flr _ _ _ _ _ _ _ _ _ _ W I) as (E1 & E2 & E3 & E4). exists c.
    unfold next_segment in Sg. destruct (off <? PCI_STD_HEADER_SIZEOF); [destruct (reg_size off =? 0); discriminate Sg|].
    destruct (cap_find_by_offset p off (N.of_nat (length buf))) as [c2|] eqn:F; [|discriminate Sg].
    destruct (off <? cp_off c2) eqn:Lo; [discriminate Sg|]. injection Sg as -> En. split; [exact (cap_find_in _ _ _ _ F)|]. split; [exact E1|]. split; [exact E2|].
    rewrite firstn_length in E4. lia.
Qed.

Lemma write_segment_n e p off buf ans rans n cfg' ev : write_segment e p off buf ans rans = Some (Ok n, cfg', ev) -> n <= N.of_nat (length buf).
Proof.
  intros H. unfold write_segment in H.
  assert (NW : forall d k ev, nonstd_write e off d ans = (Ok k, ev) -> k <= N.of_nat (length d)).
  { intros d k ev0. unfold nonstd_write. destruct (pe_cfg_cb e); [|discriminate]. destruct (ans off (N.of_nat (length d))) as [m dt|er]; [|discriminate].
    destruct (N.of_nat (length d) <? m) eqn:L; [discriminate|]. destruct (m =? 0); [discriminate|]. intros Q. injection Q as <- _. lia. }
  destruct (next_segment p (N.of_nat (length buf)) off true) as [k| |k|c k] eqn:Sg.
  - destruct (hdr_write e (pc_cfg p) off buf) as [[u|er|cr] c1]; try discriminate H. injection H as <- _ _.
    unfold next_segment in Sg. destruct (off <? PCI_STD_HEADER_SIZEOF); [destruct (reg_size off =? 0); [discriminate Sg|injection Sg as <-; lia]|].
    destruct (cap_find_by_offset p off (N.of_nat (length buf))) as [c2|]; [destruct (off <? cp_off c2); discriminate Sg|discriminate Sg].
  - discriminate H.
  - destruct (nonstd_write e off (firstn (N.to_nat k) buf) ans) as [[m|er|cr] ev1] eqn:W; try discriminate H. injection H as <- _ _. apply NW in W. rewrite firstn_length in W. lia.
  - destruct (has (cp_flags c) CAP_FLAG_READONLY); [discriminate H|]. destruct (has (cp_flags c) CAP_FLAG_CALLBACK).
    { destruct (nonstd_write e off (firstn (N.to_nat k) buf) ans) as [[m|er|cr] ev1] eqn:W; try discriminate H. injection H as <- _ _. apply NW in W. rewrite firstn_length in W. lia. }
    destruct (off - cp_off c <? cp_hdr_size c); [discriminate H|].
    destruct (cap_write e (pc_cfg p) c off (firstn (N.to_nat k) buf) rans) as [[[u|er|cr] c1] ev1]; try discriminate H. injection H as <- _ _.
    unfold next_segment in Sg. destruct (off <? PCI_STD_HEADER_SIZEOF); [destruct (reg_size off =? 0); discriminate Sg|].
    destruct (cap_find_by_offset p off (N.of_nat (length buf))) as [c2|]; [|discriminate Sg].
    destruct (off <? cp_off c2); [discriminate Sg|]. injection Sg as _ <-. lia.
Qed.

Lemma cfg_write_flr fuel : forall e p answers rans k off buf done o p' ev r, cfg_write fuel e p answers rans k off buf done = (o, p', ev) ->
  In (EvReset r) ev -> devctl_in p off (N.of_nat (length buf)).
Proof.
  induction fuel as [|fuel IH]; intros e p answers rans k off buf done o p' ev r H I; cbn [cfg_write] in H.
  - destruct buf; injection H as <- <- <-; destruct I.
  - destruct buf as [|b l]; [injection H as <- <- <-; destruct I|]. set (buf := b :: l) in *.
    destruct (write_segment e p off buf (answers k) (rans k)) as [[[[n|er|cr] cfg'] ev1]|] eqn:W; [|injection H as <- <- <-..].
    + destruct (cfg_write fuel e (set_cfg p cfg') answers rans (k + length ev1) (off + n) (skipn (N.to_nat n) buf) (done + n)) as [[o1 p1] ev2] eqn:Q.
      injection H as <- <- <-. apply in_app_or in I. destruct I as [I|I]; [exact (write_segment_flr _ _ _ _ _ _ _ _ _ _ W I)|].
      destruct (IH _ _ _ _ _ _ _ _ _ _ _ _ Q I) as (c & C1 & C2 & C3 & C4 & C5). exists c. pose proof (write_segment_n _ _ _ _ _ _ _ _ _ W) as L.
      rewrite skipn_length in C5. cbn [set_cfg pc_caps pc_ext_caps] in C1. split; [exact C1|]. split; [exact C2|]. split; [exact C3|]. lia.
    + exact (write_segment_flr _ _ _ _ _ _ _ _ _ _ W I).
    + exact (write_segment_flr _ _ _ _ _ _ _ _ _ _ W I).
    + destruct I.
Qed.

Lemma access_flr c o w body r c' ev x : handle_region_access c o w body = (r, c', ev) -> In (EvReset x) ev ->
  w = true /\ exists off count, rd body 0 8 = Some off /\ rd body 8 4 = Some 7 /\ rd body 12 4 = Some count /\ (16 <= length body)%nat /\
    devctl_in (cx_pci c) off count.
Proof.
  intros H I. unfold handle_region_access in H.
  assert (K : forall r0, (r0, c, @nil event) = (r, c', ev) -> False) by (intros r0 Q; injection Q as <- <- <-; destruct I).
  destruct (N.of_nat (length body) <? 16) eqn:L16; [destruct (K _ H)|]. needs H; try (destruct (K _ H)).
  destruct (negb (valid_region_access c (N.of_nat (length body)) w n n0 n1)) eqn:V; [destruct (K _ H)|].
  destruct (n1 =? 0) eqn:C0; [destruct (K _ H)|].
  destruct (region_access c o n0 w n n1 (if w then skipn 16 body else [])) as [[[res buf] c1] ev1] eqn:Q.
  assert (Ev : ev = ev1) by (destruct res as [k|e|cr]; [destruct (k =? n1)| |]; injection H as _ _ <-; reflexivity). subst ev1.
  unfold region_access in Q. destruct (nth_error (cx_regs c) (N.to_nat n0)) as [rg|]; [|injection Q as <- <- <- <-; destruct I].
  destruct ((n0 =? CFG_REGION) && negb (has (ri_flags rg) REGION_FLAG_ALWAYS_CB)) eqn:CF.
  - destruct w.
    + split; [reflexivity|]. destruct (config_write (env_of c) (cx_pci c) (or_access o) (or_reset o) n (skipn 16 body)) as [[o1 p1] ev1] eqn:Cw. injection Q as <- <- <- <-.
      unfold config_write in Cw. pose proof (cfg_write_flr _ _ _ _ _ _ _ _ _ _ _ _ _ Cw I) as D. exists n, n1.
      assert (n0 = 7) by (change CFG_REGION with 7 in CF; lia). subst n0.
      assert (Lb : N.of_nat (length (skipn 16 body)) = n1).
      { clear - V L16. rewrite skipn_length. unfold valid_region_access in V. cbn [andb] in V.
        destruct (MAX_XFER <? n1); [discriminate V|]. destruct (N.of_nat (length body) - 16 =? n1) eqn:E; cbn [negb] in V; [lia|discriminate V]. }
      rewrite Lb in D. repeat (split; [first [reflexivity|assumption|lia]|]). exact D.
    + exfalso. destruct (config_read (env_of c) (cx_pci c) (or_access o) n n1) as [[o1 b1] ev1] eqn:Cr. injection Q as <- <- <- <-.
      apply cfg_read_parts in Cr. rewrite Forall_forall in Cr. specialize (Cr _ I). cbn in Cr. destruct x; cbn in Cr; intuition discriminate.
  - exfalso. destruct (negb (ri_cb rg)); [injection Q as <- <- <- <-; destruct I|].
    destruct (or_access o 0%nat n n1); injection Q as <- <- <- <-; destruct I as [I|[]]; discriminate I.
Qed.

(* ---------- which feature requests change the migration state *)

Lemma feature_transition c o body r c' ev x : handle_device_feature c o body = (r, c', ev) -> In (EvTransition x) ev ->
  (8 <= length body)%nat /\ exists flags, rd body 4 4 = Some flags /\ feature_needs_quiesce flags = true.
Proof.
  intros H I. unfold handle_device_feature in H.
  assert (K : forall r0 c0, (r0, c0, @nil event) = (r, c', ev) -> False) by (intros r0 c0 Q; injection Q as <- <- <-; destruct I).
  destruct (N.of_nat (length body) <? 8) eqn:L8; [destruct (K _ _ H)|]. needs H; try (destruct (K _ _ H)).
  destruct (negb (N.land n0 (feature_supported (cx_mig c) (N.land n0 FEATURE_MASK)) =? N.ldiff n0 FEATURE_MASK) || (feature_supported (cx_mig c) (N.land n0 FEATURE_MASK) =? 0));
    [destruct (K _ _ H)|].
  destruct (N.ldiff n0 FEATURE_MASK =? FEATURE_GET).
  { destruct (is_migration_feature (N.land n0 FEATURE_MASK)); [destruct (K _ _ H)|]. destruct (is_dma_feature (N.land n0 FEATURE_MASK)); [|destruct (K _ _ H)].
    destruct (dma_feature_get c n n0 body). destruct (K _ _ H). }
  destruct (N.ldiff n0 FEATURE_MASK =? FEATURE_SET) eqn:E.
  - split; [lia|]. exists n0. split; [reflexivity|]. apply N.eqb_eq in E.
    assert (B : forall i, 16 <= i -> N.testbit n0 i = N.testbit FEATURE_SET i).
    { intros i Hi. rewrite <- E, N.ldiff_spec. change FEATURE_MASK with (N.ones 16). rewrite N.ones_spec_high by exact Hi. cbn [negb]. now rewrite andb_true_r. }
    unfold feature_needs_quiesce. apply andb_true_iff. split.
    + apply negb_true_iff, N.eqb_neq. intros Z. assert (T : N.testbit (N.land n0 (N.lor FEATURE_SET FEATURE_MIG_DEVICE_STATE)) 17 = false) by (rewrite Z; reflexivity).
      rewrite N.land_spec, (B 17) in T by lia. discriminate T.
    + assert (P : has n0 FEATURE_PROBE = false) by (change FEATURE_PROBE with (2 ^ 18); rewrite has_pow2, (B 18) by lia; reflexivity).
      unfold has in P. now apply negb_false_iff in P.
  - exfalso. destruct (negb (has (N.ldiff n0 FEATURE_MASK) FEATURE_PROBE)); [destruct (K _ _ H)|]. destruct (n <? N.of_nat (length body)); destruct (K _ _ H).
Qed.

(* ---------- along the events of a step *)

Definition no_quiesce (e : event) : Prop := match e with EvQuiesce _ => False | _ => True end.

Lemma along_app q a b : Forall no_quiesce a -> (quiesced_along q (a ++ b) <-> quiesced_along q a /\ quiesced_along q b).
Proof.
  induction 1 as [|e a N F IH]; cbn [app quiesced_along]; [tauto|]. destruct e; cbn in N; try tauto.
Qed.
Lemma along_true a : Forall no_quiesce a -> quiesced_along true a.
Proof. induction 1 as [|e a N F IH]; cbn [quiesced_along]; [exact I|]. destruct e; cbn in N; try tauto; (split; [reflexivity|exact IH]). Qed.
Lemma along_calm q a : Forall no_quiesce a -> (forall e, In e a -> ~ disruptive e) -> quiesced_along q a.
Proof.
  induction 1 as [|e a N F IH]; intros D; cbn [quiesced_along]; [exact I|].
  assert (A : quiesced_along q a) by (apply IH; intros x J; apply D; now right). assert (B : ~ disruptive e) by (apply D; now left).
  destruct e; cbn in N; try tauto; (split; [intros X; now destruct B|exact A]).
Qed.

Lemma closes_calm l : Forall no_quiesce (closes_of l) /\ (forall e, In e (closes_of l) -> ~ disruptive e).
Proof.
  split; [apply Forall_forall|]; intros e J; unfold closes_of in J; apply in_map_iff in J; destruct J as (x & <- & _); cbn; auto.
Qed.
Lemma along_closes q l : quiesced_along q (closes_of l).
Proof. destruct (closes_calm l). now apply along_calm. Qed.

Lemma kind_no_quiesce cmd ev : Forall (kind_ok cmd) ev -> Forall no_quiesce ev.
Proof. intros F. eapply Forall_impl; [|exact F]. intros e K. destruct e; cbn in *; tauto. Qed.
Lemma lost_no_quiesce s : Forall no_quiesce (lost_events s).
Proof. apply Forall_forall. intros e J. apply lost_in in J. destruct e; cbn; tauto. Qed.

Lemma reply_along s en h r o s' ev q fds : reply_case s en h r o s' ev -> cx_quiesce (sv_ctx s) = true -> sv_pending s = PNone \/ q = true ->
  quiesced_along q (ev ++ closes_of fds).
Proof.
  intros [W|W S|e1 W S E|e1 e' W S E Q P Qr|e1 s1 W S E Q P] Qc Pq; cbn [app]; try apply along_closes.
  - cbn [quiesced_along]. split; [intros []|apply along_closes].
  - rewrite <- app_assoc. unfold quiesce_call. rewrite Qc. destruct (sv_pending s).
    + cbn [app quiesced_along]. apply along_app; [apply lost_no_quiesce|]. split; [apply along_true, lost_no_quiesce|apply along_closes].
    + destruct Pq as [Pq| ->]; [discriminate Pq|]. cbn [app]. apply along_app; [apply lost_no_quiesce|]. split; [apply along_true, lost_no_quiesce|apply along_closes].
    + destruct Pq as [Pq| ->]; [discriminate Pq|]. cbn [app]. apply along_app; [apply lost_no_quiesce|]. split; [apply along_true, lost_no_quiesce|apply along_closes].
Qed.

Lemma handled_along s en m o s' ev q : handled s en m o s' ev -> cx_quiesce (sv_ctx s) = true -> sv_pending s = PNone \/ q = true ->
  (q = true \/ forall r c1 fds' ev1, dispatch (sv_ctx s) (en_or en) (hd_cmd (mg_hdr m)) (mg_body m) (mg_fds m) = (r, c1, fds', ev1) -> forall e, In e ev1 -> ~ disruptive e) ->
  quiesced_along q ev.
Proof.
  intros [err body fds c1 fds' ev1 o1 s1 ev2 D K F R] Qc Pq C. pose proof (kind_no_quiesce _ _ F) as NQ.
  apply along_app; [exact NQ|]. split.
  - destruct C as [-> |C]; [now apply along_true|]. apply along_calm; [exact NQ|]. exact (C _ _ _ _ D).
  - eapply reply_along; [exact R| |exact Pq]. destruct (k_setup _ _ K) as (_ & A & _). cbn [sv_ctx set_ctx] in *. congruence.
Qed.

(* A request for which the device is not asked to quiesce causes no disruptive callback. *)
Lemma calm_request c o cmd body fds r c' fds' ev : cx_quiesce c = true -> needs_quiesce c cmd body = false ->
  (cmd = 10 -> forall off count, rd body 0 8 = Some off -> rd body 8 4 = Some 7 -> rd body 12 4 = Some count -> devctl_in (cx_pci c) off count ->
     pc_exp_off (cx_pci c) = Some (off - 8) /\ 8 <= off) ->
  dispatch c o cmd body fds = (r, c', fds', ev) -> forall e, In e ev -> ~ disruptive e.
Proof.
  intros Q Nq DC D e J Di. destruct (dispatch_shape _ _ _ _ _ _ _ _ _ D) as (_ & F & _). rewrite Forall_forall in F. specialize (F e J).
  unfold needs_quiesce in Nq. rewrite Q in Nq. cbn [negb] in Nq.
  assert (DMA : (cmd =? CMD_DMA_MAP) || (cmd =? CMD_DMA_UNMAP) = true -> False).
  { intros E. rewrite E in Nq. destruct (cx_dma c) as [d|] eqn:Dm; [discriminate Nq|]. unfold dispatch in D. rewrite Dm in D. apply orb_true_iff in E. destruct E as [E|E]; rewrite E in D.
    - injection D as <- <- <- <-. destruct J.
    - destruct (cmd =? CMD_DMA_MAP); injection D as <- <- <- <-; destruct J. }
  destruct e as [| | | | |rr|st| | | | | | |]; cbn in Di; try (destruct Di); cbn in F.
  - subst cmd. now apply DMA.
  - subst cmd. now apply DMA.
  - destruct rr; [subst cmd; discriminate Nq|destruct F|]. subst cmd.
    change (dispatch c o 10 body fds) with (let '(r, c', ev) := handle_region_access c o true body in (r, c', fds, ev)) in D.
    destruct (handle_region_access c o true body) as [[r1 c1] ev1] eqn:A. injection D as <- <- <- <-.
    destruct (access_flr _ _ _ _ _ _ _ _ A J) as (_ & off & count & R1 & R2 & R3 & L & DV).
    destruct (DC eq_refl off count R1 R2 R3 DV) as [X8 L8].
    cbn - [rd] in Nq. assert (L16 : N.of_nat (length body) <? 16 = false) by lia. rewrite L16, R1, R2 in Nq. cbn [need] in Nq.
    unfold access_is_pci_cap_exp in Nq. rewrite X8 in Nq. change (7 =? CFG_REGION) with true in Nq. cbn [andb] in Nq. lia.
  - subst cmd. change (dispatch c o 16 body fds) with (let '(r, c', ev) := handle_device_feature c o body in (r, c', fds, ev)) in D.
    destruct (handle_device_feature c o body) as [[r1 c1] ev1] eqn:A. injection D as <- <- <- <-.
    destruct (feature_transition _ _ _ _ _ _ _ A J) as (L & flags & R4 & Fn).
    cbn - [rd] in Nq. assert (L8 : N.of_nat (length body) <? 8 = false) by lia. rewrite L8, R4 in Nq. cbn [need] in Nq. congruence.
Qed.

Lemma accepted_body s h rbody body : accepted s h rbody body -> body = [] \/ exists l k, rbody = inr l /\ body = firstn k l.
Proof.
  intros [b _ B _]. destruct (hd_size h =? 16); [injection B as <-; auto|]. unfold recv_body in B. destruct rbody as [e|l]; [discriminate B|]. right.
  destruct (N.of_nat (length (firstn (N.to_nat (hd_size h - 16)) l)) =? 0); [discriminate B|].
  destruct (negb (N.of_nat (length (firstn (N.to_nat (hd_size h - 16)) l)) =? hd_size h - 16)); [discriminate B|]. injection B as <-. eauto.
Qed.

Lemma rd_firstn k l off n v : rd (firstn k l) off n = Some v -> rd l off n = Some v.
Proof.
  unfold rd, slice. rewrite firstn_length. destruct (off + n <=? Nat.min k (length l))%nat eqn:E; [|discriminate].
  assert (E2 : (off + n <=? length l)%nat = true) by lia. rewrite E2. intros H. rewrite <- H. f_equal.
  f_equal. rewrite skipn_firstn_comm, firstn_firstn. f_equal. lia.
Qed.

Theorem C24_quiesced_partial : forall s st o s' ev,
  reachable s -> cx_quiesce (sv_ctx s) = true -> one_exp s -> devctl_aligned s st ->
  sv_step s st = (o, s', ev) -> (forall c, o <> Crash c) ->
  quiesced_along (told_quiesced s st) ev /\ sv_quiesced s' = false.
Proof.
  intros s st o s' ev Rc Qc OE DA H NC. pose proof (reachable_sinv _ Rc) as SI. pose proof (step_cases _ _ _ _ _ SI H NC) as SC.
  split; [|apply (step_kept _ _ _ _ _ SI SC)].
  destruct SC; cbn [told_quiesced]; try exact I.
  - unfold quiesce_call. rewrite Qc. cbn [app quiesced_along]. apply along_true, lost_no_quiesce.
  - destruct H0 as (_ & P & _). assert (A : quiesced_along false (ev1 ++ closes_of fds)) by (eapply reply_along; [eassumption|exact Qc|auto]).
    destruct H2; try exact A; exact A.
  - pose proof H0 as (_ & P & _). fold q. destruct q eqn:Eq.
    + cbn [app quiesced_along]. eapply handled_along; [eassumption|exact Qc|auto|auto].
    + cbn [app]. eapply handled_along; [eassumption|exact Qc|left; exact P|]. right. cbn [mg_hdr mg_body mg_fds].
      intros r c1 fds' ev1 D. refine (calm_request _ _ _ _ _ _ _ _ _ Qc Eq _ D).
      intros C10 off count R1 R2 R3 (c & C1 & C2 & C3 & C4 & C5). pose proof (OE c C1 C2 C3) as X. 
      assert (Off : off = cp_off c + 8).
      { unfold devctl_aligned in DA. rewrite H1 in DA. destruct (accepted_body _ _ _ _ H2) as [-> |(l & k & -> & ->)].
        - rewrite rd_none in R1 by (cbn; lia). discriminate R1.
        - eapply (DA C10 off 7 count c); eauto using rd_firstn. lia. }
      cbn [sv_ctx set_quiesced] in *. rewrite X, Off. split; [f_equal; lia|lia].
  - rewrite H0. eapply handled_along; [eassumption|exact Qc|auto|auto].
  - rewrite H0. apply along_true, lost_no_quiesce.
  - destruct e; [congruence|]. destruct (sv_pending s); [exact I|apply along_closes|exact I].
  - apply along_calm; [apply Forall_forall|]; intros e J; destruct (H0 e J) as (fd & ->); cbn; auto.
Qed.
Print Assumptions C24_quiesced_partial.

(* ---------- examples *)

(* Devices with capabilities as vfu_pci_add_capability sets them up: a PCI Express capability that allows function level
   resets, a 16-byte vendor specific one. *)
Definition exp_cap : list N := [16; 0; 2; 0; 0; 0; 0; 16] ++ zeros 52.
Definition vendor_cap : list N := [9; 0; 16] ++ zeros 13.
Definition add_caps (l : list (list N)) : pci :=
  fold_left (fun p d => snd (add_capability (env_of (ex_sctx true)) false p 0 0 d)) l (mk_pci (zeros 256) [] [] None).
Definition exp_server (l : list (list N)) : server :=
  mk_server (set_pci (ex_sctx true) (add_caps l)) PNone false false true.
Definition exp_ready (l : list (list N)) : server := fst (sv_run (exp_server l) [SAttach 1048576]).
Definition cfg_write_env (off : N) (data : list N) : env :=
  ex_env (RxMsg (mk_header 3 10 (32 + N.of_nat (length data)) 0 0) [] (inr (access_req off 7 (N.of_nat (length data)) data))).

Lemma exp_reachable l : reachable (exp_ready l).
Proof.
  exists (exp_server l), [SAttach 1048576], [], []. split.
  - pose proof (ex_fresh true) as F. exact F.
  - unfold exp_ready. cbn [sv_run sv_step exp_server sv_conn fst]. change (@nil (N * N)) with (arrived (exp_server l) (SAttach 1048576) ++ []). change (@nil event) with (@nil event ++ []) at 1.
    eapply h_cons; [reflexivity|discriminate|apply h_nil].
Qed.

Lemma exp_caps : let p := cx_pci (sv_ctx (exp_ready [vendor_cap; exp_cap])) in
  pc_caps p ++ pc_ext_caps p = [mk_cap false 9 64 3 16 0; mk_cap false 16 80 2 60 0] /\ pc_exp_off p = Some 80.
Proof. vm_compute. auto. Qed.
Lemma exp_one : one_exp (exp_ready [vendor_cap; exp_cap]).
Proof.
  unfold one_exp. cbv zeta. destruct exp_caps as [-> ->]. intros c I E1 E2. destruct I as [<-|[<-|[]]]; [discriminate E2|reflexivity].
Qed.

(* A function level reset through the device control register: the device is quiesced first. *)
Example C24_case : let s := exp_ready [vendor_cap; exp_cap] in
  pc_exp_off (cx_pci (sv_ctx s)) = Some 80 /\ one_exp s /\ devctl_aligned s (SRun (cfg_write_env 88 [0; 128])) /\
  firstn 2 (snd (sv_step s (SRun (cfg_write_env 88 [0; 128])))) = [EvQuiesce None; EvReset ResetPciFlr].
Proof.
  split; [apply exp_caps|]. split; [apply exp_one|].
  split; [|vm_compute; reflexivity].
  unfold devctl_aligned. cbn [cfg_write_env ex_env en_rx]. intros _ off region count c R1 R2 R3 _ I E1 E2 L1 L2.
  rewrite (proj1 exp_caps) in I. destruct I as [<-|[<-|[]]]; [discriminate E2|]. vm_compute in R1. injection R1 as <-. reflexivity.
Qed.

(* Two limits that the hypotheses one_exp and devctl_aligned stand for.  With two PCI Express capabilities only
   writes to the device control register of the one added last make the library quiesce the device. *)
Theorem C24_second_exp_refuted : exists s st o s' ev, reachable s /\ cx_quiesce (sv_ctx s) = true /\
  sv_step s st = (o, s', ev) /\ o = Ok 1 /\ In (EvReset ResetPciFlr) ev /\ (forall e, In e ev -> no_quiesce e) /\ ~ quiesced_along (told_quiesced s st) ev.
Proof.
  exists (exp_ready [exp_cap; exp_cap]), (SRun (cfg_write_env 72 [0; 128])). do 3 eexists. split; [apply exp_reachable|]. split; [reflexivity|].
  split; [vm_compute; reflexivity|]. split; [reflexivity|]. split; [left; reflexivity|]. split.
  - intros e I. destruct I as [<-|[<-|[]]]; exact Logic.I.
  - intros [A _]. specialize (A Logic.I). discriminate A.
Qed.
Print Assumptions C24_second_exp_refuted.

(* A write that starts in the capability before it reaches the device control register unnoticed. *)
Theorem C24_straddling_write_refuted : exists s st o s' ev, reachable s /\ cx_quiesce (sv_ctx s) = true /\ one_exp s /\
  sv_step s st = (o, s', ev) /\ o = Ok 1 /\ In (EvReset ResetPciFlr) ev /\ (forall e, In e ev -> no_quiesce e) /\ ~ quiesced_along (told_quiesced s st) ev.
Proof.
  exists (exp_ready [vendor_cap; exp_cap]), (SRun (cfg_write_env 72 (zeros 8 ++ [16; 0; 2; 0; 0; 0; 0; 16; 0; 128]))). do 3 eexists. split; [apply exp_reachable|]. split; [reflexivity|].
  split; [apply exp_one|].
  split; [vm_compute; reflexivity|]. split; [reflexivity|]. split; [left; reflexivity|]. split.
  - intros e I. destruct I as [<-|[<-|[]]]; exact Logic.I.
  - intros [A _]. specialize (A Logic.I). discriminate A.
Qed.
Print Assumptions C24_straddling_write_refuted.
