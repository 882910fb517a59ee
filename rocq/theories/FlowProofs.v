(* Lemmas about what a device sees of migration. *)
From Coq Require Import NArith ZArith List Bool Lia ZifyBool ZifyNat ZifyN.
From Verif Require Import Base Types Bytes BytesProofs BufProofs Spec Dma Dirty DmaOps SpecDma DmaProofs Migr SpecMigr PropMigr Irq SpecIrq IrqProofs Pci Handlers
  SpecHandlers HandlersProofs HandlersDma Server SpecServer ServerProofs PropServer SpecSafe SafeProofs SafeDispatch SpecFlow.
Import ListNotations.
Open Scope N_scope.
Ltac Zify.zify_post_hook ::= idtac.

Lemma dv_app st b m2 : forall a k m m1, device_view st k m a m1 -> (forall k', device_view st k' m1 b m2) -> device_view st k m (a ++ b) m2.
Proof.
  intros a k m m1 H T. induction H; cbn [app]; try (now apply T).
  - apply dv_accepts; auto.
  - eapply dv_refuses; eauto.
  - apply dv_reset; auto.
  - apply dv_flr; auto.
  - apply dv_lost; auto.
  - apply dv_read; auto.
  - apply dv_write; auto.
  - apply dv_register; auto.
  - apply dv_other; auto.
Qed.

(* Events that do not concern the device's state. *)
Definition quiet (e : event) : Prop :=
  match e with EvTransition _ | EvReset _ | EvReadData _ | EvWriteData _ | EvRegister _ => False | _ => True end.
Lemma dv_quiet st l : Forall quiet l -> forall k m, device_view st k m l m.
Proof. induction 1; intros k m; constructor; auto. Qed.

Lemma dv_sees st answers : (forall k, trans_answer st k = answers k) -> forall k m ev m', device_sees answers k m ev m' -> device_view st k m ev m'.
Proof.
  intros A k m ev m' H. induction H.
  - constructor.
  - eapply dv_refuses; eauto. rewrite A; eauto.
  - apply dv_accepts; auto. rewrite A; auto.
Qed.

Lemma quiet_closes l : Forall quiet (closes_of l).
Proof. unfold closes_of. apply Forall_forall. intros e H. apply in_map_iff in H. destruct H as (x & <- & _). exact I. Qed.
Lemma quiet_quiesce s : Forall quiet (quiesce_call s).
Proof. unfold quiesce_call. destruct (cx_quiesce (sv_ctx s)); repeat constructor. Qed.
Lemma quiet_gives s : Forall quiet (concat (map (gives_up s) (regions_of s))).
Proof.
  apply Forall_forall. intros e H. apply in_concat in H. destruct H as (l & L & H). apply in_map_iff in L. destruct L as (r & <- & _).
  apply gives_up_in in H. destruct e; try exact I; destruct H.
Qed.

Lemma lost_view st s k m : cx_reset (sv_ctx s) = true ->
  device_view st k m (lost_events s) (match lost_answer st with None => VFU_RUNNING | Some _ => m end).
Proof.
  intros R. unfold lost_events. rewrite R. eapply dv_app; [apply dv_quiet, quiet_gives|]. intros k'. cbn [app]. apply dv_lost.
  apply dv_quiet. apply Forall_app. split; [apply quiet_closes|repeat constructor].
Qed.

Lemma loss_mig s s' lost m : loss_post s s' lost -> cx_reset (sv_ctx s) = true -> cx_mig (sv_ctx s) = Some (wire m) ->
  cx_mig (sv_ctx s') = Some (wire (match lost with None => VFU_RUNNING | Some _ => m end)).
Proof. intros (_ & _ & _ & E & _) R M. rewrite E, R, M. destruct lost; reflexivity. Qed.

Definition step_env (st : step) (en : env) : Prop := st = SRun en \/ exists e, st = SQuiesced e en.
Lemma se_lost st en : step_env st en -> lost_answer st = en_lost en.
Proof. intros [-> |[e ->]]; reflexivity. Qed.
Lemma se_trans st en k : step_env st en -> trans_answer st k = or_trans (en_or en) k.
Proof. intros [-> |[e ->]]; reflexivity. Qed.
Lemma se_reset st en : step_env st en -> reset_answer st = or_reset (en_or en) 0%nat.
Proof. intros [-> |[e ->]]; reflexivity. Qed.
Lemma se_data st en : step_env st en -> data_answered st = Some (or_data (en_or en)).
Proof. intros [-> |[e ->]]; reflexivity. Qed.

Lemma reply_view st s en h r o s' ev m : step_env st en -> reply_case s en h r o s' ev -> cx_reset (sv_ctx s) = true -> cx_mig (sv_ctx s) = Some (wire m) ->
  exists m', (forall k, device_view st k m ev m') /\ cx_mig (sv_ctx s') = Some (wire m').
Proof.
  intros SE [W|W S|e W S E|e e' W S E Q P Qr|e s1 W S E Q P] R M.
  - exists m. split; [intros k; constructor|exact M].
  - exists m. split; [intros k; apply dv_quiet; repeat constructor|exact M].
  - exists m. split; [intros k; constructor|exact M].
  - exists m. split; [intros k; apply dv_quiet; repeat constructor|]. destruct (e' =? EBUSY); exact M.
  - exists (match lost_answer st with None => VFU_RUNNING | Some _ => m end). split.
    + intros k. eapply dv_app; [apply dv_quiet; destruct (sv_pending s); [apply quiet_quiesce|constructor|constructor]|]. intros k'. now apply lost_view.
    + rewrite (se_lost _ _ SE). eapply loss_mig; eauto.
Qed.

(* The target 8 is not survived. *)
Lemma target8 answers m : exists st' ev, migration_set_state answers (wire m) 8 = (Crash OutOfBounds, st', ev).
Proof. destruct m; do 2 eexists; reflexivity. Qed.

Lemma set_view st answers m target o st' ev : (forall k, trans_answer st k = answers k) -> (forall cr, o <> Crash cr) ->
  migration_set_state answers (wire m) target = (o, st', ev) -> exists m', st' = wire m' /\ device_view st 0 m ev m'.
Proof.
  intros A NC H. destruct (N.eq_dec target 8) as [-> |N8].
  - destruct (target8 answers m) as (x & y & E). rewrite E in H. injection H as <- _ _. exfalso. now apply (NC OutOfBounds).
  - destruct (C30_legal_transitions answers m target o st' ev N8 H) as (m' & -> & V). exists m'. split; [reflexivity|]. now apply (dv_sees st answers).
Qed.

Lemma feature_mig st c o body r c' ev m : handle_device_feature c o body = (r, c', ev) -> no_crash r -> cx_mig c = Some (wire m) ->
  (forall k, trans_answer st k = or_trans o k) -> exists m', cx_mig c' = Some (wire m') /\ device_view st 0 m ev m'.
Proof.
  intros H NC M A. unfold handle_device_feature in H.
  assert (K : forall r0 c0, (r0, c0, @nil event) = (r, c', ev) -> cx_mig c0 = cx_mig c -> exists m', cx_mig c' = Some (wire m') /\ device_view st 0 m ev m').
  { intros r0 c0 Q E. injection Q as <- <- <-. exists m. split; [congruence|constructor]. }
  destruct (N.of_nat (length body) <? 8); [eapply K; [exact H|reflexivity]|]. needs H; try (eapply K; [exact H|reflexivity]).
  destruct (negb (N.land n0 (feature_supported (cx_mig c) (N.land n0 FEATURE_MASK)) =? N.ldiff n0 FEATURE_MASK) || (feature_supported (cx_mig c) (N.land n0 FEATURE_MASK) =? 0)); [eapply K; [exact H|reflexivity]|].
  destruct (N.ldiff n0 FEATURE_MASK =? FEATURE_GET).
  { destruct (is_migration_feature (N.land n0 FEATURE_MASK)); [eapply K; [exact H|reflexivity]|].
    destruct (is_dma_feature (N.land n0 FEATURE_MASK)); [|eapply K; [exact H|reflexivity]].
    destruct (dma_feature_get c n n0 body) as [r1 c1] eqn:Q. eapply K; [exact H|]. clear - Q. unfold dma_feature_get in Q.
    destruct (cx_dma c) as [d|] eqn:D; [|injection Q as <- <-; reflexivity].
    needs Q; try (injection Q as <- <-; reflexivity).
    destruct (get_bitmap_size n1 n2) as [bs|e|cr]; try (injection Q as <- <-; reflexivity).
    destruct (n <? 32 + bs); [injection Q as <- <-; reflexivity|].
    repeat match type of Q with
    | need ?x _ _ = _ => destruct x; cbn [need] in Q
    | (match ?x with _ => _ end) = _ => destruct x
    end; injection Q as <- <-; reflexivity. }
  destruct (N.ldiff n0 FEATURE_MASK =? FEATURE_SET).
  { destruct (n <? N.of_nat (length body)); [eapply K; [exact H|reflexivity]|].
    destruct (is_migration_feature (N.land n0 FEATURE_MASK)).
    - unfold migration_feature_set in H. 
      destruct (negb (N.land n0 FEATURE_MASK =? FEATURE_MIG_DEVICE_STATE)); [eapply K; [exact H|reflexivity]|].
      needs H; try (eapply K; [exact H|reflexivity]). rewrite M in H.
      destruct (migration_set_state (or_trans o) (wire m) n1) as [[res cur'] ev1] eqn:Q. injection H as Er <- <-.
      destruct (set_view st (or_trans o) m n1 res cur' ev1 A) with (2 := Q) as (m' & -> & V).
      + intros cr ->. subst r. exact NC.
      + exists m'. split; [reflexivity|exact V].
    - destruct (is_dma_feature (N.land n0 FEATURE_MASK)); [|eapply K; [exact H|reflexivity]].
      destruct (dma_feature_set c o (N.land n0 FEATURE_MASK) body) as [r1 c1] eqn:Q. eapply K; [exact H|]. clear - Q. unfold dma_feature_set in Q.
      repeat match type of Q with
      | need ?x _ _ = _ => destruct x; cbn [need] in Q
      | (match ?x with _ => _ end) = _ => destruct x
      end; injection Q as <- <-; reflexivity. }
  destruct (negb (has (N.ldiff n0 FEATURE_MASK) FEATURE_PROBE)); [eapply K; [exact H|reflexivity]|].
  destruct (n <? N.of_nat (length body)); (eapply K; [exact H|reflexivity]).
Qed.

Lemma exec_running m cmd : should_exec (Some (wire m)) cmd = true -> cmd_allowed_stopped cmd = false -> ~ halted m.
Proof. intros H C [-> | ->]; unfold should_exec in H; cbn in H; congruence. Qed.

(* What handling a request does to the device's state. *)
Lemma dispatch_view st c o cmd body fds r c' fds' ev m : dispatch c o cmd body fds = (r, c', fds', ev) -> no_crash r ->
  cx_mig c = Some (wire m) -> cx_reset c = true -> should_exec (cx_mig c) cmd = true ->
  (forall k, trans_answer st k = or_trans o k) -> reset_answer st = or_reset o 0%nat ->
  exists m', cx_mig c' = Some (wire m') /\ device_view st 0 m ev m'.
Proof.
  intros H NC M R X At Ar.
  assert (Q0 : Forall (kind_ok cmd) ev) by (apply dispatch_shape in H; tauto).
  assert (K : forall c0, cx_mig c0 = cx_mig c -> c' = c0 -> Forall quiet ev -> exists m', cx_mig c' = Some (wire m') /\ device_view st 0 m ev m').
  { intros c0 E -> F. exists m. split; [congruence|now apply dv_quiet]. }
  assert (QK : cmd <> 2 -> cmd <> 10 -> cmd <> 13 -> cmd <> 16 -> cmd <> 17 -> cmd <> 18 -> Forall quiet ev).
  { intros A1 A2 A3 A4 A5 A6. eapply Forall_impl; [|exact Q0]. intros e. destruct e as [| | | | |[]| | | | | | | |]; cbn [kind_ok quiet]; try tauto. }
  unfold dispatch in H.
  destruct (cmd =? CMD_DMA_MAP) eqn:E2.
  { apply N.eqb_eq in E2. change CMD_DMA_MAP with 2 in E2. subst cmd.
    assert (NH : ~ halted m) by (apply (exec_running m 2); [now rewrite <- M|reflexivity]).
    assert (V : forall k, device_view st k m ev m).
    { clear - Q0 NH. induction Q0 as [|e l Q _ IH]; intros k; [constructor|].
      destruct e as [| | | | |[]| | | | | | | |]; try discriminate Q; try (destruct Q; fail); try (apply dv_register; auto; fail); apply dv_other; auto; exact I. }
    destruct (cx_dma c); [|injection H as <- <- <- <-; exists m; auto]. apply dma_map_kept in H. destruct H as [[-> |(d' & h & ->)] _]; exists m; auto. }
  destruct (cmd =? CMD_DMA_UNMAP) eqn:E3.
  { apply N.eqb_eq in E3. change CMD_DMA_UNMAP with 3 in E3. subst cmd. destruct (cx_dma c) as [d|]; [|injection H as <- <- <- <-; now apply (K c)].
    destruct (handle_dma_unmap c d o body) as [[r1 c1] ev1] eqn:Q. injection H as <- <- <- <-. apply dma_unmap_kept in Q. destruct Q as [[-> |(d' & h & ->)] _].
    - apply (K c); auto. apply QK; discriminate.
    - apply (K (set_dma c d' h)); auto. apply QK; discriminate. }
  destruct (cmd =? CMD_GET_INFO); [injection H as <- <- <- <-; now apply (K c)|].
  destruct (cmd =? CMD_GET_REGION_INFO); [injection H as <- <- <- <-; now apply (K c)|].
  destruct (cmd =? CMD_GET_REGION_IO_FDS); [injection H as <- <- <- <-; now apply (K c)|].
  destruct (cmd =? CMD_GET_IRQ_INFO); [injection H as <- <- <- <-; now apply (K c)|].
  destruct (cmd =? CMD_SET_IRQS) eqn:E8.
  { apply N.eqb_eq in E8. change CMD_SET_IRQS with 8 in E8. subst cmd. destruct (cx_irqs c) as [t|]; [|injection H as <- <- <- <-; now apply (K c)].
    destruct (set_irqs (cx_irq_cfg c) t (or_efd o) body fds) as [[[r1 t1] f1] ev1]. injection H as <- <- <- <-.
    apply (K (set_irqt c t1)); auto. apply QK; discriminate. }
  destruct (cmd =? CMD_REGION_READ) eqn:E9.
  { apply N.eqb_eq in E9. change CMD_REGION_READ with 9 in E9. subst cmd.
    destruct (handle_region_access c o false body) as [[r1 c1] ev1] eqn:Q. injection H as <- <- <- <-.
    destruct (proj1 (handle_access_shape _ _ _ _ _ _ _ Q)) as (p & ->). apply (K (set_pci c p)); auto. apply QK; discriminate. }
  destruct (cmd =? CMD_REGION_WRITE) eqn:E10.
  { apply N.eqb_eq in E10. change CMD_REGION_WRITE with 10 in E10. subst cmd.
    destruct (handle_region_access c o true body) as [[r1 c1] ev1] eqn:Q. injection H as <- <- <- <-.
    destruct (proj1 (handle_access_shape _ _ _ _ _ _ _ Q)) as (p & ->). exists m. split; [exact M|].
    assert (V : forall k, device_view st k m ev1 m).
    { clear - Q0. induction Q0 as [|e l Q _ IH]; intros k; [constructor|].
      destruct e as [| | | | |[]| | | | | | | |]; try discriminate Q; try (destruct Q; fail); try (apply dv_flr; auto; fail); apply dv_other; auto; exact I. }
    apply V. }
  destruct (cmd =? CMD_RESET) eqn:E13.
  { apply N.eqb_eq in E13. change CMD_RESET with 13 in E13. subst cmd.
    assert (NH : ~ halted m) by (apply (exec_running m 13); [now rewrite <- M|reflexivity]).
    unfold device_reset in H. rewrite R in H. destruct (or_reset o 0%nat) as [e|] eqn:A; injection H as <- <- <- <-.
    - exists m. split; [exact M|]. apply dv_reset; [exact NH|]. rewrite Ar. constructor.
    - exists VFU_RUNNING. cbn [set_mig cx_mig]. rewrite M. split; [reflexivity|]. apply dv_reset; [exact NH|]. rewrite Ar. constructor. }
  destruct (cmd =? CMD_FEATURE).
  { destruct (handle_device_feature c o body) as [[r1 c1] ev1] eqn:Q. injection H as <- <- <- <-. eapply feature_mig; eauto. }
  destruct (cmd =? CMD_MIG_READ).
  { destruct (mig_data_read (cx_mig c) (cx_max_xfer c) (or_data o) body) as [r1 ev1] eqn:Q. injection H as <- <- <- <-. exists m. split; [exact M|].
    rewrite M in Q. unfold mig_data_read in Q.
    destruct (N.of_nat (length body) <? 8); [injection Q as _ <-; constructor|]. needs Q; try (injection Q as _ <-; constructor).
    destruct (negb (wire m =? ST_PRE_COPY) && negb (wire m =? ST_STOP_COPY)) eqn:W; [injection Q as _ <-; constructor|].
    destruct (cx_max_xfer c <? n0); [injection Q as _ <-; constructor|]. destruct (n <? 8 + n0); [injection Q as _ <-; constructor|].
    assert (S : m = VFU_PRE_COPY \/ m = VFU_STOP_AND_COPY) by (destruct m; try discriminate W; auto).
    destruct (or_data o); injection Q as _ <-; (apply dv_read; [exact S|constructor]). }
  destruct (cmd =? CMD_MIG_WRITE).
  { destruct (mig_data_write (cx_mig c) (cx_max_xfer c) (or_data o) body) as [r1 ev1] eqn:Q. injection H as <- <- <- <-. exists m. split; [exact M|].
    rewrite M in Q. unfold mig_data_write in Q.
    destruct (N.of_nat (length body) <? 8); [injection Q as _ <-; constructor|]. needs Q; try (injection Q as _ <-; constructor).
    destruct (negb (wire m =? ST_RESUMING)) eqn:W; [injection Q as _ <-; constructor|].
    destruct (cx_max_xfer c <? n0); [injection Q as _ <-; constructor|]. destruct (n <? 8 + n0); [injection Q as _ <-; constructor|].
    destruct (N.of_nat (length body) <? 8 + n0); [injection Q as _ <-; constructor|]. needs Q; [|injection Q as _ <-; constructor].
    assert (S : m = VFU_RESUME) by (destruct m; try discriminate W; auto).
    destruct (or_data o) as [k b|]; [destruct (k =? n0)|]; injection Q as _ <-; (apply dv_write; [exact S|constructor]). }
  injection H as <- <- <- <-. now apply (K c).
Qed.

Lemma handled_view st s en m0 o s' ev m : step_env st en -> handled s en m0 o s' ev -> cx_reset (sv_ctx s) = true -> cx_mig (sv_ctx s) = Some (wire m) ->
  should_exec (cx_mig (sv_ctx s)) (hd_cmd (mg_hdr m0)) = true ->
  exists m', device_view st 0 m ev m' /\ cx_mig (sv_ctx s') = Some (wire m').
Proof.
  intros SE [err body fds c1 fds' ev1 o1 s1 ev2 D KP F RC] R M X.
  destruct (dispatch_view st _ _ _ _ _ _ _ _ _ m D I M R X (fun k => se_trans st en k SE) (se_reset st en SE)) as (m1 & M1 & V1).
  assert (R1 : cx_reset c1 = true). { destruct (dispatch_shape _ _ _ _ _ _ _ _ _ D) as ((_ & _ & E & _) & _). congruence. }
  destruct (reply_view st _ _ _ _ _ _ _ m1 SE RC R1 M1) as (m2 & V2 & M2). exists m2. split; [|exact M2].
  eapply dv_app; [exact V1|]. intros k. eapply dv_app; [apply V2|]. intros k'. apply dv_quiet, quiet_closes.
Qed.

(* A request that waits for the device was one to be executed, and does not carry data. *)
Definition flow_pend (s : server) : Prop :=
  match sv_pending s with
  | PMsg m => should_exec (cx_mig (sv_ctx s)) (hd_cmd (mg_hdr m)) = true /\ hd_cmd (mg_hdr m) <> 17 /\ hd_cmd (mg_hdr m) <> 18
  | _ => True
  end.

Lemma needs_not_data c cmd body : needs_quiesce c cmd body = true -> cmd <> 17 /\ cmd <> 18.
Proof. intros H. split; intros ->; unfold needs_quiesce in H; destruct (cx_quiesce c); discriminate H. Qed.

Lemma reply_pending s en h r o s' ev : reply_case s en h r o s' ev -> sv_pending s' = sv_pending s \/ sv_pending s' = PReset.
Proof.
  intros [W|W S|e W S E|e e' W S E Q P Qr|e s1 W S E Q P]; auto.
  - destruct (e' =? EBUSY); auto.
  - left. apply P.
Qed.

Lemma flow_pend_step s st o s' ev : flow_pend s -> step_case s st o s' ev -> flow_pend s'.
Proof.
  intros PO H. unfold flow_pend in *.
  assert (K : forall s1, sv_pending s1 = PNone \/ sv_pending s1 = PReset -> match sv_pending s1 with
    | PMsg m => should_exec (cx_mig (sv_ctx s1)) (hd_cmd (mg_hdr m)) = true /\ hd_cmd (mg_hdr m) <> 17 /\ hd_cmd (mg_hdr m) <> 18 | _ => True end).
  { intros s1 [E|E]; rewrite E; exact I. }
  destruct H; try exact PO; try exact I.
  - destruct (e' =? EBUSY); [exact I|exact PO].
  - apply K. left. destruct H3 as (_ & _ & _ & _ & E & _). rewrite E. apply H.
  - apply K. destruct (reply_pending _ _ _ _ _ _ _ H2) as [E|E]; [left; rewrite E; apply H|now right].
  - cbn [sv_pending set_pending mg_hdr sv_ctx]. split; [|exact (needs_not_data _ _ _ H2)]. inversion H1; assumption.
  - apply K. cbn [sv_pending set_quiesced].
    destruct H3 as [err bd fs c1 fds' ev1 o1 s1 ev2 D K0 F R]. destruct (reply_pending _ _ _ _ _ _ _ R) as [E|E]; [left; rewrite E; apply H|now right].
  - unfold dev_hint. destruct (cx_dma (sv_ctx s)); exact PO.
Qed.

(* One step of a server whose device supports migration and resets. *)
Lemma step_view s st o s' ev m : sinv s -> flow_pend s -> sv_step s st = (o, s', ev) -> (forall c, o <> Crash c) ->
  cx_reset (sv_ctx s) = true -> cx_mig (sv_ctx s) = Some (wire m) ->
  exists m', device_view st 0 m ev m' /\ cx_mig (sv_ctx s') = Some (wire m').
Proof.
  intros SI FP H NC R M. pose proof (step_cases _ _ _ _ _ SI H NC) as SC. clear H.
  destruct SC; try (exists m; split; [apply dv_nil|exact M]).
  - exists m. split; [apply dv_quiet; repeat constructor|]. destruct (e' =? EBUSY); exact M.
  - exists (match lost_answer (SRun en) with None => VFU_RUNNING | Some _ => m end). split.
    + eapply dv_app; [apply dv_quiet, quiet_quiesce|]. intros k. now apply lost_view.
    + eapply loss_mig; eauto.
  - destruct (reply_view (SRun en) _ _ _ _ _ _ _ m (or_introl eq_refl) H2 R M) as (m' & V & M'). exists m'. split; [|exact M'].
    eapply dv_app; [apply dv_quiet; destruct H1; repeat constructor|]. intros k. eapply dv_app; [apply V|]. intros k'. apply dv_quiet, quiet_closes.
  - exists m. split; [apply dv_quiet; repeat constructor|exact M].
  - destruct (handled_view (SRun en) _ _ _ _ _ _ m (or_introl eq_refl) H3 R M) as (m' & V & M'); [inversion H1; assumption|].
    exists m'. split; [|exact M']. destruct q; cbn [app]; [apply dv_other; [exact I|]|]; exact V.
  - unfold flow_pend in FP. rewrite H in FP. destruct FP as (X & _).
    destruct (handled_view (SQuiesced 0 en) _ _ _ _ _ _ m (or_intror (ex_intro _ 0 eq_refl)) H1 R M X) as (m' & V & M'). exists m'. split; [exact V|exact M'].
  - exists (match lost_answer (SQuiesced 0 en) with None => VFU_RUNNING | Some _ => m end). split; [now apply lost_view|].
    exact (loss_mig (set_quiesced s true) _ _ m H1 R M).
  - exists m. split; [|exact M]. apply dv_quiet. destruct (sv_pending s); [constructor|apply quiet_closes|constructor].
  - exists m. split; [apply dv_nil|]. unfold dev_hint. destruct (cx_dma (sv_ctx s)); exact M.
  - exists m. split; [|exact M]. apply dv_quiet. apply Forall_forall. intros e X. destruct (H e X) as (fd & ->). exact I.
Qed.

Lemma history_view s l s' arr ev : history s l s' arr ev -> forall m, sinv s -> flow_pend s -> cx_reset (sv_ctx s) = true -> cx_mig (sv_ctx s) = Some (wire m) ->
  exists m', device_life s m l s' m' /\ cx_mig (sv_ctx s') = Some (wire m') /\ flow_pend s'.
Proof.
  induction 1 as [s|s st o s1 ev1 l s2 arr ev2 H NC HH IH]; intros m SI FP R M; [exists m; split; [constructor|auto]|].
  destruct (step_view _ _ _ _ _ m SI FP H NC R M) as (m1 & V & M1). pose proof (step_cases _ _ _ _ _ SI H NC) as SC.
  destruct (step_kept _ _ _ _ _ SI SC) as (KP & SI1).
  assert (R1 : cx_reset (sv_ctx s1) = true) by (destruct (k_setup _ _ KP) as (_ & _ & E & _); congruence).
  destruct (IH m1 SI1 (flow_pend_step _ _ _ _ _ FP SC) R1 M1) as (m2 & L & M2 & F2). exists m2. split; [|auto]. econstructor; eauto.
Qed.

(* ---------- data *)
Definition obt (ev : list event) : list N :=
  flat_map (fun e => match e with
                     | EvReply r => if (rp_cmd r =? 17) && (rp_error r =? 0) then chunk (rp_body r) else []
                     | _ => [] end) ev.
Definition hand (st : step) (ev : list event) : list N :=
  flat_map (fun e => match e with
                     | EvReadData _ => match data_answered st with Some (DataOk n buf) => firstn (N.to_nat n) buf | _ => [] end
                     | _ => [] end) ev.
Definition giv (ev : list event) : list N := flat_map (fun e => match e with EvWriteData d => d | _ => [] end) ev.

(* Events that carry no data, except perhaps replies. *)
Definition no_data (e : event) : Prop := match e with EvReadData _ | EvWriteData _ => False | _ => True end.
Definition no_reply (e : event) : Prop := match e with EvReply _ => False | _ => True end.

Lemma hand_none st ev : Forall no_data ev -> hand st ev = [].
Proof. induction 1 as [|e l Q _ IH]; [reflexivity|]. unfold hand. cbn [flat_map]. fold (hand st l). rewrite IH. destruct e; cbn in Q |- *; tauto. Qed.
Lemma giv_none ev : Forall no_data ev -> giv ev = [].
Proof. induction 1 as [|e l Q _ IH]; [reflexivity|]. unfold giv. cbn [flat_map]. fold (giv l). rewrite IH. destruct e; cbn in Q |- *; tauto. Qed.
Lemma obt_none ev : Forall no_reply ev -> obt ev = [].
Proof. induction 1 as [|e l Q _ IH]; [reflexivity|]. unfold obt. cbn [flat_map]. fold (obt l). rewrite IH. destruct e; cbn in Q |- *; tauto. Qed.
Lemma obt_app a b : obt (a ++ b) = obt a ++ obt b.
Proof. apply flat_map_app. Qed.
Lemma hand_app st a b : hand st (a ++ b) = hand st a ++ hand st b.
Proof. apply flat_map_app. Qed.
Lemma giv_app a b : giv (a ++ b) = giv a ++ giv b.
Proof. apply flat_map_app. Qed.

Lemma no_data_closes l : Forall no_data (closes_of l) /\ Forall no_reply (closes_of l).
Proof. unfold closes_of. split; apply Forall_forall; intros e H; apply in_map_iff in H; destruct H as (x & <- & _); exact I. Qed.
Lemma no_data_lost s : Forall no_data (lost_events s) /\ Forall no_reply (lost_events s).
Proof. split; apply Forall_forall; intros e H; apply lost_in in H; destruct e; try exact I; destruct H. Qed.
Lemma no_data_quiesce s : Forall no_data (quiesce_call s) /\ Forall no_reply (quiesce_call s).
Proof. unfold quiesce_call. destruct (cx_quiesce (sv_ctx s)); split; repeat constructor. Qed.

Lemma reply_data s en h r o s' ev : reply_case s en h r o s' ev -> Forall no_data ev /\ (ev = [EvReply r] \/ Forall no_reply ev).
Proof.
  intros [W|W S|e W S E|e e' W S E Q P Qr|e s1 W S E Q P]; try (split; [repeat constructor|]; auto; right; repeat constructor; fail).
  split; [|right].
  - apply Forall_app. split; [destruct (sv_pending s); [apply no_data_quiesce|constructor|constructor]|apply no_data_lost].
  - apply Forall_app. split; [destruct (sv_pending s); [apply no_data_quiesce|constructor|constructor]|apply no_data_lost].
Qed.

Lemma kind_no_data cmd ev : Forall (kind_ok cmd) ev -> cmd <> 17 -> cmd <> 18 -> Forall no_data ev.
Proof. intros H A B. eapply Forall_impl; [|exact H]. intros e. destruct e; cbn [kind_ok no_data]; tauto. Qed.
Lemma kind_no_reply cmd ev : Forall (kind_ok cmd) ev -> Forall no_reply ev.
Proof. intros H. eapply Forall_impl; [|exact H]. intros e. destruct e; cbn [kind_ok no_reply]; tauto. Qed.

Lemma chunk_nil : chunk [] = [].
Proof. reflexivity. Qed.

Lemma word_rd body off n v : rd body off n = Some v -> word body off n = v.
Proof. unfold rd, slice, word. destruct (Nat.leb (off + n) (length body)); [|discriminate]. now intros [= <-]. Qed.

Lemma rd_small body off v : bytes body -> rd body off 4 = Some v -> v < two32.
Proof. intros B H. exact (rd_bound _ _ _ _ B H). Qed.

(* The reply to a read carries what the device wrote. *)
Lemma chunk_reply n size buf tail : n < two32 -> n <= size -> n <= N.of_nat (length buf) ->
  chunk (le_bytes 4 (8 + n) ++ le_bytes 4 n ++ fit (N.to_nat size) buf ++ tail) = firstn (N.to_nat n) buf.
Proof.
  intros B S L. unfold chunk.
  assert (W : word (le_bytes 4 (8 + n) ++ le_bytes 4 n ++ fit (N.to_nat size) buf ++ tail) 4 4 = n).
  { apply word_rd. rewrite rd_skip by (rewrite le_bytes_length; lia). rewrite le_bytes_length. cbn [Nat.sub]. now apply rd_front. }
  rewrite W. rewrite app_assoc. rewrite skipn_app, skipn_all2 by (rewrite app_length, !le_bytes_length; lia).
  rewrite app_length, !le_bytes_length. cbn [Nat.add Nat.sub app skipn].
  unfold fit. rewrite firstn_app. assert (FL : length (firstn (N.to_nat size) (buf ++ zeros (N.to_nat size))) = N.to_nat size).
  { rewrite firstn_length, app_length. unfold zeros. rewrite repeat_length. lia. }
  rewrite FL. replace (N.to_nat n - N.to_nat size)%nat with 0%nat by lia. cbn [firstn]. rewrite app_nil_r.
  rewrite firstn_firstn. replace (Nat.min (N.to_nat n) (N.to_nat size)) with (N.to_nat n) by lia.
  rewrite firstn_app. replace (N.to_nat n - length buf)%nat with 0%nat by lia. cbn [firstn]. now rewrite app_nil_r.
Qed.

Lemma dispatch_read c o body fds r c' fds' ev : dispatch c o 17 body fds = (r, c', fds', ev) ->
  mig_data_read (cx_mig c) (cx_max_xfer c) (or_data o) body = (r, ev).
Proof.
  intros H. unfold dispatch in H. cbn [N.eqb Pos.eqb CMD_DMA_MAP CMD_DMA_UNMAP CMD_GET_INFO CMD_GET_REGION_INFO CMD_GET_REGION_IO_FDS CMD_GET_IRQ_INFO CMD_SET_IRQS
    CMD_REGION_READ CMD_REGION_WRITE CMD_RESET CMD_FEATURE CMD_MIG_READ] in H.
  destruct (mig_data_read (cx_mig c) (cx_max_xfer c) (or_data o) body) as [r1 ev1]. now injection H as <- _ _ <-.
Qed.
Lemma dispatch_write c o body fds r c' fds' ev : dispatch c o 18 body fds = (r, c', fds', ev) ->
  mig_data_write (cx_mig c) (cx_max_xfer c) (or_data o) body = (r, ev).
Proof.
  intros H. unfold dispatch in H. cbn [N.eqb Pos.eqb CMD_DMA_MAP CMD_DMA_UNMAP CMD_GET_INFO CMD_GET_REGION_INFO CMD_GET_REGION_IO_FDS CMD_GET_IRQ_INFO CMD_SET_IRQS
    CMD_REGION_READ CMD_REGION_WRITE CMD_RESET CMD_FEATURE CMD_MIG_READ CMD_MIG_WRITE] in H.
  destruct (mig_data_write (cx_mig c) (cx_max_xfer c) (or_data o) body) as [r1 ev1]. now injection H as <- _ _ <-.
Qed.

Lemma in_no_reply ev r : Forall no_reply ev -> ~ In (EvReply r) ev.
Proof. intros F H. rewrite Forall_forall in F. exact (F _ H). Qed.

(* Handling a request: what clients find in the reply is what the device hands out. *)
Lemma handled_read st s en m0 o s' ev : step_env st en -> handled s en m0 o s' ev -> (hd_cmd (mg_hdr m0) = 17 -> bytes (mg_body m0)) ->
  (forall size n buf, In (EvReadData size) ev -> data_answered st = Some (DataOk n buf) -> n <= size /\ n <= N.of_nat (length buf)) ->
  (forall size, In (EvReadData size) ev -> exists r, In (EvReply r) ev) -> obt ev = hand st ev.
Proof.
  intros SE [err body fds c1 fds' ev1 o1 s1 ev2 D KP F RC] B HO RE.
  destruct (reply_data _ _ _ _ _ _ _ RC) as (ND2 & RR). destruct (no_data_closes fds') as (NC1 & NC2).
  rewrite !obt_app, !hand_app. rewrite (hand_none st ev2) by exact ND2. rewrite (hand_none st (closes_of fds')), (obt_none (closes_of fds')) by assumption.
  rewrite (obt_none ev1) by (eapply kind_no_reply; eauto). cbn [app]. rewrite !app_nil_r.
  destruct (N.eq_dec (hd_cmd (mg_hdr m0)) 17) as [C|C].
  - specialize (B C). rewrite C in *. apply dispatch_read in D. unfold mig_data_read in D.
    assert (K : body = [] -> ev1 = [] -> obt ev2 = hand st ev1).
    { intros -> ->. destruct RR as [-> |N2]; [|now rewrite obt_none]. unfold obt. cbn [flat_map rp_cmd rp_error rp_body]. rewrite chunk_nil. destruct ((17 =? 17) && (err =? 0)); reflexivity. }
    destruct (N.of_nat (length (mg_body m0)) <? 8); [injection D as _ <- _ <-; now apply K|]. needs D; try discriminate D.
    destruct (cx_mig (sv_ctx s)) as [cm|]; [|injection D as _ <- _ <-; now apply K].
    destruct (negb (cm =? ST_PRE_COPY) && negb (cm =? ST_STOP_COPY)); [injection D as _ <- _ <-; now apply K|].
    destruct (cx_max_xfer (sv_ctx s) <? n0); [injection D as _ <- _ <-; now apply K|]. destruct (n <? 8 + n0); [injection D as _ <- _ <-; now apply K|].
    destruct (or_data (en_or en)) as [k buf|e] eqn:DA.
    + injection D as <- <- <- <-. destruct (HO n0 k buf ltac:(now left)) as (L1 & L2); [rewrite (se_data _ _ SE), DA; reflexivity|].
      destruct (RE n0 ltac:(now left)) as (r & RI). destruct RR as [-> |N2].
      * unfold obt, hand. cbn [flat_map rp_cmd rp_error rp_body]. rewrite (se_data _ _ SE), DA, !app_nil_r. change ((17 =? 17) && (0 =? 0)) with true. cbn iota.
        apply chunk_reply; auto. pose proof (rd_small _ _ _ B Rd0). lia.
      * exfalso. rewrite !in_app_iff in RI. destruct RI as [RI|[RI|RI]]; [destruct RI as [RI|[]]; discriminate RI|now apply in_no_reply in RI|now apply in_no_reply in RI].
    + injection D as _ <- _ <-. unfold hand. cbn [flat_map]. rewrite (se_data _ _ SE), DA. cbn [app].
      destruct RR as [-> |N2]; [|now rewrite obt_none]. unfold obt. cbn [flat_map rp_cmd rp_error rp_body]. rewrite chunk_nil. destruct ((17 =? 17) && (err =? 0)); reflexivity.
  - assert (H1 : hand st ev1 = []).
    { assert (G : Forall (fun e => match e with EvReadData _ => False | _ => True end) ev1) by (eapply Forall_impl; [|exact F]; intros e; destruct e; cbn; tauto).
      clear - G. induction G as [|e l Q _ IH]; [reflexivity|]. unfold hand. cbn [flat_map]. fold (hand st l). rewrite IH. destruct e; cbn in Q |- *; tauto. }
    rewrite H1. destruct RR as [-> |N2]; [|now apply obt_none]. unfold obt. cbn [flat_map rp_cmd]. destruct (hd_cmd (mg_hdr m0) =? 17) eqn:Q; [lia|reflexivity].
Qed.

Lemma obt_refused s en h r o s' ev : reply_case s en h r o s' ev -> rp_body r = [] -> obt ev = [].
Proof.
  intros R B. destruct (reply_data _ _ _ _ _ _ _ R) as (_ & [-> |N2]); [|now apply obt_none].
  unfold obt. cbn [flat_map]. rewrite B, chunk_nil. destruct ((rp_cmd r =? 17) && (rp_error r =? 0)); reflexivity.
Qed.

Lemma accepted_bytes s h l body : accepted s h (inr l) body -> bytes l -> bytes body.
Proof.
  intros A B. destruct (accepted_body _ _ _ _ A) as [[-> _]|(l1 & Q & ->)]; [constructor|]. injection Q as <-.
  unfold bytes in *. rewrite Forall_forall in *. intros x Hx. apply B. rewrite <- (firstn_skipn (N.to_nat (hd_size h - 16)) l). apply in_or_app. now left.
Qed.

Lemma step_read s st o s' ev : sinv s -> flow_pend s -> sv_step s st = (o, s', ev) -> (forall c, o <> Crash c) ->
  (forall en, st = SRun en -> delivered en) -> honest (s, st, ev) -> replied (s, st, ev) -> obtained (s, st, ev) = handed_out (s, st, ev).
Proof.
  intros SI FP H NC DL HO RE. pose proof (step_cases _ _ _ _ _ SI H NC) as SC. clear H. unfold obtained, handed_out, honest, replied in *.
  fold (obt ev). fold (hand st ev). destruct SC; try reflexivity.
  - rewrite obt_none, hand_none; [reflexivity| |]; apply Forall_app; split; (apply no_data_quiesce || apply no_data_lost).
  - assert (E0 : obt ev0 = [] /\ hand (SRun en) ev0 = []) by (destruct H1; split; reflexivity). destruct E0 as (E1 & E2).
    rewrite !obt_app, !hand_app, E1, E2. rewrite (obt_refused _ _ _ _ _ _ _ H2 eq_refl), (hand_none _ ev1) by apply (reply_data _ _ _ _ _ _ _ H2).
    rewrite obt_none, hand_none; [reflexivity| |]; apply no_data_closes.
  - assert (E : obt ev = hand (SRun en) ev).
    { eapply (handled_read (SRun en)); [now left|exact H3| | |].
      - intros _. cbn [mg_body]. specialize (DL en eq_refl). unfold delivered in DL. rewrite H0 in DL. destruct rbody as [e|l]; [|eapply accepted_bytes; eauto; apply DL].
        destruct (accepted_body _ _ _ _ H1) as [[-> _]|(l1 & Q & _)]; [constructor|discriminate Q].
      - intros size n buf HI. apply HO. apply in_or_app. now right.
      - intros size HI. destruct (RE size) as (r & RI); [apply in_or_app; now right|]. exists r. apply in_app_or in RI. destruct RI as [RI|RI]; [|exact RI].
        destruct q; [destruct RI as [RI|[]]; discriminate RI|destruct RI]. }
    rewrite obt_app, hand_app, E. destruct q; reflexivity.
  - unfold flow_pend in FP. rewrite H in FP. destruct FP as (_ & F17 & _).
    eapply (handled_read (SQuiesced 0 en)); [right; eauto|exact H1|intros C; contradiction|exact HO|exact RE].
  - rewrite obt_none, hand_none; [reflexivity| |]; apply no_data_lost.
  - destruct (sv_pending s); [reflexivity| |reflexivity]. rewrite obt_none, hand_none; [reflexivity| |]; apply no_data_closes.
  - rewrite obt_none, hand_none; [reflexivity| |]; apply Forall_forall; intros e X; destruct (H e X) as (fd & ->); exact I.
Qed.

(* ---------- writing *)
Lemma giv_kind cmd ev : Forall (kind_ok cmd) ev -> cmd <> 18 -> giv ev = [].
Proof.
  intros F C. assert (G : Forall (fun e => match e with EvWriteData _ => False | _ => True end) ev) by (eapply Forall_impl; [|exact F]; intros e; destruct e; cbn; tauto).
  clear - G. induction G as [|e l Q _ IH]; [reflexivity|]. unfold giv. cbn [flat_map]. fold (giv l). rewrite IH. destruct e; cbn in Q |- *; tauto.
Qed.

Lemma handled_giv s en m0 o s' ev : handled s en m0 o s' ev -> hd_cmd (mg_hdr m0) <> 18 -> giv ev = [].
Proof.
  intros [err body fds c1 fds' ev1 o1 s1 ev2 D KP F RC] C. rewrite !giv_app. rewrite (giv_kind _ _ F C).
  rewrite (giv_none ev2) by apply (reply_data _ _ _ _ _ _ _ RC). now rewrite giv_none by apply no_data_closes.
Qed.

Lemma handled_write s en m0 o s' ev : handled s en m0 o s' ev -> hd_cmd (mg_hdr m0) = 18 -> (exists r, In (EvReply r) ev /\ rp_error r = 0) ->
  giv ev = chunk (mg_body m0).
Proof.
  intros [err body fds c1 fds' ev1 o1 s1 ev2 D KP F RC] C (r & RI & R0).
  destruct (reply_data _ _ _ _ _ _ _ RC) as (ND2 & RR). destruct (no_data_closes fds') as (NC1 & NC2).
  rewrite !giv_app, (giv_none ev2), (giv_none (closes_of fds')), !app_nil_r by assumption.
  assert (E0 : err = 0).
  { rewrite !in_app_iff in RI. destruct RI as [RI|[RI|RI]]; [apply in_no_reply in RI; [destruct RI|eapply kind_no_reply; eauto]| |now apply in_no_reply in RI].
    destruct RR as [-> |N2]; [|now apply in_no_reply in RI]. destruct RI as [RI|[]]. injection RI as <-. exact R0. }
  subst err. rewrite C in *. apply dispatch_write in D. unfold mig_data_write in D.
  destruct (N.of_nat (length (mg_body m0)) <? 8); [discriminate D|]. needs D; try discriminate D.
  destruct (cx_mig (sv_ctx s)) as [cm|]; [|discriminate D]. destruct (negb (cm =? ST_RESUMING)); [discriminate D|].
  destruct (cx_max_xfer (sv_ctx s) <? n0); [discriminate D|]. destruct (n <? 8 + n0); [discriminate D|].
  destruct (N.of_nat (length (mg_body m0)) <? 8 + n0); [discriminate D|]. needs D; [|discriminate D].
  assert (E1 : ev1 = [EvWriteData l]).
  { destruct (or_data (en_or en)) as [k b|e]; [destruct (k =? n0); [|discriminate D]|]; now injection D. }
  subst ev1. unfold giv. cbn [flat_map]. rewrite app_nil_r. unfold chunk. rewrite (word_rd _ _ _ _ Rd0).
  unfold slice in Rd1. destruct (Nat.leb (8 + N.to_nat n0) (length (mg_body m0))); [|discriminate Rd1]. now injection Rd1.
Qed.

Lemma step_write s st o s' ev : sinv s -> flow_pend s -> sv_step s st = (o, s', ev) -> (forall c, o <> Crash c) ->
  (forall en, st = SRun en -> forall h fds e, en_rx en = RxMsg h fds (inl e) -> e <> 0) -> acknowledged (s, st, ev) ->
  given (s, st, ev) = supplied (s, st, ev).
Proof.
  intros SI FP H NC DL AK. pose proof (step_cases _ _ _ _ _ SI H NC) as SC. clear H. unfold given, supplied, acknowledged, arriving in *. fold (giv ev).
  destruct SC.
  - rewrite H. reflexivity.
  - rewrite H. destruct (sv_pending s); [contradiction|reflexivity|reflexivity].
  - rewrite H, H0, H1. reflexivity.
  - destruct H as (R1 & R2 & R3). rewrite R1, R2, R3, H0. reflexivity.
  - destruct H as (R1 & R2 & R3). rewrite R1, R2, R3, H0. reflexivity.
  - destruct H as (R1 & R2 & R3). rewrite R1, R2, R3, H0. apply giv_none. apply Forall_app; split; (apply no_data_quiesce || apply no_data_lost).
  - destruct H as (R1 & R2 & R3). rewrite R1, R2, R3, H0 in *.
    assert (G : giv (ev0 ++ ev1 ++ closes_of fds) = []).
    { rewrite !giv_app. replace (giv ev0) with (@nil N) by (destruct H1; reflexivity).
      rewrite (giv_none ev1) by apply (reply_data _ _ _ _ _ _ _ H2). now rewrite giv_none by apply no_data_closes. }
    rewrite G. destruct (hd_cmd h =? 18) eqn:C18; [|destruct rbody; reflexivity]. exfalso. apply N.eqb_eq in C18.
    assert (X : exists r, In (EvReply r) (ev0 ++ ev1 ++ closes_of fds) /\ rp_error r = 0) by (destruct rbody; apply AK; discriminate).
    destruct X as (r & RI & R0). assert (E0 : e = 0).
    { rewrite !in_app_iff in RI. destruct RI as [RI|[RI|RI]].
      - exfalso. destruct H1; try destruct RI as [RI|[]]; try discriminate RI; destruct RI.
      - destruct (reply_data _ _ _ _ _ _ _ H2) as (_ & [-> |N2]); [|now apply in_no_reply in RI]. destruct RI as [RI|[]]. injection RI as <-. exact R0.
      - now apply in_no_reply in RI; [|apply no_data_closes]. }
    subst e. inversion H1 as [V E|e1 V Q E|b V Q X E|b e1 A N1 Q NE E]; subst; try discriminate.
    + destruct (hd_size h =? 16); [discriminate Q|]. unfold recv_body in Q. destruct rbody as [e|l]; [injection Q as ->; exact (DL en eq_refl _ _ _ H0 eq_refl)|].
      destruct (N.of_nat (length (firstn (N.to_nat (hd_size h - 16)) l)) =? 0); [discriminate Q|].
      destruct (negb (N.of_nat (length (firstn (N.to_nat (hd_size h - 16)) l)) =? hd_size h - 16)); discriminate Q.
    + apply needs_not_data in N1. tauto.
  - destruct H as (R1 & R2 & R3). rewrite R1, R2, R3, H0. apply needs_not_data in H2.
    destruct (hd_cmd h =? 18) eqn:C18; [lia|]. destruct rbody; reflexivity.
  - pose proof H as (R1 & R2 & R3). rewrite R1, R2, R3, H0 in *. rewrite giv_app. replace (giv (if q then [EvQuiesce None] else [])) with (@nil N) by (destruct q; reflexivity).
    cbn [app]. destruct (hd_cmd h =? 18) eqn:C18.
    + apply N.eqb_eq in C18. rewrite (handled_write _ _ _ _ _ _ H3 C18).
      * cbn [mg_body]. destruct (accepted_body _ _ _ _ H1) as [[-> Z]|(l1 & -> & ->)]; [|reflexivity].
        rewrite C18 in Z. discriminate Z.
      * assert (X : exists r, In (EvReply r) ((if q then [EvQuiesce None] else []) ++ ev) /\ rp_error r = 0) by (destruct rbody; apply AK; discriminate).
        destruct X as (r & RI & R0). exists r. split; [|exact R0]. apply in_app_or in RI. destruct RI as [RI|RI]; [|exact RI].
        destruct q; [destruct RI as [RI|[]]; discriminate RI|destruct RI].
    + apply N.eqb_neq in C18. rewrite (handled_giv _ _ _ _ _ _ H3 C18). destruct rbody; reflexivity.
  - reflexivity.
  - unfold flow_pend in FP. rewrite H in FP. destruct FP as (_ & _ & F18). exact (handled_giv _ _ _ _ _ _ H1 F18).
  - apply giv_none, no_data_lost.
  - destruct (sv_pending s); [reflexivity|apply giv_none, no_data_closes|reflexivity].
  - reflexivity.
  - reflexivity.
  - reflexivity.
  - reflexivity.
  - reflexivity.
  - apply giv_none. apply Forall_forall. intros e X. destruct (H e X) as (fd & ->). exact I.
  - reflexivity.
Qed.

Lemma trace_read s t s' : trace s t s' -> sinv s -> flow_pend s -> Forall honest t -> Forall replied t -> all obtained t = all handed_out t.
Proof.
  induction 1 as [s|s st o s1 ev l s2 H NC DL T IH]; intros SI FP HO RE; [reflexivity|].
  inversion HO; inversion RE; subst. pose proof (step_cases _ _ _ _ _ SI H NC) as SC. destruct (step_kept _ _ _ _ _ SI SC) as (_ & SI1).
  unfold all in *. cbn [flat_map]. rewrite (step_read _ _ _ _ _ SI FP H NC); auto.
  - f_equal. apply IH; auto. eapply flow_pend_step; eauto.
  - intros en E. apply (DL en E).
Qed.
Lemma trace_write s t s' : trace s t s' -> sinv s -> flow_pend s -> Forall acknowledged t -> all given t = all supplied t.
Proof.
  induction 1 as [s|s st o s1 ev l s2 H NC DL T IH]; intros SI FP AK; [reflexivity|].
  inversion AK; subst. pose proof (step_cases _ _ _ _ _ SI H NC) as SC. destruct (step_kept _ _ _ _ _ SI SC) as (_ & SI1).
  unfold all in *. cbn [flat_map]. rewrite (step_write _ _ _ _ _ SI FP H NC); auto.
  - f_equal. apply IH; auto. eapply flow_pend_step; eauto.
  - intros en E. apply (DL en E).
Qed.
