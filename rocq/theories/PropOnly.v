(* Property C69: a request changes only what it is about; one that only asks, and one that is refused, changes nothing. *)
From Coq Require Import NArith ZArith List Bool Lia ZifyBool ZifyNat ZifyN.
From Verif Require Import Base Types Bytes BytesProofs BufProofs Spec Dma Dirty DmaOps SpecDma DmaProofs PropDma Migr Irq SpecIrq Pci Handlers
  SpecHandlers HandlersProofs HandlersDma Server SpecServer ServerProofs PropServer SpecMsg ServerDma PropDmaMsg SpecOnly OnlyProofs.
Import ListNotations.
Open Scope N_scope.
Ltac Zify.zify_post_hook ::= idtac.

Lemma in_replies r ev : In (EvReply r) ev -> replies ev <> [].
Proof. induction ev as [|e ev IH]; [intros []|]. intros [->|I]; [discriminate|]. specialize (IH I). destruct e; cbn [replies]; auto. discriminate. Qed.

Lemma detach_lost s : In EvDetach (lost_events s).
Proof. unfold lost_events. apply in_or_app. right. apply in_or_app. right. apply in_or_app. right. now left. Qed.

Lemma no_reply_lost s : replies (lost_events s) = [].
Proof.
  apply replies_none. intros e I. unfold lost_events in I. apply in_app_or in I. destruct I as [I|I].
  { apply in_concat in I. destruct I as (l & L & I). apply in_map_iff in L. destruct L as (r & <- & _). apply gives_up_in in I. destruct e; tauto. }
  apply in_app_or in I. destruct I as [I|I]; [destruct (cx_reset (sv_ctx s)); [destruct I as [<-|[]]; exact Logic.I|destruct I]|].
  apply in_app_or in I. destruct I as [I|[<-|[]]]; [|exact Logic.I]. apply in_map_iff in I. destruct I as (x & <- & _). exact Logic.I.
Qed.

(* A reply: it keeps the context, unless the connection is lost; what is sent is what was to be sent. *)
Lemma reply_kept s en h r o s' ev : reply_case s en h r o s' ev ->
  (In EvDetach ev \/ (sv_ctx s' = sv_ctx s /\ sv_conn s' = sv_conn s)) /\
  (forall r1, In (EvReply r1) ev -> r1 = r /\ sv_ctx s' = sv_ctx s).
Proof.
  intros H. destruct H.
  - split; [now right|]. intros r1 [].
  - split; [now right|]. intros r1 [E|[]]. injection E as <-. auto.
  - split; [now right|]. intros r1 [].
  - split; [right; destruct (e' =? EBUSY); auto|]. intros r1 [E|[]]. discriminate E.
  - split; [left; apply in_or_app; right; apply detach_lost|]. intros r1 I. apply in_app_or in I. destruct I as [I|I].
    + exfalso. destruct (sv_pending s); [|destruct I..]. unfold quiesce_call in I. destruct (cx_quiesce (sv_ctx s)); [destruct I as [I|[]]; discriminate I|destruct I].
    + apply in_replies in I. now rewrite no_reply_lost in I.
Qed.

Lemma handled_kept s en m o s' ev : cinv (sv_ctx s) -> handled s en m o s' ev ->
  (In EvDetach ev \/ (about (hd_cmd (mg_hdr m)) (sv_ctx s) (sv_ctx s') /\ sv_conn s' = sv_conn s)) /\
  (forall r, In (EvReply r) ev -> rp_error r <> 0 ->
     (~ may_stop_halfway (hd_cmd (mg_hdr m)) (mg_body m) -> same_state (sv_ctx s) (sv_ctx s')) /\
     about (hd_cmd (mg_hdr m)) (sv_ctx s) (sv_ctx s') /\
     guest_memory (sv_ctx s') = guest_memory (sv_ctx s) /\ cx_irqs (sv_ctx s') = cx_irqs (sv_ctx s) /\
     (hd_cmd (mg_hdr m) <> 3 -> cx_dma (sv_ctx s') = cx_dma (sv_ctx s)) /\ (hd_cmd (mg_hdr m) <> 16 -> cx_mig (sv_ctx s') = cx_mig (sv_ctx s))).
Proof.
  intros CI H. destruct H as [err body fds c1 fds' ev1 o s' ev2 D K F R]. destruct (dispatch_about _ _ _ _ _ _ _ _ _ CI D) as (A & B & G).
  destruct (reply_kept _ _ _ _ _ _ _ R) as (R1 & R2). split.
  - destruct R1 as [R1|(R1 & R3)]; [left; apply in_or_app; right; apply in_or_app; now left|]. right. rewrite R1, R3. auto.
  - intros r I NE. apply in_app_or in I. destruct I as [I|I]; [apply in_replies in I; now rewrite (replies_kind _ _ F) in I|].
    apply in_app_or in I. destruct I as [I|I]; [|apply in_replies in I; now rewrite replies_closes in I].
    apply R2 in I. destruct I as (-> & E). rewrite E. cbn [rp_error] in NE. split; [intros NH; eapply B; eauto|]. split; [exact A|]. eapply G; eauto.
Qed.

Lemma quiesce_reply s x : ~ In (EvReply x) (quiesce_call s).
Proof. unfold quiesce_call. destruct (cx_quiesce (sv_ctx s)); [intros [I|[]]; discriminate I|intros []]. Qed.

Lemma accepted_body s h rb body : accepted s h rb body -> body = firstn (N.to_nat (hd_size h - 16)) (match rb with inr b => b | inl _ => [] end).
Proof.
  intros [b _ E _]. destruct (hd_size h =? 16) eqn:S; [injection E as <-; replace (hd_size h - 16) with 0 by lia; reflexivity|].
  unfold recv_body in E. destruct rb as [e|l]; [discriminate E|]. destruct (N.of_nat (length (firstn (N.to_nat (hd_size h - 16)) l)) =? 0); [discriminate E|].
  destruct (negb (N.of_nat (length (firstn (N.to_nat (hd_size h - 16)) l)) =? hd_size h - 16)); [discriminate E|]. now injection E as <-.
Qed.

Lemma refused_no s en h rb e ev r : refused_with s en h rb e ev -> ~ In (EvReply r) ev.
Proof. intros [] I; try destruct I as [I|[]]; try discriminate I; destruct I. Qed.

Lemma step_only s st o s' ev cmd body : sinv s -> sv_step s st = (o, s', ev) -> (forall c, o <> Crash c) -> working_on s st cmd body ->
  (In EvDetach ev \/ (about cmd (sv_ctx s) (sv_ctx s') /\ sv_conn s' = sv_conn s)) /\
  (forall r, In (EvReply r) ev -> rp_error r <> 0 ->
     (~ may_stop_halfway cmd body -> same_state (sv_ctx s) (sv_ctx s')) /\ about cmd (sv_ctx s) (sv_ctx s') /\
     guest_memory (sv_ctx s') = guest_memory (sv_ctx s) /\ cx_irqs (sv_ctx s') = cx_irqs (sv_ctx s) /\
     (cmd <> 3 -> cx_dma (sv_ctx s') = cx_dma (sv_ctx s)) /\ (cmd <> 16 -> cx_mig (sv_ctx s') = cx_mig (sv_ctx s))).
Proof.
  intros SI H NC W. pose proof (step_cases _ _ _ _ _ SI H NC) as C. destruct SI as (CI & _).
  match goal with |- ?G => assert (SAME : sv_ctx s' = sv_ctx s -> sv_conn s' = sv_conn s -> G) end.
  { intros E E2. rewrite E, E2. split; [right; auto using about_refl|]. intros r _ _. auto 8 using about_refl, state_refl. }
  destruct C; try (now apply SAME); try now inversion W.
  - apply SAME; destruct (e' =? EBUSY); reflexivity.
  - inversion W; subst. congruence.
  - destruct (reply_kept _ _ _ _ _ _ _ H3) as (R1 & R2). split.
    + destruct R1 as [R1|(R1 & R3)]; [left; apply in_or_app; right; apply in_or_app; now left|]. right. rewrite R1. auto using about_refl.
    + intros r I NE. apply in_app_or in I. destruct I as [I|I]; [now apply (refused_no _ _ _ _ _ _ _ H2) in I|].
      apply in_app_or in I. destruct I as [I|I]; [|apply in_replies in I; now rewrite replies_closes in I].
      apply R2 in I. destruct I as (_ & E). rewrite E. auto 8 using about_refl, state_refl.
  - inversion W; subst. match goal with X : en_rx en = _, Y : en_rx en = _ |- _ => rewrite X in Y; injection Y as -> -> -> end. apply accepted_body in H2. rewrite <- H2.
    destruct (handled_kept _ _ _ _ _ _ (CI : cinv (sv_ctx (set_quiesced s q))) H4) as (K1 & K2). cbn [mg_hdr mg_body] in K1, K2. split.
    + destruct K1 as [K1|K1]; [left; apply in_or_app; now right|right; exact K1].
    + intros r I. apply in_app_or in I. destruct I as [I|I]; [destruct q; [destruct I as [I|[]]; discriminate I|destruct I]|]. exact (K2 r I).
  - inversion W; subst. match goal with X : sv_pending s = _, Y : sv_pending s = _ |- _ => rewrite X in Y; injection Y as -> end. exact (handled_kept _ _ _ _ _ _ (CI : cinv (sv_ctx (set_quiesced s true))) H2).
  - inversion W; subst. congruence.
Qed.

(* Whatever the device answers: while the library works on a request it changes what that command is about and nothing
   else, and it keeps the connection unless it finds that lost. *)
Theorem C69_frame : forall s st o s' ev cmd body,
  reachable s -> sv_step s st = (o, s', ev) -> (forall c, o <> Crash c) -> working_on s st cmd body -> ~ In EvDetach ev ->
  about cmd (sv_ctx s) (sv_ctx s') /\ sv_conn s' = sv_conn s.
Proof.
  intros s st o s' ev cmd body R H NC W ND. destruct (step_only _ _ _ _ _ _ _ (reachable_sinv _ R) H NC W) as ([X|X] & _); [now destruct ND|exact X].
Qed.
Print Assumptions C69_frame.

(* DEVICE_GET_INFO, DEVICE_GET_REGION_INFO, DEVICE_GET_REGION_IO_FDS, DEVICE_GET_IRQ_INFO, REGION_READ, MIG_DATA_READ,
   MIG_DATA_WRITE and every command the library does not know leave all four parts of the device's state alone. *)
Theorem C69_queries : forall s st o s' ev cmd body,
  reachable s -> sv_step s st = (o, s', ev) -> (forall c, o <> Crash c) -> working_on s st cmd body -> ~ In EvDetach ev ->
  ~ In cmd [2; 3; 8; 10; 13; 16] -> same_state (sv_ctx s) (sv_ctx s').
Proof.
  intros s st o s' ev cmd body R H NC W ND NI. destruct (C69_frame _ _ _ _ _ _ _ R H NC W ND) as ((F & _ & D & I & P & M) & _).
  cbn [In] in NI. unfold same_state. repeat split; try apply F; [apply D|apply I|apply P|apply M]; intros ->; tauto.
Qed.
Print Assumptions C69_queries.

(* A request answered with an error has changed nothing, whatever the reason - unless it is one of the three which the
   specification lists. *)
Theorem C69_refused : forall s st o s' ev cmd body r,
  reachable s -> sv_step s st = (o, s', ev) -> (forall c, o <> Crash c) -> working_on s st cmd body ->
  In (EvReply r) ev -> rp_error r <> 0 -> ~ may_stop_halfway cmd body -> same_state (sv_ctx s) (sv_ctx s').
Proof.
  intros s st o s' ev cmd body r R H NC W I NE NH. destruct (step_only _ _ _ _ _ _ _ (reachable_sinv _ R) H NC W) as (_ & X). destruct (X r I NE) as (Y & _). now apply Y.
Qed.
Print Assumptions C69_refused.

(* And these three change one thing each: the unmap the dirty log but no region, the write configuration space, the change
   of the migration state that state. *)
Theorem C69_refused_halfway : forall s st o s' ev cmd body r,
  reachable s -> sv_step s st = (o, s', ev) -> (forall c, o <> Crash c) -> working_on s st cmd body ->
  In (EvReply r) ev -> rp_error r <> 0 ->
  same_fixed (sv_ctx s) (sv_ctx s') /\ guest_memory (sv_ctx s') = guest_memory (sv_ctx s) /\ cx_irqs (sv_ctx s') = cx_irqs (sv_ctx s) /\
  (cmd <> 3 -> cx_dma (sv_ctx s') = cx_dma (sv_ctx s)) /\ (cmd <> 10 -> cx_pci (sv_ctx s') = cx_pci (sv_ctx s)) /\
  (cmd <> 16 -> cx_mig (sv_ctx s') = cx_mig (sv_ctx s)).
Proof.
  intros s st o s' ev cmd body r R H NC W I NE. destruct (step_only _ _ _ _ _ _ _ (reachable_sinv _ R) H NC W) as (_ & X).
  destruct (X r I NE) as (_ & (F & _ & _ & _ & P & _) & G & Q & D & M). auto 8.
Qed.
Print Assumptions C69_refused_halfway.

(* Of what the device does between requests, looking up guest memory and raising an interrupt change nothing, marking
   pages only the log, and storing in configuration space only the bytes stored to. *)
Theorem C69_device : forall s st o s' ev,
  reachable s -> sv_step s st = (o, s', ev) -> (forall c, o <> Crash c) ->
  match st with
  | SLookup _ | STrigger _ _ => same_state (sv_ctx s) (sv_ctx s') /\ sv_conn s' = sv_conn s
  | SMark _ => same_fixed (sv_ctx s) (sv_ctx s') /\ guest_memory (sv_ctx s') = guest_memory (sv_ctx s) /\ cx_irqs (sv_ctx s') = cx_irqs (sv_ctx s) /\
      cx_pci (sv_ctx s') = cx_pci (sv_ctx s) /\ cx_mig (sv_ctx s') = cx_mig (sv_ctx s) /\ sv_conn s' = sv_conn s
  | SPoke off data => same_state (sv_ctx s) (set_pci (sv_ctx s') (cx_pci (sv_ctx s))) /\ sv_conn s' = sv_conn s /\ sv_pending s' = sv_pending s /\
      cx_pci (sv_ctx s') = set_cfg (cx_pci (sv_ctx s)) (pc_cfg (cx_pci (sv_ctx s'))) /\
      length (pc_cfg (cx_pci (sv_ctx s'))) = length (pc_cfg (cx_pci (sv_ctx s))) /\
      forall x, nth x (pc_cfg (cx_pci (sv_ctx s'))) 0 =
        if (N.to_nat off <=? x)%nat && (x <? N.to_nat off + length data)%nat then nth (x - N.to_nat off) data 0 else nth x (pc_cfg (cx_pci (sv_ctx s))) 0
  | _ => True
  end.
Proof.
  intros s st o s' ev R H NC. pose proof (reachable_sinv _ R) as SI. pose proof (step_cases _ _ _ _ _ SI H NC) as C. destruct SI as (CI & _).
  destruct C; try exact Logic.I; auto 10 using state_refl, fixed_refl.
  - destruct s as [c p q cn rz]. cbn in *. split; [destruct c; unfold same_fixed; cbn; auto 10|]. split; [|destruct c; cbn; auto].
    unfold guest_memory. rewrite H0. destruct c; cbn in *. f_equal. apply infos_of. eapply sgl_mark_dirty_inv; [exact (ci_dma _ CI _ H0)|exact H1].
  - unfold dev_hint. destruct (cx_dma (sv_ctx s)) as [d|] eqn:D; (split; [|reflexivity]); [now apply state_hint|apply state_refl].
  - pose proof (put_slice_length _ _ _ _ H0) as L. destruct s as [c p q cn rz]. cbn [set_ctx sv_ctx sv_conn sv_pending] in *.
    split; [destruct c; unfold same_state, same_fixed; cbn; auto 12|]. split; [reflexivity|]. split; [reflexivity|].
    split; [reflexivity|]. split; [exact L|]. intros x. exact (put_slice_nth _ _ _ _ x H0).
Qed.
Print Assumptions C69_device.

(* A device that refuses the second transition callback of a request, and every access to config space it handles itself. *)
Definition ex_half_or : oracle :=
  mk_oracle ex_os (fun _ => true) [] (fun _ => None) (fun k => match k with O => None | _ => Some EIO end) (fun _ _ _ => AccErr EIO) (DataOk 0 []) (fun _ => None).
Definition ex_half (cmd : N) (body : list N) : env :=
  mk_senv (RxMsg (mk_header 7 cmd (16 + N.of_nat (length body)) 0 0) [] (inr body)) ex_half_or None None None None.
Lemma ex_busy_reachable : reachable (ex_busy true).
Proof.
  destruct (history_run (ex_server true) ex_steps (ex_busy true) (snd (sv_run (ex_server true) ex_steps))) as (arr & H);
    [vm_compute; reflexivity|vm_compute; repeat constructor|]. exists (ex_server true), ex_steps. eexists _, _. split; [apply ex_fresh|exact H].
Qed.

(* Eight bytes written at 0x3c: the device refuses the last four, the client is told so, and the interrupt line register
   has changed. *)
Definition ex_half_write : list N := le_bytes 8 0x3c ++ le_bytes 4 7 ++ le_bytes 4 8 ++ [9; 0; 0; 0; 1; 2; 3; 4].
Theorem C69_half_write_refuted : exists s en s' ev r,
  reachable s /\ working_on s (SRun en) 10 ex_half_write /\ sv_step s (SRun en) = (Ok 1, s', ev) /\ In (EvReply r) ev /\ rp_error r <> 0 /\
  cx_pci (sv_ctx s') <> cx_pci (sv_ctx s).
Proof.
  exists (ex_busy true), (ex_half 10 ex_half_write). eexists _, _, _. split; [exact ex_busy_reachable|].
  split; [exact (wo_received (ex_busy true) (ex_half 10 ex_half_write) _ _ _ eq_refl)|]. split; [vm_compute; reflexivity|]. split; [right; left; reflexivity|].
  split; [discriminate|]. intros X. apply (f_equal (fun p => nth 0x3c (pc_cfg p) 0)) in X. vm_compute in X. discriminate X.
Qed.
Print Assumptions C69_half_write_refuted.

(* From running to resuming the device is stopped first: it refuses to resume, the client is told that the change failed,
   and the device is stopped. *)
Definition ex_half_state : list N := le_bytes 4 16 ++ le_bytes 4 (2 ^ 17 + 2) ++ le_bytes 4 4 ++ le_bytes 4 0.
Theorem C69_half_migration_refuted : exists s en s' ev r,
  reachable s /\ working_on s (SRun en) 16 ex_half_state /\ sv_step s (SRun en) = (Ok 1, s', ev) /\ In (EvReply r) ev /\ rp_error r <> 0 /\
  cx_mig (sv_ctx s) = Some ST_RUNNING /\ cx_mig (sv_ctx s') = Some ST_STOP.
Proof.
  exists (ex_busy true), (ex_half 16 ex_half_state). eexists _, _, _. split; [exact ex_busy_reachable|].
  split; [exact (wo_received (ex_busy true) (ex_half 16 ex_half_state) _ _ _ eq_refl)|]. split; [vm_compute; reflexivity|].
  split; [do 3 right; left; reflexivity|]. split; [discriminate|]. split; vm_compute; reflexivity.
Qed.
Print Assumptions C69_half_migration_refuted.

(* The hypotheses are met: a map that is refused because it overlaps the region that is there, once at once and once after
   the device has quiesced; an unmap, a write to a BAR and a logging start that fail; a query; and a map that is carried out. *)
Definition ex_overlap : list N := le_bytes 4 32 ++ le_bytes 4 3 ++ le_bytes 8 0 ++ le_bytes 8 69632 ++ le_bytes 8 4096.
Definition ex_map_more : list N := le_bytes 4 32 ++ le_bytes 4 3 ++ le_bytes 8 0 ++ le_bytes 8 131072 ++ le_bytes 8 4096.
Definition ex_unmap_none : list N := le_bytes 4 24 ++ le_bytes 4 0 ++ le_bytes 8 4096 ++ le_bytes 8 4096.
Definition ex_bar_write : list N := le_bytes 8 0 ++ le_bytes 4 0 ++ le_bytes 4 4 ++ [1; 2; 3; 4].
Definition refused_at (s : server) (cmd : N) (body : list N) (err : N) : Prop :=
  exists s' ev b, sv_step s (SRun (ex_half cmd body)) = (Ok 1, s', ev) /\ In (EvReply (mk_reply 7 cmd err b [])) ev /\ err <> 0 /\
    working_on s (SRun (ex_half cmd body)) cmd body /\ ~ may_stop_halfway cmd body.
Ltac refuse := eexists _, _, _; split; [vm_compute; reflexivity|]; split; [vm_compute; tauto|]; split; [discriminate|];
  split; [match goal with |- working_on ?s (SRun (ex_half ?c ?b)) _ _ => exact (wo_received s (ex_half c b) _ _ _ eq_refl) end|];
  intros [(X & Y)|[(X & Y)|(X & f & Y & Z)]]; vm_compute in X; vm_compute in Y; try discriminate X; try discriminate Y; injection Y as <-; vm_compute in Z; discriminate Z.
Example C69_case :
  refused_at (ex_busy true) 2 ex_overlap EINVAL /\ refused_at (ex_busy true) 3 ex_unmap_none ENOENT /\ refused_at (ex_busy true) 10 ex_bar_write EIO /\
  (exists s1 s2 ev r, sv_step (ex_busy true) (SRun (mk_senv (en_rx (ex_half 2 ex_overlap)) ex_half_or (Some EBUSY) None None None)) = (Err EBUSY, s1, [EvQuiesce (Some EBUSY)]) /\
     working_on s1 (SQuiesced 0 (ex_half 2 ex_overlap)) 2 ex_overlap /\ sv_step s1 (SQuiesced 0 (ex_half 2 ex_overlap)) = (Ok 0, s2, ev) /\ In (EvReply r) ev /\ rp_error r = EINVAL) /\
  (exists s' ev, sv_step (ex_busy true) (SRun (ex_half 2 ex_map_more)) = (Ok 1, s', ev) /\ guest_memory (sv_ctx s') <> guest_memory (sv_ctx (ex_busy true))).
Proof.
  split; [refuse|]. split; [refuse|]. split; [refuse|]. split.
  - eexists _, _, _, _. split; [vm_compute; reflexivity|]. split; [match goal with |- working_on ?s (SQuiesced 0 ?e) _ _ => exact (wo_waited s e _ 0 eq_refl) end|].
    split; [vm_compute; reflexivity|]. split; [left; reflexivity|reflexivity].
  - eexists _, _. split; [vm_compute; reflexivity|]. vm_compute. discriminate.
Qed.
