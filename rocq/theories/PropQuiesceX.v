(* C24: for every device and every request, which callbacks are made without the device being quiesced. *)
From Coq Require Import NArith ZArith List Bool Lia ZifyBool ZifyNat ZifyN.
From Verif Require Import Base Types Bytes BytesProofs Spec Dma Dirty DmaOps SpecDma DmaProofs Migr Irq SpecIrq IrqProofs PropIrq Pci Handlers
  SpecHandlers HandlersProofs PropHandlers HandlersDma Server SpecServer ServerProofs PropServer PropQuiesce SpecOnly PropOnly.
Import ListNotations.
Open Scope N_scope.
Ltac Zify.zify_post_hook ::= idtac.

Definition is_flr (e : event) : bool := match e with EvReset ResetPciFlr => true | _ => false end.

Lemma calm_but_flr c o cmd body fds r c' fds' ev : cx_quiesce c = true -> needs_quiesce c cmd body = false ->
  dispatch c o cmd body fds = (r, c', fds', ev) -> forall e, In e ev -> disruptive e ->
  is_flr e = true /\ cmd = 10 /\ exists off count, rd body 0 8 = Some off /\ rd body 8 4 = Some 7 /\ rd body 12 4 = Some count /\
    devctl_in (cx_pci c) off count /\ (forall x, pc_exp_off (cx_pci c) = Some x -> off <> x + 8).
Proof.
  intros Q Nq D e J Di. destruct (dispatch_shape _ _ _ _ _ _ _ _ _ D) as (_ & F & _). rewrite Forall_forall in F. specialize (F e J).
  unfold needs_quiesce in Nq. rewrite Q in Nq. cbn [negb] in Nq.
  assert (DMA : (cmd =? CMD_DMA_MAP) || (cmd =? CMD_DMA_UNMAP) = true -> False).
  { intros E. rewrite E in Nq. destruct (cx_dma c) as [d|] eqn:Dm; [discriminate Nq|]. unfold dispatch in D. rewrite Dm in D. apply orb_true_iff in E. destruct E as [E|E]; rewrite E in D.
    - injection D as <- <- <- <-. destruct J.
    - destruct (cmd =? CMD_DMA_MAP); injection D as <- <- <- <-; destruct J. }
  destruct e as [| | | | |rr|st| | | | | | |]; cbn in Di; try (destruct Di); cbn in F.
  - subst cmd. now destruct (DMA eq_refl).
  - subst cmd. now destruct (DMA eq_refl).
  - destruct rr; [subst cmd; discriminate Nq|destruct F|]. subst cmd. split; [reflexivity|]. split; [reflexivity|].
    change (dispatch c o 10 body fds) with (let '(r, c', ev) := handle_region_access c o true body in (r, c', fds, ev)) in D.
    destruct (handle_region_access c o true body) as [[r1 c1] ev1] eqn:A. injection D as <- <- <- <-.
    destruct (access_flr _ _ _ _ _ _ _ _ A J) as (_ & off & count & R1 & R2 & R3 & L & DV).
    exists off, count. repeat (split; [assumption|]). intros x X8 Eo.
    cbn - [rd] in Nq. assert (L16 : N.of_nat (length body) <? 16 = false) by lia. rewrite L16, R1, R2 in Nq. cbn [need] in Nq.
    unfold access_is_pci_cap_exp in Nq. rewrite X8 in Nq. change (7 =? CFG_REGION) with true in Nq. cbn [andb] in Nq. lia.
  - subst cmd. change (dispatch c o 16 body fds) with (let '(r, c', ev) := handle_device_feature c o body in (r, c', fds, ev)) in D.
    destruct (handle_device_feature c o body) as [[r1 c1] ev1] eqn:A. injection D as <- <- <- <-.
    destruct (feature_transition _ _ _ _ _ _ _ A J) as (L & flags & R4 & Fn).
    cbn - [rd] in Nq. assert (L8 : N.of_nat (length body) <? 8 = false) by lia. rewrite L8, R4 in Nq. cbn [need] in Nq. congruence.
Qed.

Lemma along_filter f : (forall e, ~ no_quiesce e -> f e = true) -> forall ev q, quiesced_along q ev -> quiesced_along q (filter f ev).
Proof.
  intros Hf. induction ev as [|e ev IH]; intros q H; [exact I|]. cbn [filter].
  destruct e; cbn [quiesced_along] in H;
    try (destruct H as [H1 H2]; destruct (f _); [cbn [quiesced_along]; split; [exact H1|now apply IH]|now apply IH]).
  rewrite Hf by (cbn; tauto). cbn [quiesced_along]. now apply IH.
Qed.
Lemma flr_quiesce e : ~ no_quiesce e -> negb (is_flr e) = true.
Proof. destruct e as [| | | | |[]| | | | | | | |]; cbn; tauto. Qed.

Lemma handled_but_flr s en m o s' ev : cx_quiesce (sv_ctx s) = true -> sv_pending s = PNone ->
  needs_quiesce (sv_ctx s) (hd_cmd (mg_hdr m)) (mg_body m) = false -> handled s en m o s' ev ->
  quiesced_along false ev \/
  (quiesced_along false (filter (fun e => negb (is_flr e)) ev) /\ hd_cmd (mg_hdr m) = 10 /\ In (EvReset ResetPciFlr) ev /\
   exists off count, rd (mg_body m) 0 8 = Some off /\ rd (mg_body m) 8 4 = Some 7 /\ rd (mg_body m) 12 4 = Some count /\
    devctl_in (cx_pci (sv_ctx s)) off count /\ (forall x, pc_exp_off (cx_pci (sv_ctx s)) = Some x -> off <> x + 8)).
Proof.
  intros Qc P Nq [err body fds c1 fds' ev1 o1 s1 ev2 D K F R]. pose proof (kind_no_quiesce _ _ F) as NQ.
  pose proof (calm_but_flr _ _ _ _ _ _ _ _ _ Qc Nq D) as C.
  assert (B : quiesced_along false (ev2 ++ closes_of fds')).
  { eapply reply_along; [exact R| |now left]. destruct (k_setup _ _ K) as (_ & A & _). cbn [sv_ctx set_ctx] in *. congruence. }
  destruct (existsb is_flr ev1) eqn:X.
  - right. apply existsb_exists in X. destruct X as (e & J & E).
    assert (Ee : e = EvReset ResetPciFlr) by (destruct e as [| | | | |[]| | | | | | | |]; try discriminate E; reflexivity). subst e.
    destruct (C _ J I) as (_ & Hc & W). split.
    + rewrite filter_app. apply along_app.
      * rewrite Forall_forall in *. intros x Hx. apply filter_In in Hx. apply NQ. tauto.
      * split.
        -- apply along_calm; [rewrite Forall_forall in *; intros x Hx; apply filter_In in Hx; apply NQ; tauto|].
           intros x Hx Dx. apply filter_In in Hx. destruct Hx as [Hx Fx]. destruct (C x Hx Dx) as (Y & _). rewrite Y in Fx. discriminate Fx.
        -- apply along_filter; [apply flr_quiesce|exact B].
    + split; [exact Hc|]. split; [apply in_or_app; now left|exact W].
  - left. apply along_app; [exact NQ|]. split; [|exact B]. apply along_calm; [exact NQ|]. intros e J De. destruct (C e J De) as (Y & _).
    assert (Z : existsb is_flr ev1 = true) by (apply existsb_exists; eauto). congruence.
Qed.

(* For every device with a quiesce callback and every step: all disruptive callbacks are made while the device is
   quiesced - except, possibly, the reset callback for a function level reset, and that only for a client's write to
   configuration space that covers the device control register (two bytes at 8) of some PCI Express capability without
   starting at that of the one added last. *)
Theorem C24_exact : forall s st o s' ev,
  reachable s -> cx_quiesce (sv_ctx s) = true -> sv_step s st = (o, s', ev) -> (forall c, o <> Crash c) ->
  sv_quiesced s' = false /\
  (quiesced_along (told_quiesced s st) ev \/
   (quiesced_along (told_quiesced s st) (filter (fun e => negb (is_flr e)) ev) /\ In (EvReset ResetPciFlr) ev /\
    exists body off count c, working_on s st 10 body /\ rd body 0 8 = Some off /\ rd body 8 4 = Some 7 /\ rd body 12 4 = Some count /\
      In c (pc_caps (cx_pci (sv_ctx s)) ++ pc_ext_caps (cx_pci (sv_ctx s))) /\ cp_ext c = false /\ cp_id c = PCI_CAP_ID_EXP /\
      off <= cp_off c + 8 /\ cp_off c + 10 <= off + count /\
      (forall x, pc_exp_off (cx_pci (sv_ctx s)) = Some x -> off <> x + 8))).
Proof.
  intros s st o s' ev Rc Qc H NC. pose proof (reachable_sinv _ Rc) as SI. pose proof (step_cases _ _ _ _ _ SI H NC) as SC.
  split; [apply (step_kept _ _ _ _ _ SI SC)|].
  destruct SC; cbn [told_quiesced]; try (left; exact I).
  - left. unfold quiesce_call. rewrite Qc. cbn [app quiesced_along]. apply along_true, lost_no_quiesce.
  - left. destruct H0 as (_ & P & _). assert (A : quiesced_along false (ev1 ++ closes_of fds)) by (eapply reply_along; [eassumption|exact Qc|auto]).
    destruct H2; try exact A; exact A.
  - pose proof H0 as (_ & P & _). fold q. destruct q eqn:Eq.
    + left. cbn [app quiesced_along]. eapply handled_along; [eassumption|exact Qc|auto|auto].
    + cbn [app]. destruct (handled_but_flr (set_quiesced s false) en (mk_msg h body fds) _ _ _ Qc P Eq H4) as [A|(A & Hc & J & off & count & R1 & R2 & R3 & (c & C1 & C2 & C3 & C4 & C5) & X)].
      * left. exact A.
      * right. split; [exact A|]. split; [exact J|]. exists body, off, count, c. cbn [mg_hdr mg_body sv_ctx set_quiesced] in *.
        split; [|auto 12]. rewrite <- Hc. rewrite (PropOnly.accepted_body _ _ _ _ H2). now apply wo_received with (fds := fds).
  - left. rewrite H0. eapply handled_along; [eassumption|exact Qc|auto|auto].
  - left. rewrite H0. apply along_true, lost_no_quiesce.
  - left. destruct e; [congruence|]. destruct (sv_pending s); [exact I|apply along_closes|exact I].
  - left. apply along_calm; [apply Forall_forall|]; intros e J; destruct (H0 e J) as (fd & ->); cbn; auto.
Qed.
Print Assumptions C24_exact.

(* Both alternatives occur: a write that starts at the device control register has the device quiesced first, and one
   that starts in the capability before it does not. *)
Example C24_exact_cases :
  (let s := exp_ready [vendor_cap; exp_cap] in
   reachable s /\ cx_quiesce (sv_ctx s) = true /\
   firstn 2 (snd (sv_step s (SRun (cfg_write_env 88 [0; 128])))) = [EvQuiesce None; EvReset ResetPciFlr] /\
   existsb is_flr (snd (sv_step s (SRun (cfg_write_env 72 (zeros 8 ++ [16; 0; 2; 0; 0; 0; 0; 16; 0; 128]))))) = true /\
   filter (fun e => match e with EvQuiesce _ => true | _ => false end) (snd (sv_step s (SRun (cfg_write_env 72 (zeros 8 ++ [16; 0; 2; 0; 0; 0; 0; 16; 0; 128]))))) = []).
Proof. cbv zeta. split; [apply exp_reachable|]. repeat split; vm_compute; reflexivity. Qed.
