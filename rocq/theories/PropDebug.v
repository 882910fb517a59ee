(* C64: a device may use guest memory in its callbacks and between calls. *)
From Coq Require Import NArith ZArith List Bool Lia ZifyBool ZifyNat ZifyN.
From Verif Require Import Base Types Bytes BytesProofs Spec Dma Dirty DmaOps SpecDma DmaProofs Migr Irq SpecIrq IrqProofs PropIrq Pci Handlers
  SpecHandlers HandlersProofs PropHandlers HandlersDma Server SpecServer ServerProofs PropServer PropQuiesce Debug.
Import ListNotations.
Open Scope N_scope.
Ltac Zify.zify_post_hook ::= idtac.

(* ---------- vocabulary *)

(* The calls of functions the device provides. *)
Definition is_callback (e : event) : bool :=
  match e with
  | EvRegister _ | EvUnregister _ | EvReset _ | EvQuiesce _ | EvTransition _ | EvReadData _ | EvWriteData _ | EvAccess _ _ _ _ _ | EvIrqState _ _ _ _ => true
  | _ => false
  end.

(* The request that a step hands to the code that carries it out: the one received, or the one that waited for the device to
   be quiesced. *)
Definition handles (s : server) (st : step) (m : msg) : Prop :=
  match st with
  | SRun en => serving s /\ exists h fds l, en_rx en = RxMsg h fds l /\ accepted s h l (mg_body m) /\ m = mk_msg h (mg_body m) fds /\
                 (needs_quiesce (sv_ctx s) (hd_cmd h) (mg_body m) = true -> en_quiesce en = None)
  | SQuiesced e _ => e = 0 /\ sv_pending s = PMsg m
  | _ => False
  end.

(* A write to configuration space (region 7) that starts at the device control register of the PCI Express capability, or at
   offset 7 if the device has none. *)
Definition devctl_write (c : ctx) (m : msg) : Prop :=
  hd_cmd (mg_hdr m) = 10 /\ (16 <= length (mg_body m))%nat /\ rd (mg_body m) 8 4 = Some 7 /\
  rd (mg_body m) 0 8 = Some (match pc_exp_off (cx_pci c) with Some o => o + 8 | None => 7 end).

(* ---------- the tagged events are the events *)

Lemma tag_snd q ev : map snd (tag q ev) = ev.
Proof. unfold tag. rewrite map_map. cbn. apply map_id. Qed.

Lemma handle_tagged_snd s en m : map snd (handle_tagged s en m) =
  let '(o, _, fds', ev) := handle_request s en m in match o with Crash _ => ev | _ => ev ++ free_msg fds' end.
Proof. unfold handle_tagged. destruct (handle_request s en m) as [[[o s'] f] ev]. apply tag_snd. Qed.

Theorem C64_events : forall s st, map snd (step_tagged s st) = snd (sv_step s st).
Proof.
  intros s st. destruct st as [en|errno en|max|l|h|v ans|poff pdata]; try apply tag_snd.
  - cbn [step_tagged sv_step]. destruct (negb (sv_realized s)); [reflexivity|]. destruct (sv_pending s); try reflexivity.
    unfold run_tagged, run_iter. destruct (get_request s en) as [[g s1] ev1]. destruct g as [m|e|cr]; try apply tag_snd.
    rewrite map_app, tag_snd, handle_tagged_snd. destruct (handle_request s1 en m) as [[[o s2] f] ev2]. destruct o; reflexivity.
  - cbn [step_tagged sv_step]. unfold device_quiesced. destruct (negb (cx_quiesce (sv_ctx s))); [reflexivity|]. destruct (sv_pending s) as [|m|]; [reflexivity|..].
    + destruct (errno =? 0).
      * rewrite handle_tagged_snd. destruct (handle_request (set_quiesced s true) en m) as [[[o s2] f] ev2]. destruct o; reflexivity.
      * apply tag_snd.
    + destruct (errno =? 0); [|reflexivity]. destruct (reset_ctx_quiesced (set_quiesced s true) (en_lost en)) as [[o s2] ev]. rewrite tag_snd. destruct o; reflexivity.
Qed.
Print Assumptions C64_events.

(* ---------- the events of losing the connection and of replying *)

Definition quiet (e : event) : Prop := is_callback e = true -> in_cb e = true.

Lemma lost_quiet s : Forall quiet (lost_events s).
Proof. apply Forall_forall. intros e I. apply lost_in in I. unfold quiet. destruct e; cbn; intros A; try reflexivity; try discriminate A; destruct I. Qed.

Lemma reset_quiet s q lost o s' ev : cinv (sv_ctx s) -> reset_ctx s q lost = (o, s', ev) -> Forall quiet ev.
Proof.
  intros I H. destruct (reset_ctx_spec s q lost I) as [(e & _ & _ & _ & R)|(s1 & _ & R & _)]; rewrite R in H; injection H as <- <- <-.
  - constructor; [intros _; reflexivity|constructor].
  - apply Forall_app. split; [|apply lost_quiet]. destruct (sv_pending s); [unfold quiesce_call; destruct (cx_quiesce (sv_ctx s)); constructor; [intros _; reflexivity|constructor]|constructor..].
Qed.

Lemma reply_quiet s en h err body fds o s' ev : cinv (sv_ctx s) -> do_reply s en h err body fds = (o, s', ev) -> Forall quiet ev.
Proof.
  intros I H. unfold do_reply in H. destruct (has (hd_flags h) F_NO_REPLY); [injection H as <- <- <-; constructor|].
  destruct (en_send en) as [e|].
  - destruct ((e =? ECONNRESET) || (e =? ENOMSG)); [eapply reset_quiet; eassumption|injection H as <- <- <-; constructor].
  - injection H as <- <- <-. constructor; [discriminate|constructor].
Qed.

Lemma free_quiet l : Forall quiet (free_msg l).
Proof.
  unfold free_msg. rewrite close_all_spec. apply Forall_forall. intros e I. unfold closes_of in I. apply in_map_iff in I.
  destruct I as (f & <- & _). discriminate.
Qed.

(* ---------- a request that waits is one for which the device is quiesced *)

Lemma needs_kept s s' cmd body : kept s s' -> needs_quiesce (sv_ctx s') cmd body = needs_quiesce (sv_ctx s) cmd body.
Proof.
  intros [_ S _ [_ X]]. unfold needs_quiesce. destruct S as (_ & -> & _ & _ & _ & _ & _ & D & _).
  assert (E : match cx_dma (sv_ctx s') with Some _ => true | None => false end = match cx_dma (sv_ctx s) with Some _ => true | None => false end).
  { destruct (cx_dma (sv_ctx s')) as [d|]; destruct (cx_dma (sv_ctx s)) as [d0|]; try reflexivity; [destruct D as [D _]|destruct D as [_ D]]; specialize (D eq_refl); discriminate D. }
  rewrite E. unfold access_is_pci_cap_exp. rewrite X. reflexivity.
Qed.

Definition pend_ok (s : server) : Prop := forall m, sv_pending s = PMsg m -> needs_quiesce (sv_ctx s) (hd_cmd (mg_hdr m)) (mg_body m) = true.

Lemma step_pend s st o s' ev : sinv s -> pend_ok s -> step_case s st o s' ev -> pend_ok s'.
Proof.
  intros SI PO H. destruct (step_kept _ _ _ _ _ SI H) as [K _]. intros m E. rewrite (needs_kept _ _ _ _ K).
  assert (KEEP : sv_pending s' = sv_pending s -> needs_quiesce (sv_ctx s) (hd_cmd (mg_hdr m)) (mg_body m) = true) by (intros X; apply PO; congruence).
  assert (NONE : sv_pending s = PNone -> sv_pending s' = sv_pending s \/ (sv_pending s = PNone /\ sv_pending s' = PReset /\ cx_quiesce (sv_ctx s) = true) ->
    needs_quiesce (sv_ctx s) (hd_cmd (mg_hdr m)) (mg_body m) = true) by (intros X [Y|(_ & Y & _)]; congruence).
  destruct H; try (apply KEEP; reflexivity); try discriminate E.
  - destruct (e' =? EBUSY); [discriminate E|now apply KEEP].
  - apply KEEP. destruct H3 as (_ & _ & _ & _ & P & _). exact P.
  - destruct (reply_replies _ _ _ _ _ _ _ H2 eq_refl eq_refl) as (_ & _ & _ & P). apply NONE; [apply H|exact P].
  - injection E as <-. exact H2.
  - destruct (handled_kept _ _ _ _ _ _ H3) as (_ & _ & _ & P). apply NONE; [apply H|]. cbn [set_quiesced sv_pending sv_ctx] in *. exact P.
  - apply KEEP. unfold dev_hint. destruct (cx_dma (sv_ctx s)); reflexivity.
Qed.

Lemma reachable_pend s : reachable s -> pend_ok s.
Proof.
  intros (s0 & l & arr & ev & F & H). assert (P0 : pend_ok s0) by (intros m E; destruct F as (_ & P & _); congruence).
  pose proof (fresh_sinv _ F) as SI. clear F. induction H as [s|s st o s1 ev1 l s2 arr ev2 H NC T IH]; [exact P0|].
  pose proof (step_cases _ _ _ _ _ SI H NC) as SC. apply IH; [exact (step_pend _ _ _ _ _ SI P0 SC)|exact (proj2 (step_kept _ _ _ _ _ SI SC))].
Qed.

(* ---------- the callbacks of a request *)

(* The check lets the device use guest memory unless it is quiesced outside the callbacks that are marked. *)
Lemma not_allowed incb hq q : check_allowed incb hq q = false <-> incb = false /\ hq = true /\ q = true.
Proof. unfold check_allowed. destruct incb, hq, q; cbn; intuition discriminate. Qed.

Lemma in_tag q ev x e : In (x, e) (tag q ev) -> x = q /\ In e ev.
Proof. unfold tag. intros I. apply in_map_iff in I. destruct I as (e0 & E & I). injection E as <- <-. auto. Qed.

Lemma access_region c o body r c' ev rg w off n dt : handle_region_access c o true body = (r, c', ev) -> In (EvAccess rg w off n dt) ev ->
  w = true /\ rd body 8 4 = Some rg.
Proof.
  intros H I. unfold handle_region_access in H.
  assert (K : forall r0, (r0, c, @nil event) = (r, c', ev) -> False) by (intros r0 Q; injection Q as <- <- <-; destruct I).
  destruct (N.of_nat (length body) <? 16); [destruct (K _ H)|]. needs H; try (destruct (K _ H)).
  destruct (negb (valid_region_access c (N.of_nat (length body)) true n0 n1 n2)); [destruct (K _ H)|].
  destruct (n2 =? 0); [destruct (K _ H)|].
  destruct (region_access c o n1 true n0 n2 (skipn 16 body)) as [[[res buf] c1] ev1] eqn:Q.
  assert (Ev : ev = ev1) by (destruct res as [k|e|cr]; [destruct (k =? n2)| |]; injection H as _ _ <-; reflexivity). subst ev1.
  unfold region_access in Q. destruct (nth_error (cx_regs c) (N.to_nat n1)) as [g|]; [|injection Q as <- <- <- <-; destruct I].
  destruct ((n1 =? CFG_REGION) && negb (has (ri_flags g) REGION_FLAG_ALWAYS_CB)) eqn:CF.
  - destruct (config_write (env_of c) (cx_pci c) (or_access o) (or_reset o) n0 (skipn 16 body)) as [[o1 p1] ev1] eqn:Cw. injection Q as <- <- <- <-.
    unfold config_write in Cw. apply cfg_write_parts in Cw. rewrite Forall_forall in Cw. specialize (Cw _ I). cbn in Cw.
    change CFG_REGION with 7 in CF. assert (n1 = 7) by lia. subst n1. intuition congruence.
  - destruct (negb (ri_cb g)); [injection Q as <- <- <- <-; destruct I|].
    destruct (or_access o 0%nat n0 n2); injection Q as <- <- <- <-; destruct I as [I|[]]; injection I as <- <- _ _ _; auto.
Qed.

(* What a request that needs the device to be quiesced calls back with no mark. *)
Lemma unmarked_callback c o m r c' f ev e : needs_quiesce c (hd_cmd (mg_hdr m)) (mg_body m) = true ->
  dispatch c o (hd_cmd (mg_hdr m)) (mg_body m) (mg_fds m) = (r, c', f, ev) -> In e ev -> is_callback e = true -> in_cb e = false ->
  devctl_write c m /\ exists off n data, e = EvAccess 7 true off n data.
Proof.
  intros Nq D J C U. destruct (dispatch_shape _ _ _ _ _ _ _ _ _ D) as (_ & F & _). rewrite Forall_forall in F. specialize (F e J).
  destruct m as [h body fds]. cbn [mg_hdr mg_body mg_fds] in *. set (cmd := hd_cmd h) in *. unfold needs_quiesce in Nq. destruct (cx_quiesce c); [|discriminate Nq]. cbn [negb] in Nq.
  destruct e as [| | | | | | |sz|dt|rg w off n dt|ix st ct mk| | |]; try discriminate C; try discriminate U; cbn [kind_ok] in F.
  - rewrite F in Nq. discriminate Nq.
  - rewrite F in Nq. discriminate Nq.
  - destruct F as [F|F]; [rewrite F in Nq; discriminate Nq|].
    rewrite F in Nq. cbn - [rd need] in Nq. destruct (N.of_nat (length body) <? 16) eqn:L; [discriminate Nq|].
    destruct (rd body 0 8) as [o0|] eqn:R0; [|discriminate Nq]. destruct (rd body 8 4) as [rg0|] eqn:R8; [|discriminate Nq]. cbn [need] in Nq.
    unfold access_is_pci_cap_exp in Nq. change CFG_REGION with 7 in Nq. apply andb_true_iff in Nq. destruct Nq as [N1 N2]. apply N.eqb_eq in N1, N2.
    split; [unfold devctl_write; cbn [mg_hdr mg_body]; fold cmd; split; [exact F|]; split; [lia|]; split; congruence|].
    rewrite F in D. change (dispatch c o 10 body fds) with (let '(r, c', ev) := handle_region_access c o true body in (r, c', fds, ev)) in D.
    destruct (handle_region_access c o true body) as [[r1 c1] ev1] eqn:A. injection D as <- <- <- <-.
    destruct (access_region _ _ _ _ _ _ _ _ _ _ _ A J) as [-> R]. exists off, n, dt. f_equal. congruence.
  - rewrite F in Nq. discriminate Nq.
Qed.

Lemma handle_unmarked s en m x e : cinv (sv_ctx s) -> In (x, e) (handle_tagged s en m) -> is_callback e = true -> in_cb e = false ->
  x = sv_quiesced s /\ exists r c' f ev, dispatch (sv_ctx s) (en_or en) (hd_cmd (mg_hdr m)) (mg_body m) (mg_fds m) = (r, c', f, ev) /\ In e ev.
Proof.
  intros Ci J C U. unfold handle_tagged in J. destruct (handle_request s en m) as [[[o s1] f] ev] eqn:H. apply in_tag in J. destruct J as [-> J]. split; [reflexivity|].
  unfold handle_request in H. destruct (dispatch (sv_ctx s) (en_or en) (hd_cmd (mg_hdr m)) (mg_body m) (mg_fds m)) as [[[r c1] f1] ev1] eqn:D.
  exists r, c1, f1, ev1. split; [reflexivity|].
  assert (NQ : forall l, Forall quiet l -> ~ In e l) by (intros l F I; rewrite Forall_forall in F; specialize (F e I C); congruence).
  assert (J2 : In e ev) by (destruct o; [apply in_app_or in J; destruct J as [J|J]; [exact J|destruct (NQ _ (free_quiet _) J)]..|exact J]). clear J.
  destruct r as [err b fs|cr]; [|injection H as <- <- <- <-; exact J2].
  destruct (do_reply (set_ctx s c1) en (mg_hdr m) err b fs) as [[o2 s2] ev2] eqn:R. injection H as <- <- <- <-.
  apply in_app_or in J2. destruct J2 as [J2|J2]; [exact J2|]. exfalso. revert J2. apply NQ.
  eapply reply_quiet; [|exact R]. cbn [set_ctx sv_ctx]. exact (dispatch_cinv _ _ _ _ _ _ _ _ _ Ci D Logic.I).
Qed.

(* Receiving a request: callbacks that are marked, and the message that is then handled. *)
Lemma get_unmarked s en g s1 ev1 : cinv (sv_ctx s) -> sv_realized s = true -> sv_pending s = PNone -> get_request s en = (g, s1, ev1) ->
  Forall quiet ev1 /\ forall m, g = GotMsg m -> handles s (SRun en) m /\
    s1 = (if needs_quiesce (sv_ctx s) (hd_cmd (mg_hdr m)) (mg_body m) then set_quiesced s true else s).
Proof.
  intros Ci Re Pe H. destruct (sv_conn s) eqn:Co.
  2:{ unfold get_request in H. rewrite Co in H. injection H as <- <- <-. split; [constructor|discriminate]. }
  destruct (en_rx en) as [e|h fds rb] eqn:X.
  - unfold get_request in H. rewrite Co, X in H. cbn [negb] in H. destruct ((e =? ENOMSG) || (e =? ECONNRESET)).
    + destruct (reset_ctx s (en_quiesce_reset en) (en_lost en)) as [[o s2] ev2] eqn:R. injection H as <- <- <-. split; [eapply reset_quiet; eassumption|].
      intros m Q. destruct o; discriminate Q.
    + injection H as <- <- <-. split; [constructor|discriminate].
  - pose proof (get_request_msg _ _ _ _ _ _ _ _ Ci Co X H) as RC.
    assert (SE : serving s) by (unfold serving; auto).
    assert (RQ : forall r o s' ev, reply_case s en h r o s' ev -> Forall quiet ev).
    { intros r o s' ev [W|W S|e1 W S E|e1 e' W S E Q P Qr|e1 s2 W S E Q P]; try constructor; try (intros; discriminate); try (intros _; reflexivity); try constructor.
      apply Forall_app. split; [|apply lost_quiet]. rewrite Pe. unfold quiesce_call. destruct (cx_quiesce (sv_ctx s)); constructor; [intros _; reflexivity|constructor]. }
    destruct RC as [e o s' ev0 ev2 Rw R|body A Nq Q|body A Nq Q|body A Nq].
    + split; [|intros m E; destruct o; discriminate E]. apply Forall_app. split; [destruct Rw; repeat constructor|]. apply Forall_app. split; [exact (RQ _ _ _ _ R)|apply free_quiet].
    + split; [repeat constructor|discriminate].
    + split; [repeat constructor|]. intros m E. injection E as <-. cbn [mg_hdr mg_body]. rewrite Nq. split; [|reflexivity].
      split; [exact SE|]. exists h, fds, rb. cbn [mg_body]. auto.
    + split; [constructor|]. intros m E. injection E as <-. cbn [mg_hdr mg_body]. rewrite Nq. split; [|reflexivity].
      split; [exact SE|]. exists h, fds, rb. cbn [mg_body]. repeat (split; [first [reflexivity|assumption]|]). congruence.
Qed.

Lemma devctl_needs c m : cx_quiesce c = true -> devctl_write c m -> needs_quiesce c (hd_cmd (mg_hdr m)) (mg_body m) = true.
Proof.
  intros Q (C & L & R8 & R0). unfold needs_quiesce. rewrite Q, C. cbn - [rd need]. assert (E : N.of_nat (length (mg_body m)) <? 16 = false) by lia.
  rewrite E, R0, R8. cbn [need]. unfold access_is_pci_cap_exp. change (7 =? CFG_REGION) with true. cbn [andb]. apply N.eqb_refl.
Qed.

Lemma handles_one s st m m' : handles s st m -> handles s st m' -> m = m'.
Proof.
  destruct st; cbn [handles]; try contradiction.
  - intros (_ & h & fds & l & X & [b _ B _] & -> & _) (_ & h' & fds' & l' & X' & [b' _ B' _] & -> & _).
    rewrite X in X'. injection X' as <- <- <-. rewrite B in B'. injection B' as <-. reflexivity.
  - intros [_ P] [_ P']. congruence.
Qed.

(* ---------- the theorems *)

(* Between the calls of vfu_run_ctx and vfu_device_quiesced, also while the device is quiescing, the device may use guest
   memory: no call is aborted. *)
Theorem C64_between_calls : forall s call, reachable s -> debug_entry (sv_ctx s) (sv_quiesced s) false call <> Aborts.
Proof.
  intros s call R. destruct (reachable_sinv _ R) as (_ & Q & _). rewrite Q. unfold debug_entry, check_allowed. rewrite orb_true_r.
  destruct call; [destruct (cx_dma (sv_ctx s))|destruct (_ || _)|destruct (negb _)|destruct (negb _)]; discriminate.
Qed.
Print Assumptions C64_between_calls.

(* What they do instead: looking addresses up fails without a DMA controller; getting a list fails with flags, or if the device
   is not told when memory goes away, and then marking and putting do nothing; otherwise the call does its work. *)
Theorem C64_between_calls_say : forall s, reachable s ->
  let c := sv_ctx s in
  let says call := debug_entry c (sv_quiesced s) false call in
  (cx_dma c = None -> says AddrToSgl = Returns (Err 22)) /\ (cx_dma c <> None -> says AddrToSgl = GoesOn) /\
  (forall flags, cx_unregister c = false \/ flags <> 0 -> says (SglGet flags) = Returns (Err 22)) /\ (cx_unregister c = true -> says (SglGet 0) = GoesOn) /\
  (forall call, call = SglMarkDirty \/ call = SglPut -> says call = if cx_unregister c then GoesOn else Returns (Ok tt)).
Proof.
  intros s R. cbv zeta. destruct (reachable_sinv _ R) as (_ & Q & _). rewrite Q. unfold debug_entry, check_allowed. rewrite orb_true_r.
  split; [now intros ->|]. split; [destruct (cx_dma (sv_ctx s)); [reflexivity|intros X; now destruct X]|].
  split; [intros fl [-> |X]; [reflexivity|]; replace (fl =? 0) with false by (symmetry; now apply N.eqb_neq); now rewrite orb_true_r|].
  split; [now intros -> |]. intros call [-> | ->]; destruct (cx_unregister (sv_ctx s)); reflexivity.
Qed.
Print Assumptions C64_between_calls_say.

(* In a callback (q tells whether the device is quiesced then), a call is aborted exactly if it is the callback for
   configuration space, called for a write that starts at the device control register of the PCI Express capability: the
   library has the device quiesced before such a write, because it may be a function level reset, and does not take into
   account that it may call the device for it. *)
Theorem C64_callbacks_exact : forall s st q e, reachable s -> In (q, e) (step_tagged s st) -> is_callback e = true ->
  ((exists call, debug_entry (sv_ctx s) q (in_cb e) call = Aborts) <->
   (cx_dma (sv_ctx s) <> None \/ cx_unregister (sv_ctx s) = true) /\ cx_quiesce (sv_ctx s) = true /\
   exists m off n data, handles s st m /\ devctl_write (sv_ctx s) m /\ e = EvAccess 7 true off n data).
Proof.
  intros s st q e Rc J C. pose proof (reachable_sinv _ Rc) as (Ci & Q0 & PQ). pose proof (reachable_pend _ Rc) as PO. set (c := sv_ctx s) in *.
  assert (EN : (exists call, debug_entry c q (in_cb e) call = Aborts) <->
    (cx_dma c <> None \/ cx_unregister c = true) /\ in_cb e = false /\ cx_quiesce c = true /\ q = true).
  { rewrite <- not_allowed. unfold debug_entry. destruct (check_allowed (in_cb e) (cx_quiesce c) q).
    - split; [|intros (_ & X); discriminate X]. intros (call & X). exfalso.
      destruct call; [destruct (cx_dma c)|destruct (_ || _)|destruct (negb _)|destruct (negb _)]; discriminate X.
    - split.
      + intros (call & X). split; [|reflexivity]. destruct call.
        * left. destruct (cx_dma c); [discriminate|discriminate X].
        * right. destruct (cx_unregister c); [reflexivity|discriminate X].
        * right. destruct (cx_unregister c); [reflexivity|discriminate X].
        * right. destruct (cx_unregister c); [reflexivity|discriminate X].
      + intros ([D|U] & _).
        * exists AddrToSgl. destruct (cx_dma c); [reflexivity|now destruct D].
        * exists SglPut. rewrite U. reflexivity. }
  rewrite EN. clear EN.
  assert (IFF : cx_quiesce c = true -> (in_cb e = false /\ q = true <-> exists m off n data, handles s st m /\ devctl_write c m /\ e = EvAccess 7 true off n data));
    [|clear - IFF; split; [intros (A & B & D & E); split; [exact A|]; split; [exact D|]; apply IFF; auto|
       intros (A & B & D); split; [exact A|]; apply IFF in D; [|exact B]; destruct D; auto]].
  intros Qc.
  assert (REST : In (q, e) (tag (sv_quiesced s) (snd (sv_step s st))) -> (forall m, ~ handles s st m) ->
    (in_cb e = false /\ q = true <-> exists m off n data, handles s st m /\ devctl_write c m /\ e = EvAccess 7 true off n data)).
  { intros I NH. apply in_tag in I. destruct I as [-> _]. rewrite Q0. split; [intros [_ X]; discriminate X|intros (m & off & n & data & H & _); destruct (NH m H)]. }
  destruct st as [en|errno en|max|l|h|v ans|poff pdata]; try (apply REST; [exact J|intros m X; exact X]); cbn [step_tagged] in J.
  - destruct (sv_realized s) eqn:Re; cbn [negb] in J; [|destruct J]. destruct (sv_pending s) eqn:Pe; [|destruct J..].
    unfold run_tagged in J. destruct (get_request s en) as [[g s1] ev1] eqn:G. destruct (get_unmarked _ _ _ _ _ Ci Re Pe G) as [F M].
    assert (FIRST : In (q, e) (tag (sv_quiesced s) ev1) -> in_cb e = true /\ q = false).
    { intros I. apply in_tag in I. destruct I as [-> I]. rewrite Forall_forall in F. split; [exact (F e I C)|exact Q0]. }
    assert (DONE : in_cb e = true /\ q = false -> (in_cb e = false /\ q = true <-> exists m off n data, handles s (SRun en) m /\ devctl_write c m /\ e = EvAccess 7 true off n data)).
    { intros [A B]. split; [intros [X _]; congruence|intros (m & off & n & data & _ & _ & ->); discriminate A]. }
    destruct g as [m|er|cr]; [|now apply DONE, FIRST..].
    apply in_app_or in J. destruct J as [J|J]; [now apply DONE, FIRST|]. destruct (M m eq_refl) as [Hm ->]. clear M F FIRST DONE.
    fold c in J. set (nq := needs_quiesce c (hd_cmd (mg_hdr m)) (mg_body m)) in *.
    assert (Cx : sv_ctx (if nq then set_quiesced s true else s) = c) by (destruct nq; reflexivity).
    assert (Qx : sv_quiesced (if nq then set_quiesced s true else s) = nq) by (destruct nq; [reflexivity|exact Q0]).
    assert (Ci2 : cinv (sv_ctx (if nq then set_quiesced s true else s))) by (rewrite Cx; exact Ci).
    split.
    + intros [U ->]. destruct (handle_unmarked _ _ _ _ _ Ci2 J C U) as (X & r & c1 & f & ev & D & I). rewrite Qx in X. rewrite Cx in D.
      destruct (unmarked_callback _ _ _ _ _ _ _ _ (eq_sym X) D I C U) as (W & off & n & data & E). exists m, off, n, data. auto.
    + intros (m' & off & n & data & Hm' & W & E). rewrite (handles_one _ _ _ _ Hm' Hm) in W. assert (U : in_cb e = false) by (rewrite E; reflexivity). split; [exact U|].
      destruct (handle_unmarked _ _ _ _ _ Ci2 J C U) as (X & _). rewrite X, Qx. exact (devctl_needs _ _ Qc W).
  - fold c in J. rewrite Qc in J. cbn [negb] in J. destruct (sv_pending s) as [|m|] eqn:Pe; [destruct J|..].
    + destruct (errno =? 0) eqn:E0.
      * apply N.eqb_eq in E0. subst errno. split.
        -- intros [U ->]. destruct (handle_unmarked (set_quiesced s true) _ _ _ _ Ci J C U) as (_ & r & c1 & f & ev & D & I).
           destruct (unmarked_callback _ _ _ _ _ _ _ _ (PO m Pe) D I C U) as (W & off & n & data & E). exists m, off, n, data. split; [split; [reflexivity|exact Pe]|]. auto.
        -- intros (m' & off & n & data & Hm' & W & E). assert (U : in_cb e = false) by (rewrite E; reflexivity). split; [exact U|].
           exact (proj1 (handle_unmarked (set_quiesced s true) _ _ _ _ Ci J C U)).
      * apply in_tag in J. destruct J as [_ J]. pose proof (free_quiet (mg_fds m)) as F. rewrite Forall_forall in F. pose proof (F e J C) as U.
        split; [intros [X _]; congruence|intros (m' & off & n & data & _ & _ & ->); discriminate U].
    + destruct (errno =? 0) eqn:E0; [|destruct J].
      destruct (reset_quiesced_spec (set_quiesced s true) (en_lost en) Ci) as (s' & R & _). rewrite R in J. apply in_tag in J. destruct J as [_ J].
      pose proof (lost_quiet (set_quiesced s true)) as F. rewrite Forall_forall in F. pose proof (F e J C) as U.
      split; [intros [X _]; congruence|intros (m' & off & n & data & _ & _ & ->); discriminate U].
Qed.
Print Assumptions C64_callbacks_exact.

(* ---------- examples *)

(* A device with a PCI Express capability the device handles itself (flag 2), and a callback for configuration space. *)
Definition cb_pci : pci := snd (add_capability (env_of (ex_sctx true)) false ex_pci 0 CAP_FLAG_CALLBACK exp_cap).
Definition cb_server : server := mk_server (set_pci (ex_sctx true) cb_pci) PNone false false true.
Definition cb_ready : server := fst (sv_run cb_server [SAttach 1048576]).

Lemma cb_reachable : reachable cb_ready.
Proof.
  exists cb_server, [SAttach 1048576], [], []. split.
  - pose proof (ex_fresh true) as F. exact F.
  - unfold cb_ready. cbn [sv_run sv_step cb_server sv_conn fst]. change (@nil (N * N)) with (arrived cb_server (SAttach 1048576) ++ []). change (@nil event) with (@nil event ++ []) at 1.
    eapply h_cons; [reflexivity|discriminate|apply h_nil].
Qed.

(* A client's write to the capability's device control register, at 64 + 8: the library has the device quiesced and then calls
   the device's callback for configuration space, which must not use guest memory.  A write to any other of its registers
   calls the same callback with the device not quiesced. *)
Example C64_case : pc_exp_off cb_pci = Some 64 /\
  firstn 2 (step_tagged cb_ready (SRun (cfg_write_env 72 [0; 0]))) = [(false, EvQuiesce None); (true, EvAccess 7 true 72 2 [0; 0])] /\
  firstn 1 (step_tagged cb_ready (SRun (cfg_write_env 74 [0; 0]))) = [(false, EvAccess 7 true 74 2 [0; 0])] /\
  exists i, firstn 2 (step_tagged cb_ready (SRun (ex_map 3))) = [(false, EvQuiesce None); (true, EvRegister i)].
Proof. split; [vm_compute; reflexivity|]. split; [vm_compute; reflexivity|]. split; [vm_compute; reflexivity|]. eexists. vm_compute. reflexivity. Qed.

Example C64_between_calls_case : reachable cb_ready /\ cx_dma (sv_ctx cb_ready) <> None /\ cx_unregister (sv_ctx cb_ready) = true /\
  debug_entry (sv_ctx cb_ready) (sv_quiesced cb_ready) false (SglGet 1) = Returns (Err 22).
Proof. split; [apply cb_reachable|]. split; [discriminate|]. split; reflexivity. Qed.

(* False: a client cannot make a device abort that uses guest memory only in its callbacks. *)
Theorem C64_callback_aborts_refuted : exists s st e, reachable s /\ In (true, e) (step_tagged s st) /\ is_callback e = true /\
  sv_step s st = (Ok 1, snd (fst (sv_step s st)), snd (sv_step s st)) /\
  forall call, call = AddrToSgl \/ call = SglGet 0 \/ call = SglMarkDirty \/ call = SglPut -> debug_entry (sv_ctx s) true (in_cb e) call = Aborts.
Proof.
  exists cb_ready, (SRun (cfg_write_env 72 [0; 0])), (EvAccess 7 true 72 2 [0; 0]). split; [apply cb_reachable|].
  split; [vm_compute; auto|]. split; [reflexivity|]. split; [vm_compute; reflexivity|]. intros call [-> |[-> |[-> | ->]]]; reflexivity.
Qed.
Print Assumptions C64_callback_aborts_refuted.
