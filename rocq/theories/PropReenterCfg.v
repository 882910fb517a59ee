(* Property C72, continued: a device that uses the library from within any callback of a request, those made for
   configuration space among them. *)
From Coq Require Import NArith ZArith List Bool Lia ZifyBool ZifyNat ZifyN.
From Verif Require Import Base Types Bytes Dma Dirty Migr Irq Pci Handlers Server SpecServer ServerProofs PropServer Reenter SpecReenter ReenterProofs ReenterReach PropReenter ReenterCfg ReenterCfgProofs ReenterLost ReenterLostProofs PropReenterLost.
Import ListNotations.
Open Scope N_scope.
Ltac Zify.zify_post_hook ::= idtac.

Lemma sent_reply s en h err body fds j : en_send en = None -> do_reply_in s en h err body fds j = do_reply s en h err body fds.
Proof. intros SN. unfold do_reply_in, do_reply. rewrite SN. reflexivity. Qed.
Lemma sent_refuse s en h fds err j : en_send en = None -> refuse_in s en h fds err j = refuse s en h fds err.
Proof. intros SN. unfold refuse_in, refuse. rewrite (sent_reply _ _ _ _ _ _ _ SN). reflexivity. Qed.
Lemma sent_get s en i j h fds rb : en_send en = None -> en_rx en = RxMsg h fds rb -> get_request_lost s en i j = get_request_in s en i.
Proof.
  intros SN RX. unfold get_request_lost, get_request_in, get_request. rewrite RX. destruct (negb (sv_conn s)); [reflexivity|]. rewrite !(sent_refuse _ _ _ _ _ _ SN).
  destruct (negb (is_valid_header h)); [reflexivity|]. destruct (if hd_size h =? 16 then _ else _); [|rewrite (sent_refuse _ _ _ _ _ _ SN); reflexivity|reflexivity].
  destruct (negb (should_exec _ _)); [reflexivity|]. destruct (needs_quiesce _ _ _); [|reflexivity]. destruct (do_acts s (in_quiesce i)) as [[oa s1] eva].
  destruct oa, (en_quiesce en); rewrite ?(sent_refuse _ _ _ _ _ _ SN); reflexivity.
Qed.
Lemma handle_all s en m i j o s' fds' ev' : en_send en = None -> handle_request_lost s en m i j = (o, s', fds', ev') -> (forall c, o <> Crash c) ->
  (library_access s (hd_cmd (mg_hdr m)) (mg_body m) = true -> no_pokes i) ->
  exists c1 ev l eva, handle_request s en m = (o, set_ctx s c1, fds', ev) /\ acts_ctx c1 l = (Ok tt, sv_ctx s', eva) /\ s' = set_ctx s (sv_ctx s') /\
    interleaved ev eva ev' /\ done_always s (hd_cmd (mg_hdr m)) (mg_body m) i ev l.
Proof.
  intros SN H NC NP. unfold handle_request_lost in H. destruct (dispatch_all _ _ _ _ _ _) as [[[r sa] f1] eva] eqn:D. destruct r as [err body fds|cr]; [|injection H as <- <- <- <-; destruct (NC _ eq_refl)].
  rewrite (sent_reply _ _ _ _ _ _ _ SN) in H. destruct (dispatch_all_done _ _ _ _ _ _ _ _ _ _ D ltac:(discriminate) NP) as (c1 & ev & l & E & (evx & A1 & A2 & A3) & L).
  assert (LO : loses en (mg_hdr m) = false) by (unfold loses; rewrite SN; apply andb_false_r).
  destruct (reply_quiet en (mg_hdr m) err body fds LO) as (o2 & ev3 & _ & F & Q). rewrite Q in H. injection H as <- <- <- <-.
  exists c1, (ev ++ ev3), l, evx. split; [unfold handle_request; rewrite E, Q; reflexivity|]. split; [exact A1|]. split; [exact A2|]. split.
  - rewrite <- (app_nil_r evx). apply il_app; [exact A3|apply il_left_all].
  - unfold done_always, all_acts in *. rewrite filter_app, F, app_nil_r. exact L.
Qed.
Lemma no_cb_always s cmd body i ev : filter callback ev = [] -> done_always s cmd body i ev [].
Proof.
  intros F. unfold done_always. rewrite all_none by exact F.
  destruct (N.eq_dec cmd 3) as [E3|N3]; [|right; auto]. destruct (removes_or_not s body) as [(idx & R)|R]; [left; split; [exact E3|]; exists idx; auto|right; auto].
Qed.

(* A request arrives, and the device marks memory, looks up addresses, triggers interrupts or stores to configuration space
   in the callbacks the request causes; only in those of an access to configuration space that the library carries out it
   stores nothing there itself.  The same events happen, the same value is returned and the same state is reached as when it
   does these things when no callback is active: what it does in the quiesce callback before the request, what it does in
   the other callbacks after it. *)
Theorem C72_request_all : forall s en i j h fds rbody body o s' ev,
  reachable s -> en_rx en = RxMsg h fds rbody -> payload h rbody body -> en_send en = None ->
  (library_access s (hd_cmd h) body = true -> no_pokes i) ->
  step_lost s (SRun en) i j = (o, s', ev) -> (forall c, o <> Crash c) ->
  exists before s0 evb s1 ev1 later evl,
    do_acts s before = (Ok tt, s0, evb) /\ sv_step s0 (SRun en) = (o, s1, ev1) /\ do_acts s1 later = (Ok tt, s', evl) /\
    interleaved ev1 (evb ++ evl) ev /\
    before = (if existsb is_quiesce ev1 then in_quiesce i else []) /\ done_always s0 (hd_cmd h) body i ev1 later.
Proof.
  intros s en i j h fds rbody body o s' ev RE RX PL SN NP H NC.
  assert (ST : sv_step s (SRun en) = (o, s', []) -> ev = [] -> exists before s0 evb s1 ev1 later evl,
    do_acts s before = (Ok tt, s0, evb) /\ sv_step s0 (SRun en) = (o, s1, ev1) /\ do_acts s1 later = (Ok tt, s', evl) /\ interleaved ev1 (evb ++ evl) ev /\
    before = (if existsb is_quiesce ev1 then in_quiesce i else []) /\ done_always s0 (hd_cmd h) body i ev1 later).
  { intros X ->. exists [], s, [], s', [], [], []. split; [reflexivity|]. split; [exact X|]. split; [reflexivity|]. split; [constructor|]. split; [reflexivity|]. now apply no_cb_always. }
  cbn [step_lost] in H. destruct (sv_realized s) eqn:RZ; cbn [negb] in H; [|injection H as <- <- <-; apply ST; [|reflexivity]; cbn [sv_step]; rewrite RZ; reflexivity].
  destruct (sv_pending s) eqn:PN; [|injection H as <- <- <-; apply ST; [|reflexivity]; cbn [sv_step]; rewrite RZ, PN; reflexivity..]. clear ST.
  unfold run_iter_lost in H. rewrite (sent_get _ _ _ _ _ _ _ SN RX) in H. destruct (get_request_in s en i) as [[g s1] ev1] eqn:G.
  assert (NG : forall c, g <> GotCrash c) by (intros c ->; injection H as <- <- <-; exact (NC _ eq_refl)).
  destruct (get_after _ _ _ _ _ _ G NG) as (pre & s0 & eva & evq & A & GR & IL & PR).
  destruct (do_acts_ok _ _ _ _ _ A ltac:(discriminate)) as (_ & _ & S0 & SM).
  assert (RZ0 : sv_realized s0 = true) by (rewrite S0; exact RZ). assert (PN0 : sv_pending s0 = PNone) by (rewrite S0; exact PN).
  destruct (get_facts _ _ _ _ _ _ _ _ _ GR RX SN PL) as (F & GM).
  assert (PRE : pre = if existsb is_quiesce evq then in_quiesce i else []).
  { destruct PR as [(-> & X)|(-> & ->)]; [|reflexivity]. rewrite X; [reflexivity|exact SN|eauto]. }
  destruct g as [m|e|c]; [| |destruct (NG _ eq_refl)].
  - destruct (GM m eq_refl) as (MH & MB & SC & SQ). destruct (handle_request_lost s1 en m i j) as [[[o2 s2] fds'] ev2] eqn:HR.
    assert (N2 : forall c, o2 <> Crash c) by (intros c ->; injection H as <- <- <-; exact (NC _ eq_refl)).
    assert (NP1 : library_access s1 (hd_cmd (mg_hdr m)) (mg_body m) = true -> no_pokes i).
    { intros X. apply NP. rewrite MH, MB in X. unfold library_access in *. rewrite SC in X. rewrite (sm_regs _ _ SM) in X. exact X. }
    destruct (handle_all _ _ _ _ _ _ _ _ _ SN HR N2 NP1) as (c1 & ev3 & l & evl & HQ & A1 & A2 & IL2 & DA).
    exists pre, s0, eva, (set_quiesced (set_ctx s1 c1) false), (evq ++ ev3 ++ free_msg fds'), l, evl. split; [exact A|].
    split; [cbn [sv_step]; rewrite RZ0, PN0; cbn [negb]; unfold run_iter; rewrite GR, HQ; destruct o2; injection H as <- <- <-; try reflexivity; destruct (N2 _ eq_refl)|].
    split.
    { apply (acts_server (set_quiesced s1 false)) in A1. change (set_ctx (set_quiesced s1 false) c1) with (set_quiesced (set_ctx s1 c1) false) in A1. rewrite A1. f_equal. f_equal.
      assert (s' = set_quiesced s2 false) as -> by (destruct o2; injection H as <- <- <-; try reflexivity; destruct (N2 _ eq_refl)). rewrite A2. reflexivity. }
    assert (EV : ev = ev1 ++ ev2 ++ free_msg fds') by (destruct o2; injection H as <- <- <-; try reflexivity; destruct (N2 _ eq_refl)). subst ev.
    split; [apply il_app; [exact IL|]; rewrite <- (app_nil_r evl); apply il_app; [exact IL2|apply il_left_all]|].
    assert (FX : existsb is_quiesce (evq ++ ev3 ++ free_msg fds') = existsb is_quiesce evq).
    { rewrite !existsb_app. unfold free_msg. rewrite closes_no_quiesce. assert (Q3 : existsb is_quiesce ev3 = false); [|rewrite Q3; now rewrite !orb_false_r]. apply (handle_no_quiesce _ _ _ _ _ _ _) in HQ; [exact HQ| |exact SN|exact N2].
      rewrite SC. exact (proj1 (reachable_sinv _ (reach_acts _ _ _ _ RE A))). }
    split; [rewrite FX; exact PRE|]. rewrite <- MH, <- MB. unfold done_always, all_acts in *. rewrite !filter_app, F. unfold free_msg. rewrite closes_no_cb, app_nil_r. cbn [app].
    destruct SQ as [->| ->]; exact DA.
  - injection H as <- <- <-. exists pre, s0, eva, s1, evq, [], []. split; [exact A|]. split; [cbn [sv_step]; rewrite RZ0, PN0; cbn [negb]; unfold run_iter; rewrite GR; reflexivity|].
    split; [reflexivity|]. split; [rewrite app_nil_r; exact IL|]. split; [exact PRE|]. now apply no_cb_always.
Qed.
Print Assumptions C72_request_all.

(* The same for a request that was kept until the device became quiet. *)
Theorem C72_quiesced_all : forall s errno en i j m o s' ev,
  reachable s -> sv_pending s = PMsg m -> en_send en = None -> (library_access s (hd_cmd (mg_hdr m)) (mg_body m) = true -> no_pokes i) ->
  step_lost s (SQuiesced errno en) i j = (o, s', ev) -> (forall c, o <> Crash c) ->
  exists s1 ev1 later evl,
    sv_step s (SQuiesced errno en) = (o, s1, ev1) /\ do_acts s1 later = (Ok tt, s', evl) /\ interleaved ev1 evl ev /\
    if errno =? 0 then done_always s (hd_cmd (mg_hdr m)) (mg_body m) i ev1 later else later = [].
Proof.
  intros s errno en i j m o s' ev RE PM SN NP H NC. destruct (reachable_sinv _ RE) as (_ & _ & PQ). rewrite PM in PQ. specialize (PQ ltac:(discriminate)).
  cbn [step_lost] in H. unfold device_quiesced_lost in H. rewrite PM, PQ in H. destruct (errno =? 0) eqn:E0.
  - destruct (handle_request_lost (set_quiesced s true) en m i j) as [[[o2 s2] fds'] ev2] eqn:HR.
    assert (N2 : forall c, o2 <> Crash c) by (intros c ->; injection H as <- <- <-; exact (NC _ eq_refl)).
    destruct (handle_all _ _ _ _ _ _ _ _ _ SN HR N2 NP) as (c1 & ev3 & l & evl & HQ & A1 & A2 & IL2 & DA).
    exists (set_quiesced (set_pending (set_ctx (set_quiesced s true) c1) PNone) false), (ev3 ++ free_msg fds'), l, evl.
    assert (X : s' = set_quiesced (set_pending s2 PNone) false /\ ev = ev2 ++ free_msg fds' /\ o = match o2 with Ok _ => Ok 0 | Err e => Err e | Crash cr => Crash cr end)
      by (destruct o2; injection H as <- <- <-; try (split; [reflexivity|split; reflexivity]); destruct (N2 _ eq_refl)).
    destruct X as (-> & -> & ->). split.
    { cbn [sv_step]. unfold device_quiesced. rewrite PM, E0, PQ. cbn [negb]. rewrite HQ. destruct o2; try reflexivity. destruct (N2 _ eq_refl). }
    split.
    { apply (acts_server (set_quiesced (set_pending s PNone) false)) in A1. change (set_quiesced (set_pending (set_ctx (set_quiesced s true) c1) PNone) false) with (set_ctx (set_quiesced (set_pending s PNone) false) c1).
      rewrite A1. rewrite A2. reflexivity. }
    split; [rewrite <- (app_nil_r evl); apply il_app; [exact IL2|apply il_left_all]|].
    unfold done_always, all_acts in *. rewrite filter_app. unfold free_msg. rewrite closes_no_cb, app_nil_r. exact DA.
  - exists s', ev, [], []. split; [exact H|]. split; [reflexivity|]. split; [apply il_left_all|reflexivity].
Qed.
Print Assumptions C72_quiesced_all.

(* A device with a vendor capability at 72, eight bytes long.  Its client has mapped memory and asked for dirty pages. *)
Definition ex_cap_pci : pci := mk_pci (zeros 256) [mk_cap false 9 72 3 8 0] [] None.
Definition ex_cap_server : server := mk_server (set_pci (ex_sctx true) ex_cap_pci) PNone false false true.
Definition ex_cap_two : server := fst (sv_run ex_cap_server (PropServer.ex_steps ++ [SRun (PropDmaMsg.ex_ask 16 PropDmaMsg.ex_start [])])).
Definition ex_read_cfg : list N := le_bytes 8 64 ++ le_bytes 4 7 ++ le_bytes 4 24.
Lemma ex_cap_reachable : reachable ex_cap_two.
Proof.
  destruct (history_run ex_cap_server (PropServer.ex_steps ++ [SRun (PropDmaMsg.ex_ask 16 PropDmaMsg.ex_start [])]) ex_cap_two
    (snd (sv_run ex_cap_server (PropServer.ex_steps ++ [SRun (PropDmaMsg.ex_ask 16 PropDmaMsg.ex_start [])])))) as (arr & H);
    [vm_compute; reflexivity|vm_compute; repeat constructor|]. exists ex_cap_server. eexists _, _, _. split; [|exact H].
  unfold fresh, realized_ctx. cbn [ex_cap_server sv_ctx set_pci ex_sctx cx_dma cx_irqs cx_irq_cfg cx_mig sv_pending sv_quiesced sv_conn sv_realized]. repeat split; auto. repeat constructor.
Qed.
(* It reads 24 bytes from 64.  The device is called for the eight bytes before the capability and the eight behind it, and
   marks a page each time. *)
Definition ex_cfg_marks : inside := mk_inside [] (fun k => [AMark [mk_sg 65536 0 4096 (4096 * N.of_nat k) true]; ATrigger 2 None]).
Example C72_request_all_case :
  let r := step_lost ex_cap_two (SRun (PropDmaMsg.ex_ask 9 ex_read_cfg [])) ex_cfg_marks silent in
  reachable ex_cap_two /\ library_access ex_cap_two 9 ex_read_cfg = true /\ no_pokes ex_cfg_marks /\ fst (fst r) = Ok 1 /\
  filter callback (snd r) = [EvAccess 7 false 64 8 []; EvAccess 7 false 80 8 []] /\
  all_acts ex_cfg_marks (snd r) = [AMark [mk_sg 65536 0 4096 0 true]; ATrigger 2 None; AMark [mk_sg 65536 0 4096 4096 true]; ATrigger 2 None] /\
  map (fun x => option_map (firstn 2) (rg_bitmap x)) (regions_of (snd (fst r))) = [Some [3; 0]].
Proof.
  cbv zeta. split; [exact ex_cap_reachable|]. split; [vm_compute; reflexivity|]. split; [intros k a [<-|[<-|[]]]; reflexivity|].
  split; [vm_compute; reflexivity|]. split; [vm_compute; reflexivity|]. split; vm_compute; reflexivity.
Qed.

(* A device with a PCI Express capability at 64 that can be reset through it.  The client starts a function level reset; the
   device needs time to become quiet first, and marks a page in the reset callback made when it is. *)
Definition ex_flr_pci : pci := mk_pci (zeros 71 ++ [16] ++ zeros 184) [mk_cap false 16 64 2 60 0] [] (Some 64).
Definition ex_flr_server : server := mk_server (set_pci (ex_sctx true) ex_flr_pci) PNone false false true.
Definition ex_flr_msg : msg := mk_msg (mk_header 7 10 34 0 0) (le_bytes 8 72 ++ le_bytes 4 7 ++ le_bytes 4 2 ++ [0; 128]) [].
Definition ex_flr_steps : list step :=
  PropServer.ex_steps ++ [SRun (PropDmaMsg.ex_ask 16 PropDmaMsg.ex_start []); SRun (mk_senv (RxMsg (mg_hdr ex_flr_msg) [] (inr (mg_body ex_flr_msg))) ex_or (Some EBUSY) None None None)].
Definition ex_flr_kept : server := fst (sv_run ex_flr_server ex_flr_steps).
Example C72_quiesced_all_case :
  let r := step_lost ex_flr_kept (SQuiesced 0 (ex_env (RxErr EAGAIN))) ex_cfg_marks silent in
  reachable ex_flr_kept /\ sv_pending ex_flr_kept = PMsg ex_flr_msg /\ library_access ex_flr_kept 10 (mg_body ex_flr_msg) = true /\ fst (fst r) = Ok 0 /\
  filter callback (snd r) = [EvReset ResetPciFlr] /\ map (fun x => option_map (firstn 2) (rg_bitmap x)) (regions_of (snd (fst r))) = [Some [1; 0]].
Proof.
  cbv zeta. split; [|repeat split; vm_compute; reflexivity].
  destruct (history_run ex_flr_server ex_flr_steps ex_flr_kept (snd (sv_run ex_flr_server ex_flr_steps))) as (arr & H);
    [vm_compute; reflexivity|vm_compute; repeat constructor|]. exists ex_flr_server. eexists _, _, _. split; [|exact H].
  unfold fresh, realized_ctx. cbn [ex_flr_server sv_ctx set_pci ex_sctx cx_dma cx_irqs cx_irq_cfg cx_mig sv_pending sv_quiesced sv_conn sv_realized]. repeat split; auto. repeat constructor.
Qed.

(* What is stored to configuration space in such a callback is seen by the rest of the access: here the device stores to the
   capability in the callback for the bytes before it, and the client is told 5 and not 0.  So what is done in these callbacks
   is not the same as doing it after the request. *)
Definition ex_cfg_pokes : inside := mk_inside [] (fun k => if Nat.eqb k 0 then [APoke 76 [5]] else []).
Theorem C72_stores_seen : exists s en i o s' ev s1 ev1 b b1,
  reachable s /\ en_rx en = RxMsg (mk_header 7 9 32 0 0) [] (inr ex_read_cfg) /\ en_send en = None /\ in_quiesce i = [] /\
  step_lost s (SRun en) i silent = (o, s', ev) /\ sv_step s (SRun en) = (o, s1, ev1) /\ o = Ok 1 /\
  In (EvReply (mk_reply 7 9 0 b [])) ev /\ In (EvReply (mk_reply 7 9 0 b1 [])) ev1 /\ nth 28 b 0 = 5 /\ nth 28 b1 0 = 0.
Proof.
  exists ex_cap_two, (PropDmaMsg.ex_ask 9 ex_read_cfg []), ex_cfg_pokes. do 5 eexists. exists (ex_read_cfg ++ zeros 12 ++ [5] ++ zeros 11), (ex_read_cfg ++ zeros 24).
  split; [exact ex_cap_reachable|]. split; [vm_compute; reflexivity|]. split; [reflexivity|]. split; [reflexivity|].
  split; [vm_compute; reflexivity|]. split; [vm_compute; reflexivity|]. split; [reflexivity|]. split; [vm_compute; auto|]. split; [vm_compute; auto|]. split; vm_compute; reflexivity.
Qed.
Print Assumptions C72_stores_seen.
