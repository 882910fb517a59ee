(* A server whose device acts in its callbacks reaches no state that it does not reach otherwise. *)
From Coq Require Import NArith ZArith List Bool Lia ZifyBool ZifyNat ZifyN.
From Verif Require Import Base Types Bytes Dma Dirty Migr Irq Pci Handlers Server SpecServer ServerProofs PropServer Reenter SpecReenter ReenterProofs.
Import ListNotations.
Open Scope N_scope.
Ltac Zify.zify_post_hook ::= idtac.

(* A request is kept only while a client is connected. *)
Definition pmsg (s : server) : Prop := exists m, sv_pending s = PMsg m.
Definition conn_ok (s : server) : Prop := sv_realized s = true /\ (pmsg s -> sv_conn s = true).
Lemma step_conn s st o s' ev : sinv s -> conn_ok s -> step_case s st o s' ev -> conn_ok s'.
Proof.
  intros SI (RZ & CO) H. destruct (step_kept _ _ _ _ _ SI H) as [K _]. pose proof (k_real _ _ K) as KR. split; [congruence|]. intros (m & E).
  assert (KEEP : sv_pending s' = sv_pending s -> sv_conn s' = sv_conn s -> sv_conn s' = true) by (intros X Y; rewrite Y; apply CO; exists m; congruence).
  assert (NONE : sv_pending s = PNone -> sv_pending s' = sv_pending s \/ (sv_pending s = PNone /\ sv_pending s' = PReset /\ cx_quiesce (sv_ctx s) = true) -> sv_conn s' = true)
    by (intros X [Y|(_ & Y & _)]; congruence).
  destruct H; try (apply KEEP; reflexivity); try discriminate E; try reflexivity.
  - destruct (e' =? EBUSY); [discriminate E|now apply KEEP].
  - exfalso. destruct H3 as (_ & _ & _ & _ & P & _). destruct H as (_ & P2 & _). congruence.
  - destruct (reply_replies _ _ _ _ _ _ _ H2 eq_refl eq_refl) as (_ & _ & _ & P). apply NONE; [apply H|exact P].
  - apply H.
  - destruct (handled_kept _ _ _ _ _ _ H3) as (_ & _ & _ & P). apply NONE; [apply H|]. cbn [set_quiesced sv_pending sv_ctx] in *. exact P.
  - apply KEEP; unfold dev_hint; destruct (cx_dma (sv_ctx s)); reflexivity.
Qed.
Lemma reachable_conn s : reachable s -> conn_ok s.
Proof.
  intros (s0 & l & arr & ev & F & H). assert (P0 : conn_ok s0) by (destruct F as (_ & P & _ & _ & R); split; [exact R|]; intros (m & E); congruence).
  pose proof (fresh_sinv _ F) as SI. clear F. induction H as [s|s st o s1 ev1 l s2 arr ev2 H NC T IH]; [exact P0|].
  pose proof (step_cases _ _ _ _ _ SI H NC) as SC. apply IH; [exact (step_conn _ _ _ _ _ SI P0 SC)|exact (proj2 (step_kept _ _ _ _ _ SI SC))].
Qed.

Lemma reach_acts l : forall s s' ev, reachable s -> do_acts s l = (Ok tt, s', ev) -> reachable s'.
Proof.
  induction l as [|a l IH]; intros s s' ev R; cbn [do_acts]; [intros H; injection H as <- <-; exact R|].
  destruct (sv_step s (step_of a)) as [[o s1] ev1] eqn:E. destruct o as [n|e|c]; try discriminate; destruct (do_acts s1 l) as [[o2 s2] ev2] eqn:D; intros H; injection H as -> <- <-;
    (eapply IH; [|exact D]; eapply reachable_step; [exact R|exact E|discriminate]).
Qed.
Lemma acts_server s c l c' ev : acts_ctx c l = (Ok tt, c', ev) -> do_acts (set_ctx s c) l = (Ok tt, set_ctx s c', ev).
Proof. intros A. rewrite acts_frame. cbn [sv_ctx set_ctx]. rewrite A. reflexivity. Qed.

Definition sends (en : env) : env := mk_senv (en_rx en) (en_or en) (en_quiesce en) None (en_quiesce_reset en) (en_lost en).
Definition hangs_up (en : env) (q : cb_answer) : env := mk_senv (RxErr ECONNRESET) (en_or en) None None q (en_lost en).

Lemma get_msg_sends s en m s1 ev : get_request s en = (GotMsg m, s1, ev) ->
  get_request s (sends en) = (GotMsg m, s1, ev) /\ sv_conn s1 = true /\ sv_pending s1 = sv_pending s /\ sv_realized s1 = sv_realized s.
Proof.
  assert (RF : forall en h fds e, refuse s en h fds e <> (GotMsg m, s1, ev)).
  { intros en0 h fds e X. unfold refuse in X. destruct (do_reply s en0 h e [] []) as [[[|e2|c2] s2] e3]; discriminate X. }
  unfold get_request. destruct (sv_conn s) eqn:CN; cbn [negb]; [|discriminate]. change (en_rx (sends en)) with (en_rx en). change (en_quiesce (sends en)) with (en_quiesce en).
  destruct (en_rx en) as [e|h fds rb].
  - destruct (_ || _); [|discriminate]. destruct (reset_ctx s _ _) as [[[|e2|c2] s2] e3]; discriminate.
  - destruct (negb (is_valid_header h)); [intros X; destruct (RF _ _ _ _ X)|]. destruct (if hd_size h =? 16 then Ok [] else recv_body (hd_size h - 16) rb) as [body|e|c]; [|intros X; destruct (RF _ _ _ _ X)|discriminate].
    destruct (negb (should_exec _ _)); [intros X; destruct (RF _ _ _ _ X)|]. destruct (needs_quiesce _ _ _); [|intros X; split; [exact X|]; injection X as <- <- <-; auto].
    destruct (en_quiesce en) as [e|].
    + destruct (e =? EBUSY); [discriminate|]. destruct (refuse s en h fds e) as [[g0 s0] e0] eqn:R. intros X. injection X as -> -> <-. exfalso. unfold refuse in R. destruct (do_reply s en h e [] []) as [[[|e2|c2] s2] e3]; discriminate R.
    + intros X. split; [exact X|]. injection X as <- <- <-. auto.
Qed.

(* Losing the connection is as good as losing it after the reply. *)
Lemma reach_lost s b q en o s' ev : reachable (set_quiesced s b) -> sv_realized s = true -> sv_pending s = PNone -> sv_conn s = true ->
  reset_ctx s q (en_lost en) = (o, s', ev) -> (forall c, o <> Crash c) -> reachable (set_quiesced s' b).
Proof.
  intros R RZ PN CN E NC. apply (reset_ctx_frame _ _ _ _ _ _ b) in E. destruct E as (E & _). destruct o as [u|e|c]; [| |destruct (NC _ eq_refl)].
  - eapply (reachable_step _ (SRun (hangs_up en q)) (Err ENOTCONN)); [exact R| |discriminate]. cbn [sv_step set_quiesced sv_realized sv_pending]. rewrite RZ, PN. cbn [negb].
    unfold run_iter, get_request. cbn [set_quiesced sv_conn]. rewrite CN. cbn [negb hangs_up en_rx en_quiesce_reset en_lost]. change ((ECONNRESET =? ENOMSG) || (ECONNRESET =? ECONNRESET)) with true. cbv iota.
    change (mk_server (sv_ctx s) (sv_pending s) b (sv_conn s) (sv_realized s)) with (set_quiesced s b). rewrite E. reflexivity.
  - eapply (reachable_step _ (SRun (hangs_up en q)) (if (e =? ENOMSG) || (e =? EAGAIN) then Ok 0 else Err e)); [exact R| |destruct (_ || _); discriminate].
    cbn [sv_step set_quiesced sv_realized sv_pending]. rewrite RZ, PN. cbn [negb].
    unfold run_iter, get_request. cbn [set_quiesced sv_conn]. rewrite CN. cbn [negb hangs_up en_rx en_quiesce_reset en_lost]. change ((ECONNRESET =? ENOMSG) || (ECONNRESET =? ECONNRESET)) with true. cbv iota.
    change (mk_server (sv_ctx s) (sv_pending s) b (sv_conn s) (sv_realized s)) with (set_quiesced s b). rewrite E. reflexivity.
Qed.


Lemma sent_handle s en m r c1 fds' ev : dispatch (sv_ctx s) (en_or en) (hd_cmd (mg_hdr m)) (mg_body m) (mg_fds m) = (r, c1, fds', ev) -> (forall c, r <> HCrash c) ->
  exists ev2, handle_request s (sends en) m = (Ok tt, set_ctx s c1, fds', ev2).
Proof.
  intros D NC. unfold handle_request. change (en_or (sends en)) with (en_or en). rewrite D. destruct r as [err body fds|c]; [|destruct (NC _ eq_refl)].
  unfold do_reply. cbn [en_send sends]. destruct (has _ _); eauto.
Qed.

Lemma reach_run s en i o s' ev : reachable s -> step_in s (SRun en) i = (o, s', ev) -> (forall c, o <> Crash c) -> reachable s'.
Proof.
  intros R H NC. cbn [step_in] in H. destruct (sv_realized s) eqn:RZ; cbn [negb] in H; [|injection H as <- <- <-; exact R].
  destruct (sv_pending s) eqn:PN; [|injection H as <- <- <-; exact R..]. unfold run_iter_in in H. destruct (get_request_in s en i) as [[g s1] ev1] eqn:G.
  assert (NG : forall c, g <> GotCrash c) by (intros c ->; injection H as <- <- <-; exact (NC _ eq_refl)).
  destruct (get_after _ _ _ _ _ _ G NG) as (pre & s0 & eva & evq & A & GR & _ & _).
  pose proof (reach_acts _ _ _ _ R A) as R0. destruct (do_acts_ok _ _ _ _ _ A ltac:(discriminate)) as (_ & _ & S0 & _).
  assert (RZ0 : sv_realized s0 = true) by (rewrite S0; exact RZ). assert (PN0 : sv_pending s0 = PNone) by (rewrite S0; exact PN).
  destruct g as [m|e|c]; [| |destruct (NG _ eq_refl)].
  - destruct (get_msg_sends _ _ _ _ _ GR) as (GS & CN1 & PN1 & RZ1). rewrite PN0 in PN1. rewrite RZ0 in RZ1.
    destruct (handle_request_in s1 en m i) as [[[o2 s2] fds'] ev2] eqn:HR.
    assert (N2 : forall c, o2 <> Crash c) by (intros c ->; injection H as <- <- <-; exact (NC _ eq_refl)).
    destruct (handle_done _ _ _ _ _ _ _ _ HR N2) as (err & body & fds & c1 & ev3 & l & sa & evs & D & (evx & A1 & A2 & _) & _ & ev4 & RP & _).
    destruct (sent_handle _ _ _ _ _ _ _ D ltac:(discriminate)) as (ev5 & HS).
    assert (R1 : reachable (set_quiesced (set_ctx s1 c1) false)).
    { eapply (reachable_step _ (SRun (sends en)) (Ok 1)); [exact R0| |discriminate]. cbn [sv_step]. rewrite RZ0, PN0. cbn [negb]. unfold run_iter. rewrite GS, HS. reflexivity. }
    assert (R2 : reachable (set_quiesced sa false)).
    { apply (acts_server (set_quiesced s1 false)) in A1. eapply reach_acts in A1; [|exact R1]. rewrite A2. exact A1. }
    assert (R3 : reachable (set_quiesced s2 false)).
    { destruct (loses en (mg_hdr m)) eqn:LO.
      - rewrite (reply_loses _ _ _ _ _ _ LO) in RP. eapply reach_lost; [exact R2| | | |exact RP|exact N2]; rewrite A2; assumption.
      - destruct (reply_quiet en (mg_hdr m) err body fds LO) as (o3 & ev6 & _ & _ & Q). rewrite Q in RP. injection RP as _ <- _. exact R2. }
    destruct o2; injection H as <- <- <-; [exact R3|exact R3|destruct (NC _ eq_refl)].
  - injection H as <- <- <-. eapply (reachable_step _ (SRun en)); [exact R0| |exact NC]. cbn [sv_step]. rewrite RZ0, PN0. cbn [negb]. unfold run_iter. rewrite GR. reflexivity.
Qed.

Lemma reach_quiesced s errno en i o s' ev : reachable s -> step_in s (SQuiesced errno en) i = (o, s', ev) -> (forall c, o <> Crash c) -> reachable s'.
Proof.
  intros R H NC.
  assert (PL : device_quiesced_in s en errno i = device_quiesced s en errno -> reachable s').
  { intros E. eapply (reachable_step _ (SQuiesced errno en)); [exact R| |exact NC]. cbn [sv_step step_in] in *. rewrite E in H. exact H. }
  cbn [step_in] in H. destruct (device_quiesced_in s en errno i) as [[o1 s1] ev1] eqn:E. revert PL. rewrite <- E. intros PL. unfold device_quiesced_in in *.
  destruct (cx_quiesce (sv_ctx s)) eqn:CQ; [|apply PL; reflexivity]. destruct (sv_pending s) as [|m|] eqn:PM; [apply PL; reflexivity| |apply PL; reflexivity].
  destruct (errno =? 0) eqn:E0; [|apply PL; reflexivity]. clear PL. destruct (reachable_conn _ R) as (RZ & CN). specialize (CN (ex_intro _ m PM)).
  destruct (handle_request_in (set_quiesced s true) en m i) as [[[o2 s2] fds'] ev2] eqn:HR.
  assert (N2 : forall c, o2 <> Crash c) by (intros c ->; injection E as <- <- <-; injection H as <- <- <-; exact (NC _ eq_refl)).
  destruct (handle_done _ _ _ _ _ _ _ _ HR N2) as (err & body & fds & c1 & ev3 & l & sa & evs & D & (evx & A1 & A2 & _) & _ & ev4 & RP & _).
  destruct (sent_handle _ _ _ _ _ _ _ D ltac:(discriminate)) as (ev5 & HS).
  assert (R1 : reachable (set_quiesced (set_pending (set_ctx (set_quiesced s true) c1) PNone) false)).
  { eapply (reachable_step _ (SQuiesced errno (sends en)) (Ok 0)); [exact R| |discriminate]. cbn [sv_step]. unfold device_quiesced. rewrite CQ, PM, E0. cbn [negb]. rewrite HS. reflexivity. }
  assert (R2 : reachable (set_quiesced (set_pending sa PNone) false)).
  { apply (acts_server (set_quiesced (set_pending s PNone) false)) in A1. eapply reach_acts in A1; [|exact R1]. rewrite A2. exact A1. }
  assert (R3 : reachable (set_quiesced (set_pending s2 PNone) false)).
  { destruct (loses en (mg_hdr m)) eqn:LO.
    - rewrite (reply_loses _ _ _ _ _ _ LO) in RP. unfold reset_ctx in RP. assert (PA : sv_pending sa = PMsg m) by (rewrite A2; exact PM). rewrite PA, andb_false_r in RP.
      destruct (reset_quiesced_frame _ _ _ _ _ false PNone RP) as (F & _).
      assert (F2 : exists ev7, reset_ctx (set_pending sa PNone) None (en_lost en) = (o2, set_pending s2 PNone, ev7)).
      { destruct (reset_quiesced_frame _ _ _ _ _ (sv_quiesced sa) PNone RP) as (F3 & _).
        replace (set_quiesced (set_pending sa PNone) (sv_quiesced sa)) with (set_pending sa PNone) in F3 by (destruct sa; reflexivity).
        assert (QS : set_quiesced (set_pending s2 PNone) (sv_quiesced sa) = set_pending s2 PNone).
        { clear - RP. unfold reset_ctx_quiesced in RP. repeat match type of RP with context [match ?x with _ => _ end] => destruct x end; injection RP as <- <- <-; destruct sa; reflexivity. }
        rewrite QS in F3. unfold reset_ctx. destruct (_ && _); [rewrite F3|]; eauto. }
      destruct F2 as (ev7 & F2). eapply reach_lost; [exact R2| | | |exact F2|exact N2]; [|reflexivity|]; rewrite A2; assumption.
    - destruct (reply_quiet en (mg_hdr m) err body fds LO) as (o3 & ev6 & _ & _ & Q). rewrite Q in RP. injection RP as _ <- _. exact R2. }
  destruct o2; injection E as <- <- <-; injection H as <- <- <-; [exact R3|exact R3|destruct (NC _ eq_refl)].
Qed.

Lemma reach_step s st i o s' ev : reachable s -> step_in s st i = (o, s', ev) -> (forall c, o <> Crash c) -> reachable s'.
Proof.
  intros R H NC. destruct st as [en|errno en|max|l|h|v x|off data];
    [exact (reach_run _ _ _ _ _ _ R H NC)|exact (reach_quiesced _ _ _ _ _ _ _ R H NC)|..]; eapply reachable_step; try exact R; try exact H; exact NC.
Qed.
