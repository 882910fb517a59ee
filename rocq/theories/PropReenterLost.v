(* Property C72, continued: a device that uses the library from within the callbacks made because the connection is lost. *)
From Coq Require Import NArith ZArith List Bool Lia ZifyBool ZifyNat ZifyN.
From Verif Require Import Base Types Bytes Dma Dirty Migr Irq Pci Handlers Server SpecServer ServerProofs PropServer Reenter SpecReenter ReenterProofs ReenterReach PropReenter ReenterCfg ReenterCfgProofs ReenterLost ReenterLostProofs.
Import ListNotations.
Open Scope N_scope.
Ltac Zify.zify_post_hook ::= idtac.

(* The client has hung up.  What the device does in the quiesce callback, the dma_unregister callbacks and the reset callback
   has the effect of doing it, in this order, just before vfu_run_ctx is called; only what is marked in the reset callback
   has none, as the guest's memory is gone by then. *)
Theorem C72_hangup : forall s en e i j o s' ev,
  en_rx en = RxErr e -> step_lost s (SRun en) i j = (o, s', ev) -> (forall c, o <> Crash c) ->
  exists s0 evb ev1, do_acts s (lost_acts j ev1) = (Ok tt, s0, evb) /\ sv_step s0 (SRun en) = (o, s', ev1) /\ interleaved ev1 evb ev.
Proof.
  intros s en e i j o s' ev RX H NC. cbn [step_lost] in H.
  assert (ST : sv_step s (SRun en) = (o, s', []) -> ev = [] -> exists s0 evb ev1, do_acts s (lost_acts j ev1) = (Ok tt, s0, evb) /\ sv_step s0 (SRun en) = (o, s', ev1) /\ interleaved ev1 evb ev).
  { intros X ->. exists s, [], []. split; [reflexivity|]. split; [exact X|constructor]. }
  destruct (negb (sv_realized s)) eqn:RZ; [injection H as <- <- <-; apply ST; [cbn [sv_step]; rewrite RZ|]; reflexivity|].
  destruct (sv_pending s) eqn:PN; [|injection H as <- <- <-; apply ST; [cbn [sv_step]; rewrite RZ, PN|]; reflexivity..].
  unfold run_iter_lost, get_request_lost in H. rewrite RX in H.
  destruct (negb (sv_conn s)) eqn:CN; [injection H as <- <- <-; apply ST; [cbn [sv_step]; unfold run_iter, get_request; rewrite RZ, PN, CN|]; reflexivity|].
  destruct ((e =? ENOMSG) || (e =? ECONNRESET)) eqn:EE; [|injection H as <- <- <-; apply ST; [cbn [sv_step]; unfold run_iter, get_request; rewrite RZ, PN, CN, RX, EE|]; reflexivity]. clear ST.
  destruct (reset_ctx_in s (en_quiesce_reset en) (en_lost en) j) as [[o2 s2] ev2] eqn:R.
  assert (NO : forall c, o2 <> Crash c) by (intros c ->; injection H as <- <- <-; exact (NC _ eq_refl)).
  destruct (reset_before _ _ _ _ _ _ _ R NO) as (s0 & evb & ev1 & A & RR & IL). exists s0, evb, ev1. split; [exact A|].
  destruct (do_acts_ok _ _ _ _ _ A ltac:(discriminate)) as (_ & _ & S0 & _).
  assert (K : sv_realized s0 = sv_realized s /\ sv_pending s0 = sv_pending s /\ sv_conn s0 = sv_conn s) by (rewrite S0; auto). destruct K as (K1 & K2 & K3).
  cbn [sv_step]. rewrite K1, K2, RZ, PN. unfold run_iter, get_request. rewrite K3, CN, RX, EE, RR.
  destruct o2 as [u|e2|c2]; [| |destruct (NO _ eq_refl)]; injection H as <- <- <-; auto.
Qed.
Print Assumptions C72_hangup.

(* The same when the device asked for time in the quiesce callback and says now that it is quiet. *)
Theorem C72_reset_later : forall s errno en i j o s' ev,
  sv_pending s = PReset -> step_lost s (SQuiesced errno en) i j = (o, s', ev) -> (forall c, o <> Crash c) ->
  exists s0 evb ev1, do_acts s (lost_acts j ev1) = (Ok tt, s0, evb) /\ sv_step s0 (SQuiesced errno en) = (o, s', ev1) /\ interleaved ev1 evb ev.
Proof.
  intros s errno en i j o s' ev PM H NC. cbn [step_lost] in H. destruct (device_quiesced_lost s en errno i j) as [[o1 s1] ev1] eqn:E.
  assert (ST : device_quiesced s en errno = (o1, s1, ev1) -> ev1 = [] -> exists s0 evb ev1, do_acts s (lost_acts j ev1) = (Ok tt, s0, evb) /\ sv_step s0 (SQuiesced errno en) = (o, s', ev1) /\ interleaved ev1 evb ev).
  { intros X ->. exists s, [], []. split; [reflexivity|]. cbn [sv_step]. rewrite X. injection H as <- <- <-. split; [reflexivity|constructor]. }
  unfold device_quiesced_lost, device_quiesced in E. rewrite PM in E.
  destruct (cx_quiesce (sv_ctx s)) eqn:CQ; cbn [negb] in E; [|injection E as <- <- <-; apply ST; [unfold device_quiesced; rewrite CQ|]; reflexivity].
  destruct (errno =? 0) eqn:E0; [|injection E as <- <- <-; apply ST; [unfold device_quiesced; rewrite CQ, PM, E0|]; reflexivity]. clear ST.
  destruct (reset_ctx_quiesced_in (set_quiesced s true) (en_lost en) j) as [[o2 s2] ev2] eqn:RQ.
  assert (N2 : forall c, o2 <> Crash c) by (intros c ->; injection E as <- <- <-; injection H as <- <- <-; exact (NC _ eq_refl)).
  destruct (reset_quiesced_before _ _ _ _ _ _ RQ N2) as (s0 & evb & ev3 & A & RR & IL & _).
  destruct (do_acts_ok _ _ _ _ _ A ltac:(discriminate)) as (_ & A1 & S0 & SM). cbn [set_quiesced sv_ctx] in A1, SM.
  exists (set_ctx s (sv_ctx s0)), evb, ev3. split; [rewrite acts_frame, A1; reflexivity|].
  cbn [sv_step]. unfold device_quiesced. cbn [sv_ctx set_ctx sv_pending]. rewrite (sm_quiesce _ _ SM), CQ, PM, E0. cbn [negb].
  replace (set_quiesced (set_ctx s (sv_ctx s0)) true) with s0 by (rewrite S0; reflexivity). rewrite RR.
  destruct o2; [| |destruct (N2 _ eq_refl)]; injection E as <- <- <-; injection H as <- <- <-; auto.
Qed.
Print Assumptions C72_reset_later.

(* Whatever a device does in any of its callbacks, also when connections are lost while a request or a reply is under way,
   the server reaches no state that it does not reach when callbacks do nothing. *)
Inductive reachable_parting : server -> Prop :=
| rp_fresh : forall s, fresh s -> reachable_parting s
| rp_step : forall s st i j o s' ev, reachable_parting s -> step_lost s st i j = (o, s', ev) -> (forall c, o <> Crash c) -> reachable_parting s'.
Theorem C72_parting_reachable : forall s, reachable_parting s -> reachable s.
Proof.
  intros s. induction 1 as [s F|s st i j o s' ev R IH H NC]; [|exact (reach_step_lost _ _ _ _ _ _ _ IH H NC)].
  exists s, [], [], []. split; [exact F|constructor].
Qed.
Print Assumptions C72_parting_reachable.

(* A device that does nothing in any callback is the one the rest of the model is about. *)
Definition silent : parting := mk_parting [] (fun _ => []) [].
Lemma silent_lost ev : lost_acts silent ev = [].
Proof. unfold lost_acts. cbn [silent pt_quiesce pt_gone pt_reset filter]. destruct (existsb is_quiesce ev), (existsb is_reset ev); cbn [app]; rewrite app_nil_r; induction (seq 0 _) as [|k l IH]; cbn; auto. Qed.
Lemma silent_reset s q lost o s' ev : reset_ctx_in s q lost silent = (o, s', ev) -> (forall c, o <> Crash c) -> reset_ctx s q lost = (o, s', ev).
Proof.
  intros H NC. destruct (reset_before _ _ _ _ _ _ _ H NC) as (s0 & evb & ev1 & A & R & IL). rewrite silent_lost in A. cbn [do_acts] in A. injection A as <- <-. apply il_nil_r in IL. subst ev1. exact R.
Qed.
Lemma silent_reply s en h err body fds o s' ev : do_reply_in s en h err body fds silent = (o, s', ev) -> (forall c, o <> Crash c) -> do_reply s en h err body fds = (o, s', ev).
Proof.
  unfold do_reply_in, do_reply. destruct (has _ _); [auto|]. destruct (en_send en) as [e|]; [|auto]. destruct (_ || _); [|auto]. apply silent_reset.
Qed.
Lemma silent_refuse s en h fds err g s' ev : refuse_in s en h fds err silent = (g, s', ev) -> (forall c, g <> GotCrash c) -> refuse s en h fds err = (g, s', ev).
Proof.
  unfold refuse_in, refuse. destruct (do_reply_in s en h err [] [] silent) as [[o s1] ev1] eqn:R. intros H NC.
  rewrite (silent_reply _ _ _ _ _ _ _ _ _ R); [exact H|]. intros c ->. injection H as <- <- <-. exact (NC _ eq_refl).
Qed.
Lemma idle_no_pokes : no_pokes idle. Proof. intros k a []. Qed.
Lemma idle_always s cmd body ev l : done_always s cmd body idle ev l -> l = [].
Proof. unfold done_always. rewrite idle_acts. intros [(_ & idx & _ & ->)|(_ & ->)]; reflexivity. Qed.
Lemma silent_handle s en m o s' f ev : handle_request_lost s en m idle silent = (o, s', f, ev) -> (forall c, o <> Crash c) -> handle_request s en m = (o, s', f, ev).
Proof.
  unfold handle_request_lost, handle_request. destruct (dispatch_all _ _ _ _ _ _) as [[[r s1] f1] ev1] eqn:D. destruct r as [err body fds|c]; [|intros H NC; injection H as <- <- <- <-; destruct (NC _ eq_refl)].
  destruct (do_reply_in s1 en (mg_hdr m) err body fds silent) as [[o2 s2] ev2] eqn:R. intros H NC. injection H as <- <- <- <-.
  destruct (dispatch_all_done _ _ _ _ _ _ _ _ _ _ D ltac:(discriminate) (fun _ => idle_no_pokes)) as (c1 & ev & l & E & (evx & A1 & A2 & A3) & L).
  apply idle_always in L. subst l. cbn [acts_ctx] in A1. injection A1 as E1 <-. apply il_nil_r in A3. subst ev1. rewrite E, E1, <- A2, (silent_reply _ _ _ _ _ _ _ _ _ R NC). reflexivity.
Qed.
Lemma silent_get s en i g s' ev : get_request_lost s en i silent = (g, s', ev) -> (forall c, g <> GotCrash c) -> get_request_in s en i = (g, s', ev).
Proof.
  unfold get_request_lost, get_request_in, get_request. destruct (negb (sv_conn s)); [auto|]. destruct (en_rx en) as [e|h fds rb].
  - destruct (_ || _); [|auto]. destruct (reset_ctx_in s _ _ silent) as [[o s1] ev1] eqn:R. intros H NC. rewrite (silent_reset _ _ _ _ _ _ R); [exact H|]. intros c ->. injection H as <- <- <-. exact (NC _ eq_refl).
  - destruct (negb (is_valid_header h)); [apply silent_refuse|]. destruct (if hd_size h =? 16 then _ else _); [|apply silent_refuse|auto].
    destruct (negb (should_exec _ _)); [apply silent_refuse|]. destruct (needs_quiesce _ _ _); [|auto]. destruct (do_acts s (in_quiesce i)) as [[oa s1] eva].
    destruct oa; [| |auto]; (destruct (en_quiesce en) as [e1|]; [|auto]; destruct (e1 =? EBUSY); [auto|]; destruct (refuse_in s1 en h fds e1 silent) as [[g1 s2] ev2] eqn:R; intros H NC; injection H as <- <- <-;
      rewrite (silent_refuse _ _ _ _ _ _ _ _ R NC); reflexivity).
Qed.
Lemma idle_get s en g s' ev : get_request_in s en idle = (g, s', ev) -> (forall c, g <> GotCrash c) -> get_request s en = (g, s', ev).
Proof.
  intros G NG. destruct (get_after _ _ _ _ _ _ G NG) as (pre & s0 & eva & evq & A & GR & IL & PR).
  assert (pre = []) as -> by (destruct PR as [(-> & _)|(-> & _)]; reflexivity). cbn [do_acts] in A. injection A as <- <-. apply il_nil_r in IL. subst ev. exact GR.
Qed.
Theorem C72_parting_nothing_done : forall s st o s' ev, step_lost s st idle silent = (o, s', ev) -> (forall c, o <> Crash c) -> sv_step s st = (o, s', ev).
Proof.
  intros s st o s' ev H NC. destruct st as [en|errno en|max|l|h|v x|off data]; try exact H; cbn [step_lost sv_step] in *.
  - destruct (negb (sv_realized s)); [exact H|]. destruct (sv_pending s); try exact H. unfold run_iter_lost in H. unfold run_iter.
    destruct (get_request_lost s en idle silent) as [[g s1] ev1] eqn:G. assert (NG : forall c, g <> GotCrash c) by (intros c ->; injection H as <- <- <-; exact (NC _ eq_refl)).
    rewrite (idle_get _ _ _ _ _ (silent_get _ _ _ _ _ _ G NG) NG). destruct g as [m|e|c]; try exact H. destruct (handle_request_lost s1 en m idle silent) as [[[o2 s2] f2] ev2] eqn:HR.
    assert (N2 : forall c, o2 <> Crash c) by (intros c ->; injection H as <- <- <-; exact (NC _ eq_refl)). rewrite (silent_handle _ _ _ _ _ _ _ HR N2). exact H.
  - unfold device_quiesced_lost in H. destruct (cx_quiesce (sv_ctx s)) eqn:CQ; [|exact H]. destruct (sv_pending s) as [|m|] eqn:PM; [exact H| |].
    + destruct (errno =? 0) eqn:E0; [|exact H]. unfold device_quiesced. rewrite CQ, PM, E0. cbn [negb]. destruct (handle_request_lost (set_quiesced s true) en m idle silent) as [[[o2 s2] f2] ev2] eqn:HR.
      assert (N2 : forall c, o2 <> Crash c) by (intros c ->; injection H as <- <- <-; exact (NC _ eq_refl)). rewrite (silent_handle _ _ _ _ _ _ _ HR N2). exact H.
    + destruct (errno =? 0) eqn:E0; [|exact H]. unfold device_quiesced. rewrite CQ, PM, E0. cbn [negb].
      destruct (reset_ctx_quiesced_in (set_quiesced s true) (en_lost en) silent) as [[o2 s2] ev2] eqn:RQ.
      assert (N2 : forall c, o2 <> Crash c) by (intros c ->; injection H as <- <- <-; exact (NC _ eq_refl)).
      destruct (reset_quiesced_before _ _ _ _ _ _ RQ N2) as (s0 & evb & ev3 & A & RR & IL & _). rewrite silent_lost in A. cbn [do_acts] in A. injection A as <- <-. apply il_nil_r in IL. subst ev3. rewrite RR. exact H.
Qed.
Print Assumptions C72_parting_nothing_done.

(* Two regions are logged when the client hangs up.  In each dma_unregister callback the device marks a page of the region
   that goes last, in the reset callback it marks another, looks something up and stores to configuration space. *)
Definition ex_gone_env (q : cb_answer) : env := mk_senv (RxErr ECONNRESET) ex_or None None q None.
Definition ex_parting : parting :=
  mk_parting [APoke 200 [1]] (fun k => [AMark [mk_sg 262144 1 4096 4096 true]; APoke 201 [N.of_nat k]]) [AMark [mk_sg 65536 0 4096 0 true]; ALookup 1; APoke 200 [7]].
Example C72_hangup_case :
  let r := step_lost ex_two (SRun (ex_gone_env None)) idle ex_parting in
  reachable ex_two /\ fst (fst r) = Err ENOTCONN /\ length (filter is_unregister (snd r)) = 2%nat /\ existsb is_quiesce (snd r) = true /\ existsb is_reset (snd r) = true /\
  regions_of (snd (fst r)) = [] /\ nth_error (pc_cfg (cx_pci (sv_ctx (snd (fst r))))) 200 = Some 7 /\ nth_error (pc_cfg (cx_pci (sv_ctx (snd (fst r))))) 201 = Some 1 /\
  lost_acts ex_parting (snd r) = [APoke 200 [1]; AMark [mk_sg 262144 1 4096 4096 true]; APoke 201 [0]; AMark [mk_sg 262144 1 4096 4096 true]; APoke 201 [1]; ALookup 1; APoke 200 [7]] /\
  reachable_parting (snd (fst r)).
Proof.
  cbv zeta. split; [exact ex_two_reachable|]. split; [vm_compute; reflexivity|]. split; [vm_compute; reflexivity|]. split; [vm_compute; reflexivity|]. split; [vm_compute; reflexivity|].
  split; [vm_compute; reflexivity|]. split; [vm_compute; reflexivity|]. split; [vm_compute; reflexivity|]. split; [vm_compute; reflexivity|].
  assert (L : forall l s s', (fix go s l := match l with [] => Some s | st :: l => match step_lost s st idle silent with (Crash _, _, _) => None | (_, s', _) => go s' l end end) s l = Some s' -> reachable_parting s -> reachable_parting s').
  { induction l as [|st l IH]; intros s s'; [congruence|]. destruct (step_lost s st idle silent) as [[o s1] ev] eqn:E. intros H R.
    destruct o; try discriminate H; (eapply IH; [exact H|]; eapply rp_step; [exact R|exact E|discriminate]). }
  eapply (rp_step ex_two (SRun (ex_gone_env None)) idle ex_parting (Err ENOTCONN)); [|vm_compute; reflexivity|discriminate].
  apply (L (PropServer.ex_steps ++ [SRun (PropDmaMsg.ex_ask 16 PropDmaMsg.ex_start []); SRun (PropDmaMsg.ex_ask 2 (PropDmaMsg.ex_map_at 262144 8192 1) [6%Z])]) (ex_server true)); [vm_compute; reflexivity|apply rp_fresh, ex_fresh].
Qed.
(* The same device asks for time first; it does the rest when it says that it is quiet. *)
Definition ex_gone_kept : server := snd (fst (step_lost ex_two (SRun (ex_gone_env (Some EBUSY))) idle ex_parting)).
Example C72_reset_later_case :
  let r := step_lost ex_gone_kept (SQuiesced 0 (ex_gone_env None)) idle ex_parting in
  sv_pending ex_gone_kept = PReset /\ length (regions_of ex_gone_kept) = 2%nat /\ fst (fst r) = Ok 0 /\ regions_of (snd (fst r)) = [] /\ sv_pending (snd (fst r)) = PNone /\
  lost_acts ex_parting (snd r) = [AMark [mk_sg 262144 1 4096 4096 true]; APoke 201 [0]; AMark [mk_sg 262144 1 4096 4096 true]; APoke 201 [1]; ALookup 1; APoke 200 [7]].
Proof. cbv zeta. repeat split; vm_compute; reflexivity. Qed.
