(* Properties C72 and C73: a device that uses the library from within the library's callbacks. *)
From Coq Require Import NArith ZArith List Bool Lia ZifyBool ZifyNat ZifyN.
From Verif Require Import Base Types Bytes BytesProofs BufProofs Spec Dma Dirty DmaOps SpecDma DmaProofs DmaDisjoint DmaSgl DmaRemap DirtyProofs DirtyHist PropDma PropDirty Migr Irq SpecIrq Pci Handlers
  SpecHandlers HandlersProofs HandlersDma Server SpecServer ServerProofs PropServer SpecMsg ServerDma PropDmaMsg PropPipe SpecReport ReportProofs PropReport PropQuiesce Reenter SpecReenter ReenterProofs ReenterReach.
Import ListNotations.
Open Scope N_scope.
Ltac Zify.zify_post_hook ::= idtac.

(* ---------- C72 *)

Lemma il_in {A} (a b l : list A) x : interleaved a b l -> (In x l <-> In x a \/ In x b).
Proof. induction 1 as [|y a b l H IH|y a b l H IH]; cbn [In]; tauto. Qed.
Lemma il_filter {A} (f : A -> bool) a b l : interleaved a b l -> filter f b = [] -> filter f l = filter f a.
Proof.
  induction 1 as [|y a b l H IH|y a b l H IH]; cbn [filter]; [reflexivity|intros E; rewrite (IH E); reflexivity|].
  destruct (f y); [discriminate|exact IH].
Qed.
Lemma il_nil_r {A} (a l : list A) : interleaved a [] l -> l = a.
Proof. intros H. remember [] as b eqn:B. induction H; try congruence. now rewrite IHinterleaved. Qed.

Lemma closes_no_quiesce l : existsb is_quiesce (close_all l) = false.
Proof. induction l as [|f l IH]; [reflexivity|]. unfold close_all in *. cbn [flat_map]. rewrite existsb_app, IH, orb_false_r. unfold close_ev. destruct (_ =? _)%Z; reflexivity. Qed.

Lemma get_facts s en g s1 ev h fds rb body : get_request s en = (g, s1, ev) -> en_rx en = RxMsg h fds rb -> en_send en = None -> payload h rb body ->
  filter callback ev = [] /\ forall m, g = GotMsg m -> mg_hdr m = h /\ mg_body m = body /\ sv_ctx s1 = sv_ctx s /\ (s1 = s \/ s1 = set_quiesced s true).
Proof.
  intros G RX SN PL.
  assert (RF : forall fds e g s1 ev, refuse s en h fds e = (g, s1, ev) -> filter callback ev = [] /\ forall m, g <> GotMsg m).
  { clear - SN. intros fds e g s1 ev. unfold refuse, do_reply. rewrite SN. destruct (has _ _); intros H; injection H as <- <- <-; unfold free_msg; cbn [app filter callback]; rewrite closes_no_cb; split; try reflexivity; discriminate. }
  assert (RF' : forall fds e g s1 ev, refuse s en h fds e = (g, s1, ev) -> filter callback ev = [] /\ forall m, g = GotMsg m -> mg_hdr m = h /\ mg_body m = body /\ sv_ctx s1 = sv_ctx s /\ (s1 = s \/ s1 = set_quiesced s true)).
  { intros f e g0 s2 e0 X. destruct (RF _ _ _ _ _ X) as (Y & Z). split; [exact Y|]. intros m M. destruct (Z _ M). }
  unfold get_request in G. destruct (negb (sv_conn s)); [injection G as <- <- <-; split; [reflexivity|discriminate]|]. rewrite RX in G.
  destruct (negb (is_valid_header h)); [exact (RF' _ _ _ _ _ G)|]. rewrite (payload_recv _ _ _ PL) in G.
  destruct (negb (should_exec _ _)); [exact (RF' _ _ _ _ _ G)|].
  destruct (needs_quiesce _ _ _); [|injection G as <- <- <-; split; [reflexivity|]; intros m M; injection M as <-; auto].
  destruct (en_quiesce en) as [e|].
  - destruct (e =? EBUSY); [injection G as <- <- <-; split; [reflexivity|discriminate]|]. destruct (refuse s en h fds e) as [[g0 s0] e0] eqn:R. injection G as <- <- <-.
    destruct (RF _ _ _ _ _ R) as (R1 & R2). split; [exact R1|]. intros m M. destruct (R2 _ M).
  - injection G as <- <- <-. split; [reflexivity|]. intros m M. injection M as <-. auto.
Qed.
Lemma handle_no_quiesce s en m o s' fds' ev : cinv (sv_ctx s) -> en_send en = None -> handle_request s en m = (o, s', fds', ev) -> (forall c, o <> Crash c) -> existsb is_quiesce ev = false.
Proof.
  intros CI SN H NC. destruct (handle_request_inv _ _ _ _ _ _ _ CI H NC) as (err & body & fds & c1 & ev1 & ev2 & D & K & -> & F & R).
  apply kind_no_quiesce in F. rewrite existsb_app. assert (E1 : existsb is_quiesce ev1 = false).
  { clear - F. induction F as [|e l N F IH]; [reflexivity|]. cbn [existsb]. rewrite IH. destruct e; try reflexivity. destruct N. }
  rewrite E1. inversion R; subst; try reflexivity; congruence.
Qed.
Lemma no_cb_done s cmd body i ev : filter callback ev = [] -> done_after s cmd body i ev [].
Proof.
  intros F. unfold done_after. destruct (library_access _ _ _); [reflexivity|]. rewrite all_none by exact F.
  destruct (N.eq_dec cmd 3) as [E3|N3]; [|right; auto]. destruct (removes_or_not s body) as [(idx & R)|R]; [left; split; [exact E3|]; exists idx; auto|right; auto].
Qed.

(* A request arrives, and the device marks memory, looks up addresses, triggers interrupts or stores to configuration space
   in the callbacks the request causes.  The same events happen, the same value is returned and the same state is reached as
   when it does these things when no callback is active: what it does in the quiesce callback before the request, what it
   does in the other callbacks after it. *)
Theorem C72_request : forall s en i h fds rbody body o s' ev,
  reachable s -> en_rx en = RxMsg h fds rbody -> payload h rbody body -> en_send en = None ->
  step_in s (SRun en) i = (o, s', ev) -> (forall c, o <> Crash c) ->
  exists before s0 evb s1 ev1 later evl,
    do_acts s before = (Ok tt, s0, evb) /\ sv_step s0 (SRun en) = (o, s1, ev1) /\ do_acts s1 later = (Ok tt, s', evl) /\
    interleaved ev1 (evb ++ evl) ev /\
    before = (if existsb is_quiesce ev1 then in_quiesce i else []) /\ done_after s0 (hd_cmd h) body i ev1 later.
Proof.
  intros s en i h fds rbody body o s' ev RE RX PL SN H NC.
  assert (ST : sv_step s (SRun en) = (o, s', []) -> ev = [] -> exists before s0 evb s1 ev1 later evl,
    do_acts s before = (Ok tt, s0, evb) /\ sv_step s0 (SRun en) = (o, s1, ev1) /\ do_acts s1 later = (Ok tt, s', evl) /\ interleaved ev1 (evb ++ evl) ev /\
    before = (if existsb is_quiesce ev1 then in_quiesce i else []) /\ done_after s0 (hd_cmd h) body i ev1 later).
  { intros X ->. exists [], s, [], s', [], [], []. split; [reflexivity|]. split; [exact X|]. split; [reflexivity|]. split; [constructor|]. split; [reflexivity|]. now apply no_cb_done. }
  cbn [step_in] in H. destruct (sv_realized s) eqn:RZ; cbn [negb] in H; [|injection H as <- <- <-; apply ST; [|reflexivity]; cbn [sv_step]; rewrite RZ; reflexivity].
  destruct (sv_pending s) eqn:PN; [|injection H as <- <- <-; apply ST; [|reflexivity]; cbn [sv_step]; rewrite RZ, PN; reflexivity..]. clear ST.
  unfold run_iter_in in H. destruct (get_request_in s en i) as [[g s1] ev1] eqn:G.
  assert (NG : forall c, g <> GotCrash c) by (intros c ->; injection H as <- <- <-; exact (NC _ eq_refl)).
  destruct (get_after _ _ _ _ _ _ G NG) as (pre & s0 & eva & evq & A & GR & IL & PR).
  destruct (do_acts_ok _ _ _ _ _ A ltac:(discriminate)) as (_ & _ & S0 & _).
  assert (RZ0 : sv_realized s0 = true) by (rewrite S0; exact RZ). assert (PN0 : sv_pending s0 = PNone) by (rewrite S0; exact PN).
  destruct (get_facts _ _ _ _ _ _ _ _ _ GR RX SN PL) as (F & GM).
  assert (PRE : pre = if existsb is_quiesce evq then in_quiesce i else []).
  { destruct PR as [(-> & X)|(-> & ->)]; [|reflexivity]. rewrite X; [reflexivity|exact SN|eauto]. }
  destruct g as [m|e|c]; [| |destruct (NG _ eq_refl)].
  - destruct (GM m eq_refl) as (MH & MB & SC & SQ). destruct (handle_request_in s1 en m i) as [[[o2 s2] fds'] ev2] eqn:HR.
    assert (N2 : forall c, o2 <> Crash c) by (intros c ->; injection H as <- <- <-; exact (NC _ eq_refl)).
    assert (LO : loses en (mg_hdr m) = false) by (unfold loses; rewrite SN; apply andb_false_r).
    destruct (handle_quiet _ _ _ _ _ _ _ _ LO HR N2) as (c1 & ev3 & l & evl & HQ & A1 & A2 & IL2 & DA).
    exists pre, s0, eva, (set_quiesced (set_ctx s1 c1) false), (evq ++ ev3 ++ free_msg fds'), l, evl. split; [exact A|].
    split; [cbn [sv_step]; rewrite RZ0, PN0; cbn [negb]; unfold run_iter; rewrite GR, HQ; destruct o2; injection H as <- <- <-; try reflexivity; destruct (N2 _ eq_refl)|].
    split.
    { apply (acts_server (set_quiesced s1 false)) in A1. change (set_ctx (set_quiesced s1 false) c1) with (set_quiesced (set_ctx s1 c1) false) in A1. rewrite A1. f_equal. f_equal.
      assert (s' = set_quiesced s2 false) as -> by (destruct o2; injection H as <- <- <-; try reflexivity; destruct (N2 _ eq_refl)). rewrite A2. reflexivity. }
    assert (EV : ev = ev1 ++ ev2 ++ free_msg fds') by (destruct o2; injection H as <- <- <-; try reflexivity; destruct (N2 _ eq_refl)). subst ev.
    split; [apply il_app; [exact IL|]; rewrite <- (app_nil_r evl); apply il_app; [exact IL2|apply il_left_all]|].
    assert (FX : existsb is_quiesce (evq ++ ev3 ++ free_msg fds') = existsb is_quiesce evq).
    { rewrite !existsb_app. unfold free_msg. rewrite closes_no_quiesce. assert (Q3 : existsb is_quiesce ev3 = false); [|rewrite Q3; now rewrite !orb_false_r]. apply (handle_no_quiesce _ _ _ _ _ _ _) in HQ; [exact HQ| |exact SN|exact N2].
      rewrite SC. exact (proj1 (reachable_sinv _ (reach_acts _ _ _ _ RE A))). }
    split; [rewrite FX; exact PRE|]. rewrite <- MH, <- MB. unfold done_after, all_acts in *. rewrite !filter_app, F. unfold free_msg. rewrite closes_no_cb, app_nil_r. cbn [app].
    destruct SQ as [->| ->]; exact DA.
  - injection H as <- <- <-. exists pre, s0, eva, s1, evq, [], []. split; [exact A|]. split; [cbn [sv_step]; rewrite RZ0, PN0; cbn [negb]; unfold run_iter; rewrite GR; reflexivity|].
    split; [reflexivity|]. split; [rewrite app_nil_r; exact IL|]. split; [exact PRE|]. now apply no_cb_done.
Qed.
Print Assumptions C72_request.

(* The same for a request that was kept until the device became quiet. *)
Theorem C72_quiesced : forall s errno en i o s' ev,
  reachable s -> en_send en = None -> step_in s (SQuiesced errno en) i = (o, s', ev) -> (forall c, o <> Crash c) ->
  exists s1 ev1 later evl,
    sv_step s (SQuiesced errno en) = (o, s1, ev1) /\ do_acts s1 later = (Ok tt, s', evl) /\ interleaved ev1 evl ev /\
    match sv_pending s with
    | PMsg m => if errno =? 0 then done_after s (hd_cmd (mg_hdr m)) (mg_body m) i ev1 later else later = []
    | _ => later = []
    end.
Proof.
  intros s errno en i o s' ev RE SN H NC.
  assert (ST : device_quiesced_in s en errno i = device_quiesced s en errno -> exists s1 ev1 later evl,
    sv_step s (SQuiesced errno en) = (o, s1, ev1) /\ do_acts s1 later = (Ok tt, s', evl) /\ interleaved ev1 evl ev /\ later = []).
  { intros E. exists s', ev, [], []. cbn [sv_step step_in] in *. rewrite E in H. split; [exact H|]. split; [reflexivity|]. split; [apply il_left_all|reflexivity]. }
  destruct (reachable_sinv _ RE) as (_ & _ & PQ).
  cbn [step_in] in H. unfold device_quiesced_in in ST, H. destruct (sv_pending s) as [|m|] eqn:PM; [destruct (cx_quiesce (sv_ctx s)); apply ST; reflexivity| |destruct (cx_quiesce (sv_ctx s)); apply ST; reflexivity].
  rewrite (PQ ltac:(discriminate)) in *. destruct (errno =? 0) eqn:E0; [|apply ST; reflexivity]. clear ST.
  destruct (handle_request_in (set_quiesced s true) en m i) as [[[o2 s2] fds'] ev2] eqn:HR.
  assert (N2 : forall c, o2 <> Crash c) by (intros c ->; injection H as <- <- <-; exact (NC _ eq_refl)).
  assert (LO : loses en (mg_hdr m) = false) by (unfold loses; rewrite SN; apply andb_false_r).
  destruct (handle_quiet _ _ _ _ _ _ _ _ LO HR N2) as (c1 & ev3 & l & evl & HQ & A1 & A2 & IL2 & DA).
  exists (set_quiesced (set_pending (set_ctx (set_quiesced s true) c1) PNone) false), (ev3 ++ free_msg fds'), l, evl.
  assert (X : s' = set_quiesced (set_pending s2 PNone) false /\ ev = ev2 ++ free_msg fds' /\ o = match o2 with Ok _ => Ok 0 | Err e => Err e | Crash cr => Crash cr end)
    by (destruct o2; injection H as <- <- <-; try (split; [reflexivity|split; reflexivity]); destruct (N2 _ eq_refl)).
  destruct X as (-> & -> & ->). split.
  { cbn [sv_step]. unfold device_quiesced. rewrite PM, E0, (PQ ltac:(discriminate)). cbn [negb]. rewrite HQ. destruct o2; try reflexivity. destruct (N2 _ eq_refl). }
  split.
  { apply (acts_server (set_quiesced (set_pending s PNone) false)) in A1. change (set_quiesced (set_pending (set_ctx (set_quiesced s true) c1) PNone) false) with (set_ctx (set_quiesced (set_pending s PNone) false) c1).
    rewrite A1. rewrite A2. reflexivity. }
  split; [rewrite <- (app_nil_r evl); apply il_app; [exact IL2|apply il_left_all]|].
  unfold done_after, all_acts in *. rewrite filter_app. unfold free_msg. rewrite closes_no_cb, app_nil_r. exact DA.
Qed.
Print Assumptions C72_quiesced.

(* Whatever a device does in its callbacks, and however its clients behave, the server reaches no state that it does not
   reach when callbacks do nothing; what is proved of all reachable states elsewhere holds of these. *)
Theorem C72_reachable : forall s, reachable_in s -> reachable s.
Proof.
  intros s. induction 1 as [s F|s st i o s' ev R IH H NC]; [|exact (reach_step _ _ _ _ _ _ IH H NC)].
  exists s, [], [], []. split; [exact F|constructor].
Qed.
Print Assumptions C72_reachable.

(* A device that does nothing in its callbacks is the one the rest of the model is about. *)
Definition idle : inside := mk_inside [] (fun _ => []).
Lemma idle_acts ev : all_acts idle ev = [].
Proof. unfold all_acts. induction (seq 0 _) as [|k l IH]; [reflexivity|exact IH]. Qed.
Lemma idle_done s cmd body ev l : done_after s cmd body idle ev l -> l = [].
Proof. unfold done_after. rewrite idle_acts. destruct (library_access _ _ _); [auto|]. intros [(_ & idx & _ & ->)|(_ & ->)]; reflexivity. Qed.
Lemma idle_handle s en m o s' fds' ev : handle_request_in s en m idle = (o, s', fds', ev) -> (forall c, o <> Crash c) -> handle_request s en m = (o, s', fds', ev).
Proof.
  intros H NC. destruct (handle_done _ _ _ _ _ _ _ _ H NC) as (err & body & fds & c1 & ev3 & l & sa & evs & D & (evx & A1 & A2 & A3) & L & ev4 & RP & ->).
  apply idle_done in L. subst l. cbn [acts_ctx] in A1. injection A1 as E1 <-. apply il_nil_r in A3. subst evs.
  unfold handle_request. rewrite D. rewrite E1, <- A2, RP. reflexivity.
Qed.
Theorem C72_nothing_done : forall s st o s' ev, step_in s st idle = (o, s', ev) -> (forall c, o <> Crash c) -> sv_step s st = (o, s', ev).
Proof.
  intros s st o s' ev H NC. destruct st as [en|errno en|max|l|h|v x|off data]; try exact H.
  - cbn [step_in sv_step] in *. destruct (negb (sv_realized s)); [exact H|]. destruct (sv_pending s); try exact H. unfold run_iter_in in H. unfold run_iter.
    destruct (get_request_in s en idle) as [[g s1] ev1] eqn:G.
    assert (NG : forall c, g <> GotCrash c) by (intros c ->; injection H as <- <- <-; exact (NC _ eq_refl)).
    destruct (get_after _ _ _ _ _ _ G NG) as (pre & s0 & eva & evq & A & GR & IL & PR).
    assert (pre = []) as -> by (destruct PR as [(-> & _)|(-> & _)]; reflexivity). cbn [do_acts] in A. injection A as <- <-. apply il_nil_r in IL. subst ev1. rewrite GR.
    destruct g as [m|e|c]; try exact H. destruct (handle_request_in s1 en m idle) as [[[o2 s2] fds'] ev2] eqn:HR.
    assert (N2 : forall c, o2 <> Crash c) by (intros c ->; injection H as <- <- <-; exact (NC _ eq_refl)). rewrite (idle_handle _ _ _ _ _ _ _ HR N2). exact H.
  - cbn [step_in sv_step] in *. unfold device_quiesced_in in H. destruct (cx_quiesce (sv_ctx s)) eqn:CQ; [|exact H]. destruct (sv_pending s) as [|m|] eqn:PM; try exact H.
    destruct (errno =? 0) eqn:E0; [|exact H]. unfold device_quiesced. rewrite CQ, PM, E0. cbn [negb].
    destruct (handle_request_in (set_quiesced s true) en m idle) as [[[o2 s2] fds'] ev2] eqn:HR.
    assert (N2 : forall c, o2 <> Crash c) by (intros c ->; injection H as <- <- <-; exact (NC _ eq_refl)). rewrite (idle_handle _ _ _ _ _ _ _ HR N2). exact H.
Qed.
Print Assumptions C72_nothing_done.

(* The client never sees what the device does in the callbacks of its request, apart from interrupts: two devices that
   differ only in that give it the same reply. *)
Definition is_reply (e : event) : bool := match e with EvReply _ => true | _ => false end.
Lemma acts_no_reply l : forall s o s' ev, do_acts s l = (o, s', ev) -> filter is_reply ev = [].
Proof.
  induction l as [|a l IH]; intros s o s' ev; cbn [do_acts]; [intros H; injection H as <- <- <-; reflexivity|].
  destruct (sv_step s (step_of a)) as [[o1 s1] ev1] eqn:E.
  assert (E1 : filter is_reply ev1 = []).
  { destruct a as [x|h|v x|off data]; cbn [step_of sv_step] in E.
    - destruct (dev_mark s x); injection E as <- <- <-; reflexivity.
    - injection E as <- <- <-; reflexivity.
    - destruct (cx_irqs (sv_ctx s)) as [t|]; [|injection E as <- <- <-; reflexivity]. unfold irq_trigger in E.
      destruct (nth_error (iq_efds t) (N.to_nat v)) as [fd|]; [|injection E as <- <- <-; reflexivity]. destruct (fd =? -1)%Z; [|destruct x]; injection E as <- <- <-; reflexivity.
    - destruct (dev_poke s off data); injection E as <- <- <-; reflexivity. }
  destruct o1 as [n|e|c]; [destruct (do_acts s1 l) as [[o2 s2] ev2] eqn:D..|]; intros H; injection H as <- <- <-; rewrite ?filter_app, E1; [exact (IH _ _ _ _ D)|exact (IH _ _ _ _ D)|reflexivity].
Qed.
Lemma il_replies a b l s x o s' : interleaved a b l -> do_acts s x = (o, s', b) -> filter is_reply l = filter is_reply a.
Proof. intros I A. apply (il_filter _ _ _ _ I). exact (acts_no_reply _ _ _ _ _ A). Qed.

Theorem C72_replies : forall s en i j o1 s1 ev1 o2 s2 ev2,
  en_send en = None -> in_quiesce i = in_quiesce j ->
  step_in s (SRun en) i = (o1, s1, ev1) -> step_in s (SRun en) j = (o2, s2, ev2) -> (forall c, o1 <> Crash c) -> (forall c, o2 <> Crash c) ->
  o1 = o2 /\ filter is_reply ev1 = filter is_reply ev2.
Proof.
  intros s en i j o1 s1 ev1 o2 s2 ev2 SN QE H1 H2 N1 N2. cbn [step_in] in *.
  destruct (negb (sv_realized s)); [injection H1 as <- <- <-; injection H2 as <- <- <-; auto|].
  destruct (sv_pending s); [|injection H1 as <- <- <-; injection H2 as <- <- <-; auto..]. unfold run_iter_in in *.
  assert (G : get_request_in s en j = get_request_in s en i) by (unfold get_request_in; rewrite QE; reflexivity). rewrite G in H2.
  destruct (get_request_in s en i) as [[[m|e|c] s0] ev0]; [|injection H1 as <- <- <-; injection H2 as <- <- <-; auto..].
  destruct (handle_request_in s0 en m i) as [[[p1 t1] f1] e1] eqn:E1. destruct (handle_request_in s0 en m j) as [[[p2 t2] f2] e2] eqn:E2.
  assert (M1 : forall c, p1 <> Crash c) by (intros c ->; injection H1 as <- <- <-; exact (N1 _ eq_refl)).
  assert (M2 : forall c, p2 <> Crash c) by (intros c ->; injection H2 as <- <- <-; exact (N2 _ eq_refl)).
  assert (LO : loses en (mg_hdr m) = false) by (unfold loses; rewrite SN; apply andb_false_r).
  destruct (handle_quiet _ _ _ _ _ _ _ _ LO E1 M1) as (c1 & v1 & l1 & x1 & Q1 & A1 & _ & I1 & _).
  destruct (handle_quiet _ _ _ _ _ _ _ _ LO E2 M2) as (c2 & v2 & l2 & x2 & Q2 & A2 & _ & I2 & _).
  rewrite Q1 in Q2. injection Q2 as <- <- <- <-.
  apply (acts_server s0) in A1, A2. apply (il_replies _ _ _ _ _ _ _ I1) in A1. apply (il_replies _ _ _ _ _ _ _ I2) in A2.
  destruct p1; [| |destruct (M1 _ eq_refl)]; injection H1 as <- <- <-; injection H2 as <- <- <-; (split; [reflexivity|]); rewrite !filter_app, A1, A2; reflexivity.
Qed.
Print Assumptions C72_replies.

(* Two regions are logged; the first is unmapped, and in the dma_unregister callback the device marks a page of the second
   one through the descriptor it got before: number 1, which is number 0 afterwards. *)
Definition ex_two : server := fst (sv_run ex_started [SRun (ex_ask 2 (ex_map_at 262144 8192 1) [6%Z])]).
Definition ex_unmap_first : list N := PropDmaMsg.ex_unmap 0 65536 65536.
Definition ex_marks : inside := mk_inside [ALookup 1] (fun _ => [AMark [mk_sg 65536 0 4096 0 true; mk_sg 262144 1 4096 4096 true]]).
Definition ex_in : outcome N * server * list event := step_in ex_two (SRun (ex_ask 3 ex_unmap_first [])) ex_marks.
Lemma ex_two_reachable : reachable ex_two.
Proof.
  destruct (history_run (ex_server true) (ex_steps ++ [SRun (ex_ask 16 ex_start []); SRun (ex_ask 2 (ex_map_at 262144 8192 1) [6%Z])]) ex_two
    (snd (sv_run (ex_server true) (ex_steps ++ [SRun (ex_ask 16 ex_start []); SRun (ex_ask 2 (ex_map_at 262144 8192 1) [6%Z])])))) as (arr & H);
    [vm_compute; reflexivity|vm_compute; repeat constructor|]. exists (ex_server true). eexists _, _, _. split; [apply ex_fresh|exact H].
Qed.
Fixpoint run_in (s : server) (l : list (step * inside)) : option server :=
  match l with [] => Some s | (st, i) :: l => match step_in s st i with (Crash _, _, _) => None | (_, s', _) => run_in s' l end end.
Lemma run_in_reachable l : forall s s', run_in s l = Some s' -> reachable_in s -> reachable_in s'.
Proof.
  induction l as [|(st, i) l IH]; intros s s'; cbn [run_in]; [congruence|]. destruct (step_in s st i) as [[o s1] ev] eqn:E. intros H R.
  destruct o; try discriminate H; (eapply IH; [exact H|]; eapply ri_step; [exact R|exact E|discriminate]).
Qed.
Definition ex_in_steps : list (step * inside) :=
  map (fun st => (st, idle)) (ex_steps ++ [SRun (ex_ask 16 ex_start []); SRun (ex_ask 2 (ex_map_at 262144 8192 1) [6%Z])]) ++ [(SRun (ex_ask 3 ex_unmap_first []), ex_marks)].
Example C72_case :
  reachable ex_two /\ length (regions_of ex_two) = 2%nat /\ payload (mk_header 7 3 40 0 0) (inr ex_unmap_first) ex_unmap_first /\
  fst (fst ex_in) = Ok 1 /\ ex_log_pages (snd (fst ex_in)) = [2; 0; 0; 0; 0; 0; 0; 0] /\ length (regions_of (snd (fst ex_in))) = 1%nat /\
  existsb is_quiesce (snd ex_in) = true /\ length (filter callback (snd ex_in)) = 1%nat /\ removes ex_two ex_unmap_first 0 /\
  map (moved_act 0) (all_acts ex_marks (snd ex_in)) = [AMark [mk_sg 262144 0 4096 4096 true]] /\
  reachable_in (snd (fst ex_in)).
Proof.
  split; [exact ex_two_reachable|]. split; [vm_compute; reflexivity|]. split; [right; split; [vm_compute; reflexivity|]; exists ex_unmap_first; repeat split; vm_compute; try reflexivity; discriminate|].
  split; [vm_compute; reflexivity|]. split; [vm_compute; reflexivity|]. split; [vm_compute; reflexivity|]. split; [vm_compute; reflexivity|]. split; [vm_compute; reflexivity|].
  split; [eexists _, _, 0; split; [vm_compute; reflexivity|]; split; [vm_compute; reflexivity|]; split; [vm_compute; reflexivity|]; split; [discriminate|]; split; vm_compute; reflexivity|]. split; [vm_compute; reflexivity|].
  apply (run_in_reachable ex_in_steps (ex_server true)); [vm_compute; reflexivity|apply ri_fresh, ex_fresh].
Qed.

(* The client masks vectors 1 to 3 of MSI-X; the device marks a page when told. *)
Definition ex_mask_body : list N := le_bytes 4 20 ++ le_bytes 4 9 ++ le_bytes 4 2 ++ le_bytes 4 1 ++ le_bytes 4 3.
Definition ex_masked : outcome N * server * list event := step_in ex_two (SRun (ex_ask 8 ex_mask_body [])) (mk_inside [] (fun _ => [AMark [mk_sg 65536 0 4096 4096 true]])).
Example C72_mask_case :
  reachable ex_two /\ payload (mk_header 7 8 36 0 0) (inr ex_mask_body) ex_mask_body /\ fst (fst ex_masked) = Ok 1 /\
  filter callback (snd ex_masked) = [EvIrqState 2 1 3 true] /\
  map (fun x => option_map (firstn 2) (rg_bitmap x)) (regions_of ex_two) = [Some [0; 0]; Some [0; 0]] /\
  map (fun x => option_map (firstn 2) (rg_bitmap x)) (regions_of (snd (fst ex_masked))) = [Some [2; 0]; Some [0; 0]].
Proof.
  split; [exact ex_two_reachable|]. split; [right; split; [vm_compute; reflexivity|]; exists ex_mask_body; repeat split; vm_compute; try reflexivity; discriminate|].
  vm_compute. repeat split.
Qed.

(* A device that triggers vector 0 and stores to configuration space in the callbacks of a request that is kept first. *)
Definition ex_late : inside := mk_inside [] (fun _ => [APoke 200 [7]]).
Definition ex_busy_env : env := mk_senv (en_rx (ex_ask 3 ex_unmap_first [])) ex_or (Some EBUSY) None None None.
Definition ex_kept : server := snd (fst (sv_step ex_two (SRun ex_busy_env))).
Example C72_quiesced_case :
  reachable ex_kept /\ (exists m, sv_pending ex_kept = PMsg m) /\
  let r := step_in ex_kept (SQuiesced 0 (ex_ask 3 ex_unmap_first [])) ex_late in
  fst (fst r) = Ok 0 /\ sv_pending (snd (fst r)) = PNone /\ length (regions_of (snd (fst r))) = 1%nat /\ nth_error (pc_cfg (cx_pci (sv_ctx (snd (fst r))))) 200 = Some 7 /\
  nth_error (pc_cfg (cx_pci (sv_ctx ex_kept))) 200 = Some 0 /\ length (filter is_reply (snd r)) = 1%nat.
Proof.
  split.
  { apply (reachable_step ex_two (SRun ex_busy_env) (Err EBUSY) ex_kept (snd (sv_step ex_two (SRun ex_busy_env)))); [exact ex_two_reachable|vm_compute; reflexivity|discriminate]. }
  split; [exists (mk_msg (mk_header 7 3 40 0 0) ex_unmap_first []); vm_compute; reflexivity|].
  cbv zeta. split; [vm_compute; reflexivity|]. split; [vm_compute; reflexivity|]. split; [vm_compute; reflexivity|]. split; [vm_compute; reflexivity|]. split; vm_compute; reflexivity.
Qed.

(* ---------- C73 *)

Lemma request_asks s en id cmd body fds o s1 ev : request s en id cmd body fds -> needs_quiesce (sv_ctx s) cmd body = true ->
  sv_step s (SRun en) = (o, s1, ev) -> existsb is_quiesce ev = true.
Proof.
  intros [(R & P & C) (h & X & V & W & <- & <- & Z) Q S (M1 & M3)] NQ H.
  assert (SE : should_exec (cx_mig (sv_ctx s)) (hd_cmd h) = true).
  { unfold should_exec, is_stopped_and_copying, is_stopped, ST_STOP, ST_STOP_COPY. destruct (cx_mig (sv_ctx s)) as [m|]; [|reflexivity].
    replace (m =? 1) with false by (symmetry; apply N.eqb_neq; congruence). replace (m =? 3) with false by (symmetry; apply N.eqb_neq; congruence). reflexivity. }
  assert (B : (if hd_size h =? 16 then Ok [] else recv_body (hd_size h - 16) (inr body)) = Ok body).
  { rewrite Z. destruct body as [|b body]; [reflexivity|]. set (l := b :: body). assert (L : N.of_nat (length l) <> 0) by (unfold l; cbn [length]; lia).
    replace (16 + N.of_nat (length l) =? 16) with false by lia. unfold recv_body. replace (16 + N.of_nat (length l) - 16) with (N.of_nat (length l)) by lia.
    rewrite Nat2N.id, firstn_all. replace (N.of_nat (length l) =? 0) with false by lia. rewrite N.eqb_refl. reflexivity. }
  cbn [sv_step] in H. rewrite R, P in H. cbn [negb] in H. unfold run_iter, get_request in H. rewrite C, X in H. cbn [negb] in H. apply valid_hdr_iff in V. rewrite V in H. cbn [negb] in H.
  rewrite B, SE, NQ, Q in H. cbn [negb] in H. destruct (handle_request _ _ _) as [[[o2 s2] f2] e2]. destruct o2; injection H as <- <- <-; reflexivity.
Qed.
Lemma request_payload s en id cmd body fds : request s en id cmd body fds -> exists h, en_rx en = RxMsg h fds (inr body) /\ payload h (inr body) body /\ hd_cmd h = cmd.
Proof.
  intros [_ (h & X & V & W & E1 & E2 & Z) _ _ _]. exists h. split; [exact X|]. split; [|exact E2]. unfold payload. destruct body as [|b body].
  - left. split; [exact Z|reflexivity].
  - right. split; [rewrite Z; cbn [length]; lia|]. exists (b :: body). split; [reflexivity|]. split; [|rewrite Z; lia].
    rewrite Z. replace (16 + N.of_nat (length (b :: body)) - 16) with (N.of_nat (length (b :: body))) by lia. now rewrite Nat2N.id, firstn_all.
Qed.

(* A client unmaps a region and asks for its dirty pages.  The device is asked to be quiet first; what it has written to
   and marks in that callback is in the bitmap of the reply. *)
Theorem C73_marked_when_quiescing_partial : forall s0 hist s arr0 ev0 d k addr len l r a en id body fds argsz bsize i o s' ev,
  fresh s0 -> history s0 hist s arr0 ev0 -> Forall maps_ok hist -> cx_dma (sv_ctx s) = Some d -> dm_pgsize d = 2 ^ k -> k <= 63 ->
  range_ok addr len -> may_write d addr len l -> In r (dm_regions d) -> covers r a -> addr <= a < addr + len ->
  cx_quiesce (sv_ctx s) = true -> in_quiesce i = [AMark l] ->
  request s en id 3 body fds -> unmap_fields body argsz 1 (di_iova (rg_info r)) (di_len (rg_info r)) -> rd body 24 8 = Some (2 ^ k) -> rd body 32 8 = Some bsize ->
  bitmap_bytes (di_len (rg_info r)) (2 ^ k) bsize -> 40 + bsize <= argsz <= 1024 * 1024 ->
  step_in s (SRun en) i = (o, s', ev) -> (forall c, o <> Crash c) ->
  o = Ok 1 /\ exists bm, In (EvReply (mk_reply id 3 0 (firstn 40 body ++ bm) [])) ev /\ N.of_nat (length bm) = bsize /\ page_set bm ((a - di_iova (rg_info r)) / 2 ^ k).
Proof.
  intros s0 hist s arr0 ev0 d k addr len l r a en id body fds argsz bsize i o s' ev F H M0 D PG K63 RO MW Hr Ca Ra CQ IQ RQ UF A5 A6 BB Z ST NC.
  assert (RE : reachable s) by (exists s0, hist, arr0, ev0; auto).
  destruct (request_payload _ _ _ _ _ _ RQ) as (h & RX & PL & HC).
  destruct (C72_request _ _ _ _ _ _ _ _ _ _ RE RX PL (rq_send _ _ _ _ _ _ RQ) ST NC) as (before & t0 & evb & t1 & ev1 & later & evl & A & S1 & _ & IL & BF & _).
  assert (NQ : needs_quiesce (sv_ctx s) 3 body = true) by (unfold needs_quiesce; rewrite CQ, D; reflexivity).
  assert (BF2 : before = [AMark l]).
  { rewrite BF. destruct (existsb is_quiesce ev1) eqn:EQ; [exact IQ|]. rewrite BF in A. cbn [do_acts] in A. injection A as <- <-. rewrite (request_asks _ _ _ _ _ _ _ _ _ RQ NQ S1) in EQ. discriminate EQ. }
  rewrite BF2 in A. destruct (do_acts_ok _ _ _ _ _ A ltac:(discriminate)) as (_ & _ & T0 & SM).
  cbn [do_acts step_of] in A. destruct (sv_step s (SMark l)) as [[om sm] em] eqn:EM.
  assert (XM : (forall c, om <> Crash c) /\ sm = t0 /\ em = []).
  { cbn [sv_step] in EM. destruct (dev_mark s l) as [o9 s9]. injection EM as <- <- <-. destruct o9; [| |discriminate A]; injection A as <- <-; (split; [discriminate|auto]). }
  destruct XM as (NM & -> & ->).
  assert (HM : history s [SMark l] t0 (arrived s (SMark l) ++ []) ([] ++ [])) by (eapply h_cons; [exact EM|exact NM|constructor]).
  assert (RQ2 : request t0 en id 3 body fds).
  { destruct RQ as [(R & P & C) HD Q S MG]. constructor; try assumption; [rewrite T0; repeat split; assumption|]. rewrite (sm_mig _ _ SM). exact MG. }
  destruct (C59_write_in_unmap s0 hist s arr0 ev0 d k addr len l [] t0 _ _ r a en id body fds argsz bsize F H M0 (proj1 (proj2 (rq_serving _ _ _ _ _ _ RQ))) D PG K63 RO MW HM
    ltac:(constructor) ltac:(constructor) ltac:(cbn; auto) Hr Ca Ra RQ2 UF A5 A6 BB Z) as (s2 & bm & evu & (q & cl & _ & _ & _ & RS) & LB & PS).
  rewrite RS in S1. injection S1 as <- <- <-. split; [reflexivity|]. exists bm. split; [|auto].
  apply (il_in _ _ _ _ IL). left. rewrite !in_app_iff. right. right. now left.
Qed.
Print Assumptions C73_marked_when_quiescing_partial.
Definition ex_marks_quiescing : inside := mk_inside [AMark [mk_sg 65536 0 8192 8188 true]] (fun _ => []).
Example C73_quiescing_case : exists d r,
  cx_dma (sv_ctx ex_started) = Some d /\ dm_pgsize d = 2 ^ 12 /\ In r (dm_regions d) /\ covers r 81000 /\ cx_quiesce (sv_ctx ex_started) = true /\
  may_write d 73724 8192 [mk_sg 65536 0 8192 8188 true] /\ request ex_started (ex_ask 3 ex_unmap_bm []) 7 3 ex_unmap_bm [] /\
  unmap_fields ex_unmap_bm 48 1 (di_iova (rg_info r)) (di_len (rg_info r)) /\
  exists s' ev, step_in ex_started (SRun (ex_ask 3 ex_unmap_bm [])) ex_marks_quiescing = (Ok 1, s', ev) /\ regions_of s' = [] /\
    In (EvReply (mk_reply 7 3 0 (firstn 40 ex_unmap_bm ++ [14; 0; 0; 0; 0; 0; 0; 0]) [])) ev.
Proof.
  eexists _, _. split; [vm_compute; reflexivity|]. split; [vm_compute; reflexivity|]. split; [now left|]. split; [vm_compute; split; [discriminate|reflexivity]|]. split; [vm_compute; reflexivity|].
  split; [exists 0%nat, 4%nat, 2; eexists; split; [reflexivity|vm_compute; reflexivity]|].
  split; [constructor; [vm_compute; auto|eexists; split; [reflexivity|]; vm_compute; repeat split; auto; discriminate|reflexivity|reflexivity|vm_compute; split; discriminate]|].
  split; [constructor; vm_compute; try reflexivity; lia|]. eexists _, _. split; [vm_compute; reflexivity|]. split; [vm_compute; reflexivity|]. vm_compute. tauto.
Qed.

(* In the dma_unregister callback, in which the device has to give up what it still uses of the region, it is too late: the
   bitmap has been fetched.  The device marks the same pages there; the client is told that no page is dirty, and the region
   with its log is gone. *)
Definition ex_marks_unregister : inside := mk_inside [] (fun _ => [AMark [mk_sg 65536 0 8192 8188 true]]).
Theorem C73_marked_when_unregistering_refuted : exists s d r i en body s' ev bm,
  reachable s /\ cx_dma (sv_ctx s) = Some d /\ dm_pgsize d = 2 ^ 12 /\ nth_error (dm_regions d) 0 = Some r /\ covers r 81000 /\
  may_write d 73724 8192 [mk_sg 65536 0 8192 8188 true] /\ in_cb i 0 = [AMark [mk_sg 65536 0 8192 8188 true]] /\
  request s en 7 3 body [] /\ unmap_fields body 48 1 (di_iova (rg_info r)) (di_len (rg_info r)) /\
  step_in s (SRun en) i = (Ok 1, s', ev) /\ In (EvUnregister (rg_info r)) ev /\ regions_of s' = [] /\
  In (EvReply (mk_reply 7 3 0 (firstn 40 body ++ bm) [])) ev /\ ~ page_set bm ((81000 - di_iova (rg_info r)) / 2 ^ 12).
Proof.
  exists ex_started. eexists _, _, ex_marks_unregister, (ex_ask 3 ex_unmap_bm []), ex_unmap_bm, _, _, [0; 0; 0; 0; 0; 0; 0; 0].
  split.
  { destruct (history_run (ex_server true) (ex_steps ++ [SRun (ex_ask 16 ex_start [])]) ex_started (snd (sv_run (ex_server true) (ex_steps ++ [SRun (ex_ask 16 ex_start [])])))) as (arr & H);
      [vm_compute; reflexivity|vm_compute; repeat constructor|]. exists (ex_server true). eexists _, _, _. split; [apply ex_fresh|exact H]. }
  split; [vm_compute; reflexivity|]. split; [vm_compute; reflexivity|]. split; [vm_compute; reflexivity|]. split; [vm_compute; split; [discriminate|reflexivity]|].
  split; [exists 0%nat, 4%nat, 2; eexists; split; [reflexivity|vm_compute; reflexivity]|]. split; [reflexivity|].
  split; [constructor; [vm_compute; auto|eexists; split; [reflexivity|]; vm_compute; repeat split; auto; discriminate|reflexivity|reflexivity|vm_compute; split; discriminate]|].
  split; [constructor; vm_compute; try reflexivity; lia|].
  split; [vm_compute; reflexivity|]. split; [vm_compute; tauto|]. split; [vm_compute; reflexivity|]. split; [vm_compute; tauto|]. vm_compute. discriminate.
Qed.
Print Assumptions C73_marked_when_unregistering_refuted.

(* The devices of the last two theorems give the same reply as long as the quiesce callback does the same. *)
Example C72_replies_case :
  let r i := step_in ex_started (SRun (ex_ask 3 ex_unmap_bm [])) i in
  fst (fst (r ex_marks_unregister)) = Ok 1 /\ fst (fst (r idle)) = Ok 1 /\ length (filter is_reply (snd (r idle))) = 1%nat /\
  filter is_reply (snd (r ex_marks_quiescing)) <> filter is_reply (snd (r idle)) /\
  sv_step ex_started (SRun (ex_ask 3 ex_unmap_bm [])) = r idle.
Proof.
  cbv zeta. split; [vm_compute; reflexivity|]. split; [vm_compute; reflexivity|]. split; [vm_compute; reflexivity|]. split; [vm_compute; discriminate|vm_compute; reflexivity].
Qed.
