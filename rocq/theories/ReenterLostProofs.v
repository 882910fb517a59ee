(* What a device does in the callbacks made because the connection is lost has the effect of doing it just before. *)
From Coq Require Import NArith ZArith List Bool Lia ZifyBool ZifyNat ZifyN.
From Verif Require Import Base Types Bytes Dma Dirty Migr Irq Pci Handlers Server SpecServer ServerProofs PropServer Reenter SpecReenter ReenterProofs ReenterReach ReenterCfg ReenterCfgProofs ReenterLost.
Import ListNotations.
Open Scope N_scope.
Ltac Zify.zify_post_hook ::= idtac.

(* Specification: the callbacks of the given kinds among ev, and what is done in them.  When the reset callback is made the
   guest's memory is gone, and marks have no effect. *)
Definition is_unregister (e : event) : bool := match e with EvUnregister _ => true | _ => false end.
Definition is_reset (e : event) : bool := match e with EvReset _ => true | _ => false end.
Definition is_mark (a : act) : bool := match a with AMark _ => true | _ => false end.
Definition lost_acts (j : parting) (ev : list event) : list act :=
  (if existsb is_quiesce ev then pt_quiesce j else []) ++
  concat (map (pt_gone j) (seq 0 (length (filter is_unregister ev)))) ++
  (if existsb is_reset ev then filter (fun a => negb (is_mark a)) (pt_reset j) else []).

Lemma act_unclear c a o c2 ev : is_mark a = false -> act_ctx (clear_ctx c) a = (o, c2, ev) -> (forall cr, o <> Crash cr) ->
  exists c', act_ctx c a = (o, c', ev) /\ c2 = clear_ctx c'.
Proof.
  unfold clear_ctx at 1. destruct (cx_dma c) as [d|] eqn:D.
  - intros M H NC. unfold act_ctx in *. destruct a as [l|h|v x|off data]; [discriminate M|..]; cbn [step_of sv_step sv_ctx] in *.
    + unfold dev_hint in *. cbn [sv_ctx set_dma cx_dma] in *. rewrite D. injection H as <- <- <-. eexists. split; reflexivity.
    + cbn [cx_irqs set_dma] in H. destruct (cx_irqs c); [|injection H as <- <- <-; destruct (NC _ eq_refl)].
      cbn [set_dma cx_irq_cfg sv_ctx] in H. destruct (irq_trigger _ _ _) as [[u|e|cr] ev0]; injection H as <- <- <-; eexists; (split; [reflexivity|]); cbn [sv_ctx]; unfold clear_ctx; rewrite D; reflexivity.
    + unfold dev_poke in *. cbn [sv_ctx set_dma cx_pci] in *. destruct (put_slice _ _ _); injection H as <- <- <-; [|destruct (NC _ eq_refl)].
      eexists. split; [reflexivity|]. cbn [sv_ctx set_ctx]. unfold clear_ctx. cbn [set_pci cx_dma]. rewrite D. reflexivity.
  - intros _ H NC. exists c2. split; [exact H|]. pose proof (sm_layout _ _ (act_same _ _ _ _ _ H)) as L. unfold layout in L. rewrite D in L.
    unfold clear_ctx. destruct (cx_dma c2); [discriminate|reflexivity].
Qed.
Lemma mark_cleared c l o c2 ev : act_ctx (clear_ctx c) (AMark l) = (o, c2, ev) -> (forall cr, o <> Crash cr) -> o = Ok 0 /\ c2 = clear_ctx c /\ ev = [].
Proof.
  unfold clear_ctx. destruct (cx_dma c) as [d|] eqn:D; unfold act_ctx; cbn [step_of sv_step sv_ctx]; unfold dev_mark; cbn [sv_ctx set_dma cx_dma].
  - assert (N0 : sgl_mark_dirty (set_regions d []) l = Ok (set_regions d [])).
    { destruct l as [|x l]; cbn [sgl_mark_dirty dm_regions set_regions]; [reflexivity|]. destruct (sg_region x); reflexivity. }
    rewrite N0. intros H _. injection H as <- <- <-. split; [reflexivity|]. split; reflexivity.
  - rewrite D. intros H NC. injection H as <- <- <-. destruct (NC _ eq_refl).
Qed.
Lemma acts_unclear l : forall c c2 ev, acts_ctx (clear_ctx c) l = (Ok tt, c2, ev) ->
  exists c', acts_ctx c (filter (fun a => negb (is_mark a)) l) = (Ok tt, c', ev) /\ c2 = clear_ctx c'.
Proof.
  induction l as [|a l IH]; intros c c2 ev; cbn [acts_ctx filter].
  - intros H. injection H as <- <-. exists c. auto.
  - destruct (act_ctx (clear_ctx c) a) as [[o c1] ev1] eqn:A. intros H. assert (NC : forall cr, o <> Crash cr) by (intros cr ->; discriminate H).
    destruct (is_mark a) eqn:M; cbn [negb].
    + destruct a; try discriminate M. destruct (mark_cleared _ _ _ _ _ A NC) as (-> & -> & ->).
      destruct (acts_ctx (clear_ctx c) l) as [[o2 c3] ev2] eqn:E. injection H as -> <- <-. exact (IH _ _ _ E).
    + destruct (act_unclear _ _ _ _ _ M A NC) as (c' & A' & ->). cbn [acts_ctx]. rewrite A'.
      destruct o as [u|e|cr]; [| |destruct (NC _ eq_refl)]; destruct (acts_ctx (clear_ctx c') l) as [[o2 c3] ev2] eqn:E; injection H as -> <- <-;
        destruct (IH _ _ _ E) as (c4 & E4 & ->); rewrite E4; eauto.
Qed.

Lemma release_all_layout cb : forall rs rs', map (fun r => (rg_info r, rg_fd r, rg_off r)) rs' = map (fun r => (rg_info r, rg_fd r, rg_off r)) rs -> release_all cb rs' = release_all cb rs.
Proof.
  induction rs as [|r rs IH]; intros [|r' rs'] H; try discriminate H; [reflexivity|]. cbn [map] in H. injection H as H1 H2 H3 H4. cbn [release_all].
  rewrite (release_same cb _ _ H1 H2), (IH _ H4). reflexivity.
Qed.
Lemma release_region_kinds cb r ev : release_region cb r = Ok ev -> length (filter is_unregister ev) = (if cb then 1 else 0)%nat /\ existsb is_quiesce ev = false /\ existsb is_reset ev = false.
Proof.
  unfold release_region. intros H. destruct (di_vaddr (rg_info r)); destruct (rg_fd r =? -1)%Z; try discriminate H; injection H as <-; destruct cb; unfold close_ev; try destruct (rg_fd r =? -1)%Z; auto.
Qed.
Lemma release_all_kinds cb : forall rs ev, release_all cb rs = Ok ev -> length (filter is_unregister ev) = (if cb then length rs else 0%nat) /\ existsb is_quiesce ev = false /\ existsb is_reset ev = false.
Proof.
  induction rs as [|r rs IH]; intros ev; cbn [release_all length]; [intros H; injection H as <-; destruct cb; auto|].
  destruct (release_region cb r) as [e1|e|c] eqn:E; try discriminate. destruct (release_all cb rs) as [e2|e|c] eqn:E2; try discriminate. intros H. injection H as <-.
  destruct (release_region_kinds _ _ _ E) as (A1 & A2 & A3). destruct (IH _ eq_refl) as (B1 & B2 & B3). rewrite filter_app, app_length, !existsb_app, A1, A2, A3, B1, B2, B3. destruct cb; auto.
Qed.
Lemma closes_kinds l : filter is_unregister (close_all l) = [] /\ existsb is_quiesce (close_all l) = false /\ existsb is_reset (close_all l) = false.
Proof.
  induction l as [|f l (I1 & I2 & I3)]; [auto|]. unfold close_all in *. cbn [flat_map]. rewrite filter_app, !existsb_app, I1, I2, I3, app_nil_r, !orb_false_r. unfold close_ev. destruct (_ =? _)%Z; auto.
Qed.
Lemma disable_kinds n : forall t index i o t' ev, disable_loop t index i n = (o, t', ev) -> filter is_unregister ev = [] /\ existsb is_quiesce ev = false /\ existsb is_reset ev = false.
Proof.
  induction n as [|n IH]; intros t index i o t' ev; cbn [disable_loop]; [intros H; injection H as <- <- <-; auto|].
  repeat match goal with |- context [match ?x with _ => _ end] => destruct x eqn:?E end; intros H; injection H as <- <- <-; auto;
  match goal with E : disable_loop _ _ _ _ = _ |- _ => destruct (IH _ _ _ _ _ _ E) as (I1 & I2 & I3) end;
  rewrite ?filter_app, ?existsb_app, ?I1, ?I2, ?I3; unfold close_ev; try destruct (_ =? _)%Z; auto.
Qed.
Lemma irqs_disable_kinds c t i a b o t' ev : irqs_disable c t i a b = (o, t', ev) -> filter is_unregister ev = [] /\ existsb is_quiesce ev = false /\ existsb is_reset ev = false.
Proof.
  unfold irqs_disable. repeat match goal with |- context [match ?x with _ => _ end] => destruct x eqn:?E end; intros H;
  first [exact (disable_kinds _ _ _ _ _ _ _ H)|injection H as <- <- <-; auto].
Qed.
Lemma irqs_reset_kinds c t o t' ev : irqs_reset c t = (o, t', ev) -> filter is_unregister ev = [] /\ existsb is_quiesce ev = false /\ existsb is_reset ev = false.
Proof.
  unfold irqs_reset. destruct (irqs_disable c t IRQ_REQ 0 0) as [[o1 t1] e1] eqn:E1. destruct (irqs_disable_kinds _ _ _ _ _ _ _ _ E1) as (A1 & A2 & A3).
  destruct o1; [|intros H; injection H as <- <- <-; auto..]. destruct (irqs_disable c t1 IRQ_ERR 0 0) as [[o2 t2] e2] eqn:E2. destruct (irqs_disable_kinds _ _ _ _ _ _ _ _ E2) as (B1 & B2 & B3).
  destruct (closes_kinds (iq_efds t2)) as (C1 & C2 & C3).
  destruct o2; intros H; injection H as <- <- <-; rewrite !filter_app, !existsb_app, A1, A2, A3, B1, B2, B3, ?C1, ?C2, ?C3; auto.
Qed.

Lemma reset_quiesced_before s lost j o s' ev : reset_ctx_quiesced_in s lost j = (o, s', ev) -> (forall c, o <> Crash c) ->
  exists s0 evb ev1, do_acts s (lost_acts j ev1) = (Ok tt, s0, evb) /\ reset_ctx_quiesced s0 lost = (o, s', ev1) /\ interleaved ev1 evb ev /\ existsb is_quiesce ev1 = false.
Proof.
  unfold reset_ctx_quiesced_in. intros H NC.
  (* the regions *)
  assert (P1 : exists c1 eva evr, acts_ctx (sv_ctx s) (concat (map (pt_gone j) (seq 0 (length (filter is_unregister evr))))) = (Ok tt, c1, eva) /\
    remove_all_in s (mk_inside [] (pt_gone j)) = (Ok tt, set_ctx s (clear_ctx c1), snd (remove_all_in s (mk_inside [] (pt_gone j)))) /\
    interleaved evr eva (snd (remove_all_in s (mk_inside [] (pt_gone j)))) /\ existsb is_quiesce evr = false /\ existsb is_reset evr = false /\
    forall c', same c1 c' -> match cx_dma c' with Some d => remove_all_regions (cx_unregister c') d = (Ok evr, set_regions d []) | None => evr = [] end).
  { destruct (remove_all_in s (mk_inside [] (pt_gone j))) as [[o1 s1] ev1] eqn:R. cbn [snd].
    assert (N1 : forall c, o1 <> Crash c) by (intros c ->; injection H as <- <- <-; exact (NC _ eq_refl)).
    unfold remove_all_in in R. destruct (cx_dma (sv_ctx s)) as [d|] eqn:D.
    - destruct (release_all_in s (cx_unregister (sv_ctx s)) 0 (dm_regions d) (mk_inside [] (pt_gone j))) as [[o2 s2] ev2] eqn:RA.
      assert (N2 : forall c, o2 <> Crash c) by (intros c ->; injection R as <- <- <-; exact (N1 _ eq_refl)).
      destruct (release_all_after _ _ _ _ _ _ _ _ RA N2) as (-> & evr & eva & RL & A & S2 & IL & LC). cbn [in_cb] in A. injection R as <- <- <-.
      destruct (release_all_kinds _ _ _ RL) as (K1 & K2 & K3). exists (sv_ctx s2), eva, evr. rewrite K1. split; [exact A|]. split; [|split; [exact IL|split; [exact K2|split; [exact K3|]]]].
      + unfold clear_ctx. destruct (cx_dma (sv_ctx s2)); [rewrite S2 at 1; cbn [sv_ctx set_ctx]; rewrite set_ctx_twice; reflexivity|now rewrite S2 at 1].
      + intros c' SM. pose proof (same_trans _ _ _ (acts_same _ _ _ _ _ A) SM) as SM2. pose proof (sm_layout _ _ SM2) as LY. unfold layout in LY. rewrite D in LY.
        destruct (cx_dma c') as [d'|]; [|discriminate LY]. injection LY as _ _ _ LY. unfold remove_all_regions. rewrite (sm_unregister _ _ SM2), (release_all_layout _ _ _ LY), RL. reflexivity.
    - injection R as <- <- <-. exists (sv_ctx s), [], []. cbn [filter length seq map concat acts_ctx]. split; [reflexivity|]. split; [unfold clear_ctx; rewrite D, set_ctx_eta; reflexivity|].
      split; [constructor|]. split; [reflexivity|]. split; [reflexivity|]. intros c' SM. pose proof (sm_layout _ _ SM) as LY. unfold layout in LY. rewrite D in LY. destruct (cx_dma c'); [discriminate|reflexivity]. }
  destruct P1 as (c1 & eva & evr & A & R & IR & Q0 & R0 & RM). rewrite R in H. set (evx := snd (remove_all_in s (mk_inside [] (pt_gone j)))) in *. clearbody evx. clear R.
  (* the reset callback *)
  destruct (device_reset_in (set_ctx s (clear_ctx c1)) lost ResetLostConn (mk_inside [] (fun _ => pt_reset j))) as [[o2 s2] ev2] eqn:DR.
  assert (N2 : forall c, o2 <> Crash c) by (intros c ->; injection H as <- <- <-; exact (NC _ eq_refl)).
  assert (P2 : exists c' evb ev3 c2, acts_ctx c1 (if existsb is_reset ev3 then filter (fun a => negb (is_mark a)) (pt_reset j) else []) = (Ok tt, c', evb) /\
    device_reset (clear_ctx c') lost ResetLostConn = (o2, c2, ev3) /\ s2 = set_ctx s c2 /\ interleaved ev3 evb ev2 /\ existsb is_quiesce ev3 = false /\ filter is_unregister ev3 = [] /\
    same c1 c').
  { assert (CR : forall c, cx_reset (clear_ctx c) = cx_reset c) by (intros c; unfold clear_ctx; destruct (cx_dma c); reflexivity).
    assert (CM : forall c, cx_mig (clear_ctx c) = cx_mig c) by (intros c; unfold clear_ctx; destruct (cx_dma c); reflexivity).
    unfold device_reset_in in DR. cbn [sv_ctx set_ctx in_cb] in DR. rewrite CR in DR. destruct (cx_reset c1) eqn:CX.
    - rewrite acts_frame in DR. cbn [sv_ctx set_ctx] in DR. destruct (acts_ctx (clear_ctx c1) (pt_reset j)) as [[oa ca] evb] eqn:AB.
      assert (NA : forall c, oa <> Crash c) by (intros c ->; injection DR as <- <- <-; exact (N2 _ eq_refl)).
      pose proof (acts_ok _ _ _ _ _ AB NA) as ->. destruct (acts_unclear _ _ _ _ AB) as (c' & A' & ->). pose proof (acts_same _ _ _ _ _ A') as SM.
      exists c', evb, [EvReset ResetLostConn]. unfold device_reset. rewrite CR, (sm_reset _ _ SM), CX. cbn [sv_ctx set_ctx] in DR.
      destruct lost as [e|]; injection DR as <- <- <-; eexists; (split; [exact A'|]; split; [reflexivity|]; split; [reflexivity|]; split; [apply il_left, il_right_all|]; split; [reflexivity|]; split; [reflexivity|exact SM]).
    - injection DR as <- <- <-. exists c1, [], []. unfold device_reset. rewrite CR, CX. eexists. split; [reflexivity|]. split; [reflexivity|]. split; [reflexivity|]. split; [constructor|]. split; [reflexivity|].
      split; [reflexivity|apply same_refl]. }
  destruct P2 as (c' & evb & ev3 & c2 & B & DV & -> & I3 & Q3 & U3 & SM). cbn [sv_ctx set_ctx] in H.
  (* the interrupts *)
  destruct (match cx_irqs c2 with None => (Ok tt, c2, []) | Some t => let '(r, t', ev0) := irqs_reset (cx_irq_cfg c2) t in (r, set_irqt c2 t', ev0) end) as [[r4 c4] ev4] eqn:IQ.
  assert (K4 : filter is_unregister ev4 = [] /\ existsb is_quiesce ev4 = false /\ existsb is_reset ev4 = false).
  { destruct (cx_irqs c2) as [t|]; [|injection IQ as <- <- <-; auto]. destruct (irqs_reset (cx_irq_cfg c2) t) as [[r5 t5] e5] eqn:E5. injection IQ as <- <- <-. exact (irqs_reset_kinds _ _ _ _ _ E5). }
  destruct K4 as (U4 & Q4 & R4).
  assert (REF : exists ev1, reset_ctx_quiesced (set_ctx s c') lost = (o, s', ev1) /\ interleaved ev1 (eva ++ evb) ev /\ existsb is_quiesce ev1 = false /\
    length (filter is_unregister ev1) = length (filter is_unregister evr) /\ existsb is_reset ev1 = existsb is_reset ev3).
  { unfold reset_ctx_quiesced. cbn [sv_ctx set_ctx]. specialize (RM _ SM).
    assert (X : (match cx_dma c' with Some d => let '(r, d') := remove_all_regions (cx_unregister c') d in (r, set_dma c' d' (cx_hint c')) | None => (Ok [], c') end) = (Ok evr, clear_ctx c')).
    { unfold clear_ctx. destruct (cx_dma c') as [d'|]; [rewrite RM; reflexivity|rewrite RM; reflexivity]. }
    rewrite X, DV, IQ.
    assert (F : forall tl, filter is_unregister tl = [] -> existsb is_quiesce tl = false -> existsb is_reset tl = false ->
      interleaved (evr ++ ev3 ++ tl) (eva ++ evb) (evx ++ ev2 ++ tl) /\ existsb is_quiesce (evr ++ ev3 ++ tl) = false /\
      length (filter is_unregister (evr ++ ev3 ++ tl)) = length (filter is_unregister evr) /\ existsb is_reset (evr ++ ev3 ++ tl) = existsb is_reset ev3).
    { intros tl T1 T2 T3. split; [|rewrite !existsb_app, !filter_app, Q0, R0, Q3, U3, T1, T2, T3, !app_nil_r, !orb_false_r; auto].
      apply il_app; [exact IR|]. rewrite <- (app_nil_r evb). apply il_app; [exact I3|apply il_left_all]. }
    destruct o2 as [[]|e2|cr2]; [| |destruct (N2 _ eq_refl)]; (destruct r4 as [[]|e4|cr4]; injection H as <- <- <-; eexists; (split; [reflexivity|]); apply F; rewrite ?filter_app, ?existsb_app, ?U4, ?Q4, ?R4; auto). }
  destruct REF as (ev1 & RQ & IL & QN & UN & RN). exists (set_ctx s c'), (eva ++ evb), ev1. split; [|auto].
  unfold lost_acts. rewrite QN, UN, RN. cbn [app]. rewrite acts_frame. pose proof (acts_app _ _ (if existsb is_reset ev3 then filter (fun a => negb (is_mark a)) (pt_reset j) else []) _ _ A) as AP. rewrite B in AP. rewrite AP. reflexivity.
Qed.

Lemma do_acts_app l1 l2 s s1 ev1 : do_acts s l1 = (Ok tt, s1, ev1) -> do_acts s (l1 ++ l2) = let '(o, s2, ev2) := do_acts s1 l2 in (o, s2, ev1 ++ ev2).
Proof.
  rewrite !acts_frame. destruct (acts_ctx (sv_ctx s) l1) as [[o c1] e1] eqn:A. intros H. injection H as -> <- <-. rewrite (acts_app _ _ l2 _ _ A). cbn [sv_ctx set_ctx].
  destruct (acts_ctx c1 l2) as [[o2 c2] e2]. reflexivity.
Qed.

Lemma reset_before s q lost j o s' ev : reset_ctx_in s q lost j = (o, s', ev) -> (forall c, o <> Crash c) ->
  exists s0 evb ev1, do_acts s (lost_acts j ev1) = (Ok tt, s0, evb) /\ reset_ctx s0 q lost = (o, s', ev1) /\ interleaved ev1 evb ev.
Proof.
  unfold reset_ctx_in. intros H NC. destruct (cx_quiesce (sv_ctx s) && match sv_pending s with PNone => true | _ => false end) eqn:CQ.
  - destruct (do_acts s (pt_quiesce j)) as [[oa s1] eva] eqn:A.
    assert (NA : forall c, oa <> Crash c) by (intros c ->; injection H as <- <- <-; exact (NC _ eq_refl)).
    destruct (do_acts_ok _ _ _ _ _ A NA) as (-> & _ & S1 & SM).
    destruct q as [e|].
    + injection H as <- <- <-. exists s1, eva, [EvQuiesce (Some e)]. split; [unfold lost_acts; cbn [existsb is_quiesce is_reset orb filter is_unregister length seq map concat app]; rewrite app_nil_r; exact A|].
      split; [|apply il_left, il_right_all]. unfold reset_ctx. replace (cx_quiesce (sv_ctx s1)) with (cx_quiesce (sv_ctx s)) by (symmetry; apply (sm_quiesce _ _ SM)).
      replace (sv_pending s1) with (sv_pending s) by (rewrite S1; reflexivity). rewrite CQ. reflexivity.
    + destruct (reset_ctx_quiesced_in s1 lost j) as [[r s2] ev2] eqn:R. injection H as <- <- <-.
      destruct (reset_quiesced_before _ _ _ _ _ _ R NC) as (s0 & evb & ev1 & A0 & R0 & IL & QN).
      destruct (do_acts_ok _ _ _ _ _ A0 ltac:(discriminate)) as (_ & _ & S0 & SM0).
      exists s0, (eva ++ evb), (EvQuiesce None :: ev1). split; [|split].
      * unfold lost_acts in *. rewrite QN in A0. cbn [existsb is_quiesce is_reset orb filter is_unregister app] in *. rewrite (do_acts_app _ _ _ _ _ A), A0. reflexivity.
      * unfold reset_ctx. rewrite (sm_quiesce _ _ SM0), (sm_quiesce _ _ SM). replace (sv_pending s0) with (sv_pending s) by (rewrite S0, S1; reflexivity). rewrite CQ, R0. reflexivity.
      * apply il_left. apply il_skip. exact IL.
  - destruct (reset_quiesced_before _ _ _ _ _ _ H NC) as (s0 & evb & ev1 & A0 & R0 & IL & QN). exists s0, evb, ev1. split; [exact A0|]. split; [|exact IL].
    destruct (do_acts_ok _ _ _ _ _ A0 ltac:(discriminate)) as (_ & _ & S0 & SM0). unfold reset_ctx. rewrite (sm_quiesce _ _ SM0). replace (sv_pending s0) with (sv_pending s) by (rewrite S0; reflexivity).
    rewrite CQ. exact R0.
Qed.

Lemma do_reply_before s en h err body fds j o s' ev : do_reply_in s en h err body fds j = (o, s', ev) -> (forall c, o <> Crash c) ->
  exists l s0 evb ev1, do_acts s l = (Ok tt, s0, evb) /\ do_reply s0 en h err body fds = (o, s', ev1) /\ interleaved ev1 evb ev /\ (loses en h = false -> l = []) /\ (loses en h = true -> l = lost_acts j ev1).
Proof.
  unfold do_reply_in, do_reply, loses. intros H NC. destruct (has (hd_flags h) F_NO_REPLY); cbn [negb andb].
  - injection H as <- <- <-. exists [], s, [], []. split; [reflexivity|]. split; [reflexivity|]. split; [constructor|]. split; [reflexivity|discriminate].
  - destruct (en_send en) as [e|].
    + destruct ((e =? ECONNRESET) || (e =? ENOMSG)).
      * destruct (reset_before _ _ _ _ _ _ _ H NC) as (s0 & evb & ev1 & A & R & IL). exists (lost_acts j ev1), s0, evb, ev1. split; [exact A|]. split; [exact R|]. split; [exact IL|]. split; [discriminate|auto].
      * injection H as <- <- <-. exists [], s, [], []. split; [reflexivity|]. split; [reflexivity|]. split; [constructor|]. split; [reflexivity|discriminate].
    + injection H as <- <- <-. exists [], s, []. eexists. split; [reflexivity|]. split; [reflexivity|]. split; [apply il_left_all|]. split; [auto|discriminate].
Qed.
Lemma refuse_before s en h fds err j g s' ev : refuse_in s en h fds err j = (g, s', ev) -> (forall c, g <> GotCrash c) ->
  exists l s0 evb ev1, do_acts s l = (Ok tt, s0, evb) /\ refuse s0 en h fds err = (g, s', ev1) /\ interleaved ev1 evb ev.
Proof.
  unfold refuse_in, refuse. destruct (do_reply_in s en h err [] [] j) as [[o s1] ev1] eqn:R. intros H NC.
  assert (NO : forall c, o <> Crash c) by (intros c ->; injection H as <- <- <-; exact (NC _ eq_refl)).
  destruct (do_reply_before _ _ _ _ _ _ _ _ _ _ R NO) as (l & s0 & evb & ev2 & A & D & IL & _). exists l, s0, evb. rewrite D. injection H as <- <- <-. eexists. split; [exact A|]. split; [reflexivity|].
  rewrite <- (app_nil_r evb). apply il_app; [exact IL|apply il_left_all].
Qed.

(* A message that reaches its handler is received as in Reenter.v; otherwise what is done is done before. *)
Lemma get_lost s en i j g s1 ev1 : get_request_lost s en i j = (g, s1, ev1) -> (forall c, g <> GotCrash c) ->
  exists l s0 evb evq, do_acts s l = (Ok tt, s0, evb) /\ get_request s0 en = (g, s1, evq) /\ interleaved evq evb ev1.
Proof.
  intros H NC. unfold get_request_lost in H.
  assert (SAME : forall s0 evb l, do_acts s l = (Ok tt, s0, evb) -> sv_conn s0 = sv_conn s /\ cx_mig (sv_ctx s0) = cx_mig (sv_ctx s) /\ forall cmd body, needs_quiesce (sv_ctx s0) cmd body = needs_quiesce (sv_ctx s) cmd body).
  { intros s0 evb l A. destruct (do_acts_ok _ _ _ _ _ A ltac:(discriminate)) as (_ & _ & S0 & SM). split; [rewrite S0; reflexivity|]. split; [exact (sm_mig _ _ SM)|]. intros cmd body. exact (needs_same _ _ _ _ SM). }
  destruct (negb (sv_conn s)) eqn:CN.
  { injection H as <- <- <-. exists [], s, [], []. split; [reflexivity|]. split; [unfold get_request; rewrite CN; reflexivity|constructor]. }
  destruct (en_rx en) as [e|h fds rb] eqn:RX.
  - destruct ((e =? ENOMSG) || (e =? ECONNRESET)) eqn:EE.
    + destruct (reset_ctx_in s (en_quiesce_reset en) (en_lost en) j) as [[o s2] ev2] eqn:R. injection H as <- <- <-.
      assert (NO : forall c, o <> Crash c) by (intros c ->; exact (NC _ eq_refl)). destruct (reset_before _ _ _ _ _ _ _ R NO) as (s0 & evb & ev3 & A & RR & IL).
      exists (lost_acts j ev3), s0, evb, ev3. split; [exact A|]. split; [|exact IL]. destruct (SAME _ _ _ A) as (C0 & _). unfold get_request. rewrite C0, CN, RX, EE, RR. reflexivity.
    + injection H as <- <- <-. exists [], s, [], []. split; [reflexivity|]. split; [unfold get_request; rewrite CN, RX, EE; reflexivity|constructor].
  - assert (RFU : forall e, (forall s0, sv_conn s0 = sv_conn s -> cx_mig (sv_ctx s0) = cx_mig (sv_ctx s) -> (forall cmd body, needs_quiesce (sv_ctx s0) cmd body = needs_quiesce (sv_ctx s) cmd body) ->
        get_request s0 en = refuse s0 en h fds e) -> refuse_in s en h fds e j = (g, s1, ev1) ->
      exists l s0 evb evq, do_acts s l = (Ok tt, s0, evb) /\ get_request s0 en = (g, s1, evq) /\ interleaved evq evb ev1).
    { intros e GE R. destruct (refuse_before _ _ _ _ _ _ _ _ _ R NC) as (l & s0 & evb & ev2 & A & RR & IL). exists l, s0, evb, ev2. split; [exact A|]. split; [|exact IL].
      destruct (SAME _ _ _ A) as (X1 & X2 & X3). rewrite GE by assumption. exact RR. }
    destruct (negb (is_valid_header h)) eqn:VH.
    { apply (RFU EINVAL); [|exact H]. intros s0 X1 X2 X3. unfold get_request. rewrite X1, CN, RX, VH. reflexivity. }
    destruct (if hd_size h =? 16 then Ok [] else recv_body (hd_size h - 16) rb) as [body|e|cr] eqn:RB; [| |injection H as <- <- <-; destruct (NC _ eq_refl)].
    2: { apply (RFU e); [|exact H]. intros s0 X1 X2 X3. unfold get_request. rewrite X1, CN, RX, VH, RB. reflexivity. }
    destruct (negb (should_exec (cx_mig (sv_ctx s)) (hd_cmd h))) eqn:SE.
    { apply (RFU EINVAL); [|exact H]. intros s0 X1 X2 X3. unfold get_request. rewrite X1, CN, RX, VH, RB, X2, SE. reflexivity. }
    clear RFU. destruct (needs_quiesce (sv_ctx s) (hd_cmd h) body) eqn:NQ.
    2: { injection H as <- <- <-. exists [], s, [], []. split; [reflexivity|]. split; [unfold get_request; rewrite CN, RX, VH, RB, SE, NQ; reflexivity|constructor]. }
    destruct (do_acts s (in_quiesce i)) as [[oa s2] eva] eqn:A.
    assert (NA : forall c, oa <> Crash c) by (intros c ->; injection H as <- <- <-; destruct (NC _ eq_refl)).
    destruct (do_acts_ok _ _ _ _ _ A NA) as (-> & _ & _ & _).
    destruct (en_quiesce en) as [e|] eqn:QE.
    + destruct (e =? EBUSY) eqn:EB.
      * injection H as <- <- <-. exists (in_quiesce i), s2, eva. eexists. split; [exact A|]. destruct (SAME _ _ _ A) as (X1 & X2 & X3).
        split; [unfold get_request; rewrite X1, CN, RX, VH, RB, X2, SE, X3, NQ, QE, EB; reflexivity|apply il_left, il_right_all].
      * destruct (refuse_in s2 en h fds e j) as [[g0 s3] ev3] eqn:R. injection H as <- <- <-.
        destruct (refuse_before _ _ _ _ _ _ _ _ _ R NC) as (l & s0 & evb & ev2 & A2 & RR & IL).
        assert (A3 : do_acts s (in_quiesce i ++ l) = (Ok tt, s0, eva ++ evb)) by (rewrite (do_acts_app _ _ _ _ _ A), A2; reflexivity).
        exists (in_quiesce i ++ l), s0, (eva ++ evb), (EvQuiesce (Some e) :: ev2). split; [exact A3|]. destruct (SAME _ _ _ A3) as (X1 & X2 & X3).
        split; [unfold get_request; rewrite X1, CN, RX, VH, RB, X2, SE, X3, NQ, QE, EB, RR; reflexivity|]. apply il_left, il_skip. exact IL.
    + injection H as <- <- <-. exists (in_quiesce i), s2, eva. eexists. split; [exact A|]. destruct (SAME _ _ _ A) as (X1 & X2 & X3).
      split; [unfold get_request; rewrite X1, CN, RX, VH, RB, X2, SE, X3, NQ, QE; reflexivity|apply il_left, il_right_all].
Qed.

Lemma handle_lost s en m i j o s' fds' ev' : handle_request_lost s en m i j = (o, s', fds', ev') -> (forall c, o <> Crash c) ->
  exists err body fds sa eva, dispatch_all s (en_or en) (hd_cmd (mg_hdr m)) (mg_body m) (mg_fds m) i = (HReply err body fds, sa, fds', eva) /\
    exists l2 sb evb ev2 ev3, do_acts sa l2 = (Ok tt, sb, evb) /\ do_reply sb en (mg_hdr m) err body fds = (o, s', ev2) /\ interleaved ev2 evb ev3 /\ ev' = eva ++ ev3.
Proof.
  unfold handle_request_lost. destruct (dispatch_all _ _ _ _ _ _) as [[[r sa] f1] eva] eqn:D. intros H NC. destruct r as [err body fds|cr]; [|injection H as <- <- <- <-; destruct (NC _ eq_refl)].
  destruct (do_reply_in sa en (mg_hdr m) err body fds j) as [[o2 s2] ev2] eqn:R. injection H as <- <- <- <-.
  destruct (do_reply_before _ _ _ _ _ _ _ _ _ _ R NC) as (l2 & sb & evb & ev3 & A2 & RR & IL & _).
  exists err, body, fds, sa, eva. split; [reflexivity|]. exists l2, sb, evb, ev3, ev2. auto.
Qed.

(* The state after the request itself, before its reply: the device's calls after a request whose callbacks do nothing, or,
   for an access to a region, stores to configuration space and the device's calls alone. *)
Lemma dispatched s en m i err body fds sa fds' eva : dispatch_all s (en_or en) (hd_cmd (mg_hdr m)) (mg_body m) (mg_fds m) i = (HReply err body fds, sa, fds', eva) ->
  sa = set_ctx s (sv_ctx sa) /\ exists l evl, acts_ctx (sv_ctx s) l = (Ok tt, sv_ctx sa, evl) \/
    exists r c1 f ev, dispatch (sv_ctx s) (en_or en) (hd_cmd (mg_hdr m)) (mg_body m) (mg_fds m) = (r, c1, f, ev) /\ (forall c, r <> HCrash c) /\ acts_ctx c1 l = (Ok tt, sv_ctx sa, evl).
Proof.
  intros D. destruct (accesses (hd_cmd (mg_hdr m))) eqn:AC.
  - destruct (dispatch_all_acts _ _ _ _ _ _ _ _ _ _ AC D ltac:(discriminate)) as (l & evl & A). destruct (do_acts_ok _ _ _ _ _ A ltac:(discriminate)) as (_ & A1 & A2 & _). split; [exact A2|eauto].
  - rewrite (dispatch_all_other _ _ _ _ _ _ AC) in D. destruct (dispatch_done _ _ _ _ _ _ _ _ _ _ D ltac:(discriminate)) as (c1 & ev & l & E & (evx & A1 & A2 & _) & _). split; [exact A2|].
    exists l, evx. right. do 4 eexists. split; [exact E|]. split; [discriminate|exact A1].
Qed.
Lemma got_ctx s en m s1 ev : get_request s en = (GotMsg m, s1, ev) -> s1 = s \/ s1 = set_quiesced s true.
Proof.
  assert (RF : forall en h fds e ev, refuse s en h fds e <> (GotMsg m, s1, ev)).
  { intros en0 h fds e ev0 X. unfold refuse in X. destruct (do_reply s en0 h e [] []) as [[[|e2|c2] s2] e3]; discriminate X. }
  unfold get_request. destruct (negb (sv_conn s)); [discriminate|]. destruct (en_rx en) as [e|h fds rb].
  - destruct (_ || _); [destruct (reset_ctx _ _ _) as [[[|e2|c2] s2] e3]|]; discriminate.
  - destruct (negb (is_valid_header h)); [intros X; destruct (RF _ _ _ _ _ X)|]. destruct (if hd_size h =? 16 then _ else _); [|intros X; destruct (RF _ _ _ _ _ X)|discriminate].
    destruct (negb (should_exec _ _)); [intros X; destruct (RF _ _ _ _ _ X)|]. destruct (needs_quiesce _ _ _); [|intros X; injection X as _ <- _; left; reflexivity].
    destruct (en_quiesce en) as [e|]; [|intros X; injection X as _ <- _; right; reflexivity].
    destruct (e =? EBUSY); [discriminate|]. destruct (refuse s en h fds e) as [[g s2] e3] eqn:X. intros Y. injection Y as -> -> _. destruct (RF _ _ _ _ _ X).
Qed.

Lemma reach_run_lost s en i j o s' ev : reachable s -> step_lost s (SRun en) i j = (o, s', ev) -> (forall c, o <> Crash c) -> reachable s'.
Proof.
  intros R H NC. cbn [step_lost] in H. destruct (sv_realized s) eqn:RZ; cbn [negb] in H; [|injection H as <- <- <-; exact R].
  destruct (sv_pending s) eqn:PN; [|injection H as <- <- <-; exact R..]. unfold run_iter_lost in H. destruct (get_request_lost s en i j) as [[g s1] ev1] eqn:G.
  assert (NG : forall c, g <> GotCrash c) by (intros c ->; injection H as <- <- <-; exact (NC _ eq_refl)).
  destruct (get_lost _ _ _ _ _ _ _ G NG) as (pre & s0 & eva & evq & A & GR & _).
  pose proof (reach_acts _ _ _ _ R A) as R0. destruct (do_acts_ok _ _ _ _ _ A ltac:(discriminate)) as (_ & _ & S0 & _).
  assert (RZ0 : sv_realized s0 = true) by (rewrite S0; exact RZ). assert (PN0 : sv_pending s0 = PNone) by (rewrite S0; exact PN).
  destruct g as [m|e|c]; [| |destruct (NG _ eq_refl)].
  - destruct (get_msg_sends _ _ _ _ _ GR) as (GS & CN1 & PN1 & RZ1). rewrite PN0 in PN1. rewrite RZ0 in RZ1.
    destruct (handle_request_lost s1 en m i j) as [[[o2 s2] fds'] ev2] eqn:HR.
    assert (N2 : forall c, o2 <> Crash c) by (intros c ->; injection H as <- <- <-; exact (NC _ eq_refl)).
    destruct (handle_lost _ _ _ _ _ _ _ _ _ HR N2) as (err & body & fds & sa & evs & D & l2 & sb & evb & ev4 & ev5 & A3 & RP & _).
    destruct (dispatched _ _ _ _ _ _ _ _ _ _ D) as (A2 & l & evx & DD).
    assert (R2 : reachable (set_quiesced sa false)).
    { destruct DD as [A1|(r & c1 & f & ev3 & E & NR & A1)].
      - assert (E1 : set_quiesced s1 false = s0).
        { destruct (reachable_sinv _ R0) as (_ & QF & _). destruct (got_ctx _ _ _ _ _ GR) as [->| ->]; clear - QF; destruct s0 as [a b c d e]; cbn in QF; subst c; reflexivity. }
        apply (acts_server (set_quiesced s1 false)) in A1. replace (set_ctx (set_quiesced s1 false) (sv_ctx s1)) with (set_quiesced s1 false) in A1 by (destruct s1; reflexivity). rewrite E1 in A1 at 1.
        eapply reach_acts in A1; [|exact R0]. rewrite A2. exact A1.
      - destruct (sent_handle _ _ _ _ _ _ _ E NR) as (ev6 & HS).
        assert (R1 : reachable (set_quiesced (set_ctx s1 c1) false)).
        { eapply (reachable_step _ (SRun (sends en)) (Ok 1)); [exact R0| |discriminate]. cbn [sv_step]. rewrite RZ0, PN0. cbn [negb]. unfold run_iter. rewrite GS, HS. reflexivity. }
        apply (acts_server (set_quiesced s1 false)) in A1. eapply reach_acts in A1; [|exact R1]. rewrite A2. exact A1. }
    destruct (do_acts_ok _ _ _ _ _ A3 ltac:(discriminate)) as (_ & A4 & SB & _).
    assert (R3 : reachable (set_quiesced sb false)).
    { apply (acts_server (set_quiesced sa false)) in A4. replace (set_ctx (set_quiesced sa false) (sv_ctx sa)) with (set_quiesced sa false) in A4 by (destruct sa; reflexivity). eapply reach_acts in A4; [|exact R2]. rewrite SB. exact A4. }
    assert (R4 : reachable (set_quiesced s2 false)).
    { destruct (loses en (mg_hdr m)) eqn:LO.
      - rewrite (reply_loses _ _ _ _ _ _ LO) in RP. eapply reach_lost; [exact R3| | | |exact RP|exact N2]; rewrite SB, A2; assumption.
      - destruct (reply_quiet en (mg_hdr m) err body fds LO) as (o3 & ev7 & _ & _ & Q). rewrite Q in RP. injection RP as _ <- _. exact R3. }
    destruct o2; injection H as <- <- <-; [exact R4|exact R4|destruct (NC _ eq_refl)].
  - injection H as <- <- <-. eapply (reachable_step _ (SRun en)); [exact R0| |exact NC]. cbn [sv_step]. rewrite RZ0, PN0. cbn [negb]. unfold run_iter. rewrite GR. reflexivity.
Qed.

Lemma reach_quiesced_lost s errno en i j o s' ev : reachable s -> step_lost s (SQuiesced errno en) i j = (o, s', ev) -> (forall c, o <> Crash c) -> reachable s'.
Proof.
  intros R H NC.
  assert (PL : device_quiesced_lost s en errno i j = device_quiesced s en errno -> reachable s').
  { intros E. eapply (reachable_step _ (SQuiesced errno en)); [exact R| |exact NC]. cbn [sv_step step_lost] in *. rewrite E in H. exact H. }
  cbn [step_lost] in H. destruct (device_quiesced_lost s en errno i j) as [[o1 s1] ev1] eqn:E. revert PL. rewrite <- E. intros PL. unfold device_quiesced_lost in *.
  destruct (cx_quiesce (sv_ctx s)) eqn:CQ; [|apply PL; reflexivity]. destruct (sv_pending s) as [|m|] eqn:PM; [apply PL; reflexivity| |].
  - destruct (errno =? 0) eqn:E0; [|apply PL; reflexivity]. clear PL. destruct (reachable_conn _ R) as (RZ & CN). specialize (CN (ex_intro _ m PM)).
    destruct (handle_request_lost (set_quiesced s true) en m i j) as [[[o2 s2] fds'] ev2] eqn:HR.
    assert (N2 : forall c, o2 <> Crash c) by (intros c ->; injection E as <- <- <-; injection H as <- <- <-; exact (NC _ eq_refl)).
    destruct (handle_lost _ _ _ _ _ _ _ _ _ HR N2) as (err & body & fds & sa & evs & D & l2 & sb & evb & ev4 & ev5 & A3 & RP & _).
    destruct (dispatched _ _ _ _ _ _ _ _ _ _ D) as (A2 & l & evx & DD). cbn [set_quiesced sv_ctx] in DD.
    assert (R2 : reachable (set_quiesced (set_pending sa PNone) false)).
    { destruct DD as [A1|(r & c1 & f & ev3 & X & NR & A1)].
      - assert (R1 : reachable (set_quiesced (set_pending s PNone) false)).
        { eapply (reachable_step _ (SQuiesced 1 en) (Ok 0)); [exact R| |discriminate]. cbn [sv_step]. unfold device_quiesced. rewrite CQ, PM. reflexivity. }
        apply (acts_server (set_quiesced (set_pending s PNone) false)) in A1. eapply reach_acts in A1; [|replace (set_ctx (set_quiesced (set_pending s PNone) false) (sv_ctx s)) with (set_quiesced (set_pending s PNone) false) by (destruct s; reflexivity); exact R1].
        rewrite A2. exact A1.
      - destruct (sent_handle (set_quiesced s true) en m r c1 f ev3 X NR) as (ev6 & HS).
        assert (R1 : reachable (set_quiesced (set_pending (set_ctx (set_quiesced s true) c1) PNone) false)).
        { eapply (reachable_step _ (SQuiesced errno (sends en)) (Ok 0)); [exact R| |discriminate]. cbn [sv_step]. unfold device_quiesced. rewrite CQ, PM, E0. cbn [negb]. rewrite HS. reflexivity. }
        apply (acts_server (set_quiesced (set_pending s PNone) false)) in A1. eapply reach_acts in A1; [|exact R1]. rewrite A2. exact A1. }
    destruct (do_acts_ok _ _ _ _ _ A3 ltac:(discriminate)) as (_ & A4 & SB & _).
    assert (R2b : reachable (set_quiesced (set_pending sb PNone) false)).
    { apply (acts_server (set_quiesced (set_pending sa PNone) false)) in A4.
      replace (set_ctx (set_quiesced (set_pending sa PNone) false) (sv_ctx sa)) with (set_quiesced (set_pending sa PNone) false) in A4 by (destruct sa; reflexivity).
      eapply reach_acts in A4; [|exact R2]. rewrite SB. exact A4. }
    assert (R3 : reachable (set_quiesced (set_pending s2 PNone) false)).
    { destruct (loses en (mg_hdr m)) eqn:LO.
      - rewrite (reply_loses _ _ _ _ _ _ LO) in RP. unfold reset_ctx in RP. assert (PA : sv_pending sb = PMsg m) by (rewrite SB, A2; exact PM). rewrite PA, andb_false_r in RP.
        assert (F2 : exists ev7, reset_ctx (set_pending sb PNone) None (en_lost en) = (o2, set_pending s2 PNone, ev7)).
        { destruct (reset_quiesced_frame _ _ _ _ _ (sv_quiesced sb) PNone RP) as (F3 & _).
          replace (set_quiesced (set_pending sb PNone) (sv_quiesced sb)) with (set_pending sb PNone) in F3 by (destruct sb; reflexivity).
          assert (QS : set_quiesced (set_pending s2 PNone) (sv_quiesced sb) = set_pending s2 PNone).
          { clear - RP. unfold reset_ctx_quiesced in RP. repeat match type of RP with context [match ?x with _ => _ end] => destruct x end; injection RP as <- <- <-; destruct sb; reflexivity. }
          rewrite QS in F3. unfold reset_ctx. destruct (_ && _); [rewrite F3|]; eauto. }
        destruct F2 as (ev7 & F2). eapply reach_lost; [exact R2b| | | |exact F2|exact N2]; [|reflexivity|]; cbn [set_pending sv_realized sv_conn]; rewrite SB, A2; assumption.
      - destruct (reply_quiet en (mg_hdr m) err body fds LO) as (o3 & ev7 & _ & _ & Q). rewrite Q in RP. injection RP as _ <- _. exact R2b. }
    destruct o2; injection E as <- <- <-; injection H as <- <- <-; [exact R3|exact R3|destruct (NC _ eq_refl)].
  - destruct (errno =? 0) eqn:E0; [|apply PL; reflexivity]. clear PL.
    destruct (reset_ctx_quiesced_in (set_quiesced s true) (en_lost en) j) as [[o2 s2] ev2] eqn:RQ.
    assert (N2 : forall c, o2 <> Crash c) by (intros c ->; injection E as <- <- <-; injection H as <- <- <-; exact (NC _ eq_refl)).
    destruct (reset_quiesced_before _ _ _ _ _ _ RQ N2) as (s0 & evb & ev3 & A & RR & _ & _).
    destruct (do_acts_ok _ _ _ _ _ A ltac:(discriminate)) as (_ & A1 & S0 & SM). cbn [set_quiesced sv_ctx] in A1, SM.
    assert (A2 : do_acts s (lost_acts j ev3) = (Ok tt, set_ctx s (sv_ctx s0), evb)) by (rewrite acts_frame, A1; reflexivity).
    pose proof (reach_acts _ _ _ _ R A2) as R0.
    eapply (reachable_step _ (SQuiesced errno en) o s' ev3); [exact R0| |exact NC]. cbn [sv_step]. unfold device_quiesced. cbn [sv_ctx set_ctx sv_pending]. rewrite (sm_quiesce _ _ SM), CQ, PM, E0. cbn [negb].
    replace (set_quiesced (set_ctx s (sv_ctx s0)) true) with s0 by (rewrite S0; reflexivity). rewrite RR.
    destruct o2; injection E as <- <- <-; injection H as <- <- <-; [reflexivity|reflexivity|destruct (NC _ eq_refl)].
Qed.

Lemma reach_step_lost s st i j o s' ev : reachable s -> step_lost s st i j = (o, s', ev) -> (forall c, o <> Crash c) -> reachable s'.
Proof.
  intros R H NC. destruct st as [en|errno en|max|l|h|v x|off data];
    [exact (reach_run_lost _ _ _ _ _ _ _ R H NC)|exact (reach_quiesced_lost _ _ _ _ _ _ _ _ R H NC)|..]; eapply reachable_step; try exact R; try exact H; exact NC.
Qed.
