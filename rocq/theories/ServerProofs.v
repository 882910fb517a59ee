(* Lemmas about the request loop. *)
From Coq Require Import NArith ZArith List Bool Lia ZifyBool ZifyNat ZifyN.
From Verif Require Import Base Types Bytes BytesProofs Spec Dma Dirty DmaOps SpecDma DmaProofs Migr Irq SpecIrq IrqProofs PropIrq Pci Handlers
  SpecHandlers HandlersProofs HandlersDma Server SpecServer.
Import ListNotations.
Open Scope N_scope.
Ltac Zify.zify_post_hook ::= idtac.

(* ---------- the context stays well formed *)

Record cinv (c : ctx) : Prop := {
  ci_dma : forall d, cx_dma c = Some d -> inv d;
  ci_irqs : exists t, cx_irqs c = Some t /\ irq_table_ok (cx_irq_cfg c) t
}.

Lemma table_ok_len cfg t t' : length (iq_efds t') = length (iq_efds t) -> irq_table_ok cfg t -> irq_table_ok cfg t'.
Proof. unfold irq_table_ok. intros ->. auto. Qed.

Lemma setup_irqs c c' : same_setup c c' -> (exists t, cx_irqs c = Some t /\ irq_table_ok (cx_irq_cfg c) t) ->
  exists t, cx_irqs c' = Some t /\ irq_table_ok (cx_irq_cfg c') t.
Proof.
  intros (_ & _ & _ & _ & _ & E & _ & _ & L) (t & T & O). rewrite T in L. destruct (cx_irqs c') as [t'|]; [|discriminate L].
  exists t'. split; [reflexivity|]. rewrite E. injection L as L. now apply (table_ok_len _ t).
Qed.

Lemma by_ops_inv cb cmd body d d' ev : by_ops cb cmd body d d' ev -> inv d -> inv d'.
Proof. intros (ops & evd & R & _) I. exact (inv_run _ _ _ _ _ I R). Qed.

Lemma dispatch_cinv c o cmd body fds r c' fds' ev : cinv c -> dispatch c o cmd body fds = (r, c', fds', ev) -> no_crash r -> cinv c'.
Proof.
  intros [Id Ii] H NC. destruct (dispatch_shape _ _ _ _ _ _ _ _ _ H) as (S & _ & D). constructor; [|now apply (setup_irqs c)].
  intros d' E. destruct (cx_dma c) as [d|] eqn:Ed.
  - destruct (D (if cmd =? 2 then cx_register c else cx_unregister c) d) as (d1 & E1 & B); auto.
    { intros ->. reflexivity. } { intros ->. reflexivity. }
    rewrite E in E1. injection E1 as <-. eapply by_ops_inv; eauto.
  - destruct S as (_ & _ & _ & _ & _ & _ & _ & [S _] & _). rewrite (S Ed) in E. discriminate E.
Qed.

(* ---------- reset *)

Lemma close_all_spec l : close_all l = closes_of l.
Proof. unfold closes_of. induction l as [|x l IH]; [reflexivity|]. cbn [close_all filter]. rewrite IH. unfold close_ev. destruct (x =? -1)%Z; reflexivity. Qed.

Lemma release_all_spec s rs : Forall fd_ok rs -> release_all (cx_unregister (sv_ctx s)) rs = Ok (concat (map (gives_up s) rs)).
Proof.
  induction 1 as [|r l F FA IH]; [reflexivity|]. cbn [release_all map concat]. rewrite IH.
  assert (R : release_region (cx_unregister (sv_ctx s)) r = Ok (gives_up s r)); [|now rewrite R].
  unfold release_region, gives_up. unfold fd_ok in F. destruct (di_vaddr (rg_info r)) as [v|].
  - assert (E : (rg_fd r =? -1)%Z = false) by (destruct (Z.eqb_spec (rg_fd r) (-1)); [destruct F as [_ F]; discriminate (F e)|reflexivity]).
    unfold close_ev. rewrite E. reflexivity.
  - rewrite (proj1 F eq_refl). cbn. now rewrite app_nil_r.
Qed.

Definition loss_post (s s' : server) (lost : option N) : Prop :=
  regions_of s' = [] /\ (forall fd, In fd (irq_fds s') -> fd = (-1)%Z) /\ sv_conn s' = false /\
  cx_mig (sv_ctx s') = (if cx_reset (sv_ctx s) && match lost with Some _ => true | None => false end then cx_mig (sv_ctx s)
                        else match cx_mig (sv_ctx s) with Some _ => Some ST_RUNNING | None => None end) /\
  sv_pending s' = sv_pending s /\ sv_quiesced s' = sv_quiesced s /\ sv_realized s' = sv_realized s /\
  same_setup (sv_ctx s) (sv_ctx s') /\ cinv (sv_ctx s') /\ cx_pci (sv_ctx s') = cx_pci (sv_ctx s) /\
  (forall d, cx_dma (sv_ctx s) = Some d -> cx_dma (sv_ctx s') = Some (set_regions d [])).

Lemma reset_quiesced_spec s lost : cinv (sv_ctx s) -> exists s',
  reset_ctx_quiesced s lost = (Ok tt, s', lost_events s) /\ loss_post s s' lost.
Proof.
  intros [Id (t & Et & Ot)]. unfold reset_ctx_quiesced, lost_events, regions_of, irq_fds. rewrite Et.
  set (c := sv_ctx s) in *.
  assert (R : (match cx_dma c with
         | Some d => let '(r, d') := remove_all_regions (cx_unregister c) d in (r, set_dma c d' (cx_hint c))
         | None => (Ok [], c) end) =
         (Ok (concat (map (gives_up s) (match cx_dma c with Some d => dm_regions d | None => [] end))),
          match cx_dma c with Some d => set_dma c (set_regions d []) (cx_hint c) | None => c end)).
  { destruct (cx_dma c) as [d|] eqn:D; [|reflexivity]. unfold remove_all_regions.
    pose proof (release_all_spec s (dm_regions d) (inv_fd _ (Id d eq_refl))) as RA. fold c in RA. now rewrite RA. }
  rewrite R. clear R. set (c1 := match cx_dma c with Some d => set_dma c (set_regions d []) (cx_hint c) | None => c end).
  assert (C1 : cx_irqs c1 = Some t /\ cx_irq_cfg c1 = cx_irq_cfg c /\ cx_reset c1 = cx_reset c /\ cx_mig c1 = cx_mig c /\
               same_setup c c1 /\ cx_pci c1 = cx_pci c /\ cx_dma c1 = option_map (fun d => set_regions d []) (cx_dma c)).
  { unfold c1. destruct (cx_dma c) as [d|] eqn:D; [|repeat split; auto; rewrite D; auto]. 
    split; [exact Et|]. split; [reflexivity|]. split; [reflexivity|]. split; [reflexivity|]. split; [apply setup_dma; congruence|]. split; reflexivity. }
  clearbody c1. destruct C1 as (I1 & F1 & R1 & M1 & S1 & P1 & D1).
  unfold device_reset. rewrite R1.
  set (c2 := set_mig c1 match cx_mig c1 with Some _ => Some ST_RUNNING | None => None end).
  set (c3 := if cx_reset c && match lost with Some _ => true | None => false end then c1 else c2).
  assert (DR : (if cx_reset c then match lost with Some e => (Err e, c1, [EvReset ResetLostConn]) | None => (Ok tt, c2, [EvReset ResetLostConn]) end else (Ok tt, c2, []))
     = ((if cx_reset c then match lost with Some e => Err e | None => Ok tt end else Ok tt), c3, if cx_reset c then [EvReset ResetLostConn] else [])).
  { unfold c3. destruct (cx_reset c), lost; reflexivity. }
  rewrite DR. clear DR.
  assert (C3 : cx_irqs c3 = Some t /\ cx_irq_cfg c3 = cx_irq_cfg c /\ same_setup c c3 /\ cx_pci c3 = cx_pci c /\ cx_dma c3 = cx_dma c1 /\
     cx_mig c3 = if cx_reset c && match lost with Some _ => true | None => false end then cx_mig c
                        else match cx_mig c with Some _ => Some ST_RUNNING | None => None end).
  { unfold c3. destruct (cx_reset c && match lost with Some _ => true | None => false end); [auto 10|].
    unfold c2. split; [exact I1|]. split; [exact F1|].
    split; [eapply setup_trans; [exact S1|apply setup_mig; destruct (cx_mig c1); split; congruence]|]. split; [exact P1|]. split; [reflexivity|]. cbn. now rewrite M1. }
  clearbody c3. destruct C3 as (I3 & F3 & S3 & P3 & D3 & M3).
  rewrite I3, F3. destruct (C28_irqs_reset _ _ Ot) as (t' & Q & Ot' & B). rewrite Q.
  eexists. split; [reflexivity|]. 
  assert (L : length (iq_efds t') = length (iq_efds t)).
  { clear - Q. unfold irqs_reset in Q. destruct (irqs_disable (cx_irq_cfg c) t IRQ_REQ 0 0) as [[[]  t1] e1] eqn:Q1; try discriminate Q.
    destruct (irqs_disable (cx_irq_cfg c) t1 IRQ_ERR 0 0) as [[[]  t2] e2] eqn:Q2; try discriminate Q. injection Q as <- _. cbn [iq_efds].
    rewrite repeat_length. unfold irqs_disable in Q1, Q2.
    destruct (negb (w32 (0 + 0) <=? irq_count (cx_irq_cfg c) IRQ_REQ)); [discriminate Q1|]. apply disable_loop_len in Q1.
    destruct (negb (w32 (0 + 0) <=? irq_count (cx_irq_cfg c) IRQ_ERR)); [discriminate Q2|]. apply disable_loop_len in Q2.
    destruct Q1, Q2. congruence. }
  assert (S4 : same_setup c (set_irqt c3 t')) by (eapply setup_trans; [exact S3|apply (setup_irqt c3 t); assumption]).
  unfold loss_post, regions_of, irq_fds. cbn [sv_ctx sv_pending sv_quiesced sv_conn sv_realized set_conn set_ctx]. 
  change (cx_irqs (set_irqt c3 t')) with (Some t'). change (cx_dma (set_irqt c3 t')) with (cx_dma c3). change (cx_mig (set_irqt c3 t')) with (cx_mig c3).
  change (cx_pci (set_irqt c3 t')) with (cx_pci c3). rewrite D3, D1.
  assert (Hfd : forall fd, In fd (iq_req t' :: iq_err t' :: iq_efds t') -> fd = (-1)%Z).
  { intros fd [<-|[<-|I]]; [exact (B 4 0)|exact (B 3 0)|]. apply In_nth with (d := (-1)%Z) in I. destruct I as (k & _ & <-).
    specialize (B 0 (N.of_nat k)). unfold binding in B. cbn in B. now rewrite Nnat.Nat2N.id in B. }
  assert (Hci : cinv (set_irqt c3 t')).
  { constructor.
    - cbn [set_irqt cx_dma]. rewrite D3, D1. intros d E. destruct (cx_dma c) as [d0|] eqn:D0; [|discriminate E]. injection E as <-.
      destruct (Id d0 eq_refl). constructor; cbn [set_regions dm_regions dm_max_regions dm_max_size dm_pgsize length map]; try constructor. lia.
    - exists t'. split; [reflexivity|]. cbn [set_irqt cx_irq_cfg]. rewrite F3. exact Ot'. }
  split; [destruct (cx_dma c); reflexivity|]. split; [exact Hfd|]. split; [reflexivity|]. split; [exact M3|].
  split; [reflexivity|]. split; [reflexivity|]. split; [reflexivity|]. split; [exact S4|]. split; [exact Hci|].
  split; [exact P3|]. intros d E. fold c in E. now rewrite E.
Qed.

(* vfu_reset_ctx: either the device does not quiesce and nothing changes but the pending state, or all is reset. *)
Lemma reset_ctx_spec s q lost : cinv (sv_ctx s) ->
  (exists e, q = Some e /\ cx_quiesce (sv_ctx s) = true /\ sv_pending s = PNone /\
     reset_ctx s q lost = (Err e, if e =? EBUSY then set_pending s PReset else s, [EvQuiesce (Some e)])) \/
  (exists s', (cx_quiesce (sv_ctx s) = true -> sv_pending s = PNone -> q = None) /\
     reset_ctx s q lost = (Ok tt, s', (match sv_pending s with PNone => quiesce_call s | _ => [] end) ++ lost_events s) /\ loss_post s s' lost).
Proof.
  intros I. unfold reset_ctx, quiesce_call. destruct (reset_quiesced_spec s lost I) as (s' & R & P). rewrite R.
  destruct (cx_quiesce (sv_ctx s)) eqn:Q; cbn [andb].
  - destruct (sv_pending s) eqn:Pe; [destruct q as [e|]|..].
    + left. exists e. auto.
    + right. exists s'. split; [auto|]. split; [reflexivity|exact P].
    + right. exists s'. split; [discriminate|]. split; [reflexivity|exact P].
    + right. exists s'. split; [discriminate|]. split; [reflexivity|exact P].
  - right. exists s'. split; [discriminate|]. split; [destruct (sv_pending s); reflexivity|exact P].
Qed.

(* ---------- replies *)

Lemma replies_app a b : replies (a ++ b) = replies a ++ replies b.
Proof. apply flat_map_app. Qed.

Lemma replies_none ev : (forall e, In e ev -> match e with EvReply _ => False | _ => True end) -> replies ev = [].
Proof.
  induction ev as [|e l IH]; intros H; [reflexivity|]. unfold replies in *. cbn [flat_map]. rewrite IH by (intros x I; apply H; now right).
  specialize (H e (or_introl eq_refl)). destruct e; try reflexivity. destruct H.
Qed.

Lemma replies_kind cmd ev : Forall (kind_ok cmd) ev -> replies ev = [].
Proof.
  intros F. apply replies_none. intros e I. rewrite Forall_forall in F. specialize (F e I). destruct e; cbn in F; tauto.
Qed.

Lemma replies_closes l : replies (closes_of l) = [].
Proof. apply replies_none. intros e I. apply in_map_iff in I. destruct I as (x & <- & _). exact I. Qed.

Lemma replies_free l : replies (free_msg l) = [].
Proof. unfold free_msg. rewrite close_all_spec. apply replies_closes. Qed.

Lemma gives_up_in s r e : In e (gives_up s r) -> match e with EvUnregister _ | EvMunmap _ _ | EvClose _ => True | _ => False end.
Proof.
  unfold gives_up. intros I. apply in_app_or in I. destruct I as [I|I].
  - destruct (cx_unregister (sv_ctx s)); [destruct I as [<-|[]]; exact I|destruct I].
  - destruct (rg_fd r =? -1)%Z; [destruct I|]. destruct I as [<-|[<-|[]]]; exact Logic.I.
Qed.

Lemma lost_in s e : In e (lost_events s) -> match e with EvUnregister _ | EvMunmap _ _ | EvClose _ | EvReset ResetLostConn | EvDetach => True | _ => False end.
Proof.
  unfold lost_events. intros I. apply in_app_or in I. destruct I as [I|I].
  - apply in_concat in I. destruct I as (x & X & I). apply in_map_iff in X. destruct X as (r & <- & _). apply gives_up_in in I. destruct e; tauto.
  - apply in_app_or in I. destruct I as [I|I].
    + destruct (cx_reset (sv_ctx s)); [destruct I as [<-|[]]; exact Logic.I|destruct I].
    + apply in_app_or in I. destruct I as [I|[<-|[]]]; [|exact Logic.I]. apply in_map_iff in I. destruct I as (x & <- & _). exact Logic.I.
Qed.

Lemma replies_lost s : replies (lost_events s) = [].
Proof. apply replies_none. intros e I. apply lost_in in I. destruct e; tauto. Qed.

(* s' differs from s as requests and resets make it differ. *)
Record kept (s s' : server) : Prop := {
  k_inv : cinv (sv_ctx s');
  k_setup : same_setup (sv_ctx s) (sv_ctx s');
  k_real : sv_realized s' = sv_realized s;
  k_pci : pc_caps (cx_pci (sv_ctx s')) = pc_caps (cx_pci (sv_ctx s)) /\ pc_exp_off (cx_pci (sv_ctx s')) = pc_exp_off (cx_pci (sv_ctx s))
}.

Lemma kept_refl s : cinv (sv_ctx s) -> kept s s.
Proof. intros I. constructor; auto using setup_refl. Qed.
Lemma kept_trans a b c : kept a b -> kept b c -> kept a c.
Proof. intros [A1 A2 A3 [A4 A5]] [B1 B2 B3 [B4 B5]]. constructor; [exact B1|eapply setup_trans; eauto|congruence|split; congruence]. Qed.
Lemma kept_other s s' : kept s s' -> forall s2, sv_ctx s2 = sv_ctx s' -> sv_realized s2 = sv_realized s' -> kept s s2.
Proof. intros [A1 A2 A3 A4] s2 E F. constructor; rewrite ?E, ?F; auto. Qed.

Lemma loss_kept s s' lost : loss_post s s' lost -> kept s s'.
Proof. intros (_ & _ & _ & _ & _ & _ & R & S & I & P & _). constructor; auto. rewrite P. auto. Qed.

Lemma has_no_reply h : has (hd_flags h) F_NO_REPLY = negb (wants_reply h).
Proof. unfold wants_reply. rewrite negb_involutive. change F_NO_REPLY with (2 ^ 4). apply has_pow2. Qed.

(* Sending a reply: what can happen. *)
Inductive reply_case (s : server) (en : env) (h : header) (r : reply) : outcome unit -> server -> list event -> Prop :=
| rc_silent : wants_reply h = false -> reply_case s en h r (Ok tt) s []
| rc_sent : wants_reply h = true -> en_send en = None -> reply_case s en h r (Ok tt) s [EvReply r]
| rc_failed : forall e, wants_reply h = true -> en_send en = Some e -> ~ conn_lost e -> reply_case s en h r (Err e) s []
| rc_unquiesced : forall e e', wants_reply h = true -> en_send en = Some e -> conn_lost e ->
    cx_quiesce (sv_ctx s) = true -> sv_pending s = PNone -> en_quiesce_reset en = Some e' ->
    reply_case s en h r (Err e') (if e' =? EBUSY then set_pending s PReset else s) [EvQuiesce (Some e')]
| rc_lost : forall e s', wants_reply h = true -> en_send en = Some e -> conn_lost e ->
    (cx_quiesce (sv_ctx s) = true -> sv_pending s = PNone -> en_quiesce_reset en = None) ->
    loss_post s s' (en_lost en) ->
    reply_case s en h r (Ok tt) s' ((match sv_pending s with PNone => quiesce_call s | _ => [] end) ++ lost_events s).

Lemma do_reply_cases s en h err body fds o s' ev : cinv (sv_ctx s) ->
  do_reply s en h err body fds = (o, s', ev) -> reply_case s en h (mk_reply (hd_id h) (hd_cmd h) err body fds) o s' ev.
Proof.
  intros I H. unfold do_reply in H. rewrite has_no_reply in H. destruct (wants_reply h) eqn:W; cbn [negb] in H.
  - destruct (en_send en) as [e|] eqn:S; [|injection H as <- <- <-; now constructor].
    destruct ((e =? ECONNRESET) || (e =? ENOMSG)) eqn:E.
    + assert (CL : conn_lost e) by (unfold conn_lost; lia).
      destruct (reset_ctx_spec s (en_quiesce_reset en) (en_lost en) I) as [(e' & Q & Qq & Qp & R)|(s1 & Q & R & P)]; rewrite R in H; injection H as <- <- <-.
      * eapply rc_unquiesced; eauto.
      * eapply rc_lost; eauto.
    + injection H as <- <- <-. apply rc_failed; auto. unfold conn_lost. lia.
  - injection H as <- <- <-. now constructor.
Qed.

Lemma reply_kept s en h r o s' ev : cinv (sv_ctx s) -> reply_case s en h r o s' ev -> kept s s'.
Proof.
  intros I [W|W S|e W S E|e e' W S E Q P Qr|e s1 W S E Q P]; try (now apply kept_refl).
  - destruct (e' =? EBUSY); [|now apply kept_refl]. apply (kept_other s s); auto using kept_refl.
  - exact (loss_kept _ _ _ P).
Qed.

Lemma quiesce_call_replies s : replies (quiesce_call s) = [].
Proof. unfold quiesce_call. destruct (cx_quiesce (sv_ctx s)); reflexivity. Qed.

Lemma reply_replies s en h r o s' ev : reply_case s en h r o s' ev -> rp_id r = hd_id h -> rp_cmd r = hd_cmd h ->
  replies ev = (if wants_reply h && match en_send en with None => true | Some _ => false end then [(hd_id h, hd_cmd h)] else []) /\
  (forall cr, o <> Crash cr) /\ sv_quiesced s' = sv_quiesced s /\
  (sv_pending s' = sv_pending s \/ (sv_pending s = PNone /\ sv_pending s' = PReset /\ cx_quiesce (sv_ctx s) = true)).
Proof.
  intros [W|W S|e W S E|e e' W S E Q P Qr|e s1 W S E Q P] Ei Ec; rewrite ?W, ?S; cbn [andb].
  - repeat split; auto; discriminate.
  - unfold replies. cbn [flat_map]. rewrite Ei, Ec. repeat split; auto; discriminate.
  - repeat split; auto; discriminate.
  - destruct (e' =? EBUSY); (split; [reflexivity|]); (split; [discriminate|]); (split; [reflexivity|]); auto.
  - rewrite replies_app, replies_lost. split; [destruct (sv_pending s); rewrite ?quiesce_call_replies; reflexivity|]. split; [discriminate|].
    destruct P as (_ & _ & _ & _ & Pp & Pq & _). auto.
Qed.

(* config space writes leave the capability lists alone *)
Lemma cfg_write_caps fuel : forall e p answers rans k off buf done o p' ev, cfg_write fuel e p answers rans k off buf done = (o, p', ev) ->
  pc_caps p' = pc_caps p /\ pc_exp_off p' = pc_exp_off p.
Proof.
  induction fuel as [|fuel IH]; intros e p answers rans k off buf done o p' ev H; cbn [cfg_write] in H.
  - destruct buf; injection H as <- <- <-; auto.
  - destruct buf as [|b l]; [injection H as <- <- <-; auto|].
    destruct (write_segment e p off (b :: l) (answers k) (rans k)) as [[[[n|er|cr] cfg'] ev1]|]; [|injection H as <- <- <-; auto..].
    destruct (cfg_write fuel e (set_cfg p cfg') answers rans (k + length ev1) (off + n) (skipn (N.to_nat n) (b :: l)) (done + n)) as [[o1 p1] ev2] eqn:Q.
    injection H as <- <- <-. apply IH in Q. exact Q.
Qed.

Lemma region_access_caps c o region w off count data res buf c' ev :
  region_access c o region w off count data = (res, buf, c', ev) ->
  pc_caps (cx_pci c') = pc_caps (cx_pci c) /\ pc_exp_off (cx_pci c') = pc_exp_off (cx_pci c).
Proof.
  intros H. unfold region_access in H. destruct (nth_error (cx_regs c) (N.to_nat region)) as [r|]; [|injection H as <- <- <- <-; auto].
  destruct ((region =? CFG_REGION) && negb (has (ri_flags r) REGION_FLAG_ALWAYS_CB)).
  - destruct w.
    + destruct (config_write (env_of c) (cx_pci c) (or_access o) (or_reset o) off data) as [[o1 p1] ev1] eqn:Q. injection H as <- <- <- <-.
      unfold config_write in Q. apply cfg_write_caps in Q. exact Q.
    + destruct (config_read (env_of c) (cx_pci c) (or_access o) off count) as [[o1 p1] ev1]. injection H as <- <- <- <-. auto.
  - destruct (negb (ri_cb r)); [injection H as <- <- <- <-; eauto|]. destruct (or_access o 0%nat off count); injection H as <- <- <- <-; eauto.
Qed.

Lemma access_caps c o w body r c' ev : handle_region_access c o w body = (r, c', ev) ->
  pc_caps (cx_pci c') = pc_caps (cx_pci c) /\ pc_exp_off (cx_pci c') = pc_exp_off (cx_pci c).
Proof.
  intros H. unfold handle_region_access in H.
  destruct (N.of_nat (length body) <? 16); [injection H as <- <- <-; auto|]. needs H; try (injection H as <- <- <-; auto).
  destruct (negb (valid_region_access c (N.of_nat (length body)) w n n0 n1)); [injection H as <- <- <-; auto|].
  destruct (n1 =? 0); [injection H as <- <- <-; auto|].
  destruct (region_access c o n0 w n n1 (if w then skipn 16 body else [])) as [[[res buf] c1] ev1] eqn:Q. apply region_access_caps in Q.
  destruct res as [k|e|cr]; [destruct (k =? n1)| |]; injection H as <- <- <-; exact Q.
Qed.

Lemma dispatch_caps c o cmd body fds r c' fds' ev : dispatch c o cmd body fds = (r, c', fds', ev) ->
  pc_caps (cx_pci c') = pc_caps (cx_pci c) /\ pc_exp_off (cx_pci c') = pc_exp_off (cx_pci c).
Proof.
  intros H. unfold dispatch in H.
  destruct (cmd =? CMD_DMA_MAP).
  { destruct (cx_dma c); [|injection H as <- <- <- <-; auto]. apply dma_map_kept in H. destruct H as [[->|(d' & h & ->)] _]; auto. }
  destruct (cmd =? CMD_DMA_UNMAP).
  { destruct (cx_dma c) as [d|]; [|injection H as <- <- <- <-; auto].
    destruct (handle_dma_unmap c d o body) as [[r1 c1] ev1] eqn:Q. injection H as <- <- <- <-. apply dma_unmap_kept in Q. destruct Q as [[->|(d' & h & ->)] _]; auto. }
  destruct (cmd =? CMD_GET_INFO); [injection H as <- <- <- <-; auto|].
  destruct (cmd =? CMD_GET_REGION_INFO); [injection H as <- <- <- <-; auto|].
  destruct (cmd =? CMD_GET_REGION_IO_FDS); [injection H as <- <- <- <-; auto|].
  destruct (cmd =? CMD_GET_IRQ_INFO); [injection H as <- <- <- <-; auto|].
  destruct (cmd =? CMD_SET_IRQS).
  { destruct (cx_irqs c) as [t|]; [|injection H as <- <- <- <-; auto].
    destruct (set_irqs (cx_irq_cfg c) t (or_efd o) body fds) as [[[r1 t1] f1] ev1]. injection H as <- <- <- <-. auto. }
  destruct (cmd =? CMD_REGION_READ).
  { destruct (handle_region_access c o false body) as [[r1 c1] ev1] eqn:Q. injection H as <- <- <- <-. now apply access_caps in Q. }
  destruct (cmd =? CMD_REGION_WRITE).
  { destruct (handle_region_access c o true body) as [[r1 c1] ev1] eqn:Q. injection H as <- <- <- <-. now apply access_caps in Q. }
  destruct (cmd =? CMD_RESET).
  { unfold device_reset in H. destruct (cx_reset c); [destruct (or_reset o 0%nat)|]; injection H as <- <- <- <-; auto. }
  destruct (cmd =? CMD_FEATURE).
  { destruct (handle_device_feature c o body) as [[r1 c1] ev1] eqn:Q. injection H as <- <- <- <-.
    apply (feature_shape true) in Q. destruct Q as (_ & _ & _ & P & _). rewrite P. auto. }
  destruct (cmd =? CMD_MIG_READ).
  { destruct (mig_data_read (cx_mig c) (cx_max_xfer c) (or_data o) body). injection H as <- <- <- <-. auto. }
  destruct (cmd =? CMD_MIG_WRITE).
  { destruct (mig_data_write (cx_mig c) (cx_max_xfer c) (or_data o) body). injection H as <- <- <- <-. auto. }
  injection H as <- <- <- <-. auto.
Qed.

(* ---------- handling a request *)

Lemma handle_request_inv s en m o s' fds' ev : cinv (sv_ctx s) ->
  handle_request s en m = (o, s', fds', ev) -> (forall cr, o <> Crash cr) ->
  exists err body fds c1 ev1 ev2,
    dispatch (sv_ctx s) (en_or en) (hd_cmd (mg_hdr m)) (mg_body m) (mg_fds m) = (HReply err body fds, c1, fds', ev1) /\
    kept s (set_ctx s c1) /\ ev = ev1 ++ ev2 /\ Forall (kind_ok (hd_cmd (mg_hdr m))) ev1 /\
    reply_case (set_ctx s c1) en (mg_hdr m) (mk_reply (hd_id (mg_hdr m)) (hd_cmd (mg_hdr m)) err body fds) o s' ev2.
Proof.
  intros I H NC. unfold handle_request in H.
  destruct (dispatch (sv_ctx s) (en_or en) (hd_cmd (mg_hdr m)) (mg_body m) (mg_fds m)) as [[[r c1] f1] ev1] eqn:D.
  destruct r as [err body fds|cr]; [|injection H as <- <- <- <-; now destruct (NC cr)].
  destruct (do_reply (set_ctx s c1) en (mg_hdr m) err body fds) as [[o2 s2] ev2] eqn:R. injection H as <- <- <- <-.
  assert (I1 : cinv c1) by (exact (dispatch_cinv _ _ _ _ _ _ _ _ _ I D Logic.I)).
  destruct (dispatch_shape _ _ _ _ _ _ _ _ _ D) as (S & K & _).
  exists err, body, fds, c1, ev1, ev2. split; [reflexivity|]. split.
  { constructor; [exact I1|exact S|reflexivity|]. exact (dispatch_caps _ _ _ _ _ _ _ _ _ D). }
  split; [reflexivity|]. split; [exact K|]. exact (do_reply_cases _ _ _ _ _ _ _ _ _ (I1 : cinv (sv_ctx (set_ctx s c1))) R).
Qed.

Definition sinv (s : server) : Prop :=
  cinv (sv_ctx s) /\ sv_quiesced s = false /\ (sv_pending s <> PNone -> cx_quiesce (sv_ctx s) = true).

(* What vfu_run_ctx does with a message. *)
Inductive accepted (s : server) (h : header) (rbody : N + list N) : list N -> Prop :=
| acc : forall body, is_valid_header h = true -> (if hd_size h =? 16 then Ok [] else recv_body (hd_size h - 16) rbody) = Ok body ->
    should_exec (cx_mig (sv_ctx s)) (hd_cmd h) = true -> accepted s h rbody body.
Inductive refused_with (s : server) (en : env) (h : header) (rbody : N + list N) : N -> list event -> Prop :=
| rw_header : is_valid_header h = false -> refused_with s en h rbody EINVAL []
| rw_body : forall e, is_valid_header h = true -> (if hd_size h =? 16 then Ok [] else recv_body (hd_size h - 16) rbody) = Err e ->
    refused_with s en h rbody e []
| rw_stopped : forall body, is_valid_header h = true -> (if hd_size h =? 16 then Ok [] else recv_body (hd_size h - 16) rbody) = Ok body ->
    should_exec (cx_mig (sv_ctx s)) (hd_cmd h) = false -> refused_with s en h rbody EINVAL []
| rw_quiesce : forall body e, accepted s h rbody body -> needs_quiesce (sv_ctx s) (hd_cmd h) body = true ->
    en_quiesce en = Some e -> e <> EBUSY -> refused_with s en h rbody e [EvQuiesce (Some e)].
Inductive rx_case (s : server) (en : env) (h : header) (fds : list Z) (rbody : N + list N) : got -> server -> list event -> Prop :=
| rx_refused : forall e o s' ev0 ev1, refused_with s en h rbody e ev0 ->
    reply_case s en h (mk_reply (hd_id h) (hd_cmd h) e [] []) o s' ev1 ->
    rx_case s en h fds rbody (match o with Ok _ => GotErr ENOMSG | Err e' => GotErr e' | Crash cr => GotCrash cr end) s' (ev0 ++ ev1 ++ free_msg fds)
| rx_wait : forall body, accepted s h rbody body -> needs_quiesce (sv_ctx s) (hd_cmd h) body = true -> en_quiesce en = Some EBUSY ->
    rx_case s en h fds rbody (GotErr EBUSY) (set_pending s (PMsg (mk_msg h body fds))) [EvQuiesce (Some EBUSY)]
| rx_quiesced : forall body, accepted s h rbody body -> needs_quiesce (sv_ctx s) (hd_cmd h) body = true -> en_quiesce en = None ->
    rx_case s en h fds rbody (GotMsg (mk_msg h body fds)) (set_quiesced s true) [EvQuiesce None]
| rx_plain : forall body, accepted s h rbody body -> needs_quiesce (sv_ctx s) (hd_cmd h) body = false ->
    rx_case s en h fds rbody (GotMsg (mk_msg h body fds)) s [].

Lemma get_request_msg s en h fds rbody g s' ev : cinv (sv_ctx s) -> sv_conn s = true -> en_rx en = RxMsg h fds rbody ->
  get_request s en = (g, s', ev) -> rx_case s en h fds rbody g s' ev.
Proof.
  intros I C X H. unfold get_request in H. rewrite C, X in H. cbn [negb] in H.
  assert (REF : forall e ev0, refused_with s en h rbody e ev0 -> forall g s' ev, (let '(g, s', ev) := refuse s en h fds e in (g, s', ev0 ++ ev)) = (g, s', ev) -> rx_case s en h fds rbody g s' ev).
  { intros e ev0 Rw g0 s0 ev1 Q. unfold refuse in Q. destruct (do_reply s en h e [] []) as [[o s1] ev2] eqn:D. injection Q as <- <- <-.
    apply (do_reply_cases _ _ _ _ _ _ _ _ _ I) in D. now apply (rx_refused _ _ _ _ _ e). }
  assert (REF0 : forall e, refused_with s en h rbody e [] -> refuse s en h fds e = (g, s', ev) -> rx_case s en h fds rbody g s' ev).
  { intros e Rw Q. apply (REF e [] Rw). rewrite Q. reflexivity. }
  destruct (is_valid_header h) eqn:V; cbn [negb] in H; [|exact (REF0 _ (rw_header _ _ _ _ V) H)].
  destruct (if hd_size h =? 16 then Ok [] else recv_body (hd_size h - 16) rbody) as [body|e|cr] eqn:B.
  - destruct (should_exec (cx_mig (sv_ctx s)) (hd_cmd h)) eqn:E; cbn [negb] in H; [|exact (REF0 _ (rw_stopped _ _ _ _ _ V B E) H)].
    assert (A : accepted s h rbody body) by (now constructor).
    destruct (needs_quiesce (sv_ctx s) (hd_cmd h) body) eqn:Nq; [|injection H as <- <- <-; now apply rx_plain].
    destruct (en_quiesce en) as [e|] eqn:Q; [|injection H as <- <- <-; now apply rx_quiesced].
    destruct (e =? EBUSY) eqn:Eb.
    + apply N.eqb_eq in Eb. subst e. injection H as <- <- <-. now apply rx_wait.
    + apply N.eqb_neq in Eb. apply (REF e [EvQuiesce (Some e)]); [now apply (rw_quiesce _ _ _ _ body)|exact H].
  - exact (REF0 _ (rw_body _ _ _ _ _ V B) H).
  - exfalso. destruct (hd_size h =? 16); [discriminate B|]. unfold recv_body in B. destruct rbody; [discriminate B|].
    destruct (N.of_nat (length (firstn (N.to_nat (hd_size h - 16)) l)) =? 0); [discriminate B|].
    destruct (negb (N.of_nat (length (firstn (N.to_nat (hd_size h - 16)) l)) =? hd_size h - 16)); discriminate B.
Qed.

(* Handling a message in state s: dispatch, then the reply. *)
Inductive handled (s : server) (en : env) (m : msg) : outcome unit -> server -> list event -> Prop :=
| handled_intro : forall err body fds c1 fds' ev1 o s' ev2,
    dispatch (sv_ctx s) (en_or en) (hd_cmd (mg_hdr m)) (mg_body m) (mg_fds m) = (HReply err body fds, c1, fds', ev1) ->
    kept s (set_ctx s c1) -> Forall (kind_ok (hd_cmd (mg_hdr m))) ev1 ->
    reply_case (set_ctx s c1) en (mg_hdr m) (mk_reply (hd_id (mg_hdr m)) (hd_cmd (mg_hdr m)) err body fds) o s' ev2 ->
    handled s en m o s' (ev1 ++ ev2 ++ closes_of fds').

(* Everything a step that does not crash can do. *)
Inductive step_case (s : server) : step -> outcome N -> server -> list event -> Prop :=
| sc_not_realized : forall en, sv_realized s = false -> step_case s (SRun en) (Err EINVAL) s []
| sc_busy : forall en, sv_realized s = true -> sv_pending s <> PNone -> step_case s (SRun en) (Err EBUSY) s []
| sc_unconnected : forall en, sv_realized s = true -> sv_pending s = PNone -> sv_conn s = false -> step_case s (SRun en) (Err ENOTCONN) s []
| sc_rx_error : forall en e, serving s -> en_rx en = RxErr e -> ~ conn_lost e ->
    step_case s (SRun en) (if e =? EAGAIN then Ok 0 else Err e) s []
| sc_rx_lost_unquiesced : forall en e e', serving s -> en_rx en = RxErr e -> conn_lost e -> cx_quiesce (sv_ctx s) = true -> en_quiesce_reset en = Some e' ->
    step_case s (SRun en) (if (e' =? ENOMSG) || (e' =? EAGAIN) then Ok 0 else Err e') (if e' =? EBUSY then set_pending s PReset else s) [EvQuiesce (Some e')]
| sc_rx_lost : forall en e s', serving s -> en_rx en = RxErr e -> conn_lost e -> quiesces s en -> loss_post s s' (en_lost en) ->
    step_case s (SRun en) (Err ENOTCONN) s' (quiesce_call s ++ lost_events s)
| sc_refused : forall en h fds rbody e ev0 o s' ev1, serving s -> en_rx en = RxMsg h fds rbody -> refused_with s en h rbody e ev0 ->
    reply_case s en h (mk_reply (hd_id h) (hd_cmd h) e [] []) o s' ev1 ->
    step_case s (SRun en) (match o with Ok _ => Ok 0 | Err e' => if (e' =? ENOMSG) || (e' =? EAGAIN) then Ok 0 else Err e' | Crash c => Crash c end)
      s' (ev0 ++ ev1 ++ closes_of fds)
| sc_wait : forall en h fds rbody body, serving s -> en_rx en = RxMsg h fds rbody -> accepted s h rbody body ->
    needs_quiesce (sv_ctx s) (hd_cmd h) body = true -> en_quiesce en = Some EBUSY ->
    step_case s (SRun en) (Err EBUSY) (set_pending s (PMsg (mk_msg h body fds))) [EvQuiesce (Some EBUSY)]
| sc_handled : forall en h fds rbody body o s' ev (q := needs_quiesce (sv_ctx s) (hd_cmd h) body), serving s -> en_rx en = RxMsg h fds rbody -> accepted s h rbody body ->
    (q = true -> en_quiesce en = None) ->
    handled (set_quiesced s q) en (mk_msg h body fds) o s' ev ->
    step_case s (SRun en) (match o with Ok _ => Ok 1 | Err e => Err e | Crash c => Crash c end) (set_quiesced s' false)
      ((if q then [EvQuiesce None] else []) ++ ev)
| sc_quiesced_early : forall en e, cx_quiesce (sv_ctx s) = false \/ sv_pending s = PNone -> step_case s (SQuiesced e en) (Err EINVAL) s []
| sc_quiesced_msg : forall en m o s' ev, sv_pending s = PMsg m -> cx_quiesce (sv_ctx s) = true ->
    handled (set_quiesced s true) en m o s' ev ->
    step_case s (SQuiesced 0 en) (match o with Ok _ => Ok 0 | Err e => Err e | Crash c => Crash c end) (set_quiesced (set_pending s' PNone) false) ev
| sc_quiesced_reset : forall en s', sv_pending s = PReset -> cx_quiesce (sv_ctx s) = true ->
    loss_post (set_quiesced s true) s' (en_lost en) ->
    step_case s (SQuiesced 0 en) (Ok 0) (set_quiesced (set_pending s' PNone) false) (lost_events s)
| sc_quiesced_failed : forall en e, e <> 0 -> sv_pending s <> PNone -> cx_quiesce (sv_ctx s) = true ->
    step_case s (SQuiesced e en) (Ok 0) (set_quiesced (set_pending s PNone) false)
      (match sv_pending s with PMsg m => closes_of (mg_fds m) | _ => [] end)
| sc_attach_refused : forall max, sv_conn s = true -> step_case s (SAttach max) (Err EINVAL) s []
| sc_attach : forall max, sv_conn s = false ->
    step_case s (SAttach max) (Ok 0) (set_conn (set_ctx s (set_max_xfer (sv_ctx s) max)) true) []
| sc_mark : forall l d d', cx_dma (sv_ctx s) = Some d -> sgl_mark_dirty d l = Ok d' ->
    step_case s (SMark l) (Ok 0) (set_ctx s (set_dma (sv_ctx s) d' (cx_hint (sv_ctx s)))) []
| sc_mark_failed : forall l e, step_case s (SMark l) (Err e) s []
| sc_lookup : forall h, step_case s (SLookup h) (Ok 0) (dev_hint s h) []
| sc_trigger : forall v ans o ev, (forall e, In e ev -> exists fd, e = EvSignal fd) -> step_case s (STrigger v ans) o s ev
| sc_poke : forall off data cfg, put_slice (pc_cfg (cx_pci (sv_ctx s))) (N.to_nat off) data = Some cfg ->
    step_case s (SPoke off data) (Ok 0) (set_ctx s (set_pci (sv_ctx s) (set_cfg (cx_pci (sv_ctx s)) cfg))) [].

Lemma handle_request_cases s en m o s' fds' ev : cinv (sv_ctx s) ->
  handle_request s en m = (o, s', fds', ev) -> (forall cr, o <> Crash cr) -> handled s en m o s' (ev ++ free_msg fds').
Proof.
  intros I H NC. destruct (handle_request_inv _ _ _ _ _ _ _ I H NC) as (err & body & fds & c1 & ev1 & ev2 & D & K & -> & F & R).
  unfold free_msg. rewrite close_all_spec, <- app_assoc. eapply handled_intro; eauto.
Qed.

Lemma step_cases s st o s' ev : sinv s -> sv_step s st = (o, s', ev) -> (forall c, o <> Crash c) -> step_case s st o s' ev.
Proof.
  intros (I & Q0 & PQ) H NC. destruct st as [en|errno en| |l|h|v ans|poff pdata]; cbn [sv_step] in H.
  - destruct (sv_realized s) eqn:R; cbn [negb] in H; [|injection H as <- <- <-; now constructor].
    destruct (sv_pending s) eqn:P; [|injection H as <- <- <-; constructor; [exact R|congruence]..].
    destruct (sv_conn s) eqn:C.
    2: { unfold run_iter, get_request in H. rewrite C in H. cbn [negb] in H. injection H as <- <- <-. now constructor. }
    assert (SV : serving s) by (unfold serving; auto).
    destruct (en_rx en) as [e|h fds rbody] eqn:X.
    + unfold run_iter, get_request in H. rewrite C, X in H. cbn [negb] in H.
      destruct ((e =? ENOMSG) || (e =? ECONNRESET)) eqn:E.
      * assert (CL : conn_lost e) by (unfold conn_lost; lia).
        destruct (reset_ctx_spec s (en_quiesce_reset en) (en_lost en) I) as [(e' & Qe & Qq & Qp & Rs)|(s1 & Qe & Rs & Po)]; rewrite Rs in H.
        -- injection H as <- <- <-. eapply sc_rx_lost_unquiesced; eauto.
        -- rewrite P in H. injection H as <- <- <-. eapply sc_rx_lost; eauto. intros Qt. now apply Qe.
      * injection H as <- <- <-. assert (E1 : (e =? ENOMSG) = false) by lia. rewrite E1. cbn [orb]. apply sc_rx_error; auto. unfold conn_lost. lia.
    + unfold run_iter in H. destruct (get_request s en) as [[g s1] ev1] eqn:G.
      apply (get_request_msg _ _ _ _ _ _ _ _ I C X) in G. inversion G; subst; clear G.
      * assert (Hc : forall cr, o0 <> Crash cr) by (eapply reply_replies; eauto).
        unfold free_msg in H. rewrite close_all_spec in H.
        pose proof (sc_refused s en h fds rbody e ev0 o0 s1 ev2 SV X H0 H1) as SC.
        destruct o0 as [u|e'|cr]; [|injection H as <- <- <-; exact SC|now destruct (Hc cr)].
        injection H as <- <- <-. exact SC.
      * injection H as <- <- <-. eapply sc_wait; eauto.
      * destruct (handle_request (set_quiesced s true) en (mk_msg h body fds)) as [[[o2 s2] f2] ev2] eqn:Hr.
        assert (NC2 : forall cr, o2 <> Crash cr) by (intros cr ->; injection H as <- <- <-; now destruct (NC cr)).
        apply handle_request_cases in Hr; [|exact I|exact NC2].
        pose proof (fun K => sc_handled s en h fds rbody body o2 s2 (ev2 ++ free_msg f2) SV X H0 K) as SC. rewrite H1 in SC. specialize (SC (fun _ => H2) Hr).
        destruct o2 as [u|e|cr]; [| |now destruct (NC2 cr)]; injection H as <- <- <-; exact SC.
      * destruct (handle_request s1 en (mk_msg h body fds)) as [[[o2 s2] f2] ev2] eqn:Hr.
        assert (NC2 : forall cr, o2 <> Crash cr) by (intros cr ->; injection H as <- <- <-; now destruct (NC cr)).
        apply handle_request_cases in Hr; [|exact I|exact NC2].
        pose proof (fun K => sc_handled s1 en h fds rbody body o2 s2 (ev2 ++ free_msg f2) SV X H0 K) as SC. rewrite H1 in SC.
        assert (Eq : set_quiesced s1 false = s1) by (clear - Q0; destruct s1; cbn in Q0; rewrite Q0; reflexivity). rewrite Eq in SC. specialize (SC (fun K => False_ind _ (diff_false_true K)) Hr).
        destruct o2 as [u|e|cr]; [| |now destruct (NC2 cr)]; injection H as <- <- <-; exact SC.
  - unfold device_quiesced in H. destruct (cx_quiesce (sv_ctx s)) eqn:Qc; cbn [negb] in H; [|injection H as <- <- <-; constructor; auto].
    destruct (sv_pending s) as [|m|] eqn:P; [injection H as <- <- <-; constructor; auto| |].
    + destruct (errno =? 0) eqn:E0.
      * apply N.eqb_eq in E0. subst errno.
        destruct (handle_request (set_quiesced s true) en m) as [[[o2 s2] f2] ev2] eqn:Hr.
        assert (NC2 : forall cr, o2 <> Crash cr) by (intros cr ->; injection H as <- <- <-; now destruct (NC cr)).
        apply handle_request_cases in Hr; [|exact I|exact NC2].
        pose proof (sc_quiesced_msg s en m o2 s2 _ P Qc Hr) as SC.
        destruct o2 as [u|e|cr]; [| |now destruct (NC2 cr)]; injection H as <- <- <-; exact SC.
      * injection H as <- <- <-. apply N.eqb_neq in E0. unfold free_msg. rewrite close_all_spec.
        pose proof (sc_quiesced_failed s en errno E0) as SC. rewrite P in SC. apply SC; [congruence|exact Qc].
    + destruct (errno =? 0) eqn:E0.
      * apply N.eqb_eq in E0. subst errno. destruct (reset_quiesced_spec (set_quiesced s true) (en_lost en) I) as (s1 & Rs & Po). rewrite Rs in H.
        injection H as <- <- <-. change (lost_events (set_quiesced s true)) with (lost_events s). now apply sc_quiesced_reset.
      * injection H as <- <- <-. apply N.eqb_neq in E0. pose proof (sc_quiesced_failed s en errno E0) as SC. rewrite P in SC. apply SC; [congruence|exact Qc].
  - destruct (sv_conn s) eqn:C; injection H as <- <- <-; now constructor.
  - unfold dev_mark in H. destruct (cx_dma (sv_ctx s)) as [d|] eqn:D; [|injection H as <- <- <-; now destruct (NC OutOfBounds)].
    destruct (sgl_mark_dirty d l) as [d'|e|cr] eqn:M; injection H as <- <- <-; [now apply (sc_mark s l d)|constructor|now destruct (NC cr)].
  - injection H as <- <- <-. constructor.
  - destruct (cx_irqs (sv_ctx s)) as [t|]; [|injection H as <- <- <-; now destruct (NC OutOfBounds)].
    destruct (irq_trigger t ans v) as [o1 ev1] eqn:T. injection H as <- <- <-. constructor.
    unfold irq_trigger in T. destruct (nth_error (iq_efds t) (N.to_nat v)) as [fd|]; [|injection T as <- <-; intros e []].
    destruct (fd =? -1)%Z; [injection T as <- <-; intros e []|]. destruct ans; injection T as <- <-; intros x [<-|[]]; eauto.
  - unfold dev_poke in H. destruct (put_slice (pc_cfg (cx_pci (sv_ctx s))) (N.to_nat poff) pdata) as [cfg|] eqn:PS; injection H as <- <- <-.
    + now constructor.
    + now destruct (NC OutOfBounds).
Qed.

Lemma handled_kept s en m o s' ev : handled s en m o s' ev -> kept s s' /\ (forall cr, o <> Crash cr) /\ sv_quiesced s' = sv_quiesced s /\
  (sv_pending s' = sv_pending s \/ (sv_pending s = PNone /\ sv_pending s' = PReset /\ cx_quiesce (sv_ctx s) = true)).
Proof.
  intros [err body fds c1 fds' ev1 o1 s1 ev2 D K F R]. pose proof (reply_kept _ _ _ _ _ _ _ (k_inv _ _ K) R) as K2.
  destruct (reply_replies _ _ _ _ _ _ _ R eq_refl eq_refl) as (_ & NC & Q & P).
  split; [eapply kept_trans; eauto|]. split; [exact NC|]. split; [exact Q|]. destruct P as [P|(P1 & P2 & P3)]; [left; exact P|right].
  split; [exact P1|]. split; [exact P2|]. destruct (k_setup _ _ K) as (_ & E & _). cbn [sv_ctx set_ctx] in *. congruence.
Qed.

Lemma kept_sinv s s' : kept s s' -> sv_quiesced s' = false -> (sv_pending s' <> PNone -> cx_quiesce (sv_ctx s) = true) -> sinv s'.
Proof. intros K Q P. split; [apply K|]. split; [exact Q|]. intros N. destruct (k_setup _ _ K) as (_ & E & _). rewrite E. auto. Qed.

Lemma step_kept s st o s' ev : sinv s -> step_case s st o s' ev -> kept s s' /\ sinv s'.
Proof.
  intros SI H. pose proof SI as (I & Q0 & PQ).
  assert (SAME : kept s s /\ sinv s) by (split; [now apply kept_refl|exact SI]).
  destruct H; try exact SAME.
  - destruct (e' =? EBUSY); [|exact SAME].
    assert (K : kept s (set_pending s PReset)) by (apply (kept_other s s); auto using kept_refl). split; [exact K|]. apply (kept_sinv s); auto.
  - pose proof (loss_kept _ _ _ H3) as K. split; [exact K|]. destruct H3 as (_ & _ & _ & _ & P & Q & _). destruct H as (_ & Pn & _). apply (kept_sinv s); [exact K|congruence|].
    intros Nn. exfalso. apply Nn. congruence.
  - pose proof (reply_kept _ _ _ _ _ _ _ I H2) as K. split; [exact K|]. destruct (reply_replies _ _ _ _ _ _ _ H2 eq_refl eq_refl) as (_ & _ & Q & P).
    destruct H as (_ & Pn & _). apply (kept_sinv s); [exact K|congruence|]. destruct P as [P|(_ & _ & P)]; [intros Nn; exfalso; apply Nn; congruence|auto].
  - assert (K : kept s (set_pending s (PMsg (mk_msg h body fds)))) by (apply (kept_other s s); auto using kept_refl). split; [exact K|]. apply (kept_sinv s); auto.
    intros _. clear - H2. unfold needs_quiesce in H2. destruct (cx_quiesce (sv_ctx s)); [reflexivity|discriminate H2].
  - destruct (handled_kept _ _ _ _ _ _ H3) as (K & _ & Q & P).
    assert (K2 : kept s (set_quiesced s' false)) by (apply (kept_other s s'); auto; constructor; try apply K; exact (k_real _ _ K)).
    split; [exact K2|]. apply (kept_sinv s); [exact K2|reflexivity|]. destruct H as (_ & Pn & _). cbn [set_quiesced sv_pending sv_ctx] in *.
    destruct P as [P|(_ & _ & P)]; [intros Nn; exfalso; apply Nn; congruence|auto].
  - destruct (handled_kept _ _ _ _ _ _ H1) as (K & _ & Q & P).
    assert (K2 : kept s (set_quiesced (set_pending s' PNone) false)) by (apply (kept_other s s'); auto; constructor; try apply K; exact (k_real _ _ K)).
    split; [exact K2|]. apply (kept_sinv s); [exact K2|reflexivity|]. intros Nn. now destruct Nn.
  - pose proof (loss_kept _ _ _ H1) as K.
    assert (K2 : kept s (set_quiesced (set_pending s' PNone) false)) by (apply (kept_other s s'); auto; constructor; try apply K; exact (k_real _ _ K)).
    split; [exact K2|]. apply (kept_sinv s); [exact K2|reflexivity|]. intros Nn. now destruct Nn.
  - assert (K2 : kept s (set_quiesced (set_pending s PNone) false)) by (apply (kept_other s s); auto using kept_refl).
    split; [exact K2|]. apply (kept_sinv s); [exact K2|reflexivity|]. intros Nn. now destruct Nn.
  - assert (K2 : kept s (set_conn (set_ctx s (set_max_xfer (sv_ctx s) max)) true)).
    { constructor; cbn [sv_ctx set_ctx set_conn sv_realized]; [|apply setup_xfer|reflexivity|auto]. constructor; [exact (ci_dma _ I)|exact (ci_irqs _ I)]. }
    split; [exact K2|]. apply (kept_sinv s); auto.
  - assert (K2 : kept s (set_ctx s (set_dma (sv_ctx s) d' (cx_hint (sv_ctx s))))).
    { constructor; cbn [sv_ctx set_ctx sv_realized]; [|apply setup_dma; congruence|reflexivity|auto]. constructor.
      - intros d0 E. injection E as <-. exact (proj1 (sgl_mark_dirty_inv _ _ _ (ci_dma _ I d H) H0)).
      - exact (ci_irqs _ I). }
    split; [exact K2|]. apply (kept_sinv s); auto.
  - unfold dev_hint. destruct (cx_dma (sv_ctx s)) as [d|] eqn:D; [|exact SAME].
    assert (K2 : kept s (set_ctx s (set_dma (sv_ctx s) d h))).
    { constructor; cbn [sv_ctx set_ctx sv_realized]; [|apply setup_dma; congruence|reflexivity|auto]. constructor.
      - intros d0 E. injection E as <-. exact (ci_dma _ I d D).
      - exact (ci_irqs _ I). }
    split; [exact K2|]. apply (kept_sinv s); auto.
  - assert (K2 : kept s (set_ctx s (set_pci (sv_ctx s) (set_cfg (cx_pci (sv_ctx s)) cfg)))).
    { constructor; cbn [sv_ctx set_ctx sv_realized]; [|apply setup_pci|reflexivity|auto]. constructor; [exact (ci_dma _ I)|exact (ci_irqs _ I)]. }
    split; [exact K2|]. apply (kept_sinv s); auto.
Qed.

Lemma history_kept s l s' arr ev : history s l s' arr ev -> sinv s -> kept s s' /\ sinv s'.
Proof.
  induction 1 as [s|s st o s1 ev1 l s2 arr ev2 H NC T IH]; intros SI; [split; [apply kept_refl, SI|exact SI]|].
  destruct (step_kept _ _ _ _ _ SI (step_cases _ _ _ _ _ SI H NC)) as [K SI1]. destruct (IH SI1) as [K2 SI2].
  split; [eapply kept_trans; eauto|exact SI2].
Qed.

Lemma fresh_sinv s : fresh s -> sinv s.
Proof.
  intros (R & P & Q & _). destruct R as (D & T & L & B & E3 & E4 & _). split; [|split; [exact Q|congruence]]. constructor.
  - intros d E. destruct D as [D|D]; rewrite D in E; [discriminate E|]. injection E as <-. apply inv_create.
  - exists (irqs_create (cx_irq_cfg (sv_ctx s))). split; [exact T|]. unfold irq_table_ok. split; [exact L|]. split; [exact B|]. split; [|auto].
    intros i Hi. unfold irqs_create. cbn [iq_efds]. rewrite repeat_length. destruct (fold_max_ge (ic_count (cx_irq_cfg (sv_ctx s))) 0) as [_ M].
    assert (In (nth (N.to_nat i) (ic_count (cx_irq_cfg (sv_ctx s))) 0) (ic_count (cx_irq_cfg (sv_ctx s)))) by (apply nth_In; lia).
    specialize (M _ H). lia.
Qed.

Lemma reachable_sinv s : reachable s -> sinv s.
Proof. intros (s0 & l & arr & ev & F & H). exact (proj2 (history_kept _ _ _ _ _ H (fresh_sinv _ F))). Qed.
