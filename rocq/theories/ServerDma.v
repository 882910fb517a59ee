(* What a history of the server does to the DMA controller is a history of DMA operations. *)
From Coq Require Import NArith ZArith List Bool Lia ZifyBool ZifyNat ZifyN.
From Verif Require Import Base Types Bytes BytesProofs BufProofs Spec Dma Dirty DmaOps SpecDma DmaProofs DmaDisjoint DmaRemap Migr Irq SpecIrq IrqProofs PropIrq Pci Handlers
  SpecHandlers HandlersProofs PropHandlers HandlersDma Server SpecServer ServerProofs SpecMsg.
Import ListNotations.
Open Scope N_scope.
Ltac Zify.zify_post_hook ::= idtac.

(* ---------- the callbacks do not matter for the table *)

Definition same_kind {A} (a b : outcome A) : Prop :=
  match a, b with
  | Ok _, Ok _ => True
  | Err e, Err e' => e = e'
  | Crash c, Crash c' => c = c'
  | _, _ => False
  end.

Lemma release_cb cb cb' r : same_kind (release_region cb r) (release_region cb' r).
Proof. unfold release_region. destruct (di_vaddr (rg_info r)), (rg_fd r =? -1)%Z; exact Logic.I || reflexivity. Qed.

Lemma remove_scan_cb cb cb' rs addr size :
  same_kind (fst (remove_scan cb rs addr size)) (fst (remove_scan cb' rs addr size)) /\
  snd (remove_scan cb rs addr size) = snd (remove_scan cb' rs addr size).
Proof.
  induction rs as [|r rs (IH1 & IH2)]; [split; reflexivity|]. cbn [remove_scan]. destruct (same_range r addr size).
  - pose proof (release_cb cb cb' r) as K. destruct (release_region cb r), (release_region cb' r); try contradiction; cbn [same_kind] in K; subst; split; exact Logic.I || reflexivity.
  - destruct (remove_scan cb rs addr size), (remove_scan cb' rs addr size). cbn [fst snd] in *. split; [exact IH1|congruence].
Qed.

Lemma release_all_cb cb cb' rs : same_kind (release_all cb rs) (release_all cb' rs).
Proof.
  induction rs as [|r rs IH]; [exact Logic.I|]. cbn [release_all]. pose proof (release_cb cb cb' r) as K.
  destruct (release_region cb r), (release_region cb' r); try contradiction; cbn [same_kind] in K; subst; try reflexivity.
  destruct (release_all cb rs), (release_all cb' rs); try contradiction; cbn [same_kind] in IH; subst; exact Logic.I || reflexivity.
Qed.

Lemma step_cb cb cb' d op : snd (fst (dma_step cb d op)) = snd (fst (dma_step cb' d op)).
Proof.
  destruct op; cbn [dma_step]; try reflexivity.
  - unfold dma_map_request. destruct (add_region os d addr size fd off prot) as ((o, d1), ev1). destruct o; try reflexivity. destruct (nth_error (dm_regions d1) a); reflexivity.
  - unfold remove_region. destruct (remove_scan_cb cb cb' (dm_regions d) addr size) as (K & E).
    destruct (remove_scan cb (dm_regions d) addr size) as (o, rs), (remove_scan cb' (dm_regions d) addr size) as (o', rs'). cbn [fst snd] in *. subst.
    destruct o, o'; try contradiction; reflexivity.
  - unfold remove_all_regions. pose proof (release_all_cb cb cb' (dm_regions d)) as K. destruct (release_all cb (dm_regions d)), (release_all cb' (dm_regions d)); try contradiction; reflexivity.
Qed.

Lemma run_cb cb cb' : forall ops d, fst (dma_run cb d ops) = fst (dma_run cb' d ops).
Proof.
  induction ops as [|op ops IH]; intros d; [reflexivity|]. cbn [dma_run]. pose proof (step_cb cb cb' d op) as E.
  destruct (dma_step cb d op) as ((o, d1), ev1), (dma_step cb' d op) as ((o', d1'), ev1'). cbn [fst snd] in E. subst d1'. specialize (IH d1).
  destruct (dma_run cb d1 ops), (dma_run cb' d1 ops). exact IH.
Qed.

Lemma run_app cb : forall ops1 d ops2,
  dma_run cb d (ops1 ++ ops2) = (fst (dma_run cb (fst (dma_run cb d ops1)) ops2), snd (dma_run cb d ops1) ++ snd (dma_run cb (fst (dma_run cb d ops1)) ops2)).
Proof.
  induction ops1 as [|op ops1 IH]; intros d ops2; cbn [app dma_run].
  - cbn [fst snd app]. destruct (dma_run cb d ops2); reflexivity.
  - destruct (dma_step cb d op) as ((o, d1), ev1). rewrite IH. destruct (dma_run cb d1 ops1) as (d2, ev2). cbn [fst snd]. now rewrite app_assoc.
Qed.

(* ---------- steps *)

Section Steps.
(* G is the assumption under which the ranges of the operations are known to end below 2^64. *)
Variable G : Prop.

Definition dma_by (s s' : server) (ev : list event) : Prop :=
  same_setup (sv_ctx s) (sv_ctx s') /\
  forall d, cx_dma (sv_ctx s) = Some d -> exists ops, (G -> Forall op_range_ok ops) /\ cx_dma (sv_ctx s') = Some (fst (dma_run true d ops)) /\
    (cx_register (sv_ctx s) = true -> cx_unregister (sv_ctx s) = true -> dma_events (snd (dma_run true d ops)) = dma_events ev).

Lemma dma_by_none s s' ev : same_setup (sv_ctx s) (sv_ctx s') -> cx_dma (sv_ctx s') = cx_dma (sv_ctx s) -> dma_events ev = [] -> dma_by s s' ev.
Proof. intros S E N. split; [exact S|]. intros d D. exists []. split; [intros _; constructor|]. cbn [dma_run fst snd]. rewrite E, D, N. auto. Qed.

Lemma dma_by_refl s ev : dma_events ev = [] -> dma_by s s ev.
Proof. intros H. apply dma_by_none; auto using setup_refl. Qed.

Lemma dma_by_trans s1 s2 s3 ev1 ev2 : dma_by s1 s2 ev1 -> dma_by s2 s3 ev2 -> dma_by s1 s3 (ev1 ++ ev2).
Proof.
  intros (S1 & D1) (S2 & D2). split; [eapply setup_trans; eauto|]. intros d D. destruct (D1 d D) as (o1 & R1 & E1 & V1).
  destruct (D2 _ E1) as (o2 & R2 & E2 & V2). exists (o1 ++ o2). split; [intros g; apply Forall_app; auto|]. rewrite run_app. cbn [fst snd]. split; [exact E2|].
  intros A B. rewrite !dma_events_app, V1 by auto. f_equal. destruct S1 as (_ & _ & _ & S1a & S1b & _). apply V2; congruence.
Qed.

(* Only the context and the events matter. *)
Lemma dma_by_ctx s1 s2 s3 ev ev' : dma_by s1 s2 ev -> sv_ctx s3 = sv_ctx s2 -> dma_events ev' = dma_events ev -> dma_by s1 s3 ev'.
Proof. intros (S & D) E V. split; rewrite E; [exact S|]. rewrite V. exact D. Qed.
Lemma dma_by_from s0 s1 s2 ev : dma_by s1 s2 ev -> sv_ctx s0 = sv_ctx s1 -> dma_by s0 s2 ev.
Proof. intros (S & D) E. split; rewrite E; [exact S|exact D]. Qed.

Lemma by_ops_by s c' cmd body ev : same_setup (sv_ctx s) c' -> (G -> msg_range_ok cmd body) ->
  (forall cb d, (cmd = 2 -> cx_register (sv_ctx s) = cb) -> (cmd = 3 -> cx_unregister (sv_ctx s) = cb) -> cx_dma (sv_ctx s) = Some d ->
     exists d', cx_dma c' = Some d' /\ by_ops cb cmd body d d' ev) -> dma_by s (set_ctx s c') ev.
Proof.
  intros S M B. split; [exact S|]. intros d D.
  set (cb := if cmd =? 2 then cx_register (sv_ctx s) else if cmd =? 3 then cx_unregister (sv_ctx s) else true).
  destruct (B cb d) as (d' & E & ops & evd & R & V & RO); auto.
  { intros ->. reflexivity. } { intros ->. reflexivity. }
  exists ops. split; [auto|]. rewrite (run_cb true cb). rewrite R. split; [exact E|]. intros A C.
  assert (cb = true) as EC by (unfold cb; destruct (cmd =? 2), (cmd =? 3); auto). rewrite EC in R. rewrite R. exact V.
Qed.

Lemma lost_no_dma s : dma_events (lost_events s) = dma_events (concat (map (gives_up s) (regions_of s))).
Proof.
  unfold lost_events. rewrite !dma_events_app. replace (dma_events (if cx_reset (sv_ctx s) then [EvReset ResetLostConn] else [])) with (@nil event) by (destruct (cx_reset (sv_ctx s)); reflexivity).
  replace (dma_events (closes_of (irq_fds s))) with (@nil event); [cbn; apply app_nil_r|].
  unfold closes_of. induction (filter (fun fd => negb (fd =? -1)%Z) (irq_fds s)); [reflexivity|]. cbn. assumption.
Qed.
Lemma closes_no_dma fds : dma_events (closes_of fds) = [].
Proof. unfold closes_of. induction (filter _ fds); [reflexivity|]. cbn. assumption. Qed.
Lemma quiesce_no_dma s : dma_events (quiesce_call s) = [].
Proof. unfold quiesce_call. destruct (cx_quiesce _); reflexivity. Qed.

Lemma loss_by s s' lost : cinv (sv_ctx s) -> loss_post s s' lost -> dma_by s s' (lost_events s).
Proof.
  intros I L. pose proof L as (_ & _ & _ & _ & _ & _ & _ & S & _ & _ & DD). split; [exact S|]. intros d D. exists [OpUnmapAll]. split; [intros _; repeat constructor|].
  pose proof (inv_fd _ (ci_dma _ I d D)) as F. pose proof (release_all_spec s _ F) as RA.
  assert (R : dma_run (cx_unregister (sv_ctx s)) d [OpUnmapAll] = (set_regions d [], concat (map (gives_up s) (dm_regions d)))).
  { apply run_one with (o := Ok tt). cbn [dma_step]. unfold remove_all_regions. rewrite RA. reflexivity. }
  rewrite (run_cb true (cx_unregister (sv_ctx s))). rewrite R. cbn [fst]. split; [auto|]. intros A B. rewrite B in R. rewrite R. cbn [snd].
  rewrite lost_no_dma. unfold regions_of. now rewrite D.
Qed.

Lemma reply_by s en h r o s' ev : cinv (sv_ctx s) -> reply_case s en h r o s' ev -> dma_by s s' ev.
Proof.
  intros I [W|W S|e W S E|e e' W S E Q P Qr|e s1 W S E Q P]; try (apply dma_by_refl; reflexivity).
  - destruct (e' =? EBUSY); [apply dma_by_none; auto using setup_refl|now apply dma_by_refl].
  - eapply dma_by_ctx; [eapply loss_by; eauto|reflexivity|]. rewrite dma_events_app. destruct (sv_pending s); rewrite ?quiesce_no_dma; reflexivity.
Qed.

Lemma handled_by s en m o s' ev : cinv (sv_ctx s) -> (G -> msg_range_ok (hd_cmd (mg_hdr m)) (mg_body m)) -> handled s en m o s' ev -> dma_by s s' ev.
Proof.
  intros I M [err body fds c1 fds' ev1 o1 s1 ev2 D K F R].
  destruct (dispatch_shape _ _ _ _ _ _ _ _ _ D) as (S & _ & B).
  assert (I1 : cinv c1) by (eapply dispatch_cinv; [exact I|exact D|exact Logic.I]).
  eapply dma_by_trans; [eapply by_ops_by; [exact S|exact M|]|].
  - intros cb d A1 A2 Dd. apply (B cb d A1 A2 Logic.I Dd).
  - eapply dma_by_ctx; [eapply reply_by; [|exact R]; exact I1|reflexivity|]. rewrite dma_events_app, closes_no_dma. apply app_nil_r.
Qed.

(* ---------- the ranges of the messages *)

Definition pending_ok (s : server) : Prop := match sv_pending s with PMsg m => G -> msg_range_ok (hd_cmd (mg_hdr m)) (mg_body m) | _ => True end.

Lemma rd_firstn n l off w v : rd (firstn n l) off w = Some v -> rd l off w = Some v.
Proof.
  unfold rd, slice. rewrite firstn_length. destruct (Nat.leb (off + w) (Nat.min n (length l))) eqn:E; [|discriminate]. apply Nat.leb_le in E.
  intros H. injection H as <-. replace (Nat.leb (off + w) (length l)) with true by (symmetry; apply Nat.leb_le; lia).
  rewrite skipn_firstn_comm, firstn_firstn. do 3 f_equal. lia.
Qed.

Lemma accepted_range s h fds rbody body en : en_rx en = RxMsg h fds rbody -> accepted s h rbody body -> (G -> maps_ok (SRun en)) -> G -> msg_range_ok (hd_cmd h) body.
Proof.
  intros X [b V B _] M g. specialize (M g). unfold maps_ok in M. rewrite X in M. intros C addr size A1 A2. destruct (hd_size h =? 16).
  - injection B as <-. discriminate A1.
  - destruct rbody as [e|l]; [discriminate B|]. unfold recv_body in B.
    destruct (N.of_nat (length (firstn (N.to_nat (hd_size h - 16)) l)) =? 0); [discriminate B|].
    destruct (negb (N.of_nat (length (firstn (N.to_nat (hd_size h - 16)) l)) =? hd_size h - 16)); [discriminate B|]. injection B as <-.
    exact (M C addr size (rd_firstn _ _ _ _ _ A1) (rd_firstn _ _ _ _ _ A2)).
Qed.

Lemma reply_pending s en h r o s' ev : reply_case s en h r o s' ev -> pending_ok s -> pending_ok s'.
Proof.
  intros [W|W S|e W S E|e e' W S E Q P Qr|e s1 W S E Q P] H; auto.
  - destruct (e' =? EBUSY); [exact Logic.I|exact H].
  - unfold pending_ok. destruct P as (_ & _ & _ & _ & -> & _). exact H.
Qed.

Lemma handled_pending s en m o s' ev : handled s en m o s' ev -> pending_ok s -> pending_ok s'.
Proof. intros [err body fds c1 fds' ev1 o1 s1 ev2 D K F R] H. eapply reply_pending; [exact R|exact H]. Qed.

Lemma step_by s st o s' ev : sinv s -> step_case s st o s' ev -> (G -> maps_ok st) -> pending_ok s -> dma_by s s' ev /\ pending_ok s'.
Proof.
  intros (I & Q0 & PQ) C M P. destruct C; try (split; [apply dma_by_refl; reflexivity|exact P]).
  - split; [|destruct (e' =? EBUSY); [exact Logic.I|exact P]]. destruct (e' =? EBUSY); [apply dma_by_none; auto using setup_refl|now apply dma_by_refl].
  - split; [eapply dma_by_ctx; [eapply loss_by; eauto|reflexivity|rewrite dma_events_app, quiesce_no_dma; reflexivity]|].
    unfold pending_ok. match goal with L : loss_post _ _ _ |- _ => destruct L as (_ & _ & _ & _ & -> & _) end. exact P.
  - split; [|eapply reply_pending; eauto]. eapply dma_by_ctx; [eapply reply_by; eauto|reflexivity|].
    rewrite !dma_events_app, closes_no_dma, app_nil_r. match goal with R : refused_with _ _ _ _ _ _ |- _ => destruct R; reflexivity end.
  - split; [apply dma_by_none; auto using setup_refl|]. intros g. eapply (accepted_range s h fds rbody body en); eauto.
  - match goal with Hh : handled _ _ _ _ _ _ |- _ => pose proof Hh as HH end.
    assert (MM : G -> msg_range_ok (hd_cmd h) body) by (eapply (accepted_range s h fds rbody body en); eauto).
    split; [|exact (handled_pending _ _ _ _ _ _ HH P)].
    apply (handled_by (set_quiesced s q) en (mk_msg h body fds) _ _ _ I MM) in HH.
    eapply dma_by_ctx; [exact HH|reflexivity|]. rewrite dma_events_app. destruct q; reflexivity.
  - match goal with Hh : handled _ _ _ _ _ _ |- _ => pose proof Hh as HH end.
    split; [|exact Logic.I]. apply (handled_by (set_quiesced s true) en m _ _ _ I) in HH; [|unfold pending_ok in P; match goal with E : sv_pending s = PMsg m |- _ => rewrite E in P end; exact P].
    eapply dma_by_ctx; [exact HH|reflexivity|reflexivity].
  - split; [|exact Logic.I]. eapply dma_by_ctx; [eapply (loss_by (set_quiesced s true)); eauto|reflexivity|reflexivity].
  - split; [|exact Logic.I]. apply dma_by_none; auto using setup_refl. destruct (sv_pending s); try reflexivity. apply closes_no_dma.
  - split; [|exact P]. apply dma_by_none; [apply setup_xfer|reflexivity|reflexivity].
  - split; [|exact P]. assert (SS : same_setup (sv_ctx s) (sv_ctx (set_ctx s (set_dma (sv_ctx s) d' (cx_hint (sv_ctx s)))))) by (unfold same_setup; cbn; intuition congruence). split; [exact SS|]. intros d0 D0. exists [OpMark l]. split; [intros _; repeat constructor|].
    match goal with A : cx_dma (sv_ctx s) = Some d |- _ => rewrite A in D0; injection D0 as <- end.
    cbn [dma_run dma_step]. match goal with B : sgl_mark_dirty d l = Ok d' |- _ => rewrite B end. cbn [fst snd]. split; [reflexivity|auto].
  - unfold dev_hint. destruct (cx_dma (sv_ctx s)) eqn:D; [|split; [apply dma_by_refl; reflexivity|exact P]]. split; [|exact P].
    apply dma_by_none; [unfold same_setup; cbn; intuition congruence|now rewrite D|reflexivity].
  - split; [|exact P]. apply dma_by_refl. match goal with X : forall e, In e ev -> _ |- _ => revert X end. clear.
    induction ev as [|e ev IH]; intros A; [reflexivity|]. cbn. destruct (A e (or_introl eq_refl)) as (fd & ->). cbn. apply IH. intros e0 H0. apply A. now right.
  - split; [|exact P]. apply dma_by_none; [apply setup_pci|reflexivity|reflexivity].
Qed.

Lemma history_by s l s' arr ev : history s l s' arr ev -> sinv s -> (G -> Forall maps_ok l) -> pending_ok s -> dma_by s s' ev.
Proof.
  induction 1 as [s|s st o s1 ev1 l s2 arr ev2 H NC T IH]; intros SI F P; [now apply dma_by_refl|].
  assert (G -> maps_ok st) by (intros g; specialize (F g); now inversion F). assert (G -> Forall maps_ok l) by (intros g; specialize (F g); now inversion F).
  apply step_cases in H; [|exact SI|exact NC]. destruct (step_kept _ _ _ _ _ SI H) as (_ & SI').
  destruct (step_by _ _ _ _ _ SI H) as (B & P'); auto. eapply dma_by_trans; eauto.
Qed.

End Steps.

(* Everything proved about the operations of a DMA controller holds of the controller of a server. *)
Theorem server_controller s0 l s arr ev d : fresh s0 -> history s0 l s arr ev -> cx_dma (sv_ctx s) = Some d ->
  exists ops evd, dma_run true dma_create ops = (d, evd) /\ (Forall maps_ok l -> Forall op_range_ok ops) /\
    (cx_register (sv_ctx s0) = true -> cx_unregister (sv_ctx s0) = true -> dma_events evd = dma_events ev).
Proof.
  intros F H D. assert (P : pending_ok (Forall maps_ok l) s0) by (unfold pending_ok; destruct F as (_ & -> & _); exact Logic.I).
  destruct (history_by (Forall maps_ok l) _ _ _ _ _ H (fresh_sinv _ F) (fun g => g) P) as (S & B).
  destruct F as (([E|E] & _) & _).
  - exfalso. destruct S as (_ & _ & _ & _ & _ & _ & _ & (N & _) & _). rewrite (N E) in D. discriminate D.
  - destruct (B _ E) as (ops & R & E' & V). rewrite D in E'. injection E' as E'. exists ops, (snd (dma_run true dma_create ops)).
    split; [rewrite E'; now destruct (dma_run true dma_create ops)|]. auto.
Qed.
