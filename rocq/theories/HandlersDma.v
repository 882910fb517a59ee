(* What a request does to the DMA controller is a history of DMA operations. *)
From Coq Require Import NArith ZArith List Bool Lia ZifyBool ZifyNat ZifyN.
From Verif Require Import Base Types Bytes BytesProofs Spec Dma Dirty DmaOps SpecDma Migr Irq Pci Handlers SpecHandlers IrqProofs HandlersProofs.
Import ListNotations.
Open Scope N_scope.
Ltac Zify.zify_post_hook ::= idtac.

(* A map request names a range that ends below 2^64. *)
Definition msg_range_ok (cmd : N) (body : list N) : Prop :=
  cmd = 2 -> forall addr size, rd body 16 8 = Some addr -> rd body 24 8 = Some size -> range_ok addr size.

Definition is_dma_event (e : event) : bool := match e with EvRegister _ | EvUnregister _ => true | _ => false end.
Definition dma_events (ev : list event) : list event := filter is_dma_event ev.

Definition no_crash (r : hres) : Prop := match r with HCrash _ => False | HReply _ _ _ => True end.

(* d' is reached from d by operations a request stands for, with the same dma events *)
Definition by_ops (cb : bool) (cmd : N) (body : list N) (d d' : dma) (ev : list event) : Prop :=
  exists ops evd, dma_run cb d ops = (d', evd) /\ dma_events evd = dma_events ev /\ (msg_range_ok cmd body -> Forall op_range_ok ops).

Lemma by_ops_none cb cmd body d ev : dma_events ev = [] -> by_ops cb cmd body d d ev.
Proof. intros H. exists [], []. split; [reflexivity|]. split; [now rewrite H|]. constructor. Qed.

Lemma dma_events_app a b : dma_events (a ++ b) = dma_events a ++ dma_events b.
Proof. apply filter_app. Qed.

Lemma run_one cb d op o d' ev : dma_step cb d op = (o, d', ev) -> dma_run cb d [op] = (d', ev).
Proof. intros H. cbn [dma_run]. rewrite H. now rewrite app_nil_r. Qed.

Ltac needs H := repeat match type of H with need ?x _ _ = _ => let Q := fresh "Rd" in destruct x eqn:Q; cbn [need] in H end.

Lemma handle_dma_map_ops cb c d o body fds r c' fds' ev : cx_register c = cb ->
  handle_dma_map c d o body fds = (r, c', fds', ev) -> no_crash r -> cx_dma c = Some d ->
  exists d' h, cx_dma c' = Some d' /\ c' = set_dma c d' h /\ by_ops cb 2 body d d' ev.
Proof.
  intros CB H NC Dm. unfold handle_dma_map in H.
  assert (SAME : c = set_dma c d (cx_hint c)) by (destruct c; cbn in Dm; subst; reflexivity).
  assert (K : forall r0 fds0, (r0, c, fds0, @nil event) = (r, c', fds', ev) -> exists d' h, cx_dma c' = Some d' /\ c' = set_dma c d' h /\ by_ops cb 2 body d d' ev).
  { intros r0 fds0 Q. injection Q as <- <- <- <-. exists d, (cx_hint c). split; [exact Dm|]. split; [exact SAME|]. now apply by_ops_none. }
  destruct (N.of_nat (length body) <? 32); [eapply K; exact H|].
  needs H; try (eapply K; exact H).
  destruct (n <? 32); [eapply K; exact H|].
  destruct (negb (N.ldiff n0 3 =? 0)); [eapply K; exact H|].
  destruct (match fds with [] => ((-1)%Z, []) | f :: fs => (f, (-1)%Z :: fs) end) as [fd rest].
  destruct (negb (Nat.eqb (length fds) 0) && (fd <? 0)%Z); [eapply K; exact H|].
  set (prot := (if has n0 1 then PROT_READ else 0) + (if has n0 2 then PROT_WRITE else 0)) in H. clearbody prot.
  destruct (dma_map_request (cx_register c) (or_os o) d n2 n3 fd n1 prot) as [[res d'] ev1] eqn:Q.
  injection H as Hr <- <- <-. exists d', (cx_hint c). split; [reflexivity|]. split; [reflexivity|].
  exists [OpMap (or_os o) n2 n3 fd n1 prot], ev1. split; [|split].
  - apply (run_one cb d _ res). cbn [dma_step]. now rewrite <- CB.
  - reflexivity.
  - intros M. constructor; [|constructor]. cbn [op_range_ok]. now apply M.
Qed.

Lemma handle_dma_unmap_ops cb c d o body r c' ev : cx_unregister c = cb ->
  handle_dma_unmap c d o body = (r, c', ev) -> no_crash r -> cx_dma c = Some d ->
  exists d' h, cx_dma c' = Some d' /\ c' = set_dma c d' h /\ by_ops cb 3 body d d' ev.
Proof.
  intros CB H NC Dm. unfold handle_dma_unmap in H.
  assert (SAME : c = set_dma c d (cx_hint c)) by (destruct c; cbn in Dm; subst; reflexivity).
  assert (K : forall r0, (r0, c, @nil event) = (r, c', ev) -> exists d' h, cx_dma c' = Some d' /\ c' = set_dma c d' h /\ by_ops cb 3 body d d' ev).
  { intros r0 Q. injection Q as <- <- <-. exists d, (cx_hint c). split; [exact Dm|]. split; [exact SAME|]. now apply by_ops_none. }
  assert (NR : forall ops, msg_range_ok 3 body -> (forall op, In op ops -> match op with OpMap _ _ _ _ _ _ => False | _ => True end) -> Forall op_range_ok ops).
  { intros ops _ F. apply Forall_forall. intros op I. specialize (F op I). destruct op; cbn; tauto. }
  needs H; [|eapply K; exact H].
  destruct (n =? UNMAP_DIRTY); [|destruct (n =? UNMAP_ALL); [|destruct (n =? 0)]].
  - needs H; try (eapply K; exact H). destruct (N.of_nat (length body) <? 40); [eapply K; exact H|].
    needs H; try (eapply K; exact H). destruct ((n1 <? satadd_u64 40 n0) || (MAX_XFER <? n1)); [eapply K; exact H|].
    destruct (dirty_page_get d (cx_hint c) n2 n3 n4 n0 (fit (N.to_nat n0) (or_junk o))) as [[[bm|e|cr] d1] h1] eqn:Q.
    + destruct (remove_region (cx_unregister c) d1 n2 n3) as [[ev2|e|cr] d2] eqn:Q2.
      * injection H as <- <- <-. exists d2, h1. split; [reflexivity|]. split; [reflexivity|].
        eexists [OpReport (cx_hint c) n2 n3 n4 n0 _; OpUnmap n2 n3], ev2. split; [|split; [reflexivity|]].
        -- cbn [dma_run dma_step]. rewrite Q, <- CB, Q2. now rewrite app_nil_r.
        -- intros M. apply NR; [exact M|]. intros op [<-|[<-|[]]]; exact I.
      * injection H as <- <- <-. exists d2, h1. split; [reflexivity|]. split; [reflexivity|].
        eexists [OpReport (cx_hint c) n2 n3 n4 n0 _; OpUnmap n2 n3], []. split; [|split; [reflexivity|]].
        -- cbn [dma_run dma_step]. now rewrite Q, <- CB, Q2.
        -- intros M. apply NR; [exact M|]. intros op [<-|[<-|[]]]; exact I.
      * injection H as <- <- <-. now destruct NC.
    + injection H as <- <- <-. exists d1, h1. split; [reflexivity|]. split; [reflexivity|].
      eexists [OpReport (cx_hint c) n2 n3 n4 n0 _], []. split; [|split; [reflexivity|]].
      -- cbn [dma_run dma_step]. now rewrite Q.
      -- intros M. apply NR; [exact M|]. intros op [<-|[]]; exact I.
    + injection H as <- <- <-. now destruct NC.
  - needs H; try (eapply K; exact H). destruct (negb (n0 =? 0)); [eapply K; exact H|].
    needs H; try (eapply K; exact H). destruct (negb (n1 =? 0)); [eapply K; exact H|].
    destruct (N.of_nat (length body) <? 24); [eapply K; exact H|].
    needs H; try (eapply K; exact H). destruct ((n2 <? 24) || (MAX_XFER <? n2)); [eapply K; exact H|].
    destruct (remove_all_regions (cx_unregister c) d) as [[ev2|e|cr] d2] eqn:Q; injection H as <- <- <-.
    + exists d2, (cx_hint c). split; [reflexivity|]. split; [reflexivity|]. exists [OpUnmapAll], ev2. split; [|split; [reflexivity|]].
      -- cbn [dma_run dma_step]. rewrite <- CB, Q. now rewrite app_nil_r.
      -- intros M. apply NR; [exact M|]. intros op [<-|[]]; exact I.
    + exists d2, (cx_hint c). split; [reflexivity|]. split; [reflexivity|]. exists [OpUnmapAll], []. split; [|split; [reflexivity|]].
      -- cbn [dma_run dma_step]. now rewrite <- CB, Q.
      -- intros M. apply NR; [exact M|]. intros op [<-|[]]; exact I.
    + now destruct NC.
  - destruct (N.of_nat (length body) <? 24); [eapply K; exact H|].
    needs H; try (eapply K; exact H). destruct ((n0 <? 24) || (MAX_XFER <? n0)); [eapply K; exact H|].
    destruct (remove_region (cx_unregister c) d n1 n2) as [[ev2|e|cr] d2] eqn:Q; injection H as <- <- <-.
    + exists d2, (cx_hint c). split; [reflexivity|]. split; [reflexivity|]. exists [OpUnmap n1 n2], ev2. split; [|split; [reflexivity|]].
      -- cbn [dma_run dma_step]. rewrite <- CB, Q. now rewrite app_nil_r.
      -- intros M. apply NR; [exact M|]. intros op [<-|[]]; exact I.
    + exists d2, (cx_hint c). split; [reflexivity|]. split; [reflexivity|]. exists [OpUnmap n1 n2], []. split; [|split; [reflexivity|]].
      -- cbn [dma_run dma_step]. now rewrite <- CB, Q.
      -- intros M. apply NR; [exact M|]. intros op [<-|[]]; exact I.
    + now destruct NC.
  - eapply K; exact H.
Qed.

(* ---------- what each request can change *)

(* The configured part of the context, the existence of the optional parts and the size of the vector table
   stay as they are. *)
Definition same_setup (c c' : ctx) : Prop :=
  cx_regs c' = cx_regs c /\ cx_quiesce c' = cx_quiesce c /\ cx_reset c' = cx_reset c /\
  cx_register c' = cx_register c /\ cx_unregister c' = cx_unregister c /\ cx_irq_cfg c' = cx_irq_cfg c /\
  (cx_mig c = None <-> cx_mig c' = None) /\ (cx_dma c = None <-> cx_dma c' = None) /\
  option_map (fun t => length (iq_efds t)) (cx_irqs c') = option_map (fun t => length (iq_efds t)) (cx_irqs c).

Lemma setup_refl c : same_setup c c.
Proof. unfold same_setup. intuition. Qed.

Lemma setup_trans a b c : same_setup a b -> same_setup b c -> same_setup a c.
Proof. unfold same_setup. intuition congruence. Qed.

Lemma setup_dma c d h : cx_dma c <> None -> same_setup c (set_dma c d h).
Proof. unfold same_setup. destruct c; cbn. intuition discriminate. Qed.
Lemma setup_xfer c n : same_setup c (set_max_xfer c n).
Proof. unfold same_setup. destruct c; cbn. intuition. Qed.
Lemma setup_mig c m : (cx_mig c = None <-> m = None) -> same_setup c (set_mig c m).
Proof. unfold same_setup. destruct c; cbn. intuition. Qed.
Lemma setup_pci c p : same_setup c (set_pci c p).
Proof. unfold same_setup. destruct c; cbn. intuition. Qed.
Lemma setup_irqt c t t' : cx_irqs c = Some t -> length (iq_efds t') = length (iq_efds t) -> same_setup c (set_irqt c t').
Proof. unfold same_setup. destruct c; cbn. intros -> E. cbn. rewrite E. intuition. Qed.

(* Which events the handling of a request can cause. *)
Definition kind_ok (cmd : N) (e : event) : Prop :=
  match e with
  | EvRegister _ => cmd = 2
  | EvUnregister _ | EvMunmap _ _ => cmd = 3
  | EvClose _ => cmd = 2 \/ cmd = 3 \/ cmd = 8
  | EvIrqState _ _ _ _ | EvSignal _ => cmd = 8
  | EvAccess _ _ _ _ _ => cmd = 9 \/ cmd = 10
  | EvReset ResetDevice => cmd = 13
  | EvReset ResetPciFlr => cmd = 10
  | EvTransition _ => cmd = 16
  | EvReadData _ => cmd = 17
  | EvWriteData _ => cmd = 18
  | _ => False
  end.

Lemma kind_close cmd fd : cmd = 2 \/ cmd = 3 \/ cmd = 8 -> Forall (kind_ok cmd) (close_ev fd).
Proof. intros H. unfold close_ev. destruct (fd =? -1)%Z; constructor; [exact H|constructor]. Qed.

Lemma disable_loop_len : forall n t index i o t' ev, disable_loop t index i n = (o, t', ev) ->
  length (iq_efds t') = length (iq_efds t) /\ Forall (kind_ok 8) ev.
Proof.
  induction n as [|n IH]; intros t index i o t' ev H; cbn [disable_loop] in H.
  - injection H as <- <- <-. split; [reflexivity|constructor].
  - destruct (((index =? IRQ_ERR) || (index =? IRQ_REQ)) && negb (i =? 0)); [injection H as <- <- <-; split; [reflexivity|constructor]|].
    destruct (get_efd t index i) as [fd|]; [|injection H as <- <- <-; split; [reflexivity|constructor]].
    destruct (disable_loop (set_efd t index i (-1)) index (i + 1) n) as [[o1 t1] ev1] eqn:Q. injection H as <- <- <-.
    apply IH in Q. destruct Q as [L F]. split; [rewrite L; apply set_efd_len|]. apply Forall_app. split; [apply kind_close; auto|exact F].
Qed.

Lemma bind_loop_len : forall n t index i fds o t' rest ev, bind_loop t index i n fds = (o, t', rest, ev) ->
  length (iq_efds t') = length (iq_efds t) /\ Forall (kind_ok 8) ev.
Proof.
  induction n as [|n IH]; intros t index i fds o t' rest ev H; cbn [bind_loop] in H.
  - injection H as <- <- <- <-. split; [reflexivity|constructor].
  - destruct (get_efd t index i) as [old|]; [|injection H as <- <- <- <-; split; [reflexivity|constructor]].
    destruct fds as [|fd fds]; [injection H as <- <- <- <-; split; [reflexivity|apply kind_close; auto]|].
    destruct (fd <? 0)%Z; [injection H as <- <- <- <-; split; [reflexivity|apply kind_close; auto]|].
    destruct (bind_loop (set_efd t index i fd) index (i + 1) n fds) as [[[o1 t1] r1] ev1] eqn:Q. injection H as <- <- <- <-.
    apply IH in Q. destruct Q as [L F]. split; [rewrite L; apply set_efd_len|]. apply Forall_app. split; [apply kind_close; auto|exact F].
Qed.

Lemma signal_loop_kind : forall n t index i sel answers k o ev, signal_loop t index i n sel answers k = (o, ev) -> Forall (kind_ok 8) ev.
Proof.
  induction n as [|n IH]; intros t index i sel answers k o ev H; cbn [signal_loop] in H.
  - injection H as <- <-. constructor.
  - destruct (get_efd t index i) as [fd|]; [|injection H as <- <-; constructor].
    destruct (match sel with None => Some true | Some (b :: _) => Some (b =? 1) | Some [] => if (fd >=? 0)%Z then None else Some false end) as [ch|];
      [|injection H as <- <-; constructor].
    destruct ((fd >=? 0)%Z && ch).
    + destruct (answers k); [injection H as <- <-; repeat constructor|].
      destruct (signal_loop t index (i + 1) n (option_map (@tl N) sel) answers (S k)) as [o1 ev1] eqn:Q. injection H as <- <-.
      apply IH in Q. constructor; [reflexivity|exact Q].
    + eapply IH, H.
Qed.

Lemma set_irqs_shape c t answers body fds r t' rest ev : set_irqs c t answers body fds = (r, t', rest, ev) ->
  length (iq_efds t') = length (iq_efds t) /\ Forall (kind_ok 8) ev.
Proof.
  intros H. unfold set_irqs in H.
  assert (K : forall r0 (f0 : list Z), (r0, t, f0, @nil event) = (r, t', rest, ev) -> length (iq_efds t') = length (iq_efds t) /\ Forall (kind_ok 8) ev).
  { intros r0 f0 Q. injection Q as <- <- <- <-. split; [reflexivity|constructor]. }
  destruct (N.of_nat (length body) <? 20); [eapply K, H|]. needs H; try (eapply K; exact H).
  destruct (negb (set_irqs_valid c (N.of_nat (length body)) n n0 n1 n2 n3 (N.of_nat (length fds)))); [eapply K, H|].
  destruct ((N.land n0 IRQ_ACTION_TYPE_MASK =? IRQ_ACTION_MASK) || (N.land n0 IRQ_ACTION_TYPE_MASK =? IRQ_ACTION_UNMASK)).
  - unfold irqs_set_state in H. destruct (negb (irq_has_cb c n1)); [eapply K, H|].
    destruct (negb (w32 (n2 + n3) <=? irq_count c n1)); [eapply K, H|].
    destruct (negb (has (N.land n0 IRQ_ACTION_TYPE_MASK) IRQ_ACTION_MASK || has (N.land n0 IRQ_ACTION_TYPE_MASK) IRQ_ACTION_UNMASK)); [eapply K, H|].
    injection H as <- <- <- <-. split; [reflexivity|repeat constructor].
  - destruct ((N.land n0 IRQ_DATA_TYPE_MASK =? IRQ_DATA_NONE) && (n3 =? 0) || (N.land n0 IRQ_DATA_TYPE_MASK =? IRQ_DATA_EVENTFD) && (N.of_nat (length fds) =? 0)).
    + unfold irqs_disable in H. destruct (negb (w32 (n2 + n3) <=? irq_count c n1)); [eapply K, H|].
      match type of H with context [disable_loop ?a ?b ?x ?y] => destruct (disable_loop a b x y) as [[o1 t1] ev1] eqn:Q end.
      apply disable_loop_len in Q. destruct o1; injection H as <- <- <- <-; exact Q.
    + destruct (N.land n0 IRQ_DATA_TYPE_MASK =? IRQ_DATA_EVENTFD).
      * match type of H with context [bind_loop ?a ?b ?x ?y ?z] => destruct (bind_loop a b x y z) as [[[o1 t1] r1] ev1] eqn:Q end.
        apply bind_loop_len in Q. destruct o1; injection H as <- <- <- <-; exact Q.
      * match type of H with context [signal_loop ?a ?b ?x ?y ?z ?u ?v] => destruct (signal_loop a b x y z u v) as [o1 ev1] eqn:Q end.
        apply signal_loop_kind in Q. destruct o1; injection H as <- <- <- <-; (split; [reflexivity|exact Q]).
Qed.

Lemma set_state_kind fuel : forall answers k cur target o s ev, set_state_loop fuel answers k cur target = (o, s, ev) -> Forall (kind_ok 16) ev.
Proof.
  induction fuel as [|fuel IH]; intros answers k cur target o s ev H; cbn [set_state_loop] in H.
  - destruct (cur =? target); injection H as <- <- <-; constructor.
  - destruct (cur =? target); [injection H as <- <- <-; constructor|].
    destruct (nth_error next_state (N.to_nat cur)) as [row|]; [|injection H as <- <- <-; constructor].
    destruct (nth_error row (N.to_nat target)) as [nxt|]; [|injection H as <- <- <-; constructor].
    destruct (nxt =? ST_ERROR); [injection H as <- <- <-; constructor|].
    unfold handle_device_state in H. destruct (negb (transition_is_valid cur nxt)); [injection H as <- <- <-; constructor|].
    destruct (vfio_to_vfu nxt) as [v|]; [|injection H as <- <- <-; constructor].
    destruct (answers k); [injection H as <- <- <-; repeat constructor|].
    destruct (set_state_loop fuel answers (S k) nxt target) as [[o1 c1] ev1] eqn:Q. injection H as <- <- <-.
    apply IH in Q. constructor; [reflexivity|exact Q].
Qed.

Lemma release_kind cb r ev : release_region cb r = Ok ev -> Forall (kind_ok 3) ev.
Proof.
  unfold release_region. intros H.
  assert (U : Forall (kind_ok 3) (if cb then [EvUnregister (rg_info r)] else [])) by (destruct cb; repeat constructor).
  destruct (di_vaddr (rg_info r)), (rg_fd r =? -1)%Z; try discriminate H; injection H as <-; [|exact U].
  apply Forall_app. split; [exact U|]. constructor; [reflexivity|]. apply kind_close. auto.
Qed.

Lemma remove_region_kind cb d addr size ev d' : remove_region cb d addr size = (Ok ev, d') -> Forall (kind_ok 3) ev.
Proof.
  unfold remove_region. intros H. destruct (remove_scan cb (dm_regions d) addr size) as [o rs] eqn:Q. injection H as -> <-.
  revert rs Q. generalize (dm_regions d). induction l as [|r l IH]; intros rs Q; cbn [remove_scan] in Q; [discriminate Q|].
  destruct (same_range r addr size).
  - destruct (release_region cb r) eqn:R; try discriminate Q. injection Q as <- <-. now apply release_kind in R.
  - destruct (remove_scan cb l addr size) as [o' rest'] eqn:Q'. injection Q as -> <-. eapply IH, eq_refl.
Qed.

Lemma release_all_kind cb l : forall ev, release_all cb l = Ok ev -> Forall (kind_ok 3) ev.
Proof.
  induction l as [|r l IH]; intros ev H; cbn [release_all] in H; [injection H as <-; constructor|].
  destruct (release_region cb r) eqn:R; try discriminate H. destruct (release_all cb l) eqn:Q; try discriminate H. injection H as <-.
  apply Forall_app. split; [now apply release_kind in R|]. now apply IH.
Qed.

Lemma remove_all_kind cb d ev d' : remove_all_regions cb d = (Ok ev, d') -> Forall (kind_ok 3) ev.
Proof.
  unfold remove_all_regions. intros H. destruct (release_all cb (dm_regions d)) eqn:R; try discriminate H.
  injection H as <- <-. now apply release_all_kind in R.
Qed.

Lemma map_request_kind cb os d addr size fd off prot o d' ev : dma_map_request cb os d addr size fd off prot = (o, d', ev) -> Forall (kind_ok 2) ev.
Proof.
  unfold dma_map_request. intros H. destruct (add_region os d addr size fd off prot) as [[o1 d1] ev1] eqn:Q.
  assert (K : Forall (kind_ok 2) ev1).
  { unfold add_region in Q.
    repeat match type of Q with
    | (match ?x with _ => _ end) = _ => destruct x
    end; try (injection Q as <- <- <-; first [constructor|apply kind_close; auto]).
    all: injection Q as <- <- <-; constructor. }
  destruct o1.
  - destruct (nth_error (dm_regions d1) a); injection H as <- <- <-; [|exact K]. apply Forall_app. split; [exact K|].
    destruct cb; repeat constructor.
  - injection H as <- <- <-. apply Forall_app. split; [exact K|]. apply kind_close; auto.
  - injection H as <- <- <-. exact K.
Qed.

Lemma part_kind w off region count data e : part_of w off region count data e -> kind_ok (cmd_of w) e.
Proof. destruct e; cbn; try tauto; destruct w; cbn; try tauto; try (destruct t; intuition discriminate). Qed.

Lemma region_access_kept c o region w off count data res buf c' ev :
  region_access c o region w off count data = (res, buf, c', ev) -> exists p, c' = set_pci c p.
Proof.
  assert (SAME : c = set_pci c (cx_pci c)) by (destruct c; reflexivity).
  intros H. unfold region_access in H. destruct (nth_error (cx_regs c) (N.to_nat region)) as [r|]; [|injection H as <- <- <- <-; eauto].
  destruct ((region =? CFG_REGION) && negb (has (ri_flags r) REGION_FLAG_ALWAYS_CB)).
  - destruct w.
    + destruct (config_write (env_of c) (cx_pci c) (or_access o) (or_reset o) off data) as [[o1 p1] ev1]. injection H as <- <- <- <-. eauto.
    + destruct (config_read (env_of c) (cx_pci c) (or_access o) off count) as [[o1 p1] ev1]. injection H as <- <- <- <-. eauto.
  - destruct (negb (ri_cb r)); [injection H as <- <- <- <-; eauto|]. destruct (or_access o 0%nat off count); injection H as <- <- <- <-; eauto.
Qed.

Lemma handle_access_shape c o w body r c' ev : handle_region_access c o w body = (r, c', ev) ->
  (exists p, c' = set_pci c p) /\ Forall (kind_ok (cmd_of w)) ev.
Proof.
  assert (SAME : c = set_pci c (cx_pci c)) by (destruct c; reflexivity).
  intros H. unfold handle_region_access in H.
  assert (K : forall r0, (r0, c, @nil event) = (r, c', ev) -> (exists p, c' = set_pci c p) /\ Forall (kind_ok (cmd_of w)) ev).
  { intros r0 Q. injection Q as <- <- <-. split; [eauto|constructor]. }
  destruct (N.of_nat (length body) <? 16) eqn:L16; [eapply K, H|]. needs H; try (eapply K; exact H).
  destruct (negb (valid_region_access c (N.of_nat (length body)) w n n0 n1)) eqn:V; [eapply K, H|].
  destruct (n1 =? 0) eqn:C0; [eapply K, H|].
  destruct (region_access c o n0 w n n1 (if w then skipn 16 body else [])) as [[[res buf] c1] ev1] eqn:Q.
  assert (F : Forall (kind_ok (cmd_of w)) ev1).
  { assert (P : Forall (part_of w n n0 n1 (if w then skipn 16 body else [])) ev1).
    { eapply region_access_parts; [| | |exact Q]; [intros ->|intros ->; reflexivity|lia].
      rewrite skipn_length. unfold valid_region_access in V. destruct (MAX_XFER <? n1); [discriminate V|]. cbn [andb] in V.
      destruct (N.of_nat (length body) - 16 =? n1) eqn:E; [lia|discriminate V]. }
    eapply Forall_impl; [|exact P]. intros e. apply part_kind. }
  apply region_access_kept in Q.
  destruct res as [k|e|cr]; [destruct (k =? n1)| |]; injection H as <- <- <-; auto.
Qed.

Lemma feature_shape cb c o body r c' ev : handle_device_feature c o body = (r, c', ev) ->
  same_setup c c' /\ Forall (kind_ok 16) ev /\
  (no_crash r -> forall d, cx_dma c = Some d -> exists d', cx_dma c' = Some d' /\ by_ops cb 16 body d d' ev) /\ cx_pci c' = cx_pci c /\ cx_irqs c' = cx_irqs c.
Proof.
  intros H. unfold handle_device_feature in H.
  assert (K : forall r0, (r0, c, @nil event) = (r, c', ev) -> same_setup c c' /\ Forall (kind_ok 16) ev /\
    (no_crash r -> forall d, cx_dma c = Some d -> exists d', cx_dma c' = Some d' /\ by_ops cb 16 body d d' ev) /\ cx_pci c' = cx_pci c /\ cx_irqs c' = cx_irqs c).
  { intros r0 Q. injection Q as <- <- <-. split; [apply setup_refl|]. split; [constructor|]. split; [|auto]. intros _ d D. exists d. split; [exact D|]. now apply by_ops_none. }
  assert (NR : forall op, match op with OpMap _ _ _ _ _ _ => False | _ => True end -> msg_range_ok 16 body -> Forall op_range_ok [op]).
  { intros op F _. constructor; [|constructor]. destruct op; cbn; tauto. }
  destruct (N.of_nat (length body) <? 8); [eapply K, H|]. needs H; try (eapply K; exact H).
  destruct (negb (N.land n0 (feature_supported (cx_mig c) (N.land n0 FEATURE_MASK)) =? N.ldiff n0 FEATURE_MASK) || (feature_supported (cx_mig c) (N.land n0 FEATURE_MASK) =? 0)); [eapply K, H|].
  destruct (N.ldiff n0 FEATURE_MASK =? FEATURE_GET).
  { destruct (is_migration_feature (N.land n0 FEATURE_MASK)); [eapply K, H|].
    destruct (is_dma_feature (N.land n0 FEATURE_MASK)); [|eapply K, H].
    destruct (dma_feature_get c n n0 body) as [r1 c1] eqn:Q. unfold dma_feature_get in Q.
    destruct (cx_dma c) as [d|] eqn:D; [|injection Q as <- <-; eapply K, H].
    needs Q; try (injection Q as <- <-; eapply K, H).
    destruct (get_bitmap_size n1 n2) as [bs|e|cr]; try (injection Q as <- <-; eapply K, H).
    destruct (n <? 32 + bs); [injection Q as <- <-; eapply K, H|].
    needs Q; try (injection Q as <- <-; eapply K, H).
    destruct (dirty_page_get d (cx_hint c) n3 n1 n2 bs (zeros (N.to_nat bs))) as [[o1 d1] h1] eqn:G.
    assert (S : same_setup c (set_dma c d1 h1)) by (apply setup_dma; congruence).
    injection H as <- <- <-.
    assert (E : c1 = set_dma c d1 h1 /\ (no_crash r1 -> exists x, o1 = Ok x \/ exists e, o1 = Err e)).
    { destruct o1; injection Q as <- <-; (split; [reflexivity|]); [eauto|eauto|intros []]. Unshelve. all: exact []. }
    destruct E as [-> E]. split; [exact S|]. split; [constructor|]. split; [|split; destruct c; reflexivity].
    intros NC d0 D0. injection D0 as <-. exists d1. split; [reflexivity|].
    exists [OpReport (cx_hint c) n3 n1 n2 bs (zeros (N.to_nat bs))], []. split; [|split; [reflexivity|apply NR; exact I]].
    cbn [dma_run dma_step]. rewrite G. destruct (E NC) as (x & [->|(e & ->)]); reflexivity. }
  destruct (N.ldiff n0 FEATURE_MASK =? FEATURE_SET).
  { destruct (n <? N.of_nat (length body)); [eapply K, H|].
    destruct (is_migration_feature (N.land n0 FEATURE_MASK)).
    { unfold migration_feature_set in H. destruct (negb (N.land n0 FEATURE_MASK =? FEATURE_MIG_DEVICE_STATE)); [eapply K, H|].
      needs H; [|eapply K, H]. destruct (cx_mig c) as [cur|] eqn:M; [|eapply K, H].
      destruct (migration_set_state (or_trans o) cur n1) as [[res cur'] ev1] eqn:Q.
      assert (F : Forall (kind_ok 16) ev1).
      { unfold migration_set_state in Q. destruct (NUM_STATES <? n1); [injection Q as <- <- <-; constructor|]. now apply set_state_kind in Q. }
      injection H as <- <- <-. split; [apply setup_mig; rewrite M; split; discriminate|]. split; [exact F|]. split; [|split; destruct c; reflexivity].
      intros _ d D. exists d. split; [exact D|]. apply by_ops_none. clear - F. induction F as [|e l P F IH]; [reflexivity|].
      cbn. destruct e; cbn in P |- *; try discriminate P; exact IH. }
    destruct (is_dma_feature (N.land n0 FEATURE_MASK)); [|eapply K, H].
    destruct (dma_feature_set c o (N.land n0 FEATURE_MASK) body) as [r1 c1] eqn:Q. unfold dma_feature_set in Q.
    destruct (cx_dma c) as [d|] eqn:D; [|injection Q as <- <-; eapply K, H].
    destruct (N.land n0 FEATURE_MASK =? FEATURE_DMA_LOGGING_START).
    - needs Q; [|injection Q as <- <-; eapply K, H].
      destruct (logging_start (or_calloc o) d n1) as [res d1] eqn:G. injection Q as <- <-. injection H as <- <- <-.
      split; [apply setup_dma; congruence|]. split; [constructor|]. split; [|split; destruct c; reflexivity].
      intros NC d0 D0. injection D0 as <-. exists d1. split; [reflexivity|].
      exists [OpLogStart (or_calloc o) n1], []. split; [|split; [reflexivity|apply NR; exact I]]. cbn [dma_run dma_step]. now rewrite G.
    - destruct (N.land n0 FEATURE_MASK =? FEATURE_DMA_LOGGING_STOP); [|injection Q as <- <-; eapply K, H].
      injection Q as <- <-. injection H as <- <- <-.
      split; [apply setup_dma; congruence|]. split; [constructor|]. split; [|split; destruct c; reflexivity].
      intros NC d0 D0. injection D0 as <-. exists (logging_stop d). split; [reflexivity|].
      exists [OpLogStop], []. split; [reflexivity|]. split; [reflexivity|apply NR; exact I]. }
  destruct (negb (has (N.ldiff n0 FEATURE_MASK) FEATURE_PROBE)); [eapply K, H|].
  destruct (n <? N.of_nat (length body)); eapply K, H.
Qed.

Lemma dma_map_kept c d o body fds r c' fds' ev : handle_dma_map c d o body fds = (r, c', fds', ev) ->
  (c' = c \/ exists d' h, c' = set_dma c d' h) /\ Forall (kind_ok 2) ev.
Proof.
  intros H. unfold handle_dma_map in H.
  assert (K : forall r0 fds0, (r0, c, fds0, @nil event) = (r, c', fds', ev) -> (c' = c \/ exists d' h, c' = set_dma c d' h) /\ Forall (kind_ok 2) ev).
  { intros r0 fds0 Q. injection Q as <- <- <- <-. split; [auto|constructor]. }
  destruct (N.of_nat (length body) <? 32); [eapply K; exact H|]. needs H; try (eapply K; exact H).
  destruct (n <? 32); [eapply K; exact H|]. destruct (negb (N.ldiff n0 3 =? 0)); [eapply K; exact H|].
  destruct (match fds with [] => ((-1)%Z, []) | f :: fs => (f, (-1)%Z :: fs) end) as [fd rest].
  destruct (negb (Nat.eqb (length fds) 0) && (fd <? 0)%Z); [eapply K; exact H|].
  match type of H with context [dma_map_request ?a ?b ?x ?y ?z ?u ?v ?w] => destruct (dma_map_request a b x y z u v w) as [[res d'] ev1] eqn:Q end.
  apply map_request_kind in Q. injection H as Hr <- <- <-. split; [right; eauto|exact Q].
Qed.

Lemma dma_unmap_kept c d o body r c' ev : handle_dma_unmap c d o body = (r, c', ev) ->
  (c' = c \/ exists d' h, c' = set_dma c d' h) /\ Forall (kind_ok 3) ev.
Proof.
  intros H. unfold handle_dma_unmap in H.
  assert (K : forall r0, (r0, c, @nil event) = (r, c', ev) -> (c' = c \/ exists d' h, c' = set_dma c d' h) /\ Forall (kind_ok 3) ev).
  { intros r0 Q. injection Q as <- <- <-. split; [auto|constructor]. }
  needs H; [|eapply K; exact H].
  destruct (n =? UNMAP_DIRTY); [|destruct (n =? UNMAP_ALL); [|destruct (n =? 0)]].
  - needs H; try (eapply K; exact H). destruct (N.of_nat (length body) <? 40); [eapply K; exact H|].
    needs H; try (eapply K; exact H). destruct ((n1 <? satadd_u64 40 n0) || (MAX_XFER <? n1)); [eapply K; exact H|].
    destruct (dirty_page_get d (cx_hint c) n2 n3 n4 n0 (fit (N.to_nat n0) (or_junk o))) as [[[bm|e|cr] d1] h1] eqn:Q.
    + destruct (remove_region (cx_unregister c) d1 n2 n3) as [[ev2|e|cr] d2] eqn:Q2; injection H as <- <- <-;
        (split; [eauto|]); [|constructor|constructor]. now apply remove_region_kind in Q2.
    + injection H as <- <- <-. split; [eauto|constructor].
    + injection H as <- <- <-. split; [eauto|constructor].
  - needs H; try (eapply K; exact H). destruct (negb (n0 =? 0)); [eapply K; exact H|].
    needs H; try (eapply K; exact H). destruct (negb (n1 =? 0)); [eapply K; exact H|].
    destruct (N.of_nat (length body) <? 24); [eapply K; exact H|].
    needs H; try (eapply K; exact H). destruct ((n2 <? 24) || (MAX_XFER <? n2)); [eapply K; exact H|].
    destruct (remove_all_regions (cx_unregister c) d) as [[ev2|e|cr] d2] eqn:Q; injection H as <- <- <-;
        (split; [eauto|]); [|constructor|constructor]. now apply remove_all_kind in Q.
  - destruct (N.of_nat (length body) <? 24); [eapply K; exact H|].
    needs H; try (eapply K; exact H). destruct ((n0 <? 24) || (MAX_XFER <? n0)); [eapply K; exact H|].
    destruct (remove_region (cx_unregister c) d n1 n2) as [[ev2|e|cr] d2] eqn:Q; injection H as <- <- <-;
        (split; [eauto|]); [|constructor|constructor]. now apply remove_region_kind in Q.
  - eapply K; exact H.
Qed.

Lemma kind_no_dma cmd ev : cmd <> 2 -> cmd <> 3 -> Forall (kind_ok cmd) ev -> dma_events ev = [].
Proof.
  intros N2 N3 F. induction F as [|e l P F IH]; [reflexivity|]. unfold dma_events in *. cbn [filter].
  destruct e; cbn [is_dma_event]; cbn [kind_ok] in P; try exact IH; congruence.
Qed.

(* Everything at once, for a request as a whole. *)
Lemma dispatch_shape c o cmd body fds r c' fds' ev : dispatch c o cmd body fds = (r, c', fds', ev) ->
  same_setup c c' /\ Forall (kind_ok cmd) ev /\
  (forall cb d, (cmd = 2 -> cx_register c = cb) -> (cmd = 3 -> cx_unregister c = cb) -> no_crash r -> cx_dma c = Some d ->
     exists d', cx_dma c' = Some d' /\ by_ops cb cmd body d d' ev).
Proof.
  intros H. unfold dispatch in H.
  assert (K : forall (P : Prop) r0 c0 f0, P -> (P -> c0 = c) -> (r0, c0, f0, @nil event) = (r, c', fds', ev) ->
    same_setup c c' /\ Forall (kind_ok cmd) ev /\
    (forall cb d, (cmd = 2 -> cx_register c = cb) -> (cmd = 3 -> cx_unregister c = cb) -> no_crash r -> cx_dma c = Some d ->
     exists d', cx_dma c' = Some d' /\ by_ops cb cmd body d d' ev)).
  { intros P r0 c0 f0 p E Q. rewrite (E p) in Q. injection Q as <- <- <- <-. split; [apply setup_refl|]. split; [constructor|].
    intros cb d _ _ _ D. exists d. split; [exact D|]. now apply by_ops_none. }
  assert (S : forall c1, c1 = c \/ (exists d' h, c1 = set_dma c d' h) -> cx_dma c <> None -> same_setup c c1).
  { intros c1 [->|(d' & h & ->)] D; [apply setup_refl|]. now apply setup_dma. }
  destruct (cmd =? CMD_DMA_MAP) eqn:E2.
  { assert (cmd = 2) by (change CMD_DMA_MAP with 2 in E2; lia). subst cmd. destruct (cx_dma c) as [d|] eqn:D; [|eapply (K True); eauto].
    destruct (dma_map_kept _ _ _ _ _ _ _ _ _ H) as [Kp F]. split; [apply S; congruence|]. split; [exact F|].
    intros cb d0 CB _ NC D0. injection D0 as <-. destruct (handle_dma_map_ops cb c d o body fds r c' fds' ev (CB eq_refl) H NC D) as (d' & h & A & _ & B). eauto. }
  destruct (cmd =? CMD_DMA_UNMAP) eqn:E3.
  { assert (cmd = 3) by (change CMD_DMA_UNMAP with 3 in E3; lia). subst cmd. destruct (cx_dma c) as [d|] eqn:D; [|eapply (K True); eauto].
    destruct (handle_dma_unmap c d o body) as [[r1 c1] ev1] eqn:Q. injection H as <- <- <- <-.
    destruct (dma_unmap_kept _ _ _ _ _ _ _ Q) as [Kp F]. split; [apply S; congruence|]. split; [exact F|].
    intros cb d0 _ CB NC D0. injection D0 as <-. destruct (handle_dma_unmap_ops cb c d o body r1 c1 ev1 (CB eq_refl) Q NC D) as (d' & h & A & _ & B). eauto. }
  destruct (cmd =? CMD_GET_INFO); [eapply (K True); eauto|]. destruct (cmd =? CMD_GET_REGION_INFO); [eapply (K True); eauto|].
  destruct (cmd =? CMD_GET_REGION_IO_FDS); [eapply (K True); eauto|]. destruct (cmd =? CMD_GET_IRQ_INFO); [eapply (K True); eauto|].
  assert (T : forall k, cmd = k -> k <> 2 -> k <> 3 -> Forall (kind_ok k) ev -> cx_dma c' = cx_dma c -> same_setup c c' ->
     same_setup c c' /\ Forall (kind_ok cmd) ev /\ (forall cb d, (cmd = 2 -> cx_register c = cb) -> (cmd = 3 -> cx_unregister c = cb) -> no_crash r -> cx_dma c = Some d ->
       exists d', cx_dma c' = Some d' /\ by_ops cb cmd body d d' ev)).
  { intros k -> N2 N3 F Ed Ss. split; [exact Ss|]. split; [exact F|]. intros cb d _ _ _ D. exists d. split; [congruence|].
    apply by_ops_none. now apply (kind_no_dma k). }
  destruct (cmd =? CMD_SET_IRQS) eqn:E8.
  { assert (cmd = 8) by (change CMD_SET_IRQS with 8 in E8; lia). destruct (cx_irqs c) as [t|] eqn:Ti; [|eapply (K True); eauto].
    destruct (set_irqs (cx_irq_cfg c) t (or_efd o) body fds) as [[[r1 t1] f1] ev1] eqn:Q. injection H as <- <- <- <-.
    apply set_irqs_shape in Q. destruct Q as [L F]. apply (T 8); [assumption|lia|lia|exact F|destruct c; reflexivity|now apply (setup_irqt c t)]. }
  destruct (cmd =? CMD_REGION_READ) eqn:E9.
  { assert (cmd = 9) by (change CMD_REGION_READ with 9 in E9; lia). destruct (handle_region_access c o false body) as [[r1 c1] ev1] eqn:Q. injection H as <- <- <- <-.
    apply handle_access_shape in Q. destruct Q as [(p & ->) F]. apply (T 9); [assumption|lia|lia|exact F|destruct c; reflexivity|apply setup_pci]. }
  destruct (cmd =? CMD_REGION_WRITE) eqn:E10.
  { assert (cmd = 10) by (change CMD_REGION_WRITE with 10 in E10; lia). destruct (handle_region_access c o true body) as [[r1 c1] ev1] eqn:Q. injection H as <- <- <- <-.
    apply handle_access_shape in Q. destruct Q as [(p & ->) F]. apply (T 10); [assumption|lia|lia|exact F|destruct c; reflexivity|apply setup_pci]. }
  destruct (cmd =? CMD_RESET) eqn:E13.
  { assert (cmd = 13) by (change CMD_RESET with 13 in E13; lia). unfold device_reset in H.
    assert (Sm : same_setup c (set_mig c match cx_mig c with Some _ => Some ST_RUNNING | None => None end))
      by (apply setup_mig; destruct (cx_mig c); split; congruence).
    destruct (cx_reset c); [destruct (or_reset o 0%nat)|]; injection H as <- <- <- <-; (apply (T 13); [assumption|lia|lia|repeat constructor|
      try reflexivity; destruct c; reflexivity|first [exact Sm|apply setup_refl]]). }
  destruct (cmd =? CMD_FEATURE) eqn:E16.
  { assert (cmd = 16) by (change CMD_FEATURE with 16 in E16; lia). subst cmd. destruct (handle_device_feature c o body) as [[r1 c1] ev1] eqn:Q. injection H as <- <- <- <-.
    split; [apply (feature_shape true) in Q; apply Q|]. split; [apply (feature_shape true) in Q; apply Q|].
    intros cb d _ _ NC D. apply (feature_shape cb) in Q. now apply Q. }
  destruct (cmd =? CMD_MIG_READ) eqn:E17.
  { assert (cmd = 17) by (change CMD_MIG_READ with 17 in E17; lia). destruct (mig_data_read (cx_mig c) (cx_max_xfer c) (or_data o) body) as [r1 ev1] eqn:Q.
    injection H as <- <- <- <-. apply (T 17); [assumption|lia|lia| |reflexivity|apply setup_refl]. unfold mig_data_read, need in Q.
    repeat match type of Q with (match ?x with _ => _ end) = _ => destruct x end; injection Q as <- <-; repeat constructor. }
  destruct (cmd =? CMD_MIG_WRITE) eqn:E18; [|eapply (K True); eauto].
  assert (cmd = 18) by (change CMD_MIG_WRITE with 18 in E18; lia). destruct (mig_data_write (cx_mig c) (cx_max_xfer c) (or_data o) body) as [r1 ev1] eqn:Q.
  injection H as <- <- <- <-. apply (T 18); [assumption|lia|lia| |reflexivity|apply setup_refl]. unfold mig_data_write, need in Q.
  repeat match type of Q with (match ?x with _ => _ end) = _ => destruct x end; injection Q as <- <-; repeat constructor.
Qed.
