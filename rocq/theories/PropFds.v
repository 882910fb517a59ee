(* Properties of file descriptors received from the client (C27). *)
From Coq Require Import NArith ZArith List Bool Lia ZifyBool ZifyNat ZifyN.
From Verif Require Import Base Types Bytes BytesProofs Spec Dma Dirty DmaOps SpecDma DmaProofs Migr Irq SpecIrq IrqProofs PropIrq Pci Handlers
  SpecHandlers HandlersProofs HandlersDma Server SpecServer ServerProofs PropServer.
Import ListNotations.
Open Scope N_scope.
Ltac Zify.zify_post_hook ::= idtac.

Lemma times_app fd a b : times fd (a ++ b) = (times fd a + times fd b)%nat.
Proof. apply count_occ_app. Qed.
Lemma times_nil fd : times fd [] = 0%nat.
Proof. reflexivity. Qed.
Definition one (fd f : Z) : nat := if Z.eq_dec f fd then 1 else 0.
Lemma times_cons fd f l : times fd (f :: l) = (one fd f + times fd l)%nat.
Proof. unfold times, one. cbn [count_occ]. destruct (Z.eq_dec f fd); reflexivity. Qed.
Lemma times_none fd : (0 <= fd)%Z -> one fd (-1)%Z = 0%nat.
Proof. intros H. unfold one. destruct (Z.eq_dec (-1) fd); lia. Qed.
Lemma times_neg fd f : (0 <= fd)%Z -> (f < 0)%Z -> one fd f = 0%nat.
Proof. intros H N. unfold one. destruct (Z.eq_dec f fd); lia. Qed.
Lemma closed_app a b fd : closed (a ++ b) fd = (closed a fd + closed b fd)%nat.
Proof. unfold closed. rewrite flat_map_app. apply times_app. Qed.
Lemma closed_nil fd : closed [] fd = 0%nat.
Proof. reflexivity. Qed.
Lemma closed_cons e l fd : closed (e :: l) fd = (closed [e] fd + closed l fd)%nat.
Proof. apply (closed_app [e] l). Qed.
Lemma closed_ev f fd : (0 <= fd)%Z -> closed (close_ev f) fd = one fd f.
Proof. intros H. unfold close_ev. destruct (Z.eqb_spec f (-1)) as [->|N]; [|reflexivity]. now rewrite times_none. Qed.
Lemma closed_closes l fd : (0 <= fd)%Z -> closed (closes_of l) fd = times fd l.
Proof.
  intros H. rewrite <- close_all_spec. induction l as [|f l IH]; [reflexivity|]. cbn [close_all].
  rewrite closed_app, closed_ev, IH by auto. now rewrite (times_cons fd f l).
Qed.
Lemma closed_not ev fd : (forall e, In e ev -> match e with EvClose _ => False | _ => True end) -> closed ev fd = 0%nat.
Proof.
  intros H. induction ev as [|e ev IH]; [reflexivity|]. rewrite closed_cons, IH by (intros x Hx; apply H; now right).
  specialize (H e (or_introl eq_refl)). destruct e; try reflexivity. contradiction.
Qed.
Lemma closed_kind cmd ev fd : Forall (kind_ok cmd) ev -> cmd <> 2 -> cmd <> 3 -> cmd <> 8 -> closed ev fd = 0%nat.
Proof.
  intros F A B C. apply closed_not. intros e He. rewrite Forall_forall in F. specialize (F e He). destruct e; try exact I. cbn in F. lia.
Qed.

Definition cregs (c : ctx) : list region := match cx_dma c with Some d => dm_regions d | None => [] end.
Definition tfds (t : irqs) : list Z := iq_req t :: iq_err t :: iq_efds t.
Definition cirqs (c : ctx) : list Z := match cx_irqs c with Some t => tfds t | None => [] end.
Definition cheld (c : ctx) (fd : Z) : nat := (times fd (map rg_fd (cregs c)) + times fd (cirqs c))%nat.

Lemma shape_fds rs rs' : Forall2 same_shape rs rs' -> map rg_fd rs' = map rg_fd rs.
Proof. induction 1 as [|r r' l l' H _ IH]; cbn [map]; [auto|]. destruct H as (_ & -> & _). now rewrite IH. Qed.

(* ---------- interrupts *)

Lemma set_nth_times i f l old fd : nth_error l i = Some old -> (times fd (set_nth i f l) + one fd old = times fd l + one fd (f))%nat.
Proof.
  revert i. induction l as [|x l IH]; intros [|i] H; cbn [nth_error] in H; try discriminate H.
  - injection H as ->. change (set_nth 0 f (old :: l)) with (f :: l). rewrite (times_cons fd f l), (times_cons fd old l). lia.
  - change (set_nth (S i) f (x :: l)) with (x :: set_nth i f l). specialize (IH i H).
    rewrite (times_cons fd x (set_nth i f l)), (times_cons fd x l). lia.
Qed.

Lemma set_efd_times t index i f old fd : get_efd t index i = Some old ->
  (times fd (tfds (set_efd t index i f)) + one fd old = times fd (tfds t) + one fd (f))%nat.
Proof.
  unfold get_efd, set_efd, tfds. intros H.
  destruct (index =? IRQ_ERR).
  { injection H as <-. cbn [iq_req iq_err iq_efds]. rewrite !(times_cons fd (iq_req t)), (times_cons fd f), (times_cons fd (iq_err t)). lia. }
  destruct (index =? IRQ_REQ).
  { injection H as <-. cbn [iq_req iq_err iq_efds]. rewrite (times_cons fd f), (times_cons fd (iq_req t)). lia. }
  cbn [iq_req iq_err iq_efds]. apply (set_nth_times _ f _ _ fd) in H.
  rewrite !(times_cons fd (iq_req t)), !(times_cons fd (iq_err t)). lia.
Qed.

Lemma disable_loop_fds fd : (0 <= fd)%Z -> forall n t index i o t' ev, disable_loop t index i n = (o, t', ev) ->
  (times fd (tfds t) = times fd (tfds t') + closed ev fd)%nat.
Proof.
  intros P. induction n as [|n IH]; intros t index i o t' ev H; cbn [disable_loop] in H.
  - injection H as <- <- <-. rewrite closed_nil. lia.
  - destruct (((index =? IRQ_ERR) || (index =? IRQ_REQ)) && negb (i =? 0)); [injection H as <- <- <-; rewrite closed_nil; lia|].
    destruct (get_efd t index i) as [f|] eqn:G; [|injection H as <- <- <-; rewrite closed_nil; lia].
    destruct (disable_loop (set_efd t index i (-1)) index (i + 1) n) as [[o1 t1] ev1] eqn:Q. injection H as <- <- <-.
    apply IH in Q. apply (set_efd_times _ _ _ (-1)%Z _ fd) in G. rewrite times_none in G by auto. rewrite closed_app, closed_ev by auto. lia.
Qed.

Lemma bind_loop_fds fd : (0 <= fd)%Z -> forall n t index i fds o t' rest ev, bind_loop t index i n fds = (o, t', rest, ev) -> (forall c, o <> Crash c) ->
  (times fd (tfds t) + times fd fds = times fd (tfds t') + times fd rest + closed ev fd)%nat.
Proof.
  intros P. induction n as [|n IH]; intros t index i fds o t' rest ev H NC; cbn [bind_loop] in H.
  - injection H as <- <- <- <-. rewrite closed_nil. lia.
  - destruct (get_efd t index i) as [old|] eqn:G; [|injection H as <- <- <- <-; now elim (NC OutOfBounds)].
    destruct fds as [|f fds]; [injection H as <- <- <- <-; now elim (NC OutOfBounds)|].
    destruct (f <? 0)%Z; [injection H as <- <- <- <-; now elim (NC AssertFailed)|].
    destruct (bind_loop (set_efd t index i f) index (i + 1) n fds) as [[[o1 t1] r1] ev1] eqn:Q. injection H as <- <- <- <-.
    apply IH in Q; [|exact NC]. apply (set_efd_times _ _ _ f _ fd) in G. rewrite closed_app, closed_ev by auto.
    rewrite (times_cons fd f fds), (times_cons fd (-1)%Z r1), times_none by auto. lia.
Qed.

Lemma signal_loop_fds fd t index answers : forall n i sel k o ev, signal_loop t index i n sel answers k = (o, ev) -> closed ev fd = 0%nat.
Proof.
  induction n as [|n IH]; intros i sel k o ev H; cbn [signal_loop] in H.
  - injection H as <- <-. reflexivity.
  - destruct (get_efd t index i) as [f|]; [|injection H as <- <-; reflexivity].
    destruct (match sel with None => Some true | Some (b :: _) => Some (b =? 1) | Some [] => if (f >=? 0)%Z then None else Some false end) as [ch|];
      [|injection H as <- <-; reflexivity].
    destruct ((f >=? 0)%Z && ch); [|eapply IH; exact H].
    destruct (answers k); [injection H as <- <-; reflexivity|].
    destruct (signal_loop t index (i + 1) n (option_map (@tl N) sel) answers (S k)) as [o2 ev2] eqn:Q.
    injection H as <- <-. rewrite closed_cons. apply IH in Q. rewrite Q. reflexivity.
Qed.

Lemma set_irqs_fds fd c t answers body fds r t' rest ev : (0 <= fd)%Z -> set_irqs c t answers body fds = (r, t', rest, ev) -> no_crash r ->
  (times fd (tfds t) + times fd fds = times fd (tfds t') + times fd rest + closed ev fd)%nat.
Proof.
  intros P H NC. unfold set_irqs in H.
  assert (K : forall r0 f0, f0 = fds -> forall ev0, closed ev0 fd = 0%nat -> (r0, t, f0, ev0) = (r, t', rest, ev) ->
    (times fd (tfds t) + times fd fds = times fd (tfds t') + times fd rest + closed ev fd)%nat).
  { intros r0 f0 -> ev0 E0 Q. injection Q as <- <- <- <-. lia. }
  destruct (N.of_nat (length body) <? 20); [now apply (K _ _ eq_refl [] eq_refl H)|]. needs H; try (now apply (K _ _ eq_refl [] eq_refl H)).
  destruct (negb (set_irqs_valid c (N.of_nat (length body)) n n0 n1 n2 n3 (N.of_nat (length fds)))); [now apply (K _ _ eq_refl [] eq_refl H)|].
  cbv zeta in H.
  destruct ((N.land n0 IRQ_ACTION_TYPE_MASK =? IRQ_ACTION_MASK) || (N.land n0 IRQ_ACTION_TYPE_MASK =? IRQ_ACTION_UNMASK)).
  { unfold irqs_set_state in H. destruct (negb (irq_has_cb c n1)); [now apply (K _ _ eq_refl [] eq_refl H)|].
    destruct (negb (w32 (n2 + n3) <=? irq_count c n1)); [now apply (K _ _ eq_refl [] eq_refl H)|].
    destruct (negb (has (N.land n0 IRQ_ACTION_TYPE_MASK) IRQ_ACTION_MASK || has (N.land n0 IRQ_ACTION_TYPE_MASK) IRQ_ACTION_UNMASK));
      [now apply (K _ _ eq_refl [] eq_refl H)|]. refine (K _ _ eq_refl _ _ H). reflexivity. }
  destruct ((N.land n0 IRQ_DATA_TYPE_MASK =? IRQ_DATA_NONE) && (n3 =? 0) || (N.land n0 IRQ_DATA_TYPE_MASK =? IRQ_DATA_EVENTFD) && (N.of_nat (length fds) =? 0)).
  { destruct (irqs_disable c t n1 n2 n3) as [[o1 t1] ev1] eqn:D. unfold irqs_disable in D.
    destruct (negb (w32 (n2 + n3) <=? irq_count c n1)).
    - injection D as <- <- <-. now apply (K _ _ eq_refl [] eq_refl H).
    - apply (disable_loop_fds fd P) in D. destruct o1; injection H as <- <- <- <-; lia. }
  destruct (N.land n0 IRQ_DATA_TYPE_MASK =? IRQ_DATA_EVENTFD).
  - destruct (bind_loop t n1 n2 (N.to_nat (w32 (n2 + n3) - n2)) fds) as [[[o1 t1] r1] ev1] eqn:B.
    apply (bind_loop_fds fd P) in B; [destruct o1; injection H as <- <- <- <-; exact B|].
    intros cr ->. injection H as <- <- <- <-. exact NC.
  - destruct (signal_loop t n1 n2 (N.to_nat (w32 (n2 + n3) - n2)) (if N.land n0 IRQ_DATA_TYPE_MASK =? IRQ_DATA_NONE then None else Some (skipn 20 body)) answers 0) as [o1 ev1] eqn:S.
    assert (E0 : closed ev1 fd = 0%nat).
    { now apply (signal_loop_fds fd) in S. }
    destruct o1; now apply (K _ _ eq_refl _ E0 H).
Qed.

(* ---------- DMA *)

Lemma release_fds fd cb r ev : (0 <= fd)%Z -> release_region cb r = Ok ev -> closed ev fd = one fd (rg_fd r).
Proof.
  intros P. unfold release_region. intros H.
  assert (U : closed (if cb then [EvUnregister (rg_info r)] else []) fd = 0%nat) by (destruct cb; reflexivity).
  destruct (di_vaddr (rg_info r)), (Z.eqb_spec (rg_fd r) (-1)) as [E|E]; try discriminate H; injection H as <-.
  - rewrite closed_app, U, closed_cons, closed_ev by auto. reflexivity.
  - now rewrite U, E, times_none.
Qed.

Lemma release_all_fds fd cb l : (0 <= fd)%Z -> forall ev, release_all cb l = Ok ev -> closed ev fd = times fd (map rg_fd l).
Proof.
  intros P. induction l as [|r l IH]; intros ev H; cbn [release_all] in H; [injection H as <-; reflexivity|].
  destruct (release_region cb r) eqn:R; try discriminate H. destruct (release_all cb l) eqn:Q; try discriminate H. injection H as <-.
  rewrite closed_app, (release_fds _ _ _ _ P R), (IH _ eq_refl). cbn [map]. now rewrite (times_cons fd (rg_fd r)).
Qed.

Lemma remove_fds fd cb d addr size o d' : (0 <= fd)%Z -> remove_region cb d addr size = (o, d') ->
  times fd (map rg_fd (dm_regions d)) = (times fd (map rg_fd (dm_regions d')) + match o with Ok ev => closed ev fd | _ => 0 end)%nat.
Proof.
  intros P. unfold remove_region. intros H. destruct (remove_scan cb (dm_regions d) addr size) as [o1 rs] eqn:Q. injection H as <- <-.
  change (dm_regions (set_regions d rs)) with rs. revert o1 rs Q. generalize (dm_regions d). induction l as [|r l IH]; intros o1 rs Q; cbn [remove_scan] in Q.
  - injection Q as <- <-. reflexivity.
  - destruct (same_range r addr size).
    + destruct (release_region cb r) eqn:R; injection Q as <- <-; [|lia..].
      rewrite (release_fds _ _ _ _ P R). cbn [map]. rewrite (times_cons fd (rg_fd r)). lia.
    + destruct (remove_scan cb l addr size) as [o' rest'] eqn:Q'. injection Q as <- <-. specialize (IH _ _ eq_refl).
      cbn [map]. rewrite (times_cons fd (rg_fd r)), IH, (times_cons fd (rg_fd r) (map rg_fd rest')). lia.
Qed.

Lemma scan_ok os rs addr size fd off prot : forall i k, add_scan os rs i addr size fd off prot = Some (Ok k) ->
  exists r, In r rs /\ rg_base r = addr /\ rg_len r = size /\ rg_off r = off /\ (rg_fd r = fd \/ os_same_file os (rg_fd r) fd = true) /\ di_prot (rg_info r) = prot.
Proof.
  induction rs as [|r rs IH]; intros i k H; cbn [add_scan] in H; [discriminate H|].
  destruct (same_range r addr size) eqn:S.
  - destruct (N.eqb_spec off (rg_off r)); cbn [negb] in H; [|discriminate H].
    destruct (fds_same os (rg_fd r) fd) eqn:F; cbn [negb] in H; [|discriminate H].
    destruct (N.eqb_spec (di_prot (rg_info r)) prot); cbn [negb] in H; [|discriminate H].
    exists r. unfold same_range in S. split; [now left|]. repeat split; try lia; auto.
    unfold fds_same in F. destruct (Z.eqb_spec (rg_fd r) fd); auto.
  - destruct (overlap_test r addr size); [discriminate H|]. apply IH in H. destruct H as (r' & I & H). exists r'. split; [now right|exact H].
Qed.

Lemma map_fds fd cb os d addr size f off prot o d' ev : (0 <= fd)%Z -> dma_map_request cb os d addr size f off prot = (o, d', ev) -> (forall c, o <> Crash c) ->
  (f = (-1)%Z \/ (exists base, os_mmap os = inl base) /\
   forall r, In r (dm_regions d) -> ~ (rg_base r = addr /\ rg_len r = size /\ rg_off r = off /\ (rg_fd r = f \/ os_same_file os (rg_fd r) f = true) /\ di_prot (rg_info r) = prot)) ->
  (times fd (map rg_fd (dm_regions d)) + one fd f = times fd (map rg_fd (dm_regions d')) + closed ev fd)%nat.
Proof.
  intros P. unfold dma_map_request. intros H NC HA. destruct (add_region os d addr size f off prot) as [[o1 d1] ev1] eqn:Q.
  assert (K : match o1 with
    | Ok _ => times fd (map rg_fd (dm_regions d)) + one fd f = times fd (map rg_fd (dm_regions d1)) /\ ev1 = []
    | Err _ => d1 = d /\ closed ev1 fd = 0 | Crash _ => True end%nat).
  { unfold add_region in Q. destruct (dm_max_size d <? size); [injection Q as <- <- <-; auto|].
    destruct (add_scan os (dm_regions d) 0 addr size f off prot) as [r|] eqn:S.
    - injection Q as <- <- <-. destruct r as [k|e|cr]; auto. split; [|reflexivity].
      apply scan_ok in S. destruct S as (r & I & S). destruct HA as [->|[_ HA]]; [rewrite times_none by auto; lia|]. now elim (HA r I).
    - destruct (Nat.eqb (length (dm_regions d)) (dm_max_regions d)); [injection Q as <- <- <-; auto|].
      destruct (f =? -1)%Z eqn:E.
      { injection Q as <- <- <-. split; [|reflexivity]. cbn [dm_regions set_regions]; rewrite map_app, times_app. reflexivity. }
      destruct (os_blksize os) as [blk|]; [|injection Q as <- <- <-; auto].
      destruct (if dm_pgsize d =? 0 then Ok (mk_region (mk_info addr size None 0 0 (N.max blk PAGE_SIZE) prot) f off None)
        else start_on_region (os_calloc os) (mk_region (mk_info addr size None 0 0 (N.max blk PAGE_SIZE) prot) f off None) (dm_pgsize d)) as [r1|e|c] eqn:SR;
        [|injection Q as <- <- <-; auto..].
      assert (F1 : rg_fd r1 = f).
      { destruct (dm_pgsize d =? 0); [injection SR as <-; reflexivity|]. unfold start_on_region in SR.
        destruct (get_bitmap_size (rg_len (mk_region (mk_info addr size None 0 0 (N.max blk PAGE_SIZE) prot) f off None)) (dm_pgsize d)); try discriminate SR.
        destruct (os_calloc os); [|discriminate SR]. injection SR as <-. reflexivity. }
      destruct HA as [->|[[base B] _]]; [discriminate E|].
      unfold map_region in Q. rewrite B in Q. injection Q as <- <- <-. split; [|reflexivity].
      cbn [dm_regions set_regions]; rewrite map_app, times_app. cbn [map rg_fd]. now rewrite F1. }
  destruct o1 as [idx|e|cr].
  - destruct K as [K ->]. destruct (nth_error (dm_regions d1) idx); [|injection H as <- <- <-; now elim (NC OutOfBounds)].
    injection H as <- <- <-. rewrite K. destruct cb; cbn [app]; rewrite ?closed_nil; [|lia]. change (closed [EvRegister (rg_info r)] fd) with 0%nat. lia.
  - destruct K as [-> K]. injection H as <- <- <-. rewrite closed_app, K, closed_ev by auto. lia.
  - injection H as <- <- <-. now elim (NC cr).
Qed.

Lemma cheld_dma c d h fd : cheld (set_dma c d h) fd = (times fd (map rg_fd (dm_regions d)) + times fd (cirqs c))%nat.
Proof. reflexivity. Qed.
Lemma cheld_eq c d fd : cx_dma c = Some d -> cheld c fd = (times fd (map rg_fd (dm_regions d)) + times fd (cirqs c))%nat.
Proof. unfold cheld, cregs. now intros ->. Qed.

Lemma handle_map_fds fd c d o h body fds r c' fds' ev : (0 <= fd)%Z -> cx_dma c = Some d -> handle_dma_map c d o body fds = (r, c', fds', ev) -> no_crash r ->
  hd_cmd h = 2 -> map_accounted (cregs c) (or_os o) (mk_msg h body fds) ->
  (cheld c fd + times fd fds = cheld c' fd + times fd fds' + closed ev fd)%nat.
Proof.
  intros P Dm H NC Hc HA. specialize (HA Hc). cbn [mg_fds mg_body] in HA. unfold handle_dma_map in H.
  assert (K : forall r0, (r0, c, fds, @nil event) = (r, c', fds', ev) ->
    (cheld c fd + times fd fds = cheld c' fd + times fd fds' + closed ev fd)%nat).
  { intros r0 Q. injection Q as <- <- <- <-. rewrite closed_nil. lia. }
  destruct (N.of_nat (length body) <? 32); [eapply K; exact H|].
  needs H; try (eapply K; exact H).
  destruct (n <? 32); [eapply K; exact H|].
  destruct (negb (N.ldiff n0 3 =? 0)); [eapply K; exact H|].
  change (has n0 1) with (has n0 (2 ^ 0)) in H. change (has n0 2) with (has n0 (2 ^ 1)) in H. rewrite !has_pow2 in H.
  destruct fds as [|f fs].
  - cbn [length Nat.eqb negb andb] in H.
    destruct (dma_map_request (cx_register c) (or_os o) d n2 n3 (-1) n1 _) as [[res d'] ev1] eqn:Q.
    injection H as Hr <- <- <-. apply (map_fds fd) in Q; [|auto|intros cr ->; subst r; exact NC|now left].
    rewrite cheld_dma, (cheld_eq _ _ _ Dm). rewrite times_none in Q by auto. lia.
  - cbn [length Nat.eqb negb andb] in H. destruct (Z.ltb_spec f 0) as [L|L].
    { injection H as <- <- <- <-. rewrite (times_cons fd f), (times_cons fd (-1)%Z), times_none, times_neg, closed_nil by auto. lia. }
    destruct (dma_map_request (cx_register c) (or_os o) d n2 n3 f n1 _) as [[res d'] ev1] eqn:Q.
    injection H as Hr <- <- <-. apply (map_fds fd) in Q; [|auto|intros cr ->; subst r; exact NC|right].
    + rewrite cheld_dma, (cheld_eq _ _ _ Dm). rewrite (times_cons fd f), (times_cons fd (-1)%Z), times_none by auto. lia.
    + specialize (HA f fs n2 n3 n1 n0 eq_refl eq_refl eq_refl eq_refl eq_refl). unfold cregs in HA. rewrite Dm in HA. exact HA.
Qed.

Lemma handle_unmap_fds fd c d o body r c' ev : (0 <= fd)%Z -> inv d -> cx_dma c = Some d -> handle_dma_unmap c d o body = (r, c', ev) -> no_crash r ->
  cheld c fd = (cheld c' fd + closed ev fd)%nat.
Proof.
  intros P Hi Dm H NC. unfold handle_dma_unmap in H.
  assert (K : forall r0, (r0, c, @nil event) = (r, c', ev) -> cheld c fd = (cheld c' fd + closed ev fd)%nat).
  { intros r0 Q. injection Q as <- <- <-. rewrite closed_nil. lia. }
  assert (F : forall d1 h1 out addr size, map rg_fd (dm_regions d1) = map rg_fd (dm_regions d) ->
    match remove_region (cx_unregister c) d1 addr size with
    | (Ok ev, d2) => (HReply 0 out [], set_dma c d2 h1, ev)
    | (Err e, d2) => (herr e, set_dma c d2 h1, [])
    | (Crash cr, d2) => (HCrash cr, set_dma c d2 h1, [])
    end = (r, c', ev) -> cheld c fd = (cheld c' fd + closed ev fd)%nat).
  { intros d1 h1 out addr size E Q. destruct (remove_region (cx_unregister c) d1 addr size) as [o1 d2] eqn:R.
    apply (remove_fds fd) in R; [|auto]. rewrite E in R.
    destruct o1; injection Q as <- <- <-; rewrite (cheld_eq _ _ _ Dm), cheld_dma, ?closed_nil; lia. }
  needs H; [|eapply K; exact H]. cbv zeta in H.
  destruct (n =? UNMAP_DIRTY).
  { needs H; try (eapply K; exact H). destruct (N.of_nat (length body) <? 40); [eapply K; exact H|]. needs H; try (eapply K; exact H).
    destruct ((n1 <? satadd_u64 40 n0) || (MAX_XFER <? n1)); [eapply K; exact H|].
    destruct (dirty_page_get d (cx_hint c) n2 n3 n4 n0 (fit (N.to_nat n0) (or_junk o))) as [[o1 d1] h1] eqn:G.
    apply dirty_page_get_inv in G; [|auto]. destruct G as (_ & G & _). apply shape_fds in G.
    destruct o1; [apply (F _ _ _ _ _ G H)|..]; injection H as <- <- <-; rewrite (cheld_eq _ _ _ Dm), cheld_dma, G, closed_nil; lia. }
  destruct (n =? UNMAP_ALL).
  { needs H; try (eapply K; exact H). destruct (negb (n0 =? 0)); [eapply K; exact H|]. needs H; try (eapply K; exact H).
    destruct (negb (n1 =? 0)); [eapply K; exact H|]. destruct (N.of_nat (length body) <? 24); [eapply K; exact H|]. needs H; try (eapply K; exact H).
    destruct ((n2 <? 24) || (MAX_XFER <? n2)); [eapply K; exact H|]. unfold remove_all_regions in H.
    destruct (release_all (cx_unregister c) (dm_regions d)) eqn:R; injection H as <- <- <-; rewrite (cheld_eq _ _ _ Dm), cheld_dma.
    - rewrite (release_all_fds _ _ _ P _ R). cbn [dm_regions set_regions map]. rewrite times_nil. lia.
    - rewrite closed_nil. lia.
    - rewrite closed_nil. lia. }
  destruct (n =? 0); [|eapply K; exact H].
  destruct (N.of_nat (length body) <? 24); [eapply K; exact H|]. needs H; try (eapply K; exact H).
  destruct ((n0 <? 24) || (MAX_XFER <? n0)); [eapply K; exact H|]. now apply (F _ _ _ _ _ eq_refl H).
Qed.

Lemma feature_fds fd c o body r c' ev : (forall d, cx_dma c = Some d -> inv d) -> handle_device_feature c o body = (r, c', ev) -> cheld c' fd = cheld c fd.
Proof.
  intros Hi H. unfold handle_device_feature in H.
  assert (K : forall r0 ev0, (r0, c, ev0) = (r, c', ev) -> cheld c' fd = cheld c fd).
  { intros r0 ev0 Q. now injection Q as <- <- <-. }
  destruct (N.of_nat (length body) <? 8); [eapply K, H|]. needs H; try (eapply K; exact H). cbv zeta in H.
  repeat match type of H with (if ?x then (_, c, _) else _) = _ => destruct x; [eapply K, H|] end.
  destruct (N.ldiff n0 FEATURE_MASK =? FEATURE_GET).
  { destruct (is_migration_feature (N.land n0 FEATURE_MASK)); [eapply K, H|]. destruct (is_dma_feature (N.land n0 FEATURE_MASK)); [|eapply K, H].
    destruct (dma_feature_get c n n0 body) as [r1 c1] eqn:G. injection H as <- <- <-. unfold dma_feature_get in G.
    destruct (cx_dma c) as [d|] eqn:Dm; [|now injection G as <- <-].
    needs G; try (now injection G as <- <-). destruct (get_bitmap_size n1 n2); try (now injection G as <- <-).
    destruct (n <? 32 + a); [now injection G as <- <-|]. needs G; try (now injection G as <- <-).
    destruct (dirty_page_get d (cx_hint c) n3 n1 n2 a (zeros (N.to_nat a))) as [[o1 d1] h1] eqn:Q.
    apply dirty_page_get_inv in Q; [|now apply Hi]. destruct Q as (_ & Q & _). apply shape_fds in Q.
    destruct o1; injection G as <- <-; rewrite (cheld_eq _ _ _ Dm), cheld_dma, Q; reflexivity. }
  destruct (N.ldiff n0 FEATURE_MASK =? FEATURE_SET).
  - destruct (n <? N.of_nat (length body)); [eapply K, H|].
    destruct (is_migration_feature (N.land n0 FEATURE_MASK)).
    { assert (M : exists m, c' = set_mig c m \/ c' = c).
      { unfold migration_feature_set in H.
        repeat match type of H with
        | need ?x _ _ = _ => destruct x; cbn [need] in H
        | (let '_ := ?x in _) = _ => destruct x
        | (match ?x with _ => _ end) = _ => destruct x
        end; injection H as <- <- <-; first [exists (cx_mig c); right; reflexivity | eexists; left; reflexivity]. }
      destruct M as (m & [-> | ->]); reflexivity. }
    destruct (is_dma_feature (N.land n0 FEATURE_MASK)); [|eapply K, H].
    destruct (dma_feature_set c o (N.land n0 FEATURE_MASK) body) as [r1 c1] eqn:G. injection H as <- <- <-. unfold dma_feature_set in G.
    destruct (cx_dma c) as [d|] eqn:Dm; [|now injection G as <- <-].
    destruct (N.land n0 FEATURE_MASK =? FEATURE_DMA_LOGGING_START).
    + needs G; try (now injection G as <- <-). destruct (logging_start (or_calloc o) d n1) as [o1 d1] eqn:Q.
      apply logging_start_spec in Q; [|now apply Hi]. destruct Q as (_ & Q & _). apply shape_fds in Q.
      injection G as <- <-. rewrite (cheld_eq _ _ _ Dm), cheld_dma, Q. reflexivity.
    + destruct (N.land n0 FEATURE_MASK =? FEATURE_DMA_LOGGING_STOP); [|now injection G as <- <-].
      injection G as <- <-. rewrite (cheld_eq _ _ _ Dm), cheld_dma. now rewrite (shape_fds _ _ (logging_stop_shape d)).
  - repeat match type of H with (if ?x then (_, c, _) else _) = _ => destruct x; [eapply K, H|] end. eapply K, H.
Qed.

(* ---------- a request *)

Lemma dispatch_fds fd c o h body fds r c' fds' ev : (0 <= fd)%Z -> cinv c ->
  dispatch c o (hd_cmd h) body fds = (r, c', fds', ev) -> no_crash r -> map_accounted (cregs c) (or_os o) (mk_msg h body fds) ->
  (cheld c fd + times fd fds = cheld c' fd + times fd fds' + closed ev fd)%nat.
Proof.
  intros P [Id It] H NC HA. destruct (dispatch_shape _ _ _ _ _ _ _ _ _ H) as (_ & Kn & _). unfold dispatch in H.
  assert (K : forall r0 ev0 c0, closed ev fd = 0%nat -> cheld c0 fd = cheld c fd -> (r0, c0, fds, ev0) = (r, c', fds', ev) ->
    (cheld c fd + times fd fds = cheld c' fd + times fd fds' + closed ev fd)%nat).
  { intros r0 ev0 c0 E0 E Q. injection Q as <- <- <- <-. lia. }
  assert (CN : hd_cmd h <> 2 -> hd_cmd h <> 3 -> hd_cmd h <> 8 -> closed ev fd = 0%nat) by (now apply closed_kind).
  destruct (N.eqb_spec (hd_cmd h) CMD_DMA_MAP) as [C|C1].
  { destruct (cx_dma c) as [d|] eqn:Dm; [|injection H as <- <- <- <-; rewrite closed_nil; lia].
    eapply handle_map_fds; eauto. }
  destruct (N.eqb_spec (hd_cmd h) CMD_DMA_UNMAP) as [C|C2].
  { destruct (cx_dma c) as [d|] eqn:Dm; [|injection H as <- <- <- <-; rewrite closed_nil; lia].
    destruct (handle_dma_unmap c d o body) as [[r1 c1] ev1] eqn:U. injection H as <- <- <- <-.
    apply (handle_unmap_fds fd) in U; auto. lia. }
  destruct (N.eqb_spec (hd_cmd h) CMD_SET_IRQS) as [C|C3].
  { rewrite C in H. change (CMD_SET_IRQS =? CMD_GET_INFO) with false in H. change (CMD_SET_IRQS =? CMD_GET_REGION_INFO) with false in H.
    change (CMD_SET_IRQS =? CMD_GET_REGION_IO_FDS) with false in H. change (CMD_SET_IRQS =? CMD_GET_IRQ_INFO) with false in H. cbv iota in H.
    destruct (cx_irqs c) as [t|] eqn:T; [|injection H as <- <- <- <-; destruct NC].
    destruct (set_irqs (cx_irq_cfg c) t (or_efd o) body fds) as [[[r1 t1] f1] ev1] eqn:S. injection H as <- <- <- <-.
    apply (set_irqs_fds fd) in S; auto. unfold cheld, cirqs. cbn [cx_irqs set_irqt]. rewrite T.
    change (cregs (set_irqt c t1)) with (cregs c). lia. }
  specialize (CN C1 C2 C3).
  repeat match type of H with (if ?x then _ else _) = _ => destruct x end; try (eapply K; [exact CN|reflexivity|exact H]).
  - destruct (handle_region_access c o false body) as [[r1 c1] ev1] eqn:A. destruct (proj1 (handle_access_shape _ _ _ _ _ _ _ A)) as (p & ->).
    now apply (K _ _ (set_pci c p) CN eq_refl H).
  - destruct (handle_region_access c o true body) as [[r1 c1] ev1] eqn:A. destruct (proj1 (handle_access_shape _ _ _ _ _ _ _ A)) as (p & ->).
    now apply (K _ _ (set_pci c p) CN eq_refl H).
  - unfold device_reset in H. destruct (cx_reset c); [destruct (or_reset o 0%nat)|]; eapply K; try exact H; try exact CN; reflexivity.
  - destruct (handle_device_feature c o body) as [[r1 c1] ev1] eqn:A. apply (feature_fds fd) in A; [|exact Id]. now apply (K _ _ _ CN A H).
  - destruct (mig_data_read (cx_mig c) (cx_max_xfer c) (or_data o) body). now apply (K _ _ _ CN eq_refl H).
  - destruct (mig_data_write (cx_mig c) (cx_max_xfer c) (or_data o) body). now apply (K _ _ _ CN eq_refl H).
Qed.

(* ---------- the connection is lost *)

Lemma gives_up_fds s r fd : (0 <= fd)%Z -> closed (gives_up s r) fd = one fd (rg_fd r).
Proof.
  intros P. unfold gives_up. rewrite closed_app. destruct (Z.eqb_spec (rg_fd r) (-1)) as [E|E].
  - rewrite E, times_none by auto. destruct (cx_unregister (sv_ctx s)); reflexivity.
  - assert (A : closed [EvMunmap (di_map_base (rg_info r)) (di_map_len (rg_info r)); EvClose (rg_fd r)] fd = one fd (rg_fd r)).
    { unfold closed. cbn [flat_map app]. rewrite times_cons, times_nil. lia. }
    rewrite A. destruct (cx_unregister (sv_ctx s)); reflexivity.
Qed.

Lemma lost_fds s fd : (0 <= fd)%Z -> closed (lost_events s) fd = cheld (sv_ctx s) fd.
Proof.
  intros P. unfold lost_events. rewrite !closed_app, closed_closes by auto.
  assert (A : closed (concat (map (gives_up s) (regions_of s))) fd = times fd (map rg_fd (regions_of s))).
  { induction (regions_of s) as [|r l IH]; [reflexivity|]. cbn [map concat]. rewrite closed_app, IH, gives_up_fds, times_cons by auto. reflexivity. }
  rewrite A. destruct (cx_reset (sv_ctx s)); change (closed [EvDetach] fd) with 0%nat;
    [change (closed [EvReset ResetLostConn] fd) with 0%nat|change (closed [] fd) with 0%nat]; unfold cheld, cirqs, irq_fds, cregs, regions_of, tfds; lia.
Qed.

Lemma loss_fds s s' lost fd : (0 <= fd)%Z -> loss_post s s' lost -> cheld (sv_ctx s') fd = 0%nat.
Proof.
  intros P (R & I & _). unfold cheld. change (cregs (sv_ctx s')) with (regions_of s'). rewrite R. cbn [map]. rewrite times_nil.
  change (cirqs (sv_ctx s')) with (irq_fds s'). revert I. generalize (irq_fds s'). intros l I.
  induction l as [|f l IH]; [reflexivity|]. rewrite times_cons, (I f (or_introl eq_refl)), times_none by auto.
  apply IH. intros x Hx. apply I. now right.
Qed.

Lemma quiesce_call_fds s fd : closed (quiesce_call s) fd = 0%nat.
Proof. unfold quiesce_call. destruct (cx_quiesce (sv_ctx s)); reflexivity. Qed.

Lemma reply_fds s en h r o s' ev fd : (0 <= fd)%Z -> reply_case s en h r o s' ev ->
  (cheld (sv_ctx s) fd = (cheld (sv_ctx s') fd + closed ev fd)%nat) /\ (sv_pending s' = sv_pending s \/ sv_pending s = PNone /\ sv_pending s' = PReset).
Proof.
  intros P [W|W S|e W S E|e e' W S E Q Pe Qr|e s1 W S E Q L].
  - rewrite closed_nil. split; [lia|auto].
  - change (closed [EvReply r] fd) with 0%nat. split; [lia|auto].
  - rewrite closed_nil. split; [lia|auto].
  - change (closed [EvQuiesce (Some e')] fd) with 0%nat. destruct (e' =? EBUSY); (split; [unfold set_pending; cbn [sv_ctx]; lia|auto]).
  - rewrite closed_app, lost_fds by auto. rewrite (loss_fds _ _ _ _ P L). split; [|left; apply L].
    destruct (sv_pending s); rewrite ?closed_nil, ?quiesce_call_fds; lia.
Qed.

Lemma handled_fds s en m o s' ev fd : (0 <= fd)%Z -> cinv (sv_ctx s) -> handled s en m o s' ev ->
  map_accounted (regions_of s) (or_os (en_or en)) m ->
  (cheld (sv_ctx s) fd + times fd (mg_fds m) = cheld (sv_ctx s') fd + closed ev fd)%nat /\
  (sv_pending s' = sv_pending s \/ sv_pending s = PNone /\ sv_pending s' = PReset).
Proof.
  intros P I H HA. destruct H as [err body fds c1 fds' ev1 o s' ev2 D _ _ R].
  destruct m as [h b f]. apply (dispatch_fds fd) in D; [|auto|auto|exact Logic.I|exact HA].
  apply (reply_fds _ _ _ _ _ _ _ fd P) in R. destruct R as [R Pe]. cbn [sv_ctx set_ctx mg_fds sv_pending] in *.
  rewrite !closed_app, closed_closes by auto. split; [lia|exact Pe].
Qed.

Lemma held_split s fd : held s fd = (cheld (sv_ctx s) fd + match sv_pending s with PMsg m => times fd (mg_fds m) | _ => 0 end)%nat.
Proof. reflexivity. Qed.

Lemma received_serving s en h fds rbody : serving s -> en_rx en = RxMsg h fds rbody -> received s (SRun en) = fds.
Proof. intros (A & B & C) E. unfold received. now rewrite A, B, C, E. Qed.

Lemma step_fds s st o s' ev fd : (0 <= fd)%Z -> sinv s -> sv_step s st = (o, s', ev) -> (forall c, o <> Crash c) -> accounted s st ->
  (held s fd + times fd (received s st) = held s' fd + closed ev fd)%nat.
Proof.
  intros P Si H NC HA. pose proof (step_cases _ _ _ _ _ Si H NC) as SC. destruct Si as (I & _ & _). rewrite !held_split.
  assert (NR : forall en, ~ serving s \/ (exists e, en_rx en = RxErr e) -> times fd (received s (SRun en)) = 0%nat).
  { intros en [N|(e & E)]; unfold received, serving in *.
    - destruct (sv_realized s), (sv_pending s), (sv_conn s); try reflexivity. exfalso. apply N. auto.
    - rewrite E. destruct (sv_realized s), (sv_pending s), (sv_conn s); reflexivity. }
  inversion SC; subst.
  - rewrite NR by (left; intros (A & _); congruence). rewrite closed_nil. lia.
  - rewrite NR by (left; intros (_ & A & _); congruence). rewrite closed_nil. lia.
  - rewrite NR by (left; intros (_ & _ & A); congruence). rewrite closed_nil. lia.
  - rewrite NR by eauto. rewrite closed_nil. lia.
  - rewrite NR by eauto. change (closed [EvQuiesce (Some e')] fd) with 0%nat. match goal with S : serving s |- _ => destruct S as (_ & Pn & _) end.
    rewrite Pn. destruct (e' =? EBUSY); cbn [sv_ctx sv_pending set_pending]; rewrite ?Pn; lia.
  - rewrite NR by eauto. match goal with S : serving s, L : loss_post _ _ _ |- _ => destruct S as (_ & Pn & _); rename L into LP end.
    rewrite closed_app, quiesce_call_fds, lost_fds, (loss_fds _ _ _ _ P LP) by auto.
    destruct LP as (_ & _ & _ & _ & E & _). rewrite E, Pn. lia.
  - match goal with S : serving s, X : en_rx _ = _, R : reply_case _ _ _ _ _ _ _ |- _ =>
      rewrite (received_serving _ _ _ _ _ S X); destruct S as (_ & Pn & _); apply (reply_fds _ _ _ _ _ _ _ fd P) in R; destruct R as [R Pe] end.
    rewrite !closed_app, closed_closes by auto.
    match goal with W : refused_with _ _ _ _ _ _ |- _ => assert (E0 : closed ev0 fd = 0%nat) by (destruct W; reflexivity) end.
    rewrite E0, Pn. destruct Pe as [-> | [_ ->]]; rewrite ?Pn; lia.
  - match goal with S : serving s, X : en_rx _ = _ |- _ =>
      rewrite (received_serving _ _ _ _ _ S X); destruct S as (_ & Pn & _) end.
    change (closed [EvQuiesce (Some EBUSY)] fd) with 0%nat. rewrite Pn. cbn [sv_ctx sv_pending set_pending mg_fds]. lia.
  - match goal with S : serving s, X : en_rx _ = _, R : handled _ _ _ _ _ _, A : accepted _ _ _ _ |- _ =>
      rewrite (received_serving _ _ _ _ _ S X); destruct S as (_ & Pn & _); apply (handled_fds _ _ _ _ _ _ fd P) in R;
      [rename R into Rh|exact I|rename A into Ac, X into Xe] end.
    + destruct Rh as [R Pe]. unfold set_quiesced in *. cbn [sv_ctx sv_pending mg_fds] in *. rewrite closed_app, Pn.
      assert (E0 : closed (if needs_quiesce (sv_ctx s) (hd_cmd h) body then [EvQuiesce None] else []) fd = 0%nat) by (destruct (needs_quiesce (sv_ctx s) (hd_cmd h) body); reflexivity).
      fold q in E0. rewrite E0. destruct Pe as [-> | [_ ->]]; rewrite ?Pn; lia.
    + unfold accounted in HA. rewrite Xe in HA. change (regions_of (set_quiesced s q)) with (regions_of s). destruct Ac as [body Vh Rb _].
      destruct (N.eqb_spec (hd_size h) 16) as [E16|E16].
      * injection Rb as <-. intros Cm. exfalso. unfold is_valid_header in Vh. cbn [mg_hdr] in Cm. rewrite E16, Cm in Vh.
        destruct (negb (N.land (hd_flags h) F_TYPE_MASK =? F_TYPE_COMMAND)); discriminate Vh.
      * unfold recv_body in Rb. destruct rbody as [e|l]; [discriminate Rb|].
        destruct (N.of_nat (length (firstn (N.to_nat (hd_size h - 16)) l)) =? 0); [discriminate Rb|].
        destruct (negb (N.of_nat (length (firstn (N.to_nat (hd_size h - 16)) l)) =? hd_size h - 16)); [discriminate Rb|].
        injection Rb as <-. exact HA.
  - cbn [received]. rewrite times_nil, closed_nil. lia.
  - match goal with S : sv_pending s = PMsg m, R : handled _ _ _ _ _ _ |- _ => apply (handled_fds _ _ _ _ _ _ fd P) in R; rename S into Pn;
      [rename R into Rh|exact I|] end.
    + destruct Rh as [R Pe]. cbn [received]. rewrite times_nil, Pn. unfold set_quiesced, set_pending in *. cbn [sv_ctx sv_pending] in *. lia.
    + unfold accounted in HA. rewrite Pn in HA. exact HA.
  - match goal with S : sv_pending s = PReset, L : loss_post _ _ _ |- _ => rename S into Pn; rename L into LP end.
    cbn [received]. rewrite times_nil, Pn, lost_fds by auto. unfold set_quiesced, set_pending. cbn [sv_ctx sv_pending].
    rewrite (loss_fds _ _ _ _ P LP). lia.
  - cbn [received]. rewrite times_nil. unfold set_quiesced, set_pending. cbn [sv_ctx sv_pending].
    destruct (sv_pending s); rewrite ?closed_nil, ?closed_closes by auto; lia.
  - cbn [received]. rewrite times_nil, closed_nil. lia.
  - cbn [received]. rewrite times_nil, closed_nil. unfold set_conn. cbn [sv_ctx sv_pending set_ctx].
    change (cheld (set_max_xfer (sv_ctx s) max) fd) with (cheld (sv_ctx s) fd). lia.
  - cbn [received]. rewrite times_nil, closed_nil. unfold set_ctx. cbn [sv_ctx sv_pending].
    match goal with D : cx_dma _ = Some d, M : sgl_mark_dirty d l = Ok d' |- _ => rewrite (cheld_eq _ _ _ D), cheld_dma;
      apply sgl_mark_dirty_inv in M; [|destruct I as [Id _]; now apply Id]; destruct M as (_ & M & _); rewrite (shape_fds _ _ M) end. lia.
  - cbn [received]. rewrite times_nil, closed_nil. lia.
  - cbn [received]. rewrite times_nil, closed_nil. unfold dev_hint. destruct (cx_dma (sv_ctx s)) as [d|] eqn:D; [|lia].
    unfold set_ctx. cbn [sv_ctx sv_pending]. rewrite (cheld_eq _ _ _ D), cheld_dma. lia.
  - cbn [received]. rewrite times_nil. rewrite (closed_not ev); [lia|].
    match goal with A : forall e, In e ev -> _ |- _ => intros e J; destruct (A e J) as (f & ->); exact Logic.I end.
  - cbn [received]. rewrite times_nil, closed_nil. unfold set_ctx. cbn [sv_ctx sv_pending].
    change (cheld (set_pci (sv_ctx s) (set_cfg (cx_pci (sv_ctx s)) cfg)) fd) with (cheld (sv_ctx s) fd). lia.
Qed.

(* ---------- C27 *)

(* One step: every descriptor received is afterwards held by an object (or by the message that waits for the device to
   quiesce), or has been closed; and one that was held is still held, or has been closed.  The number of times is kept,
   so nothing is closed twice or forgotten. *)
Theorem C27_step_partial : forall s st o s' ev fd, reachable s -> sv_step s st = (o, s', ev) -> (forall c, o <> Crash c) -> accounted s st ->
  (0 <= fd)%Z -> (held s fd + times fd (received s st) = held s' fd + closed ev fd)%nat.
Proof. intros s st o s' ev fd R H NC HA P. eapply step_fds; eauto. now apply reachable_sinv. Qed.
Print Assumptions C27_step_partial.

Lemma fd_history_reachable s0 l s fds ev : fd_history s0 l s fds ev -> reachable s0 -> reachable s.
Proof. induction 1 as [|s st o s1 ev1 l s2 fds ev2 S NC A _ IH]; [auto|]. intros R. apply IH. eapply reachable_step; eauto. Qed.

Lemma fresh_reachable s : fresh s -> reachable s.
Proof. intros F. exists s, [], [], []. split; [exact F|constructor]. Qed.

Lemma fresh_held s fd : fresh s -> (0 <= fd)%Z -> held s fd = 0%nat.
Proof.
  intros ((D & Ir & _) & Pn & _) P. rewrite held_split, Pn. unfold cheld, cregs, cirqs. rewrite Ir.
  assert (A : times fd (map rg_fd match cx_dma (sv_ctx s) with Some d => dm_regions d | None => [] end) = 0%nat) by (destruct D as [-> | ->]; reflexivity).
  rewrite A. unfold irqs_create, tfds. cbn [iq_req iq_err iq_efds]. rewrite !times_cons, times_none by auto.
  induction (N.to_nat (fold_left N.max (ic_count (cx_irq_cfg (sv_ctx s))) 0)) as [|n IH]; [reflexivity|]. cbn [repeat].
  rewrite times_cons, times_none by auto. exact IH.
Qed.

(* A whole history since the device was set up. *)
Theorem C27_history_partial : forall s0 l s fds ev fd, fresh s0 -> fd_history s0 l s fds ev -> (0 <= fd)%Z ->
  times fd fds = (held s fd + closed ev fd)%nat.
Proof.
  intros s0 l s fds ev fd F H P.
  assert (E : (held s0 fd + times fd fds = held s fd + closed ev fd)%nat); [|rewrite (fresh_held _ _ F P) in E; lia].
  apply fresh_reachable in F. induction H as [|s st o s1 ev1 l s2 fds ev2 S NC A _ IH]; [rewrite times_nil, closed_nil; lia|].
  pose proof (C27_step_partial _ _ _ _ _ fd F S NC A P) as E1.
  assert (R1 : reachable s1) by (eapply reachable_step; eauto). specialize (IH R1). rewrite times_app, closed_app. lia.
Qed.
Print Assumptions C27_history_partial.

Lemma times_new fd l : NoDup l -> (times fd l <= 1)%nat.
Proof. intros N. unfold times. now apply (NoDup_count_occ Z.eq_dec). Qed.

(* With a kernel that never hands out a descriptor that is in use, no descriptor is ever owned by two objects, none is
   closed twice, and none is still owned once it has been closed. *)
Theorem C27_never_twice_partial : forall s0 l s fds ev st o s' ev', fresh s0 -> fd_history s0 l s fds ev -> kernel_ok s0 l ->
  sv_step s st = (o, s', ev') -> (forall c, o <> Crash c) -> accounted s st -> new_fds s st ->
  forall fd, (0 <= fd)%Z -> (held s' fd + closed ev' fd <= 1)%nat.
Proof.
  intros s0 l s fds ev st o s' ev' F H Kn S NC A Nw fd P.
  assert (ST : forall s st o s' ev, reachable s -> sv_step s st = (o, s', ev) -> (forall c, o <> Crash c) -> accounted s st -> new_fds s st ->
    (held s fd <= 1)%nat -> (held s' fd + closed ev fd <= 1)%nat).
  { clear - P. intros s st o s' ev R S NC A [Nd Nh] L. pose proof (C27_step_partial _ _ _ _ _ fd R S NC A P) as E.
    pose proof (times_new fd _ Nd) as T. destruct (count_occ_In Z.eq_dec (received s st) fd) as [_ T1]. fold (times fd (received s st)) in T1.
    destruct (Nat.eq_dec (times fd (received s st)) 0) as [Z0|Z0]; [lia|].
    assert (I : In fd (received s st)) by (apply (count_occ_In Z.eq_dec); unfold times in Z0; lia).
    destruct (Nh fd I) as [_ H0]. lia. }
  assert (L : (held s fd <= 1)%nat).
  { pose proof (fresh_held _ _ F P) as H0. apply fresh_reachable in F. assert (L0 : (held s0 fd <= 1)%nat) by lia. clear H0 S A Nw NC.
    induction H as [|a sb ob s1 ev1 l s2 fds ev2 S NC A _ IH]; [exact L0|]. cbn [kernel_ok] in Kn. rewrite S in Kn. cbn [fst snd] in Kn. destruct Kn as [Nw Kn].
    apply IH; auto; [eapply reachable_step; eauto|]. pose proof (ST _ _ _ _ _ F S NC A Nw L0). lia. }
  eapply ST; eauto. apply fresh_reachable in F. eapply fd_history_reachable; eauto.
Qed.
Print Assumptions C27_never_twice_partial.

(* A case: the server of the examples gets descriptor 5 with a DMA region and 9 with an interrupt vector. *)
Example C27_case : exists fds ev, fd_history (ex_server true) ex_steps (ex_busy true) fds ev /\ kernel_ok (ex_server true) ex_steps /\
  fds = [5; 9]%Z /\ held (ex_busy true) 5 = 1%nat /\ held (ex_busy true) 9 = 1%nat.
Proof.
  do 2 eexists. split; [|split; [|split; [|split]]].
  - unfold ex_steps.
    eapply (fh_cons (ex_server true) (SAttach 1048576)); [vm_compute; reflexivity|discriminate|exact I|].
    eapply (fh_cons _ (SRun (ex_map 1))); [vm_compute; reflexivity|discriminate| |].
    { intros _ fd rest addr size off flags _ _ _ _ _. split; [eexists; reflexivity|]. intros r J. destruct J. }
    eapply (fh_cons _ (SRun (ex_irq 2))); [vm_compute; reflexivity|discriminate| |].
    { intros E. discriminate E. }
    match goal with |- fd_history ?s [] _ _ _ => assert (E : ex_busy true = s) by (vm_compute; reflexivity); rewrite E; apply fh_nil end.
  - cbn [kernel_ok ex_steps]. split; [split; [constructor|intros fd []]|].
    split; [split; [vm_compute; repeat constructor; intros []|vm_compute; intros fd [<-|[]]; split; [discriminate|reflexivity]]|].
    split; [split; [vm_compute; repeat constructor; intros []|vm_compute; intros fd [<-|[]]; split; [discriminate|reflexivity]]|exact I].
  - vm_compute. reflexivity.
  - vm_compute. reflexivity.
  - vm_compute. reflexivity.
Qed.

(* What the hypothesis accounted excludes.  A request that repeats an existing mapping succeeds, and the new descriptor is
   neither kept nor closed. *)
Definition ex_same_or : oracle :=
  mk_oracle (mk_os (Some 4096) (fun _ _ => true) (inl 8192000) true) (fun _ => true) [] (fun _ => None) (fun _ => None) (fun _ _ n => AccOk n (zeros (N.to_nat n))) (DataOk 0 []) (fun _ => None).
Definition ex_nommap_or : oracle :=
  mk_oracle (mk_os (Some 4096) (fun _ _ => false) (inr ENOMEM) true) (fun _ => true) [] (fun _ => None) (fun _ => None) (fun _ _ n => AccOk n (zeros (N.to_nat n))) (DataOk 0 []) (fun _ => None).
Definition ex_remap : env := mk_senv (RxMsg (ex_map_hdr 4) [7%Z] (inr ex_map_body)) ex_same_or None None None None.
Theorem C27_repeated_map_leaks_refuted : exists s st o s' ev fd, reachable s /\ sv_step s st = (o, s', ev) /\ o = Ok 1 /\ new_fds s st /\
  times fd (received s st) = 1%nat /\ held s' fd = 0%nat /\ closed ev fd = 0%nat.
Proof.
  exists (ex_busy true), (SRun ex_remap). do 3 eexists. exists 7%Z. split; [apply ex_busy_reachable|]. split; [vm_compute; reflexivity|]. split; [reflexivity|].
  split; [|vm_compute; auto]. split; [vm_compute; repeat constructor; intros []|vm_compute; intros fd [<-|[]]; split; [discriminate|reflexivity]].
Qed.
Print Assumptions C27_repeated_map_leaks_refuted.

(* When mmap fails the descriptor is closed twice. *)
Definition ex_map2 : env :=
  mk_senv (RxMsg (ex_map_hdr 4) [7%Z] (inr (le_bytes 4 32 ++ le_bytes 4 3 ++ le_bytes 8 0 ++ le_bytes 8 1048576 ++ le_bytes 8 65536))) ex_nommap_or None None None None.
Theorem C27_mmap_failure_closes_twice_refuted : exists s st o s' ev fd, reachable s /\ sv_step s st = (o, s', ev) /\ o = Ok 1 /\ new_fds s st /\
  times fd (received s st) = 1%nat /\ held s' fd = 0%nat /\ closed ev fd = 2%nat.
Proof.
  exists (ex_busy true), (SRun ex_map2). do 3 eexists. exists 7%Z. split; [apply ex_busy_reachable|]. split; [vm_compute; reflexivity|]. split; [reflexivity|].
  split; [|vm_compute; auto]. split; [vm_compute; repeat constructor; intros []|vm_compute; intros fd [<-|[]]; split; [discriminate|reflexivity]].
Qed.
Print Assumptions C27_mmap_failure_closes_twice_refuted.
