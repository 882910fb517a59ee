(* What becomes of a byte of config space along a history. *)
From Coq Require Import NArith ZArith String List Bool Lia ZifyBool ZifyNat ZifyN.
From Verif Require SoundProofs PropCfg.
From Verif Require Import Base Types Bytes BytesProofs Spec Dma DmaOps SpecDma DmaProofs Migr Irq SpecIrq IrqProofs Pci SpecPci SpecCfg BufProofs PciProofs PciWrite PciLoop PropPci
  CfgPieces CfgFrame Handlers SpecHandlers HandlersProofs PropHandlers HandlersDma Server SpecServer ServerProofs ServerDma CapsAdd PropCaps SpecCaps Setup SpecSetup PropSetup SpecIdent IdentProofs SpecReg.
Import ListNotations.
Open Scope N_scope.
Ltac Zify.zify_post_hook ::= idtac.

Definition byte_step (c c' : ctx) (cmd : N) (body : list N) : Prop :=
  cx_pci c' = cx_pci c \/
  cmd = 10 /\ (16 <= length body)%nat /\ rd body 8 4 = Some 7 /\
  exists e answers rans off res ev, rd body 0 8 = Some off /\ config_write e (cx_pci c) answers rans off (skipn 16 body) = (res, cx_pci c', ev).

Lemma access_byte c o (w : bool) body r c' ev : handle_region_access c o w body = (r, c', ev) -> byte_step c c' (cmd_of w) body.
Proof.
  intros H. unfold handle_region_access in H.
  destruct (N.of_nat (length body) <? 16) eqn:L; [injection H as <- <- <-; left; auto|]. needs H; try (injection H as <- <- <-; left; auto; fail).
  destruct (negb (valid_region_access c (N.of_nat (length body)) w n n0 n1)); [injection H as <- <- <-; left; auto|].
  destruct (n1 =? 0); [injection H as <- <- <-; left; auto|].
  destruct (region_access c o n0 w n n1 (if w then skipn 16 body else [])) as [[[res buf] c1] ev1] eqn:Q.
  assert (X : byte_step c c1 (cmd_of w) body).
  { clear H. unfold region_access in Q. destruct (nth_error (cx_regs c) (N.to_nat n0)) as [x|]; [|injection Q as <- <- <- <-; left; auto].
    destruct ((n0 =? CFG_REGION) && negb (has (ri_flags x) REGION_FLAG_ALWAYS_CB)) eqn:CR.
    - destruct w.
      + destruct (config_write (env_of c) (cx_pci c) (or_access o) (or_reset o) n (skipn 16 body)) as [[o1 p1] ev2] eqn:W. injection Q as <- <- <- <-.
        right. split; [reflexivity|]. split; [lia|]. assert (n0 = 7) as -> by (change CFG_REGION with 7 in CR; lia). split; [assumption|]. repeat eexists; eauto.
      + destruct (config_read (env_of c) (cx_pci c) (or_access o) n n1) as [[o1 p1] ev2]. injection Q as <- <- <- <-. left. auto.
    - destruct (negb (ri_cb x)); [injection Q as <- <- <- <-; left; auto|]. destruct (or_access o 0%nat n n1); injection Q as <- <- <- <-; left; auto. }
  destruct res as [k|e|cr]; [destruct (k =? n1)| |]; injection H as <- <- <-; exact X.
Qed.

Lemma dispatch_byte c o cmd body fds r c' fds' ev : dispatch c o cmd body fds = (r, c', fds', ev) -> byte_step c c' cmd body.
Proof.
  intros H. destruct (N.eq_dec cmd 9) as [->|N9].
  { change 9 with (cmd_of false) in H |- *. rewrite dispatch_access in H. destruct (handle_region_access c o false body) as [[r1 c1] ev1] eqn:Q. injection H as <- <- <- <-.
    now apply access_byte in Q. }
  destruct (N.eq_dec cmd 10) as [->|N10].
  { change 10 with (cmd_of true) in H |- *. rewrite dispatch_access in H. destruct (handle_region_access c o true body) as [[r1 c1] ev1] eqn:Q. injection H as <- <- <- <-.
    now apply access_byte in Q. }
  left. unfold dispatch in H.
  destruct (cmd =? CMD_DMA_MAP).
  { destruct (cx_dma c); [|injection H as <- <- <- <-; auto]. apply dma_map_kept in H. destruct H as [[->|(d' & h & ->)] _]; auto. }
  destruct (cmd =? CMD_DMA_UNMAP).
  { destruct (cx_dma c) as [d|]; [|injection H as <- <- <- <-; auto].
    destruct (handle_dma_unmap c d o body) as [[r1 c1] ev1] eqn:Q. injection H as <- <- <- <-. apply dma_unmap_kept in Q. destruct Q as [[->|(d' & h & ->)] _]; auto. }
  destruct (cmd =? CMD_GET_INFO); [injection H as <- <- <- <-; auto|].
  destruct (cmd =? CMD_GET_REGION_INFO); [injection H as <- <- <- <-; auto|].
  destruct (cmd =? CMD_GET_REGION_IO_FDS); [injection H as <- <- <- <-; auto|].
  destruct (cmd =? CMD_GET_IRQ_INFO); [injection H as <- <- <- <-; auto|].
  destruct (cmd =? CMD_SET_IRQS).
  { destruct (cx_irqs c) as [t|]; [|injection H as <- <- <- <-; auto].
    destruct (set_irqs (cx_irq_cfg c) t (or_efd o) body fds) as [[[r1 t1] f1] ev1]. injection H as <- <- <- <-. auto. }
  destruct (cmd =? CMD_REGION_READ) eqn:E9; [change CMD_REGION_READ with 9 in E9; lia|].
  destruct (cmd =? CMD_REGION_WRITE) eqn:E10; [change CMD_REGION_WRITE with 10 in E10; lia|].
  destruct (cmd =? CMD_RESET).
  { unfold device_reset in H. destruct (cx_reset c); [destruct (or_reset o 0%nat)|]; injection H as <- <- <- <-; auto. }
  destruct (cmd =? CMD_FEATURE).
  { destruct (handle_device_feature c o body) as [[r1 c1] ev1] eqn:Q. injection H as <- <- <- <-.
    apply (feature_shape true) in Q. destruct Q as (_ & _ & _ & P & _). exact P. }
  destruct (cmd =? CMD_MIG_READ).
  { destruct (mig_data_read (cx_mig c) (cx_max_xfer c) (or_data o) body). injection H as <- <- <- <-. auto. }
  destruct (cmd =? CMD_MIG_WRITE).
  { destruct (mig_data_write (cx_mig c) (cx_max_xfer c) (or_data o) body). injection H as <- <- <- <-. auto. }
  injection H as <- <- <- <-. auto.
Qed.

Lemma byte_kept c c' cmd body x : byte_step c c' cmd body -> bytes body -> bytes (pc_cfg (cx_pci c)) ->
  (forall q, In q (all_caps (cx_pci c)) -> cap_wf q /\ 64 <= cp_off q) -> ~ covers cmd body x -> byte_at (cx_pci c') x = byte_at (cx_pci c) x.
Proof.
  intros [->|(-> & L & R7 & e & an & ra & off & res & ev & R0 & W)] B BC LOW NC; [reflexivity|].
  destruct (access_req_surj body B L) as (off' & region & count & data & IR & -> & BD).
  rewrite access_req_off in R0 by apply IR. injection R0 as <-. rewrite access_req_region in R7 by apply IR. injection R7 as ->.
  assert (SK : skipn 16 (access_req off' 7 count data) = data) by reflexivity. rewrite SK in W.
  unfold config_write in W. eapply write_outside; [exact BC|exact BD|exact LOW|exact W|].
  unfold outside. destruct (N.ltb_spec x off'); [now left|]. right. destruct (N.le_gt_cases (off' + N.of_nat (length data)) x) as [Q|Q]; [exact Q|].
  exfalso. apply NC. split; [reflexivity|]. exists off', count, data. auto.
Qed.

Section Byte.
Context (p0 : pci) (x v : N).

Definition keeps (s : server) : Prop := shdr p0 s /\ ~ waiting_over s x /\ byte_at (cx_pci (sv_ctx s)) x = v.

Lemma loss_keeps s s' lost : loss_post s s' lost -> keeps s -> keeps s'.
Proof.
  intros P (H & W & B). split; [eapply loss_hdr; eauto|]. destruct P as (_ & _ & _ & _ & P & _ & _ & _ & _ & C & _).
  split; [unfold waiting_over; rewrite P; exact W|rewrite C; exact B].
Qed.

Lemma reply_keeps s en h r o s' ev : reply_case s en h r o s' ev -> keeps s -> keeps s'.
Proof.
  intros R M. pose proof (reply_hdr p0 _ _ _ _ _ _ _ R (proj1 M)) as H. destruct R as [W|W S|e W S E|e e' W S E Q P Qr|e s1 W S E Q P]; auto.
  - destruct (e' =? EBUSY); [|exact M]. split; [exact H|]. split; [intros []|apply M].
  - eapply loss_keeps; eauto.
Qed.

Lemma handled_keeps s en m o s' ev : handled s en m o s' ev -> bytes (mg_body m) -> ~ covers (hd_cmd (mg_hdr m)) (mg_body m) x -> keeps s -> keeps s'.
Proof.
  intros [err body fds c1 fds' ev1 o1 s1 ev2 D K F R] BL NC ((M & P) & W & B).
  eapply reply_keeps; [exact R|]. split; [split; [|exact P]|split; [exact W|]].
  - change (hdr_of p0 (cx_pci c1)). apply dispatch_pci in D. eapply write_hdr; eauto.
  - change (byte_at (cx_pci c1) x = v). rewrite <- B. eapply byte_kept; [eapply dispatch_byte; exact D|exact BL|apply M|apply M|exact NC].
Qed.

Lemma accepted_over s h fds rbody body en : en_rx en = RxMsg h fds rbody -> accepted s h rbody body -> ~ writes_over (SRun en) x -> ~ covers (hd_cmd h) body x.
Proof.
  intros X [b V B _] M C. apply M. unfold writes_over. rewrite X. destruct (hd_size h =? 16).
  - injection B as <-. destruct C as (_ & off & count & data & _ & E & _). discriminate E.
  - destruct rbody as [e|l]; [discriminate B|]. unfold recv_body in B.
    destruct (N.of_nat (length (firstn (N.to_nat (hd_size h - 16)) l)) =? 0); [discriminate B|].
    destruct (negb (N.of_nat (length (firstn (N.to_nat (hd_size h - 16)) l)) =? hd_size h - 16)); [discriminate B|]. injection B as <-. exact C.
Qed.

Lemma step_keeps s st o s' ev : step_case s st o s' ev -> sends_bytes st -> ~ writes_over st x -> keeps s -> keeps s'.
Proof.
  intros C L NW M. pose proof (step_hdr p0 _ _ _ _ _ C L (proj1 M)) as H. destruct C; try exact M.
  - destruct (e' =? EBUSY); [|exact M]. split; [exact H|]. split; [intros []|apply M].
  - eapply loss_keeps; eauto.
  - eapply reply_keeps; eauto.
  - split; [exact H|]. split; [|apply M]. change (~ covers (hd_cmd h) body x). eapply accepted_over; eauto.
  - change (keeps s'). eapply handled_keeps; [eassumption|eapply accepted_bytes; eauto|eapply accepted_over; eauto|exact M].
  - destruct M as ((Mh & Mp) & Mw & Mb). assert (B : bytes (mg_body m)).
    { unfold pending_bytes in Mp. match goal with X : sv_pending s = PMsg m |- _ => rewrite X in Mp end. exact Mp. }
    assert (NC : ~ covers (hd_cmd (mg_hdr m)) (mg_body m) x).
    { unfold waiting_over in Mw. match goal with X : sv_pending s = PMsg m |- _ => rewrite X in Mw end. exact Mw. }
    match goal with X : handled _ _ _ _ _ _ |- _ => apply handled_keeps in X; [|exact B|exact NC|split; [split; [exact Mh|exact Mp]|split; [exact Mw|exact Mb]]] end.
    split; [exact H|]. split; [intros []|]. match goal with X : keeps _ |- _ => apply X end.
  - split; [exact H|]. split; [intros []|]. match goal with X : loss_post _ _ _ |- _ => apply loss_keeps in X; [apply X|exact M] end.
  - split; [exact H|]. split; [intros []|apply M].
  - unfold dev_hint in *. destruct (cx_dma (sv_ctx s)) eqn:D; exact M.
  - split; [exact H|]. split; [apply M|]. match goal with X : put_slice _ _ _ = Some _ |- _ => rename X into PS end. destruct M as (_ & _ & MV). rewrite <- MV.
    unfold byte_at. cbn [set_ctx sv_ctx set_pci cx_pci set_cfg pc_cfg]. rewrite (put_slice_nth _ _ _ _ _ PS).
    destruct (Nat.leb (N.to_nat off) (N.to_nat x) && Nat.ltb (N.to_nat x) (N.to_nat off + length data)) eqn:E; [|reflexivity].
    exfalso. apply NW. cbn [writes_over]. apply andb_true_iff in E. destruct E as [E1 E2]. apply Nat.leb_le in E1. apply Nat.ltb_lt in E2. lia.
Qed.

Lemma history_keeps s l s' arr ev : history s l s' arr ev -> sinv s -> Forall sends_bytes l -> Forall (fun st => ~ writes_over st x) l -> keeps s -> keeps s'.
Proof.
  induction 1 as [s|s st o s1 ev1 l s2 arr ev2 H NC T IH]; intros SI F G M; [exact M|]. inversion F; subst. inversion G; subst.
  apply step_cases in H; [|exact SI|exact NC]. destruct (step_kept _ _ _ _ _ SI H) as (_ & SI'). apply IH; auto. eapply step_keeps; eauto.
Qed.
End Byte.

(* ---------- the layout at any time *)

Lemma life_pending l d s : life l d s -> pending_bytes s /\ sinv s.
Proof.
  intros (d1 & hist & arr & ev & M & T & LOW & R & H & SB). pose proof (made_in_setup _ _ M T) as S.
  assert (C : caps_inv d1).
  { destruct M as (d0 & os & C0 & D). apply new_caps in C0. exact (proj1 (calls_caps _ _ _ _ D T LOW C0)). }
  pose proof (C52_realized_fresh _ _ S R) as F. pose proof (fresh_sinv _ F) as SI. destruct (history_kept _ _ _ _ _ H SI) as (_ & SI').
  split; [|exact SI']. destruct (realize_hdr _ _ S C R) as (H0 & _).
  assert (Q : shdr (cx_pci (dv_ctx d)) s); [|apply Q]. eapply history_hdr; [exact H|exact SI|exact SB|]. split; [exact H0|]. unfold pending_bytes.
  destruct F as (_ & -> & _). exact Logic.I.
Qed.

Lemma life_regs l d s : life l d s -> regs_wf (sv_ctx s).
Proof.
  intros L. pose proof (life_facts _ _ _ L) as (d1 & (d0 & os & C0 & D) & T & _ & S & _ & R & _ & (RG & _) & _).
  unfold regs_wf. rewrite RG. assert (F : Forall careful l) by (eapply Forall_impl; [|exact T]; intros k (K & _); exact K).
  assert (SM : SoundProofs.small d1).
  { injection C0 as <-. apply (SoundProofs.calls_small _ _ _ _ F) in D; [exact D|]. unfold SoundProofs.small. cbn. repeat constructor. }
  destruct (realize_inv d1 d (in_setup_inv _ S) R) as (r & cfg1 & cfg2 & cfg3 & R7 & _ & _ & _ & ->).
  unfold dv_ctx. cbn [dv_sv sv_ctx set_pci set_irqt set_regs cx_regs]. unfold SoundProofs.small, dv_ctx in SM. apply DmaProofs.Forall_set_nth; [exact SM|].
  unfold dv_ctx in R7. apply nth_error_In in R7. rewrite Forall_forall in SM. specialize (SM r R7). unfold config_region.
  destruct (N.eq_dec (ri_size r) 0); cbn [ri_size]; [reflexivity|exact SM].
Qed.

Lemma life_caps l d s : life l d s -> (64 <= length (pc_cfg (cx_pci (sv_ctx s))))%nat -> caps_ok (cx_pci (sv_ctx s)).
Proof.
  intros L LEN. pose proof (life_facts _ _ _ L) as (d1 & _ & _ & _ & S & C & R & _ & _ & H).
  destruct (C52_realize _ _ S R) as (_ & _ & Ld & _ & _ & _ & _ & _ & K). unfold realize_keeps in K. cbv zeta in K.
  destruct K as (_ & _ & _ & _ & _ & _ & _ & _ & K1 & K2 & _). destruct H as [H1 H2 (H3 & H4) H5 _].
  assert (AC : all_caps (cx_pci (sv_ctx s)) = all_caps (cx_pci (dv_ctx d1))) by (unfold all_caps; congruence).
  destruct C as [(E & Z1 & Z2)|(l0 & C)].
  - assert (NC : all_caps (cx_pci (sv_ctx s)) = []) by (rewrite AC; unfold all_caps; rewrite Z1, Z2; reflexivity).
    constructor; auto; rewrite ?NC; try (intros c []). constructor.
  - pose proof (SoundProofs.inv_caps_ok _ _ _ C) as Q. constructor; auto.
    + intros c Hc. now apply H5.
    + intros c Hc. now apply H5.
    + rewrite H1, Ld, AC. unfold config_before. pose proof (co_size _ Q). destruct (pc_cfg (cx_pci (dv_ctx d1))) as [|y t] eqn:E; [cbn in *; lia|].
      rewrite <- E. apply Q.
    + rewrite AC. apply Q.
Qed.

Lemma life_then l d s hist s' arr ev : life l d s -> history s hist s' arr ev -> Forall sends_bytes hist -> life l d s'.
Proof.
  intros (d1 & h1 & a1 & e1 & M & T & LOW & R & H & SB) H2 S2. exists d1, (h1 ++ hist), (a1 ++ arr), (e1 ++ ev).
  repeat (split; [assumption|]). split; [|now apply Forall_app].
  clear - H H2. induction H as [s|s st o s1 ev1 l s2 arr1 ev2 X NC T IH]; [exact H2|]. cbn [app]. rewrite <- !app_assoc. econstructor; eauto.
Qed.

Lemma cap_read_back e p answers c off n : caps_ok p -> In c (all_caps p) -> ~ by_callback c -> 0 < n -> cp_off c <= off -> off + n <= cap_end c ->
  config_read e p answers off n = (Ok n, firstn (N.to_nat n) (skipn (N.to_nat off) (pc_cfg p)), []).
Proof.
  intros K I NB P Lo Hi. pose proof (co_high _ K c I) as HI. unfold config_read. destruct (N.to_nat n) as [|f] eqn:F; [lia|]. cbn [cfg_read].
  destruct (n =? 0) eqn:Z; [lia|]. unfold read_segment. rewrite (PropCfg.cap_segment p c off n false K P I Lo Hi).
  change CAP_FLAG_CALLBACK with (2 ^ 1). rewrite has_bit. unfold by_callback in NB. destruct (N.testbit (cp_flags c) 1); [now destruct NB|].
  destruct (cfg_copy_ok (pc_cfg p) off n P ltac:(lia)) as (s & -> & Hs).
  replace (n - n) with 0 by lia. assert (R : cfg_read f e p answers (0 + length (@nil event)) 0 (off + n) (0 + n) = (Ok (0 + n), [], [])) by (destruct f; reflexivity).
  rewrite R. rewrite app_nil_r. unfold slice in Hs. destruct (Nat.leb _ _); [|discriminate]. injection Hs as <-. rewrite F. reflexivity.
Qed.
