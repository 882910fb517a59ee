(* Lemmas about what of a device stays as it was set up. *)
From Coq Require Import NArith ZArith String List Bool Lia ZifyBool ZifyNat ZifyN.
From Verif Require Import Base Types Bytes BytesProofs Spec Dma DmaOps SpecDma DmaProofs Migr Irq SpecIrq IrqProofs Pci SpecPci BufProofs PciProofs PciWrite PciLoop PropPci
  Handlers HandlersProofs HandlersDma Server SpecServer ServerProofs ServerDma CapsAdd PropCaps SpecCaps Setup SpecSetup PropSetup SpecIdent.
Import ListNotations.
Open Scope N_scope.
Ltac Zify.zify_post_hook ::= idtac.

(* ---------- while the device runs *)

Lemma cfg_write_exts fuel : forall e p answers rans k off buf done o p' ev, cfg_write fuel e p answers rans k off buf done = (o, p', ev) ->
  pc_ext_caps p' = pc_ext_caps p.
Proof.
  induction fuel as [|fuel IH]; intros e p answers rans k off buf done o p' ev H; cbn [cfg_write] in H.
  - destruct buf; injection H as <- <- <-; auto.
  - destruct buf as [|b l]; [injection H as <- <- <-; auto|].
    destruct (write_segment e p off (b :: l) (answers k) (rans k)) as [[[[n|er|cr] cfg'] ev1]|]; [|injection H as <- <- <-; auto..].
    destruct (cfg_write fuel e (set_cfg p cfg') answers rans (k + length ev1) (off + n) (skipn (N.to_nat n) (b :: l)) (done + n)) as [[o1 p1] ev2] eqn:Q.
    injection H as <- <- <-. apply IH in Q. exact Q.
Qed.

(* The only requests that change the configuration space are writes to it. *)
Definition pci_step (c c' : ctx) (body : list N) : Prop :=
  cx_pci c' = cx_pci c \/
  exists e answers rans off res ev, config_write e (cx_pci c) answers rans off (skipn 16 body) = (res, cx_pci c', ev).

Lemma access_pci c o w body r c' ev : handle_region_access c o w body = (r, c', ev) -> pci_step c c' body.
Proof.
  intros H. unfold handle_region_access in H.
  destruct (N.of_nat (length body) <? 16); [injection H as <- <- <-; left; auto|]. needs H; try (injection H as <- <- <-; left; auto; fail).
  destruct (negb (valid_region_access c (N.of_nat (length body)) w n n0 n1)); [injection H as <- <- <-; left; auto|].
  destruct (n1 =? 0); [injection H as <- <- <-; left; auto|].
  destruct (region_access c o n0 w n n1 (if w then skipn 16 body else [])) as [[[res buf] c1] ev1] eqn:Q.
  assert (X : pci_step c c1 body).
  { clear H. unfold region_access in Q. destruct (nth_error (cx_regs c) (N.to_nat n0)) as [x|]; [|injection Q as <- <- <- <-; left; auto].
    destruct ((n0 =? CFG_REGION) && negb (has (ri_flags x) REGION_FLAG_ALWAYS_CB)).
    - destruct w.
      + destruct (config_write (env_of c) (cx_pci c) (or_access o) (or_reset o) n (skipn 16 body)) as [[o1 p1] ev2] eqn:W. injection Q as <- <- <- <-.
        right. eauto 10.
      + destruct (config_read (env_of c) (cx_pci c) (or_access o) n n1) as [[o1 p1] ev2]. injection Q as <- <- <- <-. left. auto.
    - destruct (negb (ri_cb x)); [injection Q as <- <- <- <-; left; auto|]. destruct (or_access o 0%nat n n1); injection Q as <- <- <- <-; left; auto. }
  destruct res as [k|e|cr]; [destruct (k =? n1)| |]; injection H as <- <- <-; exact X.
Qed.

Lemma dispatch_pci c o cmd body fds r c' fds' ev : dispatch c o cmd body fds = (r, c', fds', ev) -> pci_step c c' body.
Proof.
  intros H. unfold dispatch in H.
  destruct (cmd =? CMD_DMA_MAP).
  { destruct (cx_dma c); [|injection H as <- <- <- <-; left; auto]. apply dma_map_kept in H. destruct H as [[->|(d' & h & ->)] _]; left; auto. }
  destruct (cmd =? CMD_DMA_UNMAP).
  { destruct (cx_dma c) as [d|]; [|injection H as <- <- <- <-; left; auto].
    destruct (handle_dma_unmap c d o body) as [[r1 c1] ev1] eqn:Q. injection H as <- <- <- <-. apply dma_unmap_kept in Q. destruct Q as [[->|(d' & h & ->)] _]; left; auto. }
  destruct (cmd =? CMD_GET_INFO); [injection H as <- <- <- <-; left; auto|].
  destruct (cmd =? CMD_GET_REGION_INFO); [injection H as <- <- <- <-; left; auto|].
  destruct (cmd =? CMD_GET_REGION_IO_FDS); [injection H as <- <- <- <-; left; auto|].
  destruct (cmd =? CMD_GET_IRQ_INFO); [injection H as <- <- <- <-; left; auto|].
  destruct (cmd =? CMD_SET_IRQS).
  { destruct (cx_irqs c) as [t|]; [|injection H as <- <- <- <-; left; auto].
    destruct (set_irqs (cx_irq_cfg c) t (or_efd o) body fds) as [[[r1 t1] f1] ev1]. injection H as <- <- <- <-. left. auto. }
  destruct (cmd =? CMD_REGION_READ).
  { destruct (handle_region_access c o false body) as [[r1 c1] ev1] eqn:Q. injection H as <- <- <- <-. now apply access_pci in Q. }
  destruct (cmd =? CMD_REGION_WRITE).
  { destruct (handle_region_access c o true body) as [[r1 c1] ev1] eqn:Q. injection H as <- <- <- <-. now apply access_pci in Q. }
  destruct (cmd =? CMD_RESET).
  { unfold device_reset in H. destruct (cx_reset c); [destruct (or_reset o 0%nat)|]; injection H as <- <- <- <-; left; auto. }
  destruct (cmd =? CMD_FEATURE).
  { destruct (handle_device_feature c o body) as [[r1 c1] ev1] eqn:Q. injection H as <- <- <- <-.
    apply (feature_shape true) in Q. destruct Q as (_ & _ & _ & P & _). left. exact P. }
  destruct (cmd =? CMD_MIG_READ).
  { destruct (mig_data_read (cx_mig c) (cx_max_xfer c) (or_data o) body). injection H as <- <- <- <-. left. auto. }
  destruct (cmd =? CMD_MIG_WRITE).
  { destruct (mig_data_write (cx_mig c) (cx_max_xfer c) (or_data o) body). injection H as <- <- <- <-. left. auto. }
  injection H as <- <- <- <-. left. auto.
Qed.

Section Header.
Context (p0 : pci).

(* Configuration space that a client may have written to. *)
Record hdr_of (p : pci) : Prop := {
  ho_len : length (pc_cfg p) = length (pc_cfg p0);
  ho_bytes : bytes (pc_cfg p);
  ho_caps : pc_caps p = pc_caps p0 /\ pc_ext_caps p = pc_ext_caps p0;
  ho_low : forall c, In c (all_caps p) -> cap_wf c /\ 64 <= cp_off c;
  ho_same : forall x, x < 64 -> ~ header_writable x -> byte_at p x = byte_at p0 x
}.

Lemma write_hdr c c' body : pci_step c c' body -> bytes body -> hdr_of (cx_pci c) -> hdr_of (cx_pci c').
Proof.
  intros [->|(e & an & ra & off & res & ev & W)] B H; [exact H|]. destruct H as [L Bc (C1 & C2) LOW S].
  assert (BS : bytes (skipn 16 body)) by (apply bytes_skipn; exact B).
  destruct (C45_header_writes _ _ _ _ _ _ _ _ _ Bc BS LOW W) as (S1 & _ & L1).
  assert (B1 : bytes (pc_cfg (cx_pci c'))).
  { unfold config_write in W. destruct (cfg_write_header _ _ _ _ _ _ _ _ 0 _ _ _ Bc BS LOW W) as (_ & X & _). auto. }
  unfold config_write in W. pose proof (cfg_write_exts _ _ _ _ _ _ _ _ _ _ _ _ W) as E2. apply cfg_write_caps in W. destruct W as (E1 & _).
  constructor; auto; try congruence.
  - split; congruence.
  - unfold all_caps. rewrite E1, E2. exact LOW.
  - intros x X NX. rewrite S1, S; auto.
Qed.

Definition pending_bytes (s : server) : Prop := match sv_pending s with PMsg m => bytes (mg_body m) | _ => True end.
Definition shdr (s : server) : Prop := hdr_of (cx_pci (sv_ctx s)) /\ pending_bytes s.

Lemma accepted_bytes s h fds rbody body en : en_rx en = RxMsg h fds rbody -> accepted s h rbody body -> sends_bytes (SRun en) -> bytes body.
Proof.
  intros X [b V B _] M. unfold sends_bytes in M. rewrite X in M. destruct (hd_size h =? 16).
  - injection B as <-. constructor.
  - destruct rbody as [e|l]; [discriminate B|]. unfold recv_body in B.
    destruct (N.of_nat (length (firstn (N.to_nat (hd_size h - 16)) l)) =? 0); [discriminate B|].
    destruct (negb (N.of_nat (length (firstn (N.to_nat (hd_size h - 16)) l)) =? hd_size h - 16)); [discriminate B|]. injection B as <-.
    now apply bytes_firstn.
Qed.

Lemma loss_hdr s s' lost : loss_post s s' lost -> shdr s -> shdr s'.
Proof. intros (_ & _ & _ & _ & P & _ & _ & _ & _ & C & _) (A & B). split; [rewrite C; exact A|]. unfold pending_bytes. rewrite P. exact B. Qed.

Lemma reply_hdr s en h r o s' ev : reply_case s en h r o s' ev -> shdr s -> shdr s'.
Proof.
  intros [W|W S|e W S E|e e' W S E Q P Qr|e s1 W S E Q P] M; auto.
  - destruct (e' =? EBUSY); [|exact M]. split; [apply M|exact Logic.I].
  - eapply loss_hdr; eauto.
Qed.

Lemma handled_hdr s en m o s' ev : handled s en m o s' ev -> bytes (mg_body m) -> shdr s -> shdr s'.
Proof.
  intros [err body fds c1 fds' ev1 o1 s1 ev2 D K F R] BL (M & P).
  eapply reply_hdr; [exact R|]. split; [|exact P]. change (hdr_of (cx_pci c1)). apply dispatch_pci in D. eapply write_hdr; eauto.
Qed.

Lemma step_hdr s st o s' ev : step_case s st o s' ev -> sends_bytes st -> shdr s -> shdr s'.
Proof.
  intros C L M. destruct C; try exact M.
  - destruct (e' =? EBUSY); [split; [apply M|exact Logic.I]|exact M].
  - eapply loss_hdr; eauto.
  - eapply reply_hdr; eauto.
  - split; [apply M|]. change (bytes body). eapply accepted_bytes; eauto.
  - change (shdr s'). eapply handled_hdr; [eassumption|eapply accepted_bytes; eauto|exact M].
  - split; [|exact Logic.I]. assert (B : bytes (mg_body m)).
    { destruct M as (_ & P). unfold pending_bytes in P. match goal with X : sv_pending s = PMsg m |- _ => rewrite X in P end. exact P. }
    match goal with X : handled _ _ _ _ _ _ |- _ => apply handled_hdr in X; [|exact B|exact M] end. match goal with X : shdr _ |- _ => apply X end.
  - split; [|exact Logic.I]. match goal with X : loss_post _ _ _ |- _ => apply loss_hdr in X; [apply X|exact M] end.
  - split; [apply M|exact Logic.I].
  - unfold dev_hint. destruct (cx_dma (sv_ctx s)) eqn:D; exact M.
  - destruct L as (Bd & Ok). destruct M as ([ML MB MC MLow MS] & MP). match goal with X : put_slice _ _ _ = Some _ |- _ => rename X into PS end. split; [|exact MP].
    cbn [set_ctx sv_ctx set_pci cx_pci]. constructor.
    + cbn [set_cfg pc_cfg]. rewrite (put_slice_length _ _ _ _ PS). exact ML.
    + exact (put_slice_bytes _ _ _ _ MB Bd PS).
    + exact MC.
    + exact MLow.
    + intros x X NX. rewrite <- (MS x X NX). unfold byte_at. cbn [set_cfg pc_cfg]. rewrite (put_slice_nth _ _ _ _ _ PS).
      destruct (Nat.leb (N.to_nat off) (N.to_nat x) && Nat.ltb (N.to_nat x) (N.to_nat off + length data)) eqn:E; [|reflexivity].
      exfalso. apply andb_true_iff in E. destruct E as [E1 E2]. apply Nat.leb_le in E1. apply Nat.ltb_lt in E2.
      destruct (Ok x) as [Z|Z]; [lia|lia|contradiction].
Qed.

Lemma history_hdr s l s' arr ev : history s l s' arr ev -> sinv s -> Forall sends_bytes l -> shdr s -> shdr s'.
Proof.
  induction 1 as [s|s st o s1 ev1 l s2 arr ev2 H NC T IH]; intros SI F M; [exact M|]. inversion F; subst.
  apply step_cases in H; [|exact SI|exact NC]. destruct (step_kept _ _ _ _ _ SI H) as (_ & SI'). apply IH; auto. eapply step_hdr; eauto.
Qed.
End Header.

(* ---------- while the device is set up *)

Definition caps_inv (d : device) : Prop :=
  let p := cx_pci (dv_ctx d) in (pc_cfg p = [] /\ pc_caps p = [] /\ pc_ext_caps p = []) \/ exists l, CapsAdd.inv p p l.

Lemma caps_same p cfg l : CapsAdd.inv p p l -> length cfg = length (pc_cfg p) -> bytes cfg ->
  (forall x, x = 52 \/ 64 <= x -> nth (N.to_nat x) cfg 0 = byte_at p x) -> CapsAdd.inv (set_cfg p cfg) (set_cfg p cfg) l.
Proof.
  intros [I1 I2 I3 I4 I5 I6 I7 I8 I9 I10 I11 I12 I13 I14 I15] L B S.
  assert (W : forall next next' o k, walk next o k -> (forall x, In x k -> next' x = next x) -> walk next' o k) by (intros; eapply CapsProofs.walk_same; eauto).
  constructor; auto; cbn [set_cfg pc_cfg pc_caps pc_ext_caps].
  - now rewrite L.
  - now rewrite L.
  - unfold std_list, cfg_byte in *. rewrite S by lia. eapply W; [exact I5|]. intros x X. unfold std_next, cfg_byte. apply S.
    apply in_map_iff in X. destruct X as (a & <- & A). apply in_stds in A. destruct A as (A & E). pose proof (pl_low _ _ (I7 a A)) as Q. rewrite E in Q. lia.
  - assert (EI : ext_id cfg 256 = ext_id (pc_cfg p) 256) by (unfold ext_id, cfg_byte; rewrite !S by lia; reflexivity).
    unfold ext_list in *. rewrite EI. destruct I6 as [I6|(E1 & I6)]; [left; exact I6|right; split; [exact E1|]].
    eapply W; [exact I6|]. intros x X. unfold ext_next, cfg_byte.
    apply in_map_iff in X. destruct X as (a & <- & A). apply in_exts in A. destruct A as (A & E). pose proof (pl_low _ _ (I7 a A)) as Q. rewrite E in Q.
    rewrite !S by lia. reflexivity.
  - intros a A. pose proof (I7 a A) as P. eapply placed_keep; [exact P|exact L|]. intros j J _. unfold cfg_byte. apply S.
    pose proof (pl_low _ _ P) as Q. destruct (ad_ext a); lia.
Qed.

Lemma caps_refl p p1 l : CapsAdd.inv p p1 l -> CapsAdd.inv p1 p1 l.
Proof. intros []. constructor; auto. Qed.

Lemma stores_spec l : forall cfg cfg', stores cfg l = Some cfg' -> length cfg' = length cfg /\ (bytes cfg -> bytes cfg') /\
  forall j, (forall o n v, In (o, n, v) l -> ~ (o <= j < o + n)%nat) -> nth j cfg' 0 = nth j cfg 0.
Proof.
  induction l as [|[[o n] v] l IH]; intros cfg cfg' H; cbn [stores] in H.
  - injection H as <-. auto.
  - destruct (wr cfg o n v) as [c1|] eqn:W; [|discriminate H]. destruct (IH _ _ H) as (L & B & S). pose proof (wr_length _ _ _ _ _ W) as L1.
    split; [congruence|]. split; [intros X; apply B; eapply wr_bytes; eauto|]. intros j J. rewrite S.
    + rewrite (wr_nth _ _ _ _ _ _ W). specialize (J o n v (or_introl eq_refl)). replace (Nat.leb o j && Nat.ltb j (o + n)) with false by lia. reflexivity.
    + intros o' n' v' Hi. apply (J o' n' v'). now right.
Qed.

Lemma call_caps_in d k c : In c (pc_caps (cx_pci (dv_ctx d))) -> careful k -> In c (pc_caps (cx_pci (dv_ctx (snd (dev_call d k))))).
Proof.
  intros H K. destruct k as [m a|b|b|r u|t n|t b|v t r w|t h|v i sv si|b s p|pos fl data|sh i io| |poff pdata]; cbn [dev_call snd]; try exact H.
  - unfold setup_migration. destruct (negb (v =? 2)%Z); [exact H|]. destruct (negb (t && r && w)); exact H.
  - unfold pci_init. destruct (4 <=? t); [exact H|]. destruct (negb (h =? 0)); [exact H|]. destruct (pc_cfg (cx_pci (dv_ctx d))); [|exact H].
    destruct (nth_error (cx_regs (dv_ctx d)) 7); exact H.
  - unfold set_hdr. cbv zeta. destruct (stores _ _); exact H.
  - unfold set_hdr. cbv zeta. destruct (stores _ _); exact H.
  - destruct (nth_error (cx_regs (dv_ctx d)) 7); [|exact H]. destruct (negb _); [exact H|]. cbn [snd].
    change (In c (pc_caps (snd (add_capability (env_of (dv_ctx d)) (dv_express d) (cx_pci (dv_ctx d)) pos fl data)))).
    unfold add_capability. destruct (negb (N.ldiff fl 7 =? 0)); [exact H|]. destruct (has fl CAP_FLAG_CALLBACK && negb _); [exact H|].
    destruct (has fl CAP_FLAG_EXTENDED && negb _); [exact H|]. destruct (Nat.eqb _ _); [exact H|]. unfold need.
    destruct (rd data 0 _); [|exact H]. destruct (cap_hdr_size _ _); [|exact H]. destruct (cap_size data _); [|exact H..]. destruct (_ <=? _); [exact H|].
    destruct (if has fl CAP_FLAG_EXTENDED then _ else _) as [[off cfg']|?|?]; [|exact H..]. cbn [snd pc_caps].
    destruct (has fl CAP_FLAG_EXTENDED); [exact H|]. apply in_or_app. now left.
  - now destruct K.
  - unfold dev_poke. cbv zeta. destruct (put_slice _ _ _); exact H.
Qed.

Lemma zeros_nth n j : nth j (zeros n) 0 = 0.
Proof. unfold zeros. destruct (Nat.lt_ge_cases j n) as [L|L]; [apply nth_repeat|apply nth_overflow; rewrite repeat_length; lia]. Qed.

Lemma call_caps d k : tidy k -> (forall cr, fst (dev_call d k) <> Crash cr) -> low_caps (snd (dev_call d k)) -> caps_inv d ->
  caps_inv (snd (dev_call d k)) /\
  (forall x, x < 64 -> x <> 52 -> ~ sets k x -> byte_at (cx_pci (dv_ctx (snd (dev_call d k)))) x = byte_at (cx_pci (dv_ctx d)) x).
Proof.
  intros (K & T) NC LOW I. assert (SAME : forall d', cx_pci (dv_ctx d') = cx_pci (dv_ctx d) -> caps_inv d' /\
      (forall x, x < 64 -> x <> 52 -> ~ sets k x -> byte_at (cx_pci (dv_ctx d')) x = byte_at (cx_pci (dv_ctx d)) x)).
  { intros d' E. unfold caps_inv. rewrite E. auto. }
  assert (HDR : forall l, (forall o n v, In (o, n, v) l -> forall j, (o <= j < o + n)%nat -> sets k (N.of_nat j) /\ (j < 52)%nat) ->
      (forall cr, fst (set_hdr d l) <> Crash cr) -> caps_inv (snd (set_hdr d l)) /\
      (forall x, x < 64 -> x <> 52 -> ~ sets k x -> byte_at (cx_pci (dv_ctx (snd (set_hdr d l)))) x = byte_at (cx_pci (dv_ctx d)) x)).
  { intros l P NC'. unfold set_hdr in *. cbv zeta in *. destruct (stores (pc_cfg (cx_pci (dv_ctx d))) l) as [cfg'|] eqn:S; [|now destruct (NC' OutOfBounds)].
    cbn [snd]. destruct (stores_spec _ _ _ S) as (L & B & F). split.
    - unfold caps_inv. change (cx_pci (dv_ctx (on_ctx d (set_pci (dv_ctx d) (set_cfg (cx_pci (dv_ctx d)) cfg'))))) with (set_cfg (cx_pci (dv_ctx d)) cfg').
      destruct I as [(E & C)|(l0 & I)].
      + left. cbn [set_cfg pc_cfg pc_caps pc_ext_caps]. rewrite E in L. destruct cfg'; [|discriminate L]. auto.
      + right. exists l0. apply caps_same; auto; [apply B; apply I|]. intros x X. unfold byte_at. apply F. intros o n v Hi J. destruct (P _ _ _ Hi _ J). lia.
    - intros x X X52 NS. unfold byte_at. change (nth (N.to_nat x) cfg' 0 = nth (N.to_nat x) (pc_cfg (cx_pci (dv_ctx d))) 0). apply F.
      intros o n v Hi J. apply NS. destruct (P _ _ _ Hi _ J) as (Q & _). now rewrite N2Nat.id in Q. }
  destruct k as [m a|b|b|r u|t n|t b|v t r w|t h|v i sv si|b s p|pos fl data|sh i io| |poff pdata]; cbn [dev_call fst snd] in NC, LOW |- *; try (apply SAME; reflexivity).
  - apply SAME. unfold setup_migration. destruct (negb (v =? 2)%Z); [reflexivity|]. destruct (negb (t && r && w)); reflexivity.
  - unfold pci_init in *. destruct (4 <=? t); [now apply SAME|]. destruct (negb (h =? 0)); [now apply SAME|].
    destruct (pc_cfg (cx_pci (dv_ctx d))) as [|y l] eqn:E; [|now apply SAME].
    destruct (nth_error (cx_regs (dv_ctx d)) 7) as [rr|]; [|now apply SAME]. cbn [snd]. set (size := if 2 <=? t then PCI_CFG_SPACE_EXP_SIZE else PCI_CFG_SPACE_SIZE).
    assert (SZ : N.to_nat size = 256%nat \/ N.to_nat size = 4096%nat) by (unfold size; destruct (2 <=? t); [right|left]; reflexivity). clearbody size.
    split.
    + right. exists []. apply fresh_inv. unfold dv_ctx. cbn [dv_sv set_ctx sv_ctx set_regs set_pci cx_pci set_cfg]. destruct I as [(_ & C1 & C2)|(l0 & I)].
      2: { pose proof (iv_256 _ _ _ I) as Z. rewrite E in Z. cbn in Z. lia. }
      constructor; cbn [set_cfg pc_cfg pc_caps pc_ext_caps].
      * unfold bytes, zeros. apply Forall_forall. intros z Z. apply repeat_spec in Z. subst z. reflexivity.
      * unfold zeros. now rewrite repeat_length.
      * auto.
      * unfold cfg_byte. apply zeros_nth.
      * intros o _. unfold cfg_byte. apply zeros_nth.
    + intros x X X52 _. unfold byte_at. rewrite E. unfold dv_ctx. cbn [dv_sv set_ctx sv_ctx set_regs set_pci cx_pci set_cfg pc_cfg]. rewrite zeros_nth. now destruct (N.to_nat x).
  - apply HDR; [|exact NC]. unfold id_stores. intros o n v' Hi j J. cbn [In] in Hi. cbn [sets].
    destruct Hi as [Hi|[Hi|[Hi|[Hi|[]]]]]; injection Hi as <- <- <-; lia.
  - apply HDR; [|exact NC]. unfold class_stores. intros o n v' Hi j J. cbn [In] in Hi. cbn [sets].
    destruct Hi as [Hi|[Hi|[Hi|[]]]]; injection Hi as <- <- <-; lia.
  - destruct (nth_error (cx_regs (dv_ctx d)) 7) as [rr|]; [|now apply SAME]. destruct (negb _); [now apply SAME|]. cbn [fst snd] in *. destruct T as (-> & G). assert (BD : bytes data) by apply G.
    set (p := cx_pci (dv_ctx d)) in *. destruct (add_capability (env_of (dv_ctx d)) (dv_express d) p 0 fl data) as [[off|e|cr] p'] eqn:A; cbn [fst snd ans] in *.
    + destruct I as [(E & _)|(l & I)].
      { exfalso. destruct (add_fits _ _ _ _ _ _ _ BD A) as (Q & _). fold p in E. rewrite E in Q. change (N.of_nat (length (@nil N))) with 0 in Q. destruct G as (_ & G). cbn [fst snd] in G. cbn [fst snd] in Q. destruct (N.testbit fl 0) in *; lia. }
      fold p in I. change (cx_pci (dv_ctx (on_ctx d (set_pci (dv_ctx d) p')))) with p' in *. unfold caps_inv, low_caps in *. change (cx_pci (dv_ctx (on_ctx d (set_pci (dv_ctx d) p')))) with p' in *.
      assert (X : CapsAdd.inv p p' (l ++ [mk_added fl data off])).
      { destruct (N.testbit fl 0) eqn:FL; [eapply add_step_ext; eauto|eapply add_step_std; eauto].
        destruct (add_inversion _ _ _ _ _ _ _ _ BD A) as (cfg' & c & x & -> & (R1 & R2 & R3 & R4 & R5) & _).
        change (ad_ext (mk_added fl data off)) with (N.testbit fl 0) in *. cbn [pc_caps] in LOW. rewrite FL in LOW. specialize (LOW c ltac:(apply in_or_app; right; now left)).
        unfold cap_end in LOW. rewrite R3, R4 in LOW. unfold ad_size in LOW. change (ad_ext (mk_added fl data off)) with (N.testbit fl 0) in LOW. rewrite FL in LOW. exact LOW. }
      split; [right; eexists; eapply caps_refl; exact X|]. intros x Hx X52 _. apply (iv_frame _ _ _ X); [lia|]. intros a Ha Hr. pose proof (pl_low _ _ (iv_each _ _ _ X a Ha)) as Q.
      destruct (ad_ext a); lia.
    + assert (E : p' = p).
      { clear - A. unfold add_capability in A. destruct (negb (N.ldiff fl 7 =? 0)); [congruence|]. destruct (has fl CAP_FLAG_CALLBACK && negb _); [congruence|].
        destruct (has fl CAP_FLAG_EXTENDED && negb _); [congruence|]. destruct (Nat.eqb _ _); [congruence|]. unfold need in A.
        destruct (rd data 0 _); [|congruence]. destruct (cap_hdr_size _ _); [|congruence]. destruct (cap_size data _); [|congruence..]. destruct (_ <=? _); [congruence|].
        destruct (if has fl CAP_FLAG_EXTENDED then _ else _) as [[off cfg']|?|?]; congruence. }
      subst p'. apply SAME. reflexivity.
    + now destruct (NC cr).
  - now destruct K.
  - destruct T as (BD & H). unfold dev_poke in *. fold (dv_ctx d) in *. cbv zeta in *.
    destruct (put_slice (pc_cfg (cx_pci (dv_ctx d))) (N.to_nat poff) pdata) as [cfg|] eqn:E; cbn [fst snd ans] in *; [|now destruct (NC OutOfBounds)].
    pose proof (put_slice_length _ _ _ _ E) as Ln.
    assert (SM : forall x, ~ (poff <= x < poff + N.of_nat (length pdata)) -> nth (N.to_nat x) cfg 0 = byte_at (cx_pci (dv_ctx d)) x).
    { intros x X. rewrite (put_slice_nth _ _ _ _ _ E). now replace (Nat.leb (N.to_nat poff) (N.to_nat x) && Nat.ltb (N.to_nat x) (N.to_nat poff + length pdata)) with false by lia. }
    split; [|intros x X X52 NS; exact (SM x NS)].
    change (caps_inv (on_ctx d (set_pci (dv_ctx d) (set_cfg (cx_pci (dv_ctx d)) cfg)))). unfold caps_inv.
    change (cx_pci (dv_ctx (on_ctx d (set_pci (dv_ctx d) (set_cfg (cx_pci (dv_ctx d)) cfg))))) with (set_cfg (cx_pci (dv_ctx d)) cfg).
    destruct I as [(Z & C)|(l0 & I)].
    + left. cbn [set_cfg pc_cfg pc_caps pc_ext_caps]. rewrite Z in Ln. destruct cfg; [|discriminate Ln]. auto.
    + right. exists l0. apply caps_same; auto; [exact (put_slice_bytes _ _ _ _ (iv_bytes _ _ _ I) BD E)|]. intros x X. apply SM. lia.
Qed.

Lemma calls_caps_in l : forall d d' os c, dev_calls d l = (Some d', os) -> Forall tidy l -> In c (pc_caps (cx_pci (dv_ctx d))) -> In c (pc_caps (cx_pci (dv_ctx d'))).
Proof.
  induction l as [|k l IH]; intros d d' os c H F I; cbn [dev_calls] in H; [injection H as <- _; exact I|]. inversion F as [|? ? (K & _) F']; subst.
  pose proof (call_caps_in d k c I K) as I1. destruct (dev_call d k) as [[u|e|cr] d1]; cbn [snd] in I1; try discriminate H;
    (destruct (dev_calls d1 l) as [r os1] eqn:R; injection H as -> <-; eapply IH; eauto).
Qed.

Lemma calls_caps l : forall d d' os, dev_calls d l = (Some d', os) -> Forall tidy l -> low_caps d' -> caps_inv d ->
  caps_inv d' /\ (forall x, x < 64 -> x <> 52 -> (forall k, In k l -> ~ sets k x) -> byte_at (cx_pci (dv_ctx d')) x = byte_at (cx_pci (dv_ctx d)) x).
Proof.
  induction l as [|k l IH]; intros d d' os H F LOW I; cbn [dev_calls] in H; [injection H as <- _; auto|]. inversion F as [|? ? T F']; subst.
  pose proof (call_caps d k T) as CC. destruct (dev_call d k) as [o d1]; cbn [fst snd] in CC.
  assert (X : (forall cr, o <> Crash cr) -> forall os1, dev_calls d1 l = (Some d', os1) -> caps_inv d' /\
      (forall x, x < 64 -> x <> 52 -> (forall k', In k' (k :: l) -> ~ sets k' x) -> byte_at (cx_pci (dv_ctx d')) x = byte_at (cx_pci (dv_ctx d)) x)).
  { intros NC os1 R. assert (L1 : low_caps d1) by (intros c Hc; apply LOW; eapply calls_caps_in; eauto).
    destruct (CC NC L1 I) as (I1 & S1). destruct (IH _ _ _ R F' LOW I1) as (I2 & S2). split; [exact I2|].
    intros x Hx X52 NS. rewrite S2, S1; auto; intros; apply NS; cbn; auto. }
  destruct o as [u|e|cr]; try discriminate H; (destruct (dev_calls d1 l) as [r os1] eqn:R; injection H as -> <-; apply (X ltac:(discriminate) os1); reflexivity).
Qed.

Lemma call_nonempty d k : tidy k -> pc_cfg (cx_pci (dv_ctx d)) <> [] -> pc_cfg (cx_pci (dv_ctx (snd (dev_call d k)))) <> [].
Proof.
  intros (K & T) NE.
  assert (HDR : forall l, pc_cfg (cx_pci (dv_ctx (snd (set_hdr d l)))) <> []).
  { intros l. unfold set_hdr. cbv zeta. destruct (stores (pc_cfg (cx_pci (dv_ctx d))) l) as [cfg'|] eqn:S; [|exact NE]. destruct (stores_spec _ _ _ S) as (L & _).
    change (cfg' <> []). intros ->. destruct (pc_cfg (cx_pci (dv_ctx d))); [auto|discriminate L]. }
  destruct k as [m a|b|b|r u|t n|t b|v t r w|t h|v i sv si|b s p|pos fl data|sh i io| |poff pdata]; cbn [dev_call snd]; try exact NE; try apply HDR.
  - unfold setup_migration. destruct (negb (v =? 2)%Z); [exact NE|]. destruct (negb (t && r && w)); exact NE.
  - unfold pci_init. destruct (4 <=? t); [exact NE|]. destruct (negb (h =? 0)); [exact NE|]. destruct (pc_cfg (cx_pci (dv_ctx d))) eqn:E; [now destruct NE|].
    cbn [snd]. rewrite E. exact NE.
  - destruct (nth_error (cx_regs (dv_ctx d)) 7); [|exact NE]. destruct (negb _); [exact NE|]. destruct T as (-> & G & _). cbn [snd] in *.
    change (pc_cfg (snd (add_capability (env_of (dv_ctx d)) (dv_express d) (cx_pci (dv_ctx d)) 0 fl data)) <> []).
    destruct (add_capability (env_of (dv_ctx d)) (dv_express d) (cx_pci (dv_ctx d)) 0 fl data) as [[off|e|cr] p'] eqn:A; cbn [snd].
    + destruct (add_fits _ _ _ _ _ _ _ G A) as (_ & L). intros E. rewrite E in L. destruct (pc_cfg (cx_pci (dv_ctx d))); [auto|discriminate L].
    + assert (E : p' = cx_pci (dv_ctx d)); [|now subst p']. clear - A. unfold add_capability in A.
      destruct (negb (N.ldiff fl 7 =? 0)); [congruence|]. destruct (has fl CAP_FLAG_CALLBACK && negb _); [congruence|].
      destruct (has fl CAP_FLAG_EXTENDED && negb _); [congruence|]. destruct (Nat.eqb _ _); [congruence|]. unfold need in A.
      destruct (rd data 0 _); [|congruence]. destruct (cap_hdr_size _ _); [|congruence]. destruct (cap_size data _); [|congruence..]. destruct (_ <=? _); [congruence|].
      destruct (if has fl CAP_FLAG_EXTENDED then _ else _) as [[off cfg']|?|?]; congruence.
    + assert (E : p' = cx_pci (dv_ctx d)); [|now subst p']. clear - A. unfold add_capability in A.
      destruct (negb (N.ldiff fl 7 =? 0)); [congruence|]. destruct (has fl CAP_FLAG_CALLBACK && negb _); [congruence|].
      destruct (has fl CAP_FLAG_EXTENDED && negb _); [congruence|]. destruct (Nat.eqb _ _); [congruence|]. unfold need in A.
      destruct (rd data 0 _); [|congruence]. destruct (cap_hdr_size _ _); [|congruence]. destruct (cap_size data _); [|congruence..]. destruct (_ <=? _); [congruence|].
      destruct (if has fl CAP_FLAG_EXTENDED then _ else _) as [[off cfg']|?|?]; congruence.
  - now destruct K.
  - unfold dev_poke. cbv zeta. fold (dv_ctx d). destruct (put_slice _ _ _) as [cfg|] eqn:E; [|exact NE]. change (cfg <> []). pose proof (put_slice_length _ _ _ _ E) as Ln.
    intros ->. destruct (pc_cfg (cx_pci (dv_ctx d))); [auto|discriminate Ln].
Qed.

Lemma calls_nonempty l : forall d d' os, dev_calls d l = (Some d', os) -> Forall tidy l -> pc_cfg (cx_pci (dv_ctx d)) <> [] -> pc_cfg (cx_pci (dv_ctx d')) <> [].
Proof.
  induction l as [|k l IH]; intros d d' os H F NE; cbn [dev_calls] in H; [injection H as <- _; exact NE|]. inversion F as [|? ? T F']; subst.
  pose proof (call_nonempty d k T NE) as N1. destruct (dev_call d k) as [[u|e|cr] d1]; cbn [snd] in N1; try discriminate H;
    (destruct (dev_calls d1 l) as [r os1] eqn:R; injection H as -> <-; eapply IH; eauto).
Qed.

(* ---------- realizing *)

Lemma realize_bars_bytes fl : forall cfg off cfg', realize_bars cfg off fl = Some cfg' -> bytes cfg -> bytes cfg'.
Proof.
  induction fl as [|f fl IH]; intros cfg off cfg' H B; cbn [realize_bars] in H; [injection H as <-; exact B|].
  destruct (rd cfg off 1) as [v|]; [|discriminate H]. destruct (wr cfg off 1 (bar_type f v)) as [c1|] eqn:W; [|discriminate H].
  eapply IH; [exact H|]. eapply wr_bytes; eauto.
Qed.

Lemma made_in_setup l d : made l d -> Forall tidy l -> in_setup d.
Proof. intros (d0 & os & C & H) F. exists d0, l, os. split; [exact C|]. split; [exact H|]. eapply Forall_impl; [|exact F]. intros k (K & _). exact K. Qed.

Lemma new_caps d0 : create_ctx 0 0 0 None = Ok d0 -> caps_inv d0.
Proof. intros H. injection H as <-. left. auto. Qed.

Lemma realize_hdr d1 d : in_setup d1 -> caps_inv d1 -> realize_ctx d1 = (Ok tt, d) ->
  hdr_of (cx_pci (dv_ctx d)) (cx_pci (dv_ctx d)) /\
  (forall x, x < 64 -> x <> 6 -> ~ (16 <= x < 40) -> x <> 61 -> byte_at (cx_pci (dv_ctx d)) x = byte_at (cx_pci (dv_ctx d1)) x) /\
  (pc_cfg (cx_pci (dv_ctx d1)) <> [] -> (256 <= length (pc_cfg (cx_pci (dv_ctx d))))%nat).
Proof.
  intros S C R. destruct (C52_realize _ _ S R) as (_ & _ & L & _ & _ & _ & _ & _ & K). unfold realize_keeps in K. cbv zeta in K.
  destruct K as (_ & _ & _ & _ & _ & _ & _ & _ & K1 & K2 & _). pose proof (in_setup_inv d1 S) as I.
  destruct (realize_inv d1 d I R) as (r & cfg1 & cfg2 & cfg3 & R7 & B & W & CP & E).
  assert (P : pc_cfg (cx_pci (dv_ctx d)) = cfg3) by (rewrite E; reflexivity).
  pose proof (realize_bars_spec _ _ _ _ B) as (L1 & _ & O1).
  assert (BC : bytes (config_before (dv_ctx d1))).
  { unfold config_before. destruct (pc_cfg (cx_pci (dv_ctx d1))) as [|y l] eqn:Q.
    - cbv zeta. apply Forall_forall. intros x Hx. apply repeat_spec in Hx. subst x. reflexivity.
    - destruct C as [(Z & _)|(l0 & C)]; [rewrite Q in Z; discriminate Z|]. rewrite <- Q. apply C. }
  assert (B2 : bytes cfg2).
  { apply (realize_bars_bytes _ _ _ _ B) in BC. destruct (negb _); [|injection W as <-; exact BC]. eapply wr_bytes; eauto. }
  assert (B3 : bytes cfg3) by (revert CP; destruct (pc_caps (cx_pci (dv_ctx d1))); [intros ->; exact B2|intros (_ & CP); eapply wr_bytes; eauto]).
  split; [|split].
  - constructor; auto; [now rewrite P|]. intros c Hc. unfold all_caps in Hc. rewrite K1, K2 in Hc. destruct C as [(_ & Z1 & Z2)|(l0 & C)].
    + rewrite Z1, Z2 in Hc. destruct Hc.
    + split; [apply (iv_wf _ _ _ C); exact Hc|]. apply in_app_or in Hc.
      destruct Hc as [Hc|Hc]; [destruct (PropCaps.recorded_in _ _ _ (iv_caps _ _ _ C) Hc) as [a [Ha Ra]]; apply in_stds in Ha
                              |destruct (PropCaps.recorded_in _ _ _ (iv_exts _ _ _ C) Hc) as [a [Ha Ra]]; apply in_exts in Ha];
        destruct Ha as [Ha Ea]; pose proof (pl_low _ _ (iv_each _ _ _ C a Ha)) as Q; rewrite Ea in Q; destruct Ra as [_ [_ [-> _]]]; lia.
  - intros x X X6 XB X61. unfold byte_at. rewrite P.
    assert (X3 : nth (N.to_nat x) cfg3 0 = nth (N.to_nat x) cfg2 0).
    { revert CP. destruct (pc_caps (cx_pci (dv_ctx d1))); [now intros ->|]. intros (_ & CP). rewrite (wr1 _ _ _ _ _ CP). replace (Nat.eqb (N.to_nat x) 6) with false by lia. reflexivity. }
    assert (X2 : nth (N.to_nat x) cfg2 0 = nth (N.to_nat x) cfg1 0).
    { destruct (negb _); [|injection W as <-; reflexivity]. rewrite (wr1 _ _ _ _ _ W). replace (Nat.eqb (N.to_nat x) 61) with false by lia. reflexivity. }
    rewrite X3, X2, O1.
    + unfold config_before. destruct (pc_cfg (cx_pci (dv_ctx d1))); [|reflexivity]. cbv zeta. change (repeat 0 ?n) with (zeros n). rewrite zeros_nth. now destruct (N.to_nat x).
    + rewrite map_length, firstn_length. intros i Hi. assert ((i < 6)%nat) by (clear - Hi; lia). lia.
  - intros NE. rewrite L. unfold config_before. destruct (pc_cfg (cx_pci (dv_ctx d1))) as [|y l] eqn:Q; [now destruct NE|].
    destruct C as [(Z & _)|(l0 & C)]; [rewrite Q in Z; discriminate Z|]. pose proof (iv_256 _ _ _ C) as V. now rewrite Q in V.
Qed.

Lemma life_facts l d s : life l d s -> exists d1, made l d1 /\ Forall tidy l /\ low_caps d1 /\ in_setup d1 /\ caps_inv d1 /\ realize_ctx d1 = (Ok tt, d) /\
  reachable s /\ same_setup (dv_ctx d) (sv_ctx s) /\ hdr_of (cx_pci (dv_ctx d)) (cx_pci (sv_ctx s)).
Proof.
  intros (d1 & hist & arr & ev & M & T & LOW & R & H & SB). exists d1. pose proof (made_in_setup _ _ M T) as S.
  assert (C : caps_inv d1).
  { destruct M as (d0 & os & C0 & D). apply new_caps in C0. exact (proj1 (calls_caps _ _ _ _ D T LOW C0)). }
  pose proof (C52_realized_fresh _ _ S R) as F. pose proof (fresh_sinv _ F) as SI. destruct (history_kept _ _ _ _ _ H SI) as (K & _).
  repeat (split; [assumption|]). split; [exists (dv_sv d); eauto|]. split; [apply K|].
  destruct (realize_hdr _ _ S C R) as (H0 & _). eapply history_hdr; [exact H|exact SI|exact SB|]. split; [exact H0|]. unfold pending_bytes.
  destruct F as (_ & -> & _). exact Logic.I.
Qed.

(* ---------- regions and vectors while the device is set up *)

Definition like (r r' : reg_info) : Prop :=
  ri_flags r' = ri_flags r /\ ri_size r' = ri_size r /\ ri_cb r' = ri_cb r /\ ri_areas r' = ri_areas r /\ ri_fd r' = ri_fd r /\ ri_off r' = ri_off r.

Definition registers (i : nat) (k : call) : Prop := match k with CRegion _ a => Z.to_nat (ra_idx a) = i | _ => False end.

Lemma setup_region_other m regs a j : j <> Z.to_nat (ra_idx a) -> nth_error (snd (setup_region m regs a)) j = nth_error regs j.
Proof.
  intros J. unfold setup_region. cbv zeta. repeat match goal with
    | |- context [if ?X then _ else _] => destruct X
    | |- context [match ?X with _ => _ end] => destruct X
    end; cbn [snd]; try reflexivity; apply set_nth_neq; congruence.
Qed.

Lemma call_region d k i r : careful k -> i <> 7%nat -> ~ registers i k -> nth_error (cx_regs (dv_ctx d)) i = Some r ->
  exists r', nth_error (cx_regs (dv_ctx (snd (dev_call d k)))) i = Some r' /\ like r r'.
Proof.
  intros K I7 NR N. assert (SAME : forall d', cx_regs (dv_ctx d') = cx_regs (dv_ctx d) -> exists r', nth_error (cx_regs (dv_ctx d')) i = Some r' /\ like r r').
  { intros d' ->. exists r. unfold like. auto 10. }
  destruct k as [m a|b|b|x u|t n|t b|v t x w|t h|v x sv si|b s p|pos fl data|sh x io| |poff pdata]; cbn [dev_call snd]; try (apply SAME; reflexivity).
  - exists r. split; [|unfold like; auto 10]. change (nth_error (snd (setup_region m (cx_regs (dv_ctx d)) a)) i = Some r). rewrite setup_region_other; [exact N|].
    intros E. apply NR. cbn. auto.
  - apply SAME. unfold setup_migration. destruct (negb (v =? 2)%Z); [reflexivity|]. destruct (negb (t && x && w)); reflexivity.
  - unfold pci_init. destruct (4 <=? t); [now apply SAME|]. destruct (negb (h =? 0)); [now apply SAME|]. destruct (pc_cfg (cx_pci (dv_ctx d))); [|now apply SAME].
    destruct (nth_error (cx_regs (dv_ctx d)) 7) as [rr|]; [|now apply SAME]. exists r. split; [|unfold like; auto 10].
    unfold dv_ctx at 1. cbn [snd dv_sv set_ctx sv_ctx set_regs cx_regs]. rewrite set_nth_neq by congruence. exact N.
  - apply SAME. unfold set_hdr. cbv zeta. destruct (stores _ _); reflexivity.
  - apply SAME. unfold set_hdr. cbv zeta. destruct (stores _ _); reflexivity.
  - apply SAME. destruct (nth_error (cx_regs (dv_ctx d)) 7); [|reflexivity]. destruct (negb _); reflexivity.
  - change (exists r', nth_error (snd (create_ioeventfd sh (cx_regs (dv_ctx d)) x io)) i = Some r' /\ like r r'). unfold create_ioeventfd.
    destruct (negb sh && _); [exists r; unfold like; auto 10|]. destruct (9 <=? x); [exists r; unfold like; auto 10|].
    destruct (nth_error (cx_regs (dv_ctx d)) (N.to_nat x)) as [rr|] eqn:X; [|exists r; unfold like; auto 10].
    destruct (ri_size rr <? _); [exists r; unfold like; auto 10|]. cbn [snd].
    destruct (Nat.eq_dec i (N.to_nat x)) as [->|NE].
    + rewrite N in X. injection X as <-. eexists. split; [apply set_nth_eq; apply nth_error_Some; congruence|]. unfold like. cbn. auto 10.
    + exists r. split; [rewrite set_nth_neq by congruence; exact N|unfold like; auto 10].
  - now destruct K.
  - apply SAME. unfold dev_poke. cbv zeta. destruct (put_slice _ _ _); reflexivity.
Qed.

Lemma calls_region l : forall d d' os i r, dev_calls d l = (Some d', os) -> Forall tidy l -> i <> 7%nat -> (forall k, In k l -> ~ registers i k) ->
  nth_error (cx_regs (dv_ctx d)) i = Some r -> exists r', nth_error (cx_regs (dv_ctx d')) i = Some r' /\ like r r'.
Proof.
  induction l as [|k l IH]; intros d d' os i r H F I7 NR N; cbn [dev_calls] in H; [injection H as <- _; exists r; unfold like; auto 10|].
  inversion F as [|? ? (K & _) F']; subst. destruct (call_region d k i r K I7 (NR k (or_introl eq_refl)) N) as (r1 & N1 & E1).
  destruct (dev_call d k) as [[u|e|cr] d1]; cbn [snd] in N1; try discriminate H;
    (destruct (dev_calls d1 l) as [o1 os1] eqn:R; injection H as -> <-;
     destruct (IH _ _ _ _ _ R F' I7 (fun k' Hk => NR k' (or_intror Hk)) N1) as (r2 & N2 & E2); exists r2; split; [exact N2|];
     unfold like in *; destruct E1 as (? & ? & ? & ? & ? & ?), E2 as (? & ? & ? & ? & ? & ?); repeat split; congruence).
Qed.

Definition counts (t : N) (k : call) : Prop := match k with CNrIrqs t' _ => t' = t | _ => False end.

Lemma call_count d k t : careful k -> ~ counts t k ->
  nth_error (ic_count (cx_irq_cfg (dv_ctx (snd (dev_call d k))))) (N.to_nat t) = nth_error (ic_count (cx_irq_cfg (dv_ctx d))) (N.to_nat t).
Proof.
  intros K NC. destruct k as [m a|b|b|x u|t' n|t' b|v t' x w|t' h|v x sv si|b s p|pos fl data|sh x io| |poff pdata]; cbn [dev_call snd]; try reflexivity.
  - change (nth_error (ic_count (snd (setup_nr_irqs (cx_irq_cfg (dv_ctx d)) t' n))) (N.to_nat t) = nth_error (ic_count (cx_irq_cfg (dv_ctx d))) (N.to_nat t)).
    unfold setup_nr_irqs. destruct (NUM_IRQS <=? t'); [reflexivity|]. cbn [snd ic_count]. apply set_nth_neq. intros E. apply NC. cbn. lia.
  - unfold setup_irq_cb. destruct (NUM_IRQS <=? t'); reflexivity.
  - unfold setup_migration. destruct (negb (v =? 2)%Z); [reflexivity|]. destruct (negb (t' && x && w)); reflexivity.
  - unfold pci_init. destruct (4 <=? t'); [reflexivity|]. destruct (negb (h =? 0)); [reflexivity|]. destruct (pc_cfg (cx_pci (dv_ctx d))); [|reflexivity].
    destruct (nth_error (cx_regs (dv_ctx d)) 7); reflexivity.
  - unfold set_hdr. cbv zeta. destruct (stores _ _); reflexivity.
  - unfold set_hdr. cbv zeta. destruct (stores _ _); reflexivity.
  - destruct (nth_error (cx_regs (dv_ctx d)) 7); [|reflexivity]. destruct (negb _); reflexivity.
  - now destruct K.
  - unfold dev_poke. cbv zeta. destruct (put_slice _ _ _); reflexivity.
Qed.

Lemma calls_count l : forall d d' os t, dev_calls d l = (Some d', os) -> Forall tidy l -> (forall k, In k l -> ~ counts t k) ->
  nth_error (ic_count (cx_irq_cfg (dv_ctx d'))) (N.to_nat t) = nth_error (ic_count (cx_irq_cfg (dv_ctx d))) (N.to_nat t).
Proof.
  induction l as [|k l IH]; intros d d' os t H F NR; cbn [dev_calls] in H; [injection H as <- _; reflexivity|].
  inversion F as [|? ? (K & _) F']; subst. pose proof (call_count d k t K (NR k (or_introl eq_refl))) as N1.
  destruct (dev_call d k) as [[u|e|cr] d1]; cbn [snd] in N1; try discriminate H;
    (destruct (dev_calls d1 l) as [o1 os1] eqn:R; injection H as -> <-;
     rewrite (IH _ _ _ _ R F' (fun k' Hk => NR k' (or_intror Hk))); exact N1).
Qed.

(* A list of calls in the middle of which there is one to look at. *)
Lemma calls_mid l1 k l2 : forall d d' os, dev_calls d (l1 ++ k :: l2) = (Some d', os) ->
  exists da os1 os2, dev_calls d l1 = (Some da, os1) /\ (forall cr, fst (dev_call da k) <> Crash cr) /\ dev_calls (snd (dev_call da k)) l2 = (Some d', os2).
Proof.
  induction l1 as [|k1 l1 IH]; intros d d' os H; cbn [app dev_calls] in H.
  - exists d, []. destruct (dev_call d k) as [[u|e|cr] d1] eqn:E; try discriminate H; (destruct (dev_calls d1 l2) as [o1 os1] eqn:R; injection H as -> <-;
      exists os1; split; [reflexivity|]; cbn [fst snd]; split; [discriminate|exact R]).
  - cbn [dev_calls]. destruct (dev_call d k1) as [[u|e|cr] d1] eqn:E; try discriminate H; (destruct (dev_calls d1 (l1 ++ k :: l2)) as [o1 os1] eqn:R; injection H as -> <-;
      destruct (IH _ _ _ R) as (da & oa & ob & A & B & C); rewrite A; eexists da, _, ob; split; [reflexivity|auto]).
Qed.
