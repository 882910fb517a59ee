(* Lemmas about which steps change what a vector is connected to. *)
From Coq Require Import NArith ZArith List Bool Lia ZifyBool ZifyNat ZifyN.
From Verif Require Import Base Types Bytes BytesProofs BufProofs Spec Dma Dirty DmaOps SpecDma DmaProofs Migr Irq SpecIrq IrqProofs PropIrq Pci Handlers
  SpecHandlers HandlersProofs HandlersDma Server SpecServer ServerProofs PropServer SpecSafe SafeProofs SafeDispatch SpecBind.
Import ListNotations.
Open Scope N_scope.
Ltac Zify.zify_post_hook ::= idtac.

Definition cvec (c : ctx) (v : N) : Z := match cx_irqs c with Some t => nth (N.to_nat v) (iq_efds t) (-1)%Z | None => (-1)%Z end.
Definition vec (s : server) (v : N) : Z := cvec (sv_ctx s) v.

Lemma binding_low t i v : i < 3 -> binding t i v = nth (N.to_nat v) (iq_efds t) (-1)%Z.
Proof. intros L. unfold binding. destruct (i =? 3) eqn:A; [lia|]. destruct (i =? 4) eqn:B; [lia|]. reflexivity. Qed.

(* Requests other than SET_IRQS leave the table alone. *)
Lemma dispatch_irqs c o cmd body fds r c' fds' ev : dispatch c o cmd body fds = (r, c', fds', ev) -> cmd <> 8 -> cx_irqs c' = cx_irqs c.
Proof.
  intros H N8. unfold dispatch in H.
  destruct (cmd =? CMD_DMA_MAP).
  { destruct (cx_dma c); [|injection H as <- <- <- <-; auto]. apply dma_map_kept in H. destruct H as [[->|(d' & h & ->)] _]; auto. }
  destruct (cmd =? CMD_DMA_UNMAP).
  { destruct (cx_dma c) as [d|]; [|injection H as <- <- <- <-; auto].
    destruct (handle_dma_unmap c d o body) as [[r1 c1] ev1] eqn:Q. injection H as <- <- <- <-. apply dma_unmap_kept in Q. destruct Q as [[->|(d' & h & ->)] _]; auto. }
  destruct (cmd =? CMD_GET_INFO); [injection H as <- <- <- <-; auto|].
  destruct (cmd =? CMD_GET_REGION_INFO); [injection H as <- <- <- <-; auto|].
  destruct (cmd =? CMD_GET_REGION_IO_FDS); [injection H as <- <- <- <-; auto|].
  destruct (cmd =? CMD_GET_IRQ_INFO); [injection H as <- <- <- <-; auto|].
  destruct (cmd =? CMD_SET_IRQS) eqn:E8; [exfalso; change CMD_SET_IRQS with 8 in E8; lia|].
  destruct (cmd =? CMD_REGION_READ).
  { destruct (handle_region_access c o false body) as [[r1 c1] ev1] eqn:Q. injection H as <- <- <- <-. destruct (proj1 (handle_access_shape _ _ _ _ _ _ _ Q)) as (p & ->). reflexivity. }
  destruct (cmd =? CMD_REGION_WRITE).
  { destruct (handle_region_access c o true body) as [[r1 c1] ev1] eqn:Q. injection H as <- <- <- <-. destruct (proj1 (handle_access_shape _ _ _ _ _ _ _ Q)) as (p & ->). reflexivity. }
  destruct (cmd =? CMD_RESET).
  { unfold device_reset in H. destruct (cx_reset c); [destruct (or_reset o 0%nat)|]; injection H as <- <- <- <-; auto. }
  destruct (cmd =? CMD_FEATURE).
  { destruct (handle_device_feature c o body) as [[r1 c1] ev1] eqn:Q. injection H as <- <- <- <-.
    apply (feature_shape true) in Q. destruct Q as (_ & _ & _ & _ & P). exact P. }
  destruct (cmd =? CMD_MIG_READ).
  { destruct (mig_data_read (cx_mig c) (cx_max_xfer c) (or_data o) body). injection H as <- <- <- <-. auto. }
  destruct (cmd =? CMD_MIG_WRITE).
  { destruct (mig_data_write (cx_mig c) (cx_max_xfer c) (or_data o) body). injection H as <- <- <- <-. auto. }
  injection H as <- <- <- <-. auto.
Qed.

(* ---------- SET_IRQS *)

(* What an accepted request is to do to vector v: assign it, take it away, or neither. *)
Definition t_assigns (flags index start : N) (fds : list Z) (v : N) (fd : Z) : Prop :=
  index < 3 /\ is_trigger flags /\ data_eventfd flags /\ start <= v /\ nth_error fds (N.to_nat (v - start)) = Some fd.
Definition t_unassigns (c : irq_cfg) (flags index start count : N) (fds : list Z) (v : N) : Prop :=
  start = 0 /\ fds = [] /\ index < 3 /\ is_trigger flags /\
  ((data_eventfd flags /\ v < count) \/ (data_none flags /\ count = 0 /\ v < nth (N.to_nat index) (ic_count c) 0)).

Lemma t_assigns_dec flags index start fds v : (exists fd, t_assigns flags index start fds v fd) \/ (forall fd, ~ t_assigns flags index start fds v fd).
Proof.
  unfold t_assigns, is_trigger, data_eventfd. destruct (N.lt_ge_cases index 3) as [I3|I3]; [|right; intros fd (A & _); lia].
  destruct (list_eq_dec N.eq_dec (action_bits flags) [5]) as [Tr|Tr]; [|right; intros fd (_ & A & _); contradiction].
  destruct (list_eq_dec N.eq_dec (data_bits flags) [2]) as [De|De]; [|right; intros fd (_ & _ & A & _); contradiction].
  destruct (N.le_gt_cases start v) as [L|L]; [|right; intros fd (_ & _ & _ & A & _); lia].
  destruct (nth_error fds (N.to_nat (v - start))) as [fd|]; [left; exists fd; auto|right; intros fd (_ & _ & _ & _ & A); discriminate A].
Qed.

Lemma t_unassigns_dec c flags index start count fds v : t_unassigns c flags index start count fds v \/ ~ t_unassigns c flags index start count fds v.
Proof.
  unfold t_unassigns, is_trigger, data_eventfd, data_none. destruct (N.eq_dec start 0); [|tauto]. destruct fds; [|right; intros (_ & A & _); discriminate A].
  destruct (N.lt_ge_cases index 3) as [I3|I3]; [|right; intros (_ & _ & A & _); lia].
  destruct (list_eq_dec N.eq_dec (action_bits flags) [5]); [|tauto]. destruct (list_eq_dec N.eq_dec (data_bits flags) [2]).
  - destruct (N.lt_ge_cases v count); [tauto|]. right. intros (_ & _ & _ & _ & [(_ & A)|(A & _)]); [lia|congruence].
  - destruct (list_eq_dec N.eq_dec (data_bits flags) [0]); [|tauto]. destruct (N.eq_dec count 0); [|tauto].
    destruct (N.lt_ge_cases v (nth (N.to_nat index) (ic_count c) 0)); [tauto|]. right. intros (_ & _ & _ & _ & [(A & _)|(_ & _ & A)]); [contradiction|lia].
Qed.

Lemma bits_excl flags : (data_none flags -> data_eventfd flags -> False) /\ (data_bool flags -> data_eventfd flags -> False) /\
  (data_none flags -> data_bool flags -> False) /\ (is_mask flags \/ is_unmask flags -> is_trigger flags -> False).
Proof. unfold data_none, data_eventfd, data_bool, is_mask, is_unmask, is_trigger. repeat split; intros; intuition congruence. Qed.

Lemma set_irqs_vec c t answers argsz flags index start count data fds r t' rest ev v :
  argsz < two32 -> flags < two32 -> index < two32 -> start < two32 -> count < two32 ->
  irq_table_ok c t -> Forall (fun fd => (0 <= fd)%Z) fds ->
  irq_request_ok c argsz flags index start count data fds ->
  set_irqs c t answers (irq_set_body argsz flags index start count data) fds = (r, t', rest, ev) ->
  ~ (is_trigger flags /\ data_eventfd flags /\ fds = [] /\ start <> 0) ->
  (forall fd, t_assigns flags index start fds v fd -> nth (N.to_nat v) (iq_efds t') (-1)%Z = fd) /\
  (t_unassigns c flags index start count fds v -> nth (N.to_nat v) (iq_efds t') (-1)%Z = (-1)%Z) /\
  ((forall fd, ~ t_assigns flags index start fds v fd) -> ~ t_unassigns c flags index start count fds v ->
     nth (N.to_nat v) (iq_efds t') (-1)%Z = nth (N.to_nat v) (iq_efds t) (-1)%Z).
Proof.
  intros H1 H2 H3 H4 H5 T Pos R E NO.
  assert (Hc : Forall (fun n => n < two32 - 1) (ic_count c)) by apply T.
  destruct (bits_excl flags) as (X1 & X2 & X3 & X4). pose proof (ro_index _ _ _ _ _ _ _ _ R) as I5.
  destruct (ro_action _ _ _ _ _ _ _ _ R) as [A|[A|A]].
  1,2: (assert (t' = t);
    [ rewrite set_irqs_accepted in E by auto; cbn zeta in E; destruct (mask_or_trigger flags (ro_action _ _ _ _ _ _ _ _ R)) as [[E1 M]|[E1 M]];
      [ rewrite E1 in E; destruct (irqs_set_state c index start count flags); now injection E as <- <- <- <- | exfalso; tauto ]
    | subst t'; split; [intros fd (_ & Tr & _); exfalso; tauto|]; split; [intros (_ & _ & _ & Tr & _); exfalso; tauto|reflexivity] ]).
  destruct (ro_data _ _ _ _ _ _ _ _ R) as [D|[D|D]].
  - (* none *)
    assert (NF : fds = []). { destruct fds as [|f l]; [reflexivity|]. exfalso. destruct (ro_fds _ _ _ _ _ _ _ _ R ltac:(discriminate)) as [DE _]. tauto. }
    subst fds. destruct (N.eq_dec count 0) as [->|NZ].
    + destruct (ro_zero _ _ _ _ _ _ _ _ R eq_refl) as (-> & _).
      destruct (C35_disable_partial c t answers argsz flags index 0 data [] H1 H2 H3 H5 T R (conj A (or_introl (conj D eq_refl)))) as (t1 & cl & n & Hn & Q & _ & U & O).
      rewrite Q in E. injection E as <- <- <- <-. rewrite N.eqb_refl in Hn. subst n.
      split; [intros fd (_ & _ & DE & _); exfalso; tauto|]. split.
      * intros (_ & _ & I3 & _ & [(DE & _)|(_ & _ & L)]); [exfalso; tauto|]. specialize (U v L). rewrite binding_low in U by exact I3. exact U.
      * intros _ NU. assert (Z := O 0 v eq_refl). rewrite !binding_low in Z by reflexivity. apply Z. intros (SV & LL). apply NU. unfold t_unassigns.
        assert (I3 : index < 3) by (destruct SV as [->|[]]; [reflexivity|assumption]). repeat split; auto.
    + assert (t' = t).
      { rewrite set_irqs_accepted in E by auto. cbn zeta in E. apply act_trigger in A. apply dat_none in D. unfold IRQ_ACTION_TYPE_MASK, IRQ_DATA_TYPE_MASK in E. rewrite A, D in E.
        change ((32 =? IRQ_ACTION_MASK) || (32 =? IRQ_ACTION_UNMASK)) with false in E. change (1 =? IRQ_DATA_NONE) with true in E. change (1 =? IRQ_DATA_EVENTFD) with false in E.
        destruct (count =? 0) eqn:Ez; [lia|]. cbn [andb orb] in E.
        match type of E with (match ?x with _ => _ end) = _ => destruct x as [[[]|e|cr] ev1] end; now injection E as <- <- <- <-. }
      subst t'. split; [intros fd (_ & _ & DE & _); exfalso; tauto|]. split; [|reflexivity].
      intros (_ & _ & _ & _ & [(DE & _)|(_ & Z & _)]); [exfalso; tauto|contradiction].
  - (* bool *)
    assert (NZ : count <> 0). { intros Z. destruct (ro_zero _ _ _ _ _ _ _ _ R Z) as (_ & _ & DN). tauto. }
    assert (t' = t).
    { rewrite set_irqs_accepted in E by auto. cbn zeta in E. apply act_trigger in A. apply dat_bool in D. unfold IRQ_ACTION_TYPE_MASK, IRQ_DATA_TYPE_MASK in E. rewrite A, D in E.
      change ((32 =? IRQ_ACTION_MASK) || (32 =? IRQ_ACTION_UNMASK)) with false in E. change (2 =? IRQ_DATA_NONE) with false in E. change (2 =? IRQ_DATA_EVENTFD) with false in E.
      cbn [andb orb] in E.
      match type of E with (match ?x with _ => _ end) = _ => destruct x as [[[]|e|cr] ev1] end; now injection E as <- <- <- <-. }
    subst t'. split; [intros fd (_ & _ & DE & _); exfalso; tauto|]. split; [|reflexivity].
    intros (_ & _ & _ & _ & [(DE & _)|(DN & _)]); exfalso; tauto.
  - destruct fds as [|f l].
    + assert (S0 : start = 0). { destruct (N.eq_dec start 0) as [Z|Z]; [exact Z|]. exfalso. apply NO. auto. } subst start.
      assert (NZ : count <> 0). { intros Z. destruct (ro_zero _ _ _ _ _ _ _ _ R Z) as (_ & _ & DN). tauto. }
      destruct (C35_disable_partial c t answers argsz flags index count data [] H1 H2 H3 H5 T R (conj A (or_intror (conj D eq_refl)))) as (t1 & cl & n & Hn & Q & _ & U & O).
      rewrite Q in E. injection E as <- <- <- <-. destruct (count =? 0) eqn:Ez; [lia|]. subst n.
      split; [intros fd (_ & _ & _ & _ & X); destruct (N.to_nat (v - 0)); discriminate X|]. split.
      * intros (_ & _ & I3 & _ & [(_ & L)|(DN & _)]); [|exfalso; tauto]. specialize (U v L). rewrite binding_low in U by exact I3. exact U.
      * intros _ NU. assert (Z := O 0 v eq_refl). rewrite !binding_low in Z by reflexivity. apply Z. intros (SV & LL). apply NU. unfold t_unassigns.
        assert (I3 : index < 3) by (destruct SV as [->|[]]; [reflexivity|assumption]). repeat split; auto.
    + destruct (C34_assign c t answers argsz flags index start count data (f :: l) H1 H2 H3 H4 H5 T Pos R A D ltac:(discriminate)) as (t1 & cl & Q & _ & B & O & _).
      rewrite Q in E. injection E as <- <- <- <-. destruct (ro_fds _ _ _ _ _ _ _ _ R ltac:(discriminate)) as [_ LF].
      split; [|split].
      * intros fd (I3 & _ & _ & L & X). specialize (B _ _ X). rewrite binding_low in B by exact I3. now replace (start + N.of_nat (N.to_nat (v - start))) with v in B by lia.
      * intros (_ & X & _). discriminate X.
      * intros NA _. assert (Z := O 0 v eq_refl). rewrite !binding_low in Z by reflexivity. apply Z. intros (SV & LL).
        assert (I3 : index < 3) by (destruct SV as [->|[]]; [reflexivity|assumption]). specialize (LL I3).
        destruct (nth_error (f :: l) (N.to_nat (v - start))) as [fd|] eqn:X; [|apply nth_error_None in X; lia].
        apply (NA fd). repeat split; auto. lia.
Qed.

(* ---------- steps *)

Lemma isb_inj a1 f1 i1 s1 c1 d1 a2 f2 i2 s2 c2 d2 :
  a1 < two32 -> f1 < two32 -> i1 < two32 -> s1 < two32 -> c1 < two32 -> a2 < two32 -> f2 < two32 -> i2 < two32 -> s2 < two32 -> c2 < two32 ->
  irq_set_body a1 f1 i1 s1 c1 d1 = irq_set_body a2 f2 i2 s2 c2 d2 -> f1 = f2 /\ i1 = i2 /\ s1 = s2 /\ c1 = c2.
Proof.
  intros A1 A2 A3 A4 A5 B1 B2 B3 B4 B5 E.
  destruct (isb_fields _ _ _ _ _ d1 A1 A2 A3 A4 A5) as (_ & _ & F1 & F2 & F3 & F4 & _).
  destruct (isb_fields _ _ _ _ _ d2 B1 B2 B3 B4 B5) as (_ & _ & G1 & G2 & G3 & G4 & _).
  cbv zeta in *. rewrite E in F1, F2, F3, F4. repeat split; congruence.
Qed.

Lemma exec_irq m : should_exec m 8 = true <-> m <> Some 1 /\ m <> Some 3.
Proof.
  unfold should_exec. change (cmd_allowed_stopped 8) with false. unfold is_stopped_and_copying, is_stopped, ST_STOP, ST_STOP_COPY.
  destruct m as [m|]; [|split; [split; discriminate|reflexivity]].
  destruct (m =? 3) eqn:A; [apply N.eqb_eq in A; subst; split; [discriminate|intros []; congruence]|].
  destruct (m =? 1) eqn:B; [apply N.eqb_eq in B; subst; split; [discriminate|intros []; congruence]|].
  apply N.eqb_neq in A, B. split; [split; congruence|reflexivity].
Qed.

Lemma irq_request_accepted s st flags index start count fds : irq_request s st flags index start count fds ->
  exists en h l argsz data, st = SRun en /\ serving s /\ en_rx en = RxMsg h fds (inr l) /\ hd_cmd h = 8 /\
    accepted s h (inr l) (irq_set_body argsz flags index start count data) /\
    (argsz < two32 /\ flags < two32 /\ index < two32 /\ start < two32 /\ count < two32) /\
    irq_request_ok (cx_irq_cfg (sv_ctx s)) argsz flags index start count data fds.
Proof.
  intros [SV MG (en & h & l & argsz & data & -> & X & V & C & B & F & Z & R)]. exists en, h, l, argsz, data.
  split; [reflexivity|]. split; [exact SV|]. split; [exact X|]. split; [exact C|]. split; [|split; assumption].
  assert (L : length (irq_set_body argsz flags index start count data) = (20 + length data)%nat)
    by (apply (isb_fields argsz flags index start count data); tauto).
  constructor; [now apply valid_hdr_iff| |rewrite C; now apply exec_irq].
  destruct (hd_size h =? 16) eqn:S; [lia|]. unfold recv_body. rewrite F, L.
  destruct (N.of_nat (20 + length data) =? 0) eqn:Q; [lia|]. destruct (negb (N.of_nat (20 + length data) =? hd_size h - 16)) eqn:Q2; [lia|]. reflexivity.
Qed.

Lemma accepted_irq_request s en h fds l argsz flags index start count data : serving s -> en_rx en = RxMsg h fds (inr l) -> hd_cmd h = 8 ->
  accepted s h (inr l) (irq_set_body argsz flags index start count data) ->
  argsz < two32 -> flags < two32 -> index < two32 -> start < two32 -> count < two32 ->
  irq_request_ok (cx_irq_cfg (sv_ctx s)) argsz flags index start count data fds ->
  irq_request s (SRun en) flags index start count fds.
Proof.
  intros SV X C A B1 B2 B3 B4 B5 R. constructor; [exact SV| |].
  - inversion A as [b V Q E]; subst. rewrite C in E. now apply exec_irq.
  - assert (L : length (irq_set_body argsz flags index start count data) = (20 + length data)%nat)
      by (apply (isb_fields argsz flags index start count data); tauto).
    destruct (accepted_body _ _ _ _ A) as [[Z _]|(l1 & Q & F)]; [rewrite Z in L; discriminate L|]. injection Q as <-.
    inversion A as [b V Q E]; subst. exists en, h, l, argsz, data. split; [reflexivity|]. split; [exact X|]. split; [now apply valid_hdr_iff|].
    split; [exact C|]. split; [auto|]. split; [now rewrite F|]. split; [|exact R].
    destruct (hd_size h =? 16) eqn:S; [injection Q as Q; rewrite <- Q in L; discriminate L|]. unfold recv_body in Q.
    rewrite <- F, L in Q. destruct (N.of_nat (20 + length data) =? 0) eqn:Q3; [discriminate Q|].
    destruct (negb (N.of_nat (20 + length data) =? hd_size h - 16)) eqn:Q2; [discriminate Q|]. apply negb_false_iff, N.eqb_eq in Q2. lia.
Qed.

Lemma nth_all_none l v : (forall fd, In fd l -> fd = (-1)%Z) -> nth v l (-1)%Z = (-1)%Z.
Proof. intros H. destruct (Nat.lt_ge_cases v (length l)) as [L|L]; [apply H, nth_In, L|now apply nth_overflow]. Qed.

Lemma loss_vec s s' lost v : loss_post s s' lost -> vec s' v = (-1)%Z.
Proof.
  intros (_ & F & _). unfold vec, cvec, irq_fds in *. destruct (cx_irqs (sv_ctx s')) as [t|]; [|reflexivity].
  apply nth_all_none. intros fd H. apply F. cbn [In]. auto.
Qed.

Lemma lost_detach s : In EvDetach (lost_events s).
Proof. unfold lost_events. rewrite !in_app_iff. right. right. right. now left. Qed.

Lemma closes_no_detach l : ~ In EvDetach (closes_of l).
Proof. unfold closes_of. rewrite in_map_iff. intros (x & E & _). discriminate E. Qed.

Lemma quiesce_no_detach s : ~ In EvDetach (quiesce_call s).
Proof. unfold quiesce_call. destruct (cx_quiesce (sv_ctx s)); [intros [E|[]]; discriminate E|intros []]. Qed.

Lemma reply_vec s en h r o s' ev v : reply_case s en h r o s' ev ->
  (In EvDetach ev /\ vec s' v = (-1)%Z) \/ (~ In EvDetach ev /\ vec s' v = vec s v).
Proof.
  intros [W|W S|e W S E|e e' W S E Q P Qr|e s1 W S E Q P].
  - right. split; [intros []|reflexivity].
  - right. split; [intros [E|[]]; discriminate E|reflexivity].
  - right. split; [intros []|reflexivity].
  - right. split; [intros [E1|[]]; discriminate E1|]. destruct (e' =? EBUSY); reflexivity.
  - left. split; [rewrite in_app_iff; right; apply lost_detach|exact (loss_vec _ _ _ v P)].
Qed.

Lemma handled_vec s en m o s' ev v : handled s en m o s' ev ->
  exists err body fds c1 fds' ev1, dispatch (sv_ctx s) (en_or en) (hd_cmd (mg_hdr m)) (mg_body m) (mg_fds m) = (HReply err body fds, c1, fds', ev1) /\
  ((In EvDetach ev /\ vec s' v = (-1)%Z) \/ (~ In EvDetach ev /\ vec s' v = cvec c1 v)).
Proof.
  intros [err body fds c1 fds' ev1 o1 s1 ev2 D K F R]. exists err, body, fds, c1, fds', ev1. split; [exact D|].
  assert (N1 : ~ In EvDetach ev1) by (intros X; rewrite Forall_forall in F; exact (F _ X)).
  rewrite !in_app_iff. destruct (reply_vec _ _ _ _ _ _ _ v R) as [[A B]|[A B]]; [left; auto|right].
  split; [|exact B]. intros [X|[X|X]]; auto. now apply closes_no_detach in X.
Qed.

(* The pending request, if any, is not SET_IRQS: that one does not need the device to be quiesced. *)
Definition pend_ok (s : server) : Prop := match sv_pending s with PMsg m => hd_cmd (mg_hdr m) <> 8 | _ => True end.

Lemma needs_not_8 c cmd body : needs_quiesce c cmd body = true -> cmd <> 8.
Proof. intros H ->. unfold needs_quiesce in H. destruct (cx_quiesce c); discriminate H. Qed.

Lemma assigns_request s st v fd : assigns s st v fd -> exists flags index start count fds, irq_request s st flags index start count fds.
Proof. intros (flags & index & start & count & fds & R & _). eauto 6. Qed.
Lemma unassigns_request s st v : unassigns s st v -> exists flags index start count fds, irq_request s st flags index start count fds.
Proof. intros (flags & index & count & R & _). eauto 6. Qed.

Definition vec_step (s : server) (st : step) (s' : server) (ev : list event) (v : N) : Prop :=
  (In EvDetach ev /\ vec s' v = (-1)%Z) \/
  (~ In EvDetach ev /\ (forall fd, assigns s st v fd -> vec s' v = fd) /\ (unassigns s st v -> vec s' v = (-1)%Z) /\
   ((forall fd, ~ assigns s st v fd) -> ~ unassigns s st v -> vec s' v = vec s v) /\
   ((exists fd, assigns s st v fd) \/ unassigns s st v \/ ((forall fd, ~ assigns s st v fd) /\ ~ unassigns s st v))).

(* No request that matters is executed. *)
Lemma vec_step_none s st s' ev v : (forall flags index start count fds, ~ irq_request s st flags index start count fds) ->
  (In EvDetach ev /\ vec s' v = (-1)%Z) \/ (~ In EvDetach ev /\ vec s' v = vec s v) -> vec_step s st s' ev v.
Proof.
  intros NR [H|[A B]]; [left; exact H|right]. split; [exact A|].
  assert (NA : forall fd, ~ assigns s st v fd).
  { intros fd H. destruct (assigns_request _ _ _ _ H) as (a & b & c & d & e & R). destruct (NR _ _ _ _ _ R). }
  assert (NU : ~ unassigns s st v).
  { intros H. destruct (unassigns_request _ _ _ H) as (a & b & c & d & e & R). destruct (NR _ _ _ _ _ R). }
  split; [intros fd H; destruct (NA fd H)|]. split; [intros H; destruct (NU H)|]. auto.
Qed.

Lemma reply_pend s en h r o s' ev : reply_case s en h r o s' ev -> sv_pending s' = sv_pending s \/ sv_pending s' = PReset.
Proof.
  intros [W|W S|e W S E|e e' W S E Q P Qr|e s1 W S E Q P]; auto.
  - destruct (e' =? EBUSY); auto.
  - left. apply P.
Qed.

Lemma accepted_fun s h rb b1 b2 : accepted s h rb b1 -> accepted s h rb b2 -> b1 = b2.
Proof. intros [x V Q E] A. inversion A as [y V2 Q2 E2]; subst. congruence. Qed.

Lemma refused_not s en h rb e ev body : refused_with s en h rb e ev -> accepted s h rb body -> hd_cmd h = 8 -> False.
Proof.
  intros R A C. inversion A as [b V Q E]; subst. destruct R as [V1|e1 V1 Q1|b1 V1 Q1 E1|b1 e1 A1 N1 Q1 E1]; try congruence.
  apply needs_not_8 in N1. contradiction.
Qed.

Lemma step_pend s st o s' ev : pend_ok s -> step_case s st o s' ev -> pend_ok s'.
Proof.
  intros PO H. unfold pend_ok in *.
  assert (K : forall s1, sv_pending s1 = sv_pending s \/ sv_pending s1 = PReset -> match sv_pending s1 with PMsg m => hd_cmd (mg_hdr m) <> 8 | _ => True end).
  { intros s1 [E|E]; rewrite E; [exact PO|exact I]. }
  destruct H; try exact PO; try exact I.
  - destruct (e' =? EBUSY); [exact I|exact PO].
  - apply K. left. apply H3.
  - apply K. exact (reply_pend _ _ _ _ _ _ _ H2).
  - cbn [sv_pending set_pending mg_hdr]. exact (needs_not_8 _ _ _ H2).
  - apply K. change (sv_pending (set_quiesced s' false)) with (sv_pending s'). destruct H3 as [err bd fs c1 fds' ev1 o1 s1 ev2 D K0 F R]. exact (reply_pend _ _ _ _ _ _ _ R).
  - unfold dev_hint. destruct (cx_dma (sv_ctx s)); exact PO.
Qed.

Lemma step_vec s st o s' ev v : sinv s -> pend_ok s -> sv_step s st = (o, s', ev) -> (forall c, o <> Crash c) ->
  (forall en, st = SRun en -> delivered en) -> ~ odd_disable s st -> vec_step s st s' ev v.
Proof.
  intros SI PO H NC DL NO. pose proof (step_cases _ _ _ _ _ SI H NC) as SC. pose proof SI as (CI & _). clear H.
  destruct SC.
  - apply vec_step_none; [|right; split; [intros []|reflexivity]].
    intros fl i a n f R. destruct R as [(Z & _) _ _]. congruence.
  - apply vec_step_none; [|right; split; [intros []|reflexivity]].
    intros fl i a n f R. destruct R as [(_ & Z & _) _ _]. congruence.
  - apply vec_step_none; [|right; split; [intros []|reflexivity]].
    intros fl i a n f R. destruct R as [(_ & _ & Z) _ _]. congruence.
  - apply vec_step_none; [|right; split; [intros []|reflexivity]].
    intros fl i a n f R. destruct (irq_request_accepted _ _ _ _ _ _ _ R) as (en' & h & l & argsz & data & E & _ & X & _). injection E as <-. congruence.
  - apply vec_step_none; [|right; split; [intros [Z|[]]; discriminate Z|destruct (e' =? EBUSY); reflexivity]].
    intros fl i a n f R. destruct (irq_request_accepted _ _ _ _ _ _ _ R) as (en' & h & l & argsz & data & E & _ & X & _). injection E as <-. congruence.
  - left. split; [rewrite in_app_iff; right; apply lost_detach|eapply loss_vec; eauto].
  - apply vec_step_none.
    + intros fl i a n f R. destruct (irq_request_accepted _ _ _ _ _ _ _ R) as (en' & h' & l & argsz & data & E & _ & X & C & A & _). injection E as <-.
      rewrite H0 in X. injection X as -> -> ->. exact (refused_not _ _ _ _ _ _ _ H1 A C).
    + assert (N0 : ~ In EvDetach ev0) by (destruct H1; [intros []|intros []|intros []|intros [Z|[]]; discriminate Z]).
      rewrite !in_app_iff. destruct (reply_vec _ _ _ _ _ _ _ v H2) as [[A B]|[A B]]; [left; auto|right]. split; [|exact B].
      intros [X|[X|X]]; auto. now apply closes_no_detach in X.
  - apply vec_step_none; [|right; split; [intros [Z|[]]; discriminate Z|reflexivity]].
    intros fl i a n f R. destruct (irq_request_accepted _ _ _ _ _ _ _ R) as (en' & h' & l & argsz & data & E & _ & X & C & A & _). injection E as <-.
    rewrite H0 in X. injection X as -> -> ->. exact (needs_not_8 _ _ _ H2 C).
  - (* a request is handled *)
    assert (ND : ~ In EvDetach (if q then [EvQuiesce None] else [])) by (destruct q; [intros [Z|[]]; discriminate Z|intros []]).
    destruct (handled_vec _ _ _ _ _ _ v H3) as (err & rb & rf & c1 & f1 & ev1 & D & HV). cbn [mg_hdr mg_body mg_fds set_quiesced sv_ctx] in D.
    assert (HV2 : (In EvDetach ((if q then [EvQuiesce None] else []) ++ ev) /\ vec (set_quiesced s' false) v = (-1)%Z) \/
                  (~ In EvDetach ((if q then [EvQuiesce None] else []) ++ ev) /\ vec (set_quiesced s' false) v = cvec c1 v)).
    { change (vec (set_quiesced s' false) v) with (vec s' v). rewrite in_app_iff. destruct HV as [[A B]|[A B]]; [left; auto|right]. split; [tauto|exact B]. }
    clear HV H3. destruct (N.eq_dec (hd_cmd h) 8) as [C8|C8].
    + rewrite C8 in D. unfold dispatch in D. cbn [N.eqb Pos.eqb CMD_DMA_MAP CMD_DMA_UNMAP CMD_GET_INFO CMD_GET_REGION_INFO CMD_GET_REGION_IO_FDS CMD_GET_IRQ_INFO CMD_SET_IRQS] in D.
      destruct (ci_irqs _ CI) as (t & Ti & TO). rewrite Ti in D.
      destruct (set_irqs (cx_irq_cfg (sv_ctx s)) t (or_efd (en_or en)) body fds) as [[[r1 t1] f2] ev2] eqn:Q. injection D as E1 E2 E3 E4. subst c1 f1 ev1 r1.
      change (cvec (set_irqt (sv_ctx s) t1) v) with (nth (N.to_nat v) (iq_efds t1) (-1)%Z) in HV2.
      assert (VT : vec s v = nth (N.to_nat v) (iq_efds t) (-1)%Z) by (unfold vec, cvec; now rewrite Ti).
      destruct (accepted_body _ _ _ _ H1) as [[_ Z]|(l & -> & Fb)]; [congruence|].
      specialize (DL en eq_refl). unfold delivered in DL. rewrite H0 in DL. destruct DL as [Bl Pf].
      assert (Bb : bytes body) by (rewrite Fb; now apply bytes_firstn).
      assert (SAME : (forall flags index start count f, irq_request s (SRun en) flags index start count f -> False) -> t1 = t -> vec_step s (SRun en) (set_quiesced s' false) ((if q then [EvQuiesce None] else []) ++ ev) v).
      { intros NR ->. apply vec_step_none; [intros; intros R; eauto|]. rewrite VT. exact HV2. }
      destruct (Nat.lt_ge_cases (length body) 20) as [L20|L20].
      { rewrite C33_short_payload_refused in Q by exact L20. injection Q as <- <- <- <-. apply SAME; [|reflexivity].
        intros fl i a n f R. destruct (irq_request_accepted _ _ _ _ _ _ _ R) as (en' & h' & l' & argsz & data & E & _ & X & C & A & (B1 & B2 & B3 & B4 & B5) & _). injection E as <-.
        rewrite H0 in X. injection X as <- <- <-. rewrite (accepted_fun _ _ _ _ _ H1 A) in L20.
        destruct (isb_fields argsz fl i a n data B1 B2 B3 B4 B5) as (LL & _). cbv zeta in LL. lia. }
      destruct (isb_complete body Bb L20) as (argsz & flags & index & start & count & data & B1 & B2 & B3 & B4 & B5 & Eb). rewrite Eb in Q, H1.
      assert (Hc : Forall (fun n => n < two32 - 1) (ic_count (cx_irq_cfg (sv_ctx s)))) by apply TO.
      assert (UNI : forall fl i a n f, irq_request s (SRun en) fl i a n f -> fl = flags /\ i = index /\ a = start /\ n = count /\ f = fds).
      { intros fl i a n f R. destruct (irq_request_accepted _ _ _ _ _ _ _ R) as (en' & h' & l' & argsz' & data' & E & _ & X & C & A & (D1 & D2 & D3 & D4 & D5) & _). injection E as <-.
        rewrite H0 in X. injection X as <- <- <-. pose proof (accepted_fun _ _ _ _ _ A H1) as Ea.
        destruct (isb_inj _ _ _ _ _ _ _ _ _ _ _ _ D1 D2 D3 D4 D5 B1 B2 B3 B4 B5 Ea) as (-> & -> & -> & ->). auto. }
      destruct (set_irqs_valid (cx_irq_cfg (sv_ctx s)) (N.of_nat (20 + length data)) argsz flags index start count (N.of_nat (length fds))) eqn:VV.
      * apply (valid_iff _ _ _ _ _ _ _ _ B4 B5 Hc) in VV.
        pose proof (accepted_irq_request _ _ _ _ _ _ _ _ _ _ _ H H0 C8 H1 B1 B2 B3 B4 B5 VV) as RQ.
        destruct (set_irqs_vec _ _ _ _ _ _ _ _ _ _ _ _ _ _ v B1 B2 B3 B4 B5 TO Pf VV Q) as (S1 & S2 & S3).
        { intros (Tr & De & -> & NZ). apply NO. exists flags, index, start, count. auto. }
        destruct HV2 as [HV2|[HV2 HV3]]; [left; exact HV2|right]. split; [exact HV2|]. rewrite HV3, VT. split; [|split; [|split]].
        -- intros fd (fl & i & a & n & f & R & I3 & Tr & De & Lv & X). destruct (UNI _ _ _ _ _ R) as (-> & -> & -> & -> & ->). apply S1. repeat split; auto.
        -- intros (fl & i & n & R & I3 & Tr & U). destruct (UNI _ _ _ _ _ R) as (-> & -> & <- & -> & <-). apply S2. repeat split; auto.
        -- intros NA NU. apply S3.
           ++ intros fd (I3 & Tr & De & Lv & X). apply (NA fd). exists flags, index, start, count, fds. split; [exact RQ|]. repeat split; auto.
           ++ intros (-> & -> & I3 & Tr & U). apply NU. exists flags, index, count. split; [exact RQ|]. repeat split; auto.
        -- destruct (t_assigns_dec flags index start fds v) as [(fd & I3 & Tr & De & Lv & X)|NA].
           { left. exists fd, flags, index, start, count, fds. split; [exact RQ|]. repeat split; auto. }
           destruct (t_unassigns_dec (cx_irq_cfg (sv_ctx s)) flags index start count fds v) as [(-> & -> & I3 & Tr & U)|NU].
           { right. left. exists flags, index, count. split; [exact RQ|]. repeat split; auto. }
           right. right. split.
           ++ intros fd (fl & i & a & n & f & R & I3 & Tr & De & Lv & X). destruct (UNI _ _ _ _ _ R) as (-> & -> & -> & -> & ->). apply (NA fd). repeat split; auto.
           ++ intros (fl & i & n & R & I3 & Tr & U). destruct (UNI _ _ _ _ _ R) as (-> & -> & <- & -> & <-). apply NU. repeat split; auto.
      * assert (NR : ~ irq_request_ok (cx_irq_cfg (sv_ctx s)) argsz flags index start count data fds).
        { intros R. apply (valid_iff _ _ _ _ _ _ _ _ B4 B5 Hc) in R. congruence. }
        rewrite C33_refused_no_effect in Q by auto. injection Q as <- <- <- <-. apply SAME; [|reflexivity].
        intros fl i a n f R. destruct (irq_request_accepted _ _ _ _ _ _ _ R) as (en' & h' & l' & argsz' & data' & E & _ & X & C & A & (D1 & D2 & D3 & D4 & D5) & RO). injection E as <-.
        rewrite H0 in X. injection X as <- <- <-. pose proof (accepted_fun _ _ _ _ _ A H1) as Ea.
        assert (argsz' = argsz /\ data' = data) as [-> ->].
        { destruct (isb_fields argsz' fl i a n data' D1 D2 D3 D4 D5) as (_ & F0 & _ & _ & _ & _ & F5).
          destruct (isb_fields argsz flags index start count data B1 B2 B3 B4 B5) as (_ & G0 & _ & _ & _ & _ & G5). cbv zeta in *. rewrite Ea in F0, F5. split; congruence. }
        destruct (isb_inj _ _ _ _ _ _ _ _ _ _ _ _ D1 D2 D3 D4 D5 B1 B2 B3 B4 B5 Ea) as (-> & -> & -> & ->). now apply NR.
    + apply vec_step_none.
      * intros fl i a n f R. destruct (irq_request_accepted _ _ _ _ _ _ _ R) as (en' & h' & l & argsz & data & E & _ & X & C & _). injection E as <-.
        rewrite H0 in X. injection X as -> -> ->. contradiction.
      * apply dispatch_irqs in D; [|exact C8]. replace (vec s v) with (cvec c1 v) by (unfold vec, cvec; now rewrite D). exact HV2.
  - apply vec_step_none; [|right; split; [intros []|reflexivity]].
    intros fl i a n f R. destruct R as [_ _ (en' & h' & l & argsz & data & E & _)]. discriminate E.
  - apply vec_step_none.
    + intros fl i a n f R. destruct R as [_ _ (en' & h' & l & argsz & data & E & _)]. discriminate E.
    + destruct (handled_vec _ _ _ _ _ _ v H1) as (err & rb & rf & c1 & f1 & ev1 & D & HV). cbn [set_quiesced sv_ctx] in D.
      unfold pend_ok in PO. rewrite H in PO. apply dispatch_irqs in D; [|exact PO].
      change (vec (set_quiesced (set_pending s' PNone) false) v) with (vec s' v). replace (vec s v) with (cvec c1 v) by (unfold vec, cvec; now rewrite D). exact HV.
  - left. split; [apply lost_detach|]. change (vec (set_quiesced (set_pending s' PNone) false) v) with (vec s' v). eapply loss_vec; eauto.
  - apply vec_step_none.
    + intros fl i a n f R. destruct R as [_ _ (en' & h' & l & argsz & data & E' & _)]. discriminate E'.
    + right. split; [|reflexivity]. destruct (sv_pending s); [intros []|apply closes_no_detach|intros []].
  - apply vec_step_none; [|right; split; [intros []|reflexivity]].
    intros fl i a n f R. destruct R as [_ _ (en' & h' & l & argsz & data & E & _)]. discriminate E.
  - apply vec_step_none; [|right; split; [intros []|reflexivity]].
    intros fl i a n f R. destruct R as [_ _ (en' & h' & l & argsz & data & E & _)]. discriminate E.
  - apply vec_step_none; [|right; split; [intros []|reflexivity]].
    intros fl i a n f R. destruct R as [_ _ (en' & h' & l' & argsz & data & E & _)]. discriminate E.
  - apply vec_step_none; [|right; split; [intros []|reflexivity]].
    intros fl i a n f R. destruct R as [_ _ (en' & h' & l' & argsz & data & E & _)]. discriminate E.
  - apply vec_step_none; [|right; split; [intros []|]].
    + intros fl i a n f R. destruct R as [_ _ (en' & h' & l' & argsz & data & E & _)]. discriminate E.
    + unfold dev_hint. destruct (cx_dma (sv_ctx s)); reflexivity.
  - apply vec_step_none.
    + intros fl i a n f R. destruct R as [_ _ (en' & h' & l' & argsz & data & E & _)]. discriminate E.
    + right. split; [|reflexivity]. intros X. destruct (H _ X) as (fd & Z). discriminate Z.
  - apply vec_step_none; [|right; split; [intros []|reflexivity]].
    intros fl i a n f R. destruct R as [_ _ (en' & h' & l & argsz & data0 & E & _)]. discriminate E.
Qed.

(* ---------- histories *)

Lemma ih_app a : forall b s0 s, irq_history s0 (a ++ b) s -> exists m, irq_history s0 a m /\ irq_history m b s.
Proof.
  induction a as [|st a IH]; intros b s0 s H; cbn [app] in H; [exists s0; split; [constructor|exact H]|].
  inversion H as [|? ? o s1 ev ? ? ST NC DL NO T]; subst. destruct (IH _ _ _ T) as (m & A & B). exists m. split; [econstructor; eauto|exact B].
Qed.

Lemma ih_det s l a b : irq_history s l a -> irq_history s l b -> a = b.
Proof.
  intros H. revert b. induction H as [s|s st o s1 ev l s2 ST NC DL NO T IH]; intros b B; inversion B as [|? ? o' s1' ev' ? ? ST' NC' DL' NO' T']; subst; [reflexivity|].
  rewrite ST in ST'. injection ST' as <- <- <-. auto.
Qed.

Lemma ih_history s l s' : irq_history s l s' -> exists arr ev, history s l s' arr ev.
Proof.
  induction 1 as [s|s st o s1 ev l s2 ST NC DL NO T (arr & ev2 & IH)]; [exists [], []; constructor|].
  eexists _, _. eapply h_cons; eauto.
Qed.

Lemma ih_inv s l s' : irq_history s l s' -> sinv s -> pend_ok s -> sinv s' /\ pend_ok s'.
Proof.
  induction 1 as [s|s st o s1 ev l s2 ST NC DL NO T IH]; [auto|]. intros SI PO. pose proof (step_cases _ _ _ _ _ SI ST NC) as SC.
  apply IH; [exact (proj2 (step_kept _ _ _ _ _ SI SC))|exact (step_pend _ _ _ _ _ PO SC)].
Qed.

Lemma fresh_pend s : fresh s -> pend_ok s.
Proof. intros (_ & P & _). unfold pend_ok. now rewrite P. Qed.

Lemma fresh_vec s v : fresh s -> vec s v = (-1)%Z.
Proof.
  intros (R & _). destruct R as (_ & T & _). unfold vec, cvec. rewrite T. apply nth_all_none. unfold irqs_create. cbn [iq_efds]. intros fd H. now apply repeat_spec in H.
Qed.

Lemma leaves_vec v s l : leaves_vector v s l -> forall s', irq_history s l s' -> sinv s -> pend_ok s -> vec s' v = vec s v.
Proof.
  induction 1 as [s|s st o s1 ev l ST ND NU NA T IH]; intros s' H SI PO; inversion H as [|? ? o' s1' ev' ? ? ST' NC DL NO T']; subst; [reflexivity|].
  rewrite ST in ST'. injection ST' as <- <- <-. pose proof (step_cases _ _ _ _ _ SI ST NC) as SC.
  rewrite (IH _ T' (proj2 (step_kept _ _ _ _ _ SI SC)) (step_pend _ _ _ _ _ PO SC)).
  destruct (step_vec _ _ _ _ _ v SI PO ST NC DL NO) as [[A _]|(_ & _ & _ & K & _)]; [contradiction|]. now apply K.
Qed.

Lemma connected_vec s0 hist s v fd : fresh s0 -> irq_history s0 hist s -> connected_to s0 hist v fd -> vec s v = fd /\ (0 <= fd)%Z.
Proof.
  intros F H (l1 & st & l2 & s1 & o & s2 & ev & -> & H1 & ST & A & ND & LV).
  destruct (ih_app _ _ _ _ H) as (m & M1 & M2). rewrite (ih_det _ _ _ _ M1 H1) in M2. clear m M1.
  inversion M2 as [|? ? o' s2' ev' ? ? ST' NC DL NO T]; subst. rewrite ST in ST'. injection ST' as <- <- <-.
  destruct (ih_inv _ _ _ H1 (fresh_sinv _ F) (fresh_pend _ F)) as [SI PO]. pose proof (step_cases _ _ _ _ _ SI ST NC) as SC.
  rewrite (leaves_vec _ _ _ LV _ T (proj2 (step_kept _ _ _ _ _ SI SC)) (step_pend _ _ _ _ _ PO SC)).
  destruct (step_vec _ _ _ _ _ v SI PO ST NC DL NO) as [[X _]|(_ & K & _)]; [contradiction|]. split; [now apply K|].
  destruct A as (fl & i & a & n & f & R & _ & _ & _ & _ & X). apply nth_error_In in X.
  destruct (irq_request_accepted _ _ _ _ _ _ _ R) as (en & h & l & argsz & data & -> & _ & RX & _). specialize (DL en eq_refl).
  unfold delivered in DL. rewrite RX in DL. destruct DL as [_ DL]. rewrite Forall_forall in DL. now apply DL.
Qed.

Lemma leaves_app v s l : leaves_vector v s l -> forall s', irq_history s l s' -> forall o s2 st ev, sv_step s' st = (o, s2, ev) -> ~ In EvDetach ev ->
  ~ unassigns s' st v -> (forall fd, ~ assigns s' st v fd) -> leaves_vector v s (l ++ [st]).
Proof.
  induction 1 as [s|s st o s1 ev l ST ND NU NA T IH]; intros s' H o' s2 st' ev' ST2 ND2 NU2 NA2; inversion H as [|? ? o1 s1' ev1 ? ? ST' NC DL NO T']; subst; cbn [app].
  - econstructor; eauto. constructor.
  - rewrite ST in ST'. injection ST' as <- <- <-. econstructor; eauto.
Qed.

Lemma vec_connected s0 hist : fresh s0 -> forall s v, irq_history s0 hist s -> vec s v = (-1)%Z \/ connected_to s0 hist v (vec s v).
Proof.
  intros F. induction hist as [|st hist IH] using rev_ind; intros s v H.
  - inversion H; subst. left. now apply fresh_vec.
  - destruct (ih_app _ _ _ _ H) as (m & M1 & M2). inversion M2 as [|? ? o s' ev ? ? ST NC DL NO T]; subst. inversion T; subst. clear T M2.
    destruct (ih_inv _ _ _ M1 (fresh_sinv _ F) (fresh_pend _ F)) as [SI PO].
    destruct (step_vec _ _ _ _ _ v SI PO ST NC DL NO) as [[_ A]|(ND & K1 & K2 & K3 & [(fd & A)|[A|[A B]]])].
    + left. exact A.
    + right. rewrite (K1 _ A). exists hist, st, [], m, o, s, ev. split; [reflexivity|]. split; [exact M1|]. split; [exact ST|]. split; [exact A|]. split; [exact ND|constructor].
    + left. now apply K2.
    + rewrite (K3 A B). destruct (IH m v M1) as [N|(l1 & st1 & l2 & s1 & o1 & s2 & ev1 & -> & H1 & ST1 & A1 & ND1 & LV)]; [left; exact N|right].
      exists l1, st1, (l2 ++ [st]), s1, o1, s2, ev1. split; [now rewrite <- app_assoc|]. split; [exact H1|]. split; [exact ST1|]. split; [exact A1|]. split; [exact ND1|].
      destruct (ih_app _ _ _ _ M1) as (m2 & N1 & N2). rewrite (ih_det _ _ _ _ N1 H1) in N2. inversion N2 as [|? ? o2 s2' ev2 ? ? ST2 NC2 DL2 NO2 T2]; subst.
      rewrite ST1 in ST2. injection ST2 as <- <- <-. eapply leaves_app; eauto.
Qed.

Lemma kept_vectors s0 hist s : fresh s0 -> irq_history s0 hist s -> exists t, cx_irqs (sv_ctx s) = Some t /\
  length (iq_efds t) = N.to_nat (fold_left N.max (ic_count (cx_irq_cfg (sv_ctx s0))) 0).
Proof.
  intros F H. destruct (ih_history _ _ _ H) as (arr & ev & HH). destruct (history_kept _ _ _ _ _ HH (fresh_sinv _ F)) as [K _].
  destruct (k_setup _ _ K) as (_ & _ & _ & _ & _ & _ & _ & _ & L). destruct F as (R & _). destruct R as (_ & T & _). rewrite T in L. cbn [option_map] in L.
  destruct (cx_irqs (sv_ctx s)) as [t|]; [|discriminate L]. exists t. split; [reflexivity|]. injection L as L. unfold irqs_create in L. cbn [iq_efds] in L. rewrite repeat_length in L. exact L.
Qed.
