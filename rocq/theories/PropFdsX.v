(* C27: exactly which descriptors are lost or closed twice. *)
From Coq Require Import NArith ZArith List Bool Lia ZifyBool ZifyNat ZifyN.
From Verif Require Import Base Types Bytes BytesProofs Spec Dma Dirty DmaOps SpecDma DmaProofs Migr Irq SpecIrq IrqProofs PropIrq Pci Handlers
  SpecHandlers HandlersProofs HandlersDma Server SpecServer ServerProofs PropServer PropFds.
Import ListNotations.
Open Scope N_scope.
Ltac Zify.zify_post_hook ::= idtac.

(* m is a DMA map request with the descriptor f that repeats a mapping: one of the same range, file, offset and
   protection is there. *)
Definition repeats (rs : list region) (os : dma_os) (m : msg) (f : Z) : Prop :=
  hd_cmd (mg_hdr m) = 2 /\ exists rest addr size off flags r,
  mg_fds m = f :: rest /\ rd (mg_body m) 4 4 = Some flags /\ rd (mg_body m) 8 8 = Some off /\
  rd (mg_body m) 16 8 = Some addr /\ rd (mg_body m) 24 8 = Some size /\ In r rs /\
  rg_base r = addr /\ rg_len r = size /\ rg_off r = off /\ (rg_fd r = f \/ os_same_file os (rg_fd r) f = true) /\
  di_prot (rg_info r) = (if N.testbit flags 0 then PROT_READ else 0) + (if N.testbit flags 1 then PROT_WRITE else 0).
(* m is a DMA map request with the descriptor f, and mmap fails. *)
Definition unmappable (os : dma_os) (m : msg) (f : Z) : Prop :=
  hd_cmd (mg_hdr m) = 2 /\ (exists rest, mg_fds m = f :: rest) /\ exists e, os_mmap os = inr e.

(* The message that a step handles, and how mmap and fstat would fare meanwhile. *)
Definition handles (s : server) (st : step) (m : msg) (os : dma_os) : Prop :=
  match st with
  | SRun en => os = or_os (en_or en) /\ exists h fds body, en_rx en = RxMsg h fds (inr body) /\ m = mk_msg h (firstn (N.to_nat (hd_size h - 16)) body) fds
  | SQuiesced _ en => os = or_os (en_or en) /\ sv_pending s = PMsg m
  | _ => False
  end.

(* f is lost, or closed once too often. *)
Definition unaccounted (rs : list region) (os : dma_os) (m : msg) (fd : Z) (lost twice : nat) : Prop :=
  exists f, (lost = times fd [f] /\ twice = 0%nat /\ repeats rs os m f) \/ (lost = 0%nat /\ twice = times fd [f] /\ unmappable os m f).

Lemma map_x fd cb os d addr size f off prot o d' ev : (0 <= fd)%Z -> dma_map_request cb os d addr size f off prot = (o, d', ev) -> (forall c, o <> Crash c) ->
  exists lost twice, (times fd (map rg_fd (dm_regions d)) + one fd f + twice = times fd (map rg_fd (dm_regions d')) + closed ev fd + lost)%nat /\
  ((lost = 0%nat /\ twice = 0%nat) \/
   (lost = one fd f /\ twice = 0%nat /\ exists r, In r (dm_regions d) /\ rg_base r = addr /\ rg_len r = size /\ rg_off r = off /\ (rg_fd r = f \/ os_same_file os (rg_fd r) f = true) /\ di_prot (rg_info r) = prot) \/
   (lost = 0%nat /\ twice = one fd f /\ exists e, os_mmap os = inr e)).
Proof.
  intros P. unfold dma_map_request. intros H NC. destruct (add_region os d addr size f off prot) as [[o1 d1] ev1] eqn:Q.
  assert (K : match o1 with
    | Ok _ => ev1 = [] /\ exists lost, (times fd (map rg_fd (dm_regions d)) + one fd f = times fd (map rg_fd (dm_regions d1)) + lost)%nat /\
        (lost = 0%nat \/ lost = one fd f /\ exists r, In r (dm_regions d) /\ rg_base r = addr /\ rg_len r = size /\ rg_off r = off /\ (rg_fd r = f \/ os_same_file os (rg_fd r) f = true) /\ di_prot (rg_info r) = prot)
    | Err _ => d1 = d /\ (closed ev1 fd = 0%nat \/ closed ev1 fd = one fd f /\ exists e, os_mmap os = inr e) | Crash _ => True end).
  { unfold add_region in Q. destruct (dm_max_size d <? size); [injection Q as <- <- <-; auto|].
    destruct (add_scan os (dm_regions d) 0 addr size f off prot) as [r|] eqn:S.
    - injection Q as <- <- <-. destruct r as [k|e|cr]; auto. split; [reflexivity|]. exists (one fd f). split; [lia|]. right. split; [reflexivity|]. exact (scan_ok _ _ _ _ _ _ _ _ _ S).
    - destruct (Nat.eqb (length (dm_regions d)) (dm_max_regions d)); [injection Q as <- <- <-; auto|].
      destruct (f =? -1)%Z eqn:E.
      { injection Q as <- <- <-. split; [reflexivity|]. exists 0%nat. split; [|now left]. cbn [dm_regions set_regions]; rewrite map_app, times_app. cbn [map rg_fd]. rewrite times_cons, times_nil. lia. }
      destruct (os_blksize os) as [blk|]; [|injection Q as <- <- <-; auto].
      destruct (if dm_pgsize d =? 0 then Ok (mk_region (mk_info addr size None 0 0 (N.max blk PAGE_SIZE) prot) f off None)
        else start_on_region (os_calloc os) (mk_region (mk_info addr size None 0 0 (N.max blk PAGE_SIZE) prot) f off None) (dm_pgsize d)) as [r1|e|c] eqn:SR;
        [|injection Q as <- <- <-; auto..].
      assert (F1 : rg_fd r1 = f).
      { destruct (dm_pgsize d =? 0); [injection SR as <-; reflexivity|]. unfold start_on_region in SR.
        destruct (get_bitmap_size (rg_len (mk_region (mk_info addr size None 0 0 (N.max blk PAGE_SIZE) prot) f off None)) (dm_pgsize d)); try discriminate SR.
        destruct (os_calloc os); [|discriminate SR]. injection SR as <-. reflexivity. }
      unfold map_region in Q. destruct (os_mmap os) as [base|em]; injection Q as <- <- <-.
      + split; [reflexivity|]. exists 0%nat. split; [|now left]. cbn [dm_regions set_regions]; rewrite map_app, times_app. cbn [map rg_fd]. rewrite times_cons, times_nil, F1. lia.
      + split; [reflexivity|]. right. split; [now apply closed_ev|eauto]. }
  destruct o1 as [idx|e|cr].
  - destruct K as (-> & lost & K & L). destruct (nth_error (dm_regions d1) idx); [|injection H as <- <- <-; now elim (NC OutOfBounds)].
    injection H as <- <- <-. exists lost, 0%nat. split; [|destruct L as [L|[L R]]; auto 6].
    destruct cb; cbn [app]; rewrite ?closed_nil; [|lia]. change (closed [EvRegister (rg_info r)] fd) with 0%nat. lia.
  - destruct K as [-> K]. injection H as <- <- <-. rewrite closed_app, closed_ev by auto. destruct K as [K|[K M]].
    + exists 0%nat, 0%nat. split; [lia|auto].
    + exists 0%nat, (one fd f). split; [lia|auto 6].
  - injection H as <- <- <-. now elim (NC cr).
Qed.

Lemma handle_map_x fd c d o h body fds r c' fds' ev : (0 <= fd)%Z -> cx_dma c = Some d -> handle_dma_map c d o body fds = (r, c', fds', ev) -> no_crash r ->
  hd_cmd h = 2 ->
  exists lost twice, (cheld c fd + times fd fds + twice = cheld c' fd + times fd fds' + closed ev fd + lost)%nat /\
  ((lost = 0%nat /\ twice = 0%nat) \/ unaccounted (cregs c) (or_os o) (mk_msg h body fds) fd lost twice).
Proof.
  intros P Dm H NC Hc. unfold handle_dma_map in H.
  assert (K : forall r0, (r0, c, fds, @nil event) = (r, c', fds', ev) ->
    exists lost twice, (cheld c fd + times fd fds + twice = cheld c' fd + times fd fds' + closed ev fd + lost)%nat /\
    ((lost = 0%nat /\ twice = 0%nat) \/ unaccounted (cregs c) (or_os o) (mk_msg h body fds) fd lost twice)).
  { intros r0 Q. injection Q as <- <- <- <-. exists 0%nat, 0%nat. rewrite closed_nil. split; [lia|auto]. }
  destruct (N.of_nat (length body) <? 32); [eapply K; exact H|].
  needs H; try (eapply K; exact H).
  destruct (n <? 32); [eapply K; exact H|].
  destruct (negb (N.ldiff n0 3 =? 0)); [eapply K; exact H|].
  change (has n0 1) with (has n0 (2 ^ 0)) in H. change (has n0 2) with (has n0 (2 ^ 1)) in H. rewrite !has_pow2 in H.
  destruct fds as [|f fs].
  - cbn [length Nat.eqb negb andb] in H.
    destruct (dma_map_request (cx_register c) (or_os o) d n2 n3 (-1) n1 _) as [[res d'] ev1] eqn:Q.
    injection H as Hr <- <- <-. apply (map_fds fd) in Q; [|auto|intros cr ->; subst r; exact NC|now left].
    exists 0%nat, 0%nat. rewrite cheld_dma, (cheld_eq _ _ _ Dm). rewrite times_none in Q by auto. split; [lia|auto].
  - cbn [length Nat.eqb negb andb] in H. destruct (Z.ltb_spec f 0) as [L|L].
    { injection H as <- <- <- <-. exists 0%nat, 0%nat. rewrite (times_cons fd f), (times_cons fd (-1)%Z), times_none, times_neg, closed_nil by auto. split; [lia|auto]. }
    destruct (dma_map_request (cx_register c) (or_os o) d n2 n3 f n1 _) as [[res d'] ev1] eqn:Q.
    injection H as Hr <- <- <-. apply (map_x fd) in Q; [|auto|intros cr ->; subst r; exact NC].
    destruct Q as (lost & twice & Q & U). exists lost, twice. split.
    + rewrite cheld_dma, (cheld_eq _ _ _ Dm). rewrite (times_cons fd f), (times_cons fd (-1)%Z), times_none by auto. lia.
    + assert (T1 : times fd [f] = one fd f) by (rewrite times_cons, times_nil; lia).
      destruct U as [U|[(U1 & U2 & rg & U3)|(U1 & U2 & U3)]]; [now left|right; exists f; left|right; exists f; right]; rewrite T1; split; auto; split; auto.
      * split; [exact Hc|]. unfold cregs. rewrite Dm. exists fs, n2, n3, n1, n0, rg. cbn [mg_fds mg_body]. tauto.
      * split; [exact Hc|]. split; [exists fs; reflexivity|exact U3].
Qed.

Lemma dispatch_x fd c o h body fds r c' fds' ev : (0 <= fd)%Z -> cinv c ->
  dispatch c o (hd_cmd h) body fds = (r, c', fds', ev) -> no_crash r ->
  exists lost twice, (cheld c fd + times fd fds + twice = cheld c' fd + times fd fds' + closed ev fd + lost)%nat /\
  ((lost = 0%nat /\ twice = 0%nat) \/ unaccounted (cregs c) (or_os o) (mk_msg h body fds) fd lost twice).
Proof.
  intros P Ci H NC. destruct (N.eq_dec (hd_cmd h) 2) as [C|C].
  - unfold dispatch in H. rewrite C in H. change (2 =? CMD_DMA_MAP) with true in H. cbv iota in H.
    destruct (cx_dma c) as [d|] eqn:Dm; [eapply handle_map_x; eauto|]. injection H as <- <- <- <-. exists 0%nat, 0%nat. rewrite closed_nil. split; [lia|auto].
  - exists 0%nat, 0%nat. split; [|auto]. rewrite !Nat.add_0_r. apply (dispatch_fds fd c o h body fds r c' fds' ev P Ci H NC). intros Q. now elim (C Q).
Qed.

Lemma handled_x s en m o s' ev fd : (0 <= fd)%Z -> cinv (sv_ctx s) -> handled s en m o s' ev ->
  exists lost twice, (cheld (sv_ctx s) fd + times fd (mg_fds m) + twice = cheld (sv_ctx s') fd + closed ev fd + lost)%nat /\
  (sv_pending s' = sv_pending s \/ sv_pending s = PNone /\ sv_pending s' = PReset) /\
  ((lost = 0%nat /\ twice = 0%nat) \/ unaccounted (regions_of s) (or_os (en_or en)) m fd lost twice).
Proof.
  intros P I H. destruct H as [err body fds c1 fds' ev1 o s' ev2 D _ _ R].
  destruct m as [h b f]. apply (dispatch_x fd) in D; [|auto|auto|exact Logic.I]. destruct D as (lost & twice & D & U). exists lost, twice.
  apply (reply_fds _ _ _ _ _ _ _ fd P) in R. destruct R as [R Pe]. cbn [sv_ctx set_ctx mg_fds sv_pending] in *.
  rewrite !closed_app, closed_closes by auto. split; [lia|]. split; [exact Pe|exact U].
Qed.

Lemma step_x s st o s' ev fd : (0 <= fd)%Z -> sinv s -> sv_step s st = (o, s', ev) -> (forall c, o <> Crash c) ->
  exists lost twice, (held s fd + times fd (received s st) + twice = held s' fd + closed ev fd + lost)%nat /\
  ((lost = 0%nat /\ twice = 0%nat) \/ exists m os, handles s st m os /\ unaccounted (regions_of s) os m fd lost twice).
Proof.
  intros P Si H NC. pose proof (step_cases _ _ _ _ _ Si H NC) as SC. destruct Si as (I & _ & _). setoid_rewrite held_split.
  assert (NR : forall en, ~ serving s \/ (exists e, en_rx en = RxErr e) -> times fd (received s (SRun en)) = 0%nat).
  { intros en [N|(e & E)]; unfold received, serving in *.
    - destruct (sv_realized s), (sv_pending s), (sv_conn s); try reflexivity. exfalso. apply N. auto.
    - rewrite E. destruct (sv_realized s), (sv_pending s), (sv_conn s); reflexivity. }
  inversion SC; subst.
  - exists 0%nat, 0%nat. split; [|now left]. rewrite NR by (left; intros (A & _); congruence). rewrite closed_nil. lia.
  - exists 0%nat, 0%nat. split; [|now left]. rewrite NR by (left; intros (_ & A & _); congruence). rewrite closed_nil. lia.
  - exists 0%nat, 0%nat. split; [|now left]. rewrite NR by (left; intros (_ & _ & A); congruence). rewrite closed_nil. lia.
  - exists 0%nat, 0%nat. split; [|now left]. rewrite NR by eauto. rewrite closed_nil. lia.
  - exists 0%nat, 0%nat. split; [|now left]. rewrite NR by eauto. change (closed [EvQuiesce (Some e')] fd) with 0%nat. match goal with S : serving s |- _ => destruct S as (_ & Pn & _) end.
    rewrite Pn. destruct (e' =? EBUSY); cbn [sv_ctx sv_pending set_pending]; rewrite ?Pn; lia.
  - exists 0%nat, 0%nat. split; [|now left]. rewrite NR by eauto. match goal with S : serving s, L : loss_post _ _ _ |- _ => destruct S as (_ & Pn & _); rename L into LP end.
    rewrite closed_app, quiesce_call_fds, lost_fds, (loss_fds _ _ _ _ P LP) by auto.
    destruct LP as (_ & _ & _ & _ & E & _). rewrite E, Pn. lia.
  - exists 0%nat, 0%nat. split; [|now left]. match goal with S : serving s, X : en_rx _ = _, R : reply_case _ _ _ _ _ _ _ |- _ =>
      rewrite (received_serving _ _ _ _ _ S X); destruct S as (_ & Pn & _); apply (reply_fds _ _ _ _ _ _ _ fd P) in R; destruct R as [R Pe] end.
    rewrite !closed_app, closed_closes by auto.
    match goal with W : refused_with _ _ _ _ _ _ |- _ => assert (E0 : closed ev0 fd = 0%nat) by (destruct W; reflexivity) end.
    rewrite E0, Pn. destruct Pe as [-> | [_ ->]]; rewrite ?Pn; lia.
  - exists 0%nat, 0%nat. split; [|now left]. match goal with S : serving s, X : en_rx _ = _ |- _ =>
      rewrite (received_serving _ _ _ _ _ S X); destruct S as (_ & Pn & _) end.
    change (closed [EvQuiesce (Some EBUSY)] fd) with 0%nat. rewrite Pn. cbn [sv_ctx sv_pending set_pending mg_fds]. lia.
  - match goal with S : serving s, X : en_rx _ = _, R : handled _ _ _ _ _ _, A : accepted _ _ _ _ |- _ =>
      rewrite (received_serving _ _ _ _ _ S X); destruct S as (_ & Pn & _); apply (handled_x _ _ _ _ _ _ fd P) in R;
      [rename R into Rh|exact I]; rename A into Ac, X into Xe end.
    destruct Rh as (lost & twice & R & Pe & U). exists lost, twice. split.
    + unfold set_quiesced in *. cbn [sv_ctx sv_pending mg_fds] in *. rewrite closed_app, Pn.
      assert (E0 : closed (if needs_quiesce (sv_ctx s) (hd_cmd h) body then [EvQuiesce None] else []) fd = 0%nat) by (destruct (needs_quiesce (sv_ctx s) (hd_cmd h) body); reflexivity).
      fold q in E0. rewrite E0. destruct Pe as [-> | [_ ->]]; rewrite ?Pn; lia.
    + destruct U as [U|U]; [now left|]. right. exists (mk_msg h body fds), (or_os (en_or en)). split; [|exact U]. cbn [handles]. split; [reflexivity|].
      assert (Cm : hd_cmd h = 2) by (destruct U as (f & [(_ & _ & Cm & _)|(_ & _ & Cm & _)]); exact Cm). destruct Ac as [body Vh Rb _].
      destruct (N.eqb_spec (hd_size h) 16) as [E16|E16].
      * exfalso. unfold is_valid_header in Vh. rewrite E16, Cm in Vh.
        destruct (negb (N.land (hd_flags h) F_TYPE_MASK =? F_TYPE_COMMAND)); discriminate Vh.
      * unfold recv_body in Rb. destruct rbody as [e|l]; [discriminate Rb|].
        destruct (N.of_nat (length (firstn (N.to_nat (hd_size h - 16)) l)) =? 0); [discriminate Rb|].
        destruct (negb (N.of_nat (length (firstn (N.to_nat (hd_size h - 16)) l)) =? hd_size h - 16)); [discriminate Rb|].
        injection Rb as <-. exists h, fds, l. auto.
  - exists 0%nat, 0%nat. split; [|now left]. cbn [received]. rewrite times_nil, closed_nil. lia.
  - match goal with S : sv_pending s = PMsg m, R : handled _ _ _ _ _ _ |- _ => apply (handled_x _ _ _ _ _ _ fd P) in R; rename S into Pn;
      [rename R into Rh|exact I] end.
    destruct Rh as (lost & twice & R & Pe & U). exists lost, twice. split.
    + cbn [received]. rewrite times_nil, Pn. unfold set_quiesced, set_pending in *. cbn [sv_ctx sv_pending] in *. lia.
    + destruct U as [U|U]; [now left|]. right. exists m, (or_os (en_or en)). split; [split; [reflexivity|exact Pn]|exact U].
  - exists 0%nat, 0%nat. split; [|now left]. match goal with S : sv_pending s = PReset, L : loss_post _ _ _ |- _ => rename S into Pn; rename L into LP end.
    cbn [received]. rewrite times_nil, Pn, lost_fds by auto. unfold set_quiesced, set_pending. cbn [sv_ctx sv_pending].
    rewrite (loss_fds _ _ _ _ P LP). lia.
  - exists 0%nat, 0%nat. split; [|now left]. cbn [received]. rewrite times_nil. unfold set_quiesced, set_pending. cbn [sv_ctx sv_pending].
    destruct (sv_pending s); rewrite ?closed_nil, ?closed_closes by auto; lia.
  - exists 0%nat, 0%nat. split; [|now left]. cbn [received]. rewrite times_nil, closed_nil. lia.
  - exists 0%nat, 0%nat. split; [|now left]. cbn [received]. rewrite times_nil, closed_nil. unfold set_conn. cbn [sv_ctx sv_pending set_ctx].
    change (cheld (set_max_xfer (sv_ctx s) max) fd) with (cheld (sv_ctx s) fd). lia.
  - exists 0%nat, 0%nat. split; [|now left]. cbn [received]. rewrite times_nil, closed_nil. unfold set_ctx. cbn [sv_ctx sv_pending].
    match goal with D : cx_dma _ = Some d, M : sgl_mark_dirty d l = Ok d' |- _ => rewrite (cheld_eq _ _ _ D), cheld_dma;
      apply sgl_mark_dirty_inv in M; [|destruct I as [Id _]; now apply Id]; destruct M as (_ & M & _); rewrite (shape_fds _ _ M) end. lia.
  - exists 0%nat, 0%nat. split; [|now left]. cbn [received]. rewrite times_nil, closed_nil. lia.
  - exists 0%nat, 0%nat. split; [|now left]. cbn [received]. rewrite times_nil, closed_nil. unfold dev_hint. destruct (cx_dma (sv_ctx s)) as [d|] eqn:D; [|lia].
    unfold set_ctx. cbn [sv_ctx sv_pending]. rewrite (cheld_eq _ _ _ D), cheld_dma. lia.
  - exists 0%nat, 0%nat. split; [|now left]. cbn [received]. rewrite times_nil. rewrite (closed_not ev); [lia|].
    match goal with A : forall e, In e ev -> _ |- _ => intros e J; destruct (A e J) as (f & ->); exact Logic.I end.
  - exists 0%nat, 0%nat. split; [|now left]. cbn [received]. rewrite times_nil, closed_nil. unfold set_ctx. cbn [sv_ctx sv_pending].
    change (cheld (set_pci (sv_ctx s) (set_cfg (cx_pci (sv_ctx s)) cfg)) fd) with (cheld (sv_ctx s) fd). lia.
Qed.

(* Every step of every history, with no condition on the requests: each descriptor is accounted for, except that the
   descriptor of a map request that repeats a mapping is lost, and that of one for which mmap fails is closed once too
   often. *)
Theorem C27_exact : forall s st o s' ev fd, reachable s -> sv_step s st = (o, s', ev) -> (forall c, o <> Crash c) -> (0 <= fd)%Z ->
  (held s fd + times fd (received s st) = held s' fd + closed ev fd)%nat \/
  exists m os f, handles s st m os /\
    ((repeats (regions_of s) os m f /\ held s fd + times fd (received s st) = held s' fd + closed ev fd + times fd [f])%nat \/
     (unmappable os m f /\ held s fd + times fd (received s st) + times fd [f] = held s' fd + closed ev fd)%nat).
Proof.
  intros s st o s' ev fd R H NC P. destruct (step_x _ _ _ _ _ fd P (reachable_sinv _ R) H NC) as (lost & twice & E & [[-> ->]|(m & os & Ha & f & [(-> & -> & U)|(-> & -> & U)])]).
  - left. lia.
  - right. exists m, os, f. split; [exact Ha|]. left. split; [exact U|lia].
  - right. exists m, os, f. split; [exact Ha|]. right. split; [exact U|lia].
Qed.
Print Assumptions C27_exact.

(* Both exceptions occur (C27_repeated_map_leaks_refuted, C27_mmap_failure_closes_twice_refuted); this is their shape. *)
Example C27_exact_case :
  (exists m os, handles (ex_busy true) (SRun ex_remap) m os /\ repeats (regions_of (ex_busy true)) os m 7%Z) /\
  (exists m os, handles (ex_busy true) (SRun ex_map2) m os /\ unmappable os m 7%Z).
Proof.
  split.
  - exists (mk_msg (ex_map_hdr 4) (firstn 32 ex_map_body) [7%Z]), (or_os ex_same_or). split; [split; [reflexivity|]; do 3 eexists; split; reflexivity|].
    split; [reflexivity|]. destruct (regions_of (ex_busy true)) as [|r rs] eqn:E; [vm_compute in E; discriminate E|].
    exists [], (rg_base r), (rg_len r), (rg_off r). assert (E0 : List.hd_error (regions_of (ex_busy true)) = Some r) by (rewrite E; reflexivity). vm_compute in E0. injection E0 as <-.
    eexists. eexists. split; [reflexivity|]. split; [vm_compute; reflexivity|]. split; [vm_compute; reflexivity|]. split; [vm_compute; reflexivity|]. split; [vm_compute; reflexivity|].
    split; [left; reflexivity|]. vm_compute. auto 8.
  - do 2 eexists. split; [split; [reflexivity|]; do 3 eexists; split; reflexivity|]. split; [reflexivity|]. split; eexists; vm_compute; reflexivity.
Qed.
