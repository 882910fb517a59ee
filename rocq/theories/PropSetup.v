(* C52: the setup calls.  C56: destroying a device. *)
From Coq Require Import NArith ZArith List Bool Lia ZifyBool ZifyNat ZifyN.
From Verif Require Import Base Types Bytes BytesProofs BufProofs Spec Dma DmaOps SpecDma DmaProofs Migr Irq SpecIrq IrqProofs Pci PciWrite CapsProofs
  Handlers HandlersProofs HandlersDma Server SpecServer ServerProofs PropServer PropFds Setup SpecSetup.
Import ListNotations.
Open Scope N_scope.
Ltac Zify.zify_post_hook ::= idtac.

(* ---------- regions *)

Lemma below n (P : N -> bool) : forallb P (map N.of_nat (seq 0 n)) = true -> forall f, f < N.of_nat n -> P f = true.
Proof.
  intros H f Hf. rewrite forallb_forall in H. apply H. apply in_map_iff. exists (N.to_nat f). split; [lia|]. apply in_seq. lia.
Qed.

Lemma ldiff_small f : (N.ldiff f 63 =? 0) = (f <? 64).
Proof.
  change 63 with (N.ones 6). rewrite N.ldiff_ones_r, N.shiftl_mul_pow2, N.shiftr_div_pow2. change (2 ^ 6) with 64.
  destruct (N.ltb_spec f 64) as [L|L]; [rewrite N.div_small by lia; reflexivity|].
  assert (1 <= f / 64) by (apply N.div_le_lower_bound; lia). apply N.eqb_neq. lia.
Qed.

Lemma flag_bits f : f < 64 ->
  (N.land f 3 =? 0) = negb (N.testbit f 0 || N.testbit f 1) /\ (N.land f 3 =? 3) = (N.testbit f 0 && N.testbit f 1) /\
  has f REGION_FLAG_ALWAYS_CB = N.testbit f 3 /\ has f REGION_FLAG_MEM = N.testbit f 2.
Proof.
  intros H.
  pose proof (below 64 (fun f => Bool.eqb (N.land f 3 =? 0) (negb (N.testbit f 0 || N.testbit f 1)) && Bool.eqb (N.land f 3 =? 3) (N.testbit f 0 && N.testbit f 1)
    && Bool.eqb (has f REGION_FLAG_ALWAYS_CB) (N.testbit f 3) && Bool.eqb (has f REGION_FLAG_MEM) (N.testbit f 2)) eq_refl f H) as K.
  cbv beta in K. rewrite !andb_true_iff in K. destruct K as (((A & B) & C) & D). apply eqb_prop in A, B, C, D. auto.
Qed.

Lemma areas_fit_spec size l : (forall base len, In (base, len) l -> base + len < 2 ^ 64) ->
  exists b, areas_fit size l (length l) = Some b /\ (b = true <-> forall base len, In (base, len) l -> base + len <= size).
Proof.
  induction l as [|[x y] l IH]; intros W; cbn [areas_fit length]; [exists true; split; [reflexivity|]; split; [intros _ ? ? []|auto]|].
  unfold w64. rewrite N.mod_small by (change two64 with (2 ^ 64); apply W; now left).
  destruct (N.ltb_spec size (x + y)) as [L|L].
  - exists false. split; [reflexivity|]. split; [discriminate|]. intros H. specialize (H x y (or_introl eq_refl)). lia.
  - destruct IH as (b & E & B); [intros; apply W; now right|]. exists b. split; [exact E|]. rewrite B. split.
    + intros H base len [Q|Q]; [injection Q as <- <-; exact L|auto].
    + intros H base len Q. apply H. now right.
Qed.

(* A region is registered exactly when it may be; then it has the attributes given (its size modulo 2^32), keeps its
   I/O event descriptors, and nothing else changes.  With neither areas nor a descriptor the areas it had before
   stay; see C52_stale_areas_refuted. *)
Theorem C52_region : forall malloc regs a, length regs = 9%nat -> args_ok a ->
  (region_ok a -> exists regs' old r,
     setup_region true regs a = (Ok tt, regs') /\ only_at (Z.to_nat (ra_idx a)) regs regs' /\
     nth_error regs (Z.to_nat (ra_idx a)) = Some old /\ nth_error regs' (Z.to_nat (ra_idx a)) = Some r /\
     ri_flags r = ra_flags a /\ ri_size r = ra_size a mod 2 ^ 32 /\ ri_cb r = ra_cb a /\ ri_fd r = ra_fd a /\ ri_off r = ra_off a /\
     ri_subs r = ri_subs old /\ ri_areas r = (match mappable a with [] => ri_areas old | l => l end)) /\
  (~ region_ok a -> setup_region malloc regs a = (Err EINVAL, regs)).
Proof.
  intros malloc regs a L W.
  assert (G : forall m, setup_region m regs a = (Err EINVAL, regs) /\ ~ region_ok a \/
    region_ok a /\ exists old, nth_error regs (Z.to_nat (ra_idx a)) = Some old /\
      setup_region m regs a = (if match mappable a with [] => false | _ => negb m end
        then (Err ENOMEM, set_nth (Z.to_nat (ra_idx a)) (mk_reg 0 0 false [] 0 0 []) regs)
        else (Ok tt, set_nth (Z.to_nat (ra_idx a)) (mk_reg (ra_flags a) (w32 (ra_size a)) (ra_cb a)
                (match mappable a with [] => ri_areas old | l => l end) (ra_fd a) (ra_off a) (ri_subs old)) regs))).
  { intros m. unfold setup_region, region_ok. change REGION_FLAG_MASK with 63. rewrite ldiff_small.
    destruct (N.ltb_spec (ra_flags a) 64) as [F|F]; cbn [negb orb]; [|left; split; [reflexivity|lia]].
    destruct (flag_bits _ F) as (-> & -> & -> & ->).
    destruct (N.testbit (ra_flags a) 0 || N.testbit (ra_flags a) 1) eqn:B01; cbn [negb];
      [|left; split; [reflexivity|]; intros (_ & [K|K] & _); rewrite K in B01; [discriminate B01|rewrite orb_true_r in B01; discriminate B01]].
    apply orb_true_iff in B01.
    destruct (N.testbit (ra_flags a) 3 && negb (ra_cb a)) eqn:B3; [left; split; [reflexivity|]; intros (_ & _ & K & _); destruct (N.testbit (ra_flags a) 3), (ra_cb a); try discriminate B3; specialize (K eq_refl); discriminate K|].
    assert (K3 : N.testbit (ra_flags a) 3 = true -> ra_cb a = true) by (intros E; rewrite E in B3; now destruct (ra_cb a)).
    match goal with |- context [if ?X then _ else _] => destruct X eqn:BA end.
    { left. split; [reflexivity|]. intros (_ & _ & _ & _ & _ & K). clear - BA K. destruct (N.eqb_spec (ra_nr a) 0), (Z.eqb_spec (ra_fd a) (-1)), (ra_areas a) as [l|]; try discriminate BA; intuition lia. }
    destruct ((ra_idx a <? 0) || (9 <=? ra_idx a))%Z eqn:BI; [left; split; [reflexivity|]; intros (_ & _ & _ & K & _); lia|].
    assert (KI : (0 <= ra_idx a < 9)%Z) by lia.
    match goal with |- context [if ?X then _ else _] => destruct X eqn:B7 end.
    { left. split; [reflexivity|]. intros (_ & _ & _ & _ & K & _). assert (E7 : ra_idx a = 7%Z) by lia. specialize (K E7). clear - K B7.
      destruct (N.testbit (ra_flags a) 0), (N.testbit (ra_flags a) 1), (N.testbit (ra_flags a) 2); cbn in B7; intuition lia. }
    assert (K7 : ra_idx a = 7%Z -> N.testbit (ra_flags a) 0 = true /\ N.testbit (ra_flags a) 1 = true /\ ~ N.testbit (ra_flags a) 2 = true).
    { intros E7. rewrite E7 in B7. clear - B7. destruct (N.testbit (ra_flags a) 0), (N.testbit (ra_flags a) 1), (N.testbit (ra_flags a) 2); cbn in B7; intuition congruence. }
    destruct (nth_error regs (Z.to_nat (ra_idx a))) as [old|] eqn:O; [|apply nth_error_None in O; lia].
    unfold args_ok in W. unfold mappable. destruct (ra_areas a) as [l|].
    - destruct W as [Wn Wl]. destruct (areas_fit_spec (ra_size a) l Wl) as (b & E & B).
      replace (N.to_nat (ra_nr a)) with (length l) by lia. rewrite E. destruct b.
      + right. split; [|exists old; split; [reflexivity|]; cbn [andb negb]; rewrite firstn_all; destruct l; reflexivity].
        do 5 (split; [assumption|]). split; [|split; [|now apply B]].
        * intros E0. rewrite E0 in BA. discriminate BA.
        * intros E0. rewrite E0 in BA. destruct (ra_nr a =? 0); discriminate BA.
      + left. split; [reflexivity|]. intros (_ & _ & _ & _ & _ & _ & _ & K). apply B in K. discriminate K.
    - assert (N0 : ra_nr a = 0) by (destruct (N.eqb_spec (ra_nr a) 0); [assumption|discriminate BA]). rewrite N0. cbn [N.to_nat areas_fit firstn andb].
      right. split; [do 5 (split; [assumption|]); reflexivity|]. exists old. split; [reflexivity|].
      destruct (Z.eq_dec (ra_fd a) (-1)) as [->|Hn]; [reflexivity|]. replace (ra_fd a =? -1)%Z with false by lia. reflexivity. }
  split.
  - intros R. destruct (G true) as [[_ K]|(_ & old & O & E)]; [now destruct (K R)|].
    assert (E' : setup_region true regs a = (Ok tt, set_nth (Z.to_nat (ra_idx a)) (mk_reg (ra_flags a) (w32 (ra_size a)) (ra_cb a)
                (match mappable a with [] => ri_areas old | l => l end) (ra_fd a) (ra_off a) (ri_subs old)) regs)) by (rewrite E; now destruct (mappable a)).
    eexists _, old, _. split; [exact E'|]. split; [split; [apply DmaProofs.set_nth_length|intros j J; apply set_nth_neq; auto]|].
    split; [exact O|]. split; [apply set_nth_eq; apply nth_error_Some; congruence|]. cbn [ri_flags ri_size ri_cb ri_fd ri_off ri_subs ri_areas]. auto 10.
  - intros R. destruct (G malloc) as [[K _]|(K & _)]; [exact K|now destruct (R K)].
Qed.
Print Assumptions C52_region.

Definition ex_regs : list reg_info := repeat new_region 9.
Definition ex_bar : region_args := mk_rargs 2 65536 true 3 (Some [(0, 4096); (8192, 4096)]) 2 9 0.
Example C52_region_case : args_ok ex_bar /\ region_ok ex_bar /\ ~ region_ok (mk_rargs 2 65536 true 3 (Some [(65000, 4096)]) 1 9 0).
Proof.
  split; [|split].
  - split; [reflexivity|]. intros base len [E|[E|[]]]; injection E as <- <-; reflexivity.
  - unfold region_ok, ex_bar. cbn [ra_flags ra_cb ra_idx ra_areas ra_nr ra_fd ra_size]. split; [lia|]. split; [left; reflexivity|]. split; [discriminate|].
    split; [lia|]. split; [lia|]. split; [lia|]. split; [lia|]. intros base len [E|[E|[]]]; injection E as <- <-; lia.
  - intros (_ & _ & _ & _ & _ & _ & _ & K). specialize (K 65000 4096 (or_introl eq_refl)). cbn in K. lia.
Qed.

(* False: an area outside the region can be registered, because the end of an area is computed modulo 2^64. *)
Theorem C52_area_outside_refuted : exists a base len, ra_areas a = Some [(base, len)] /\ ra_nr a = 1 /\ base < 2 ^ 64 /\ len < 2 ^ 64 /\
  ra_size a < base + len /\ fst (setup_region true ex_regs a) = Ok tt.
Proof. exists (mk_rargs 0 4096 true 3 (Some [(2 ^ 64 - 4096, 8192)]) 1 9 0), (2 ^ 64 - 4096), 8192. repeat split; vm_compute; reflexivity. Qed.
Print Assumptions C52_area_outside_refuted.

(* False: the region always has the size given.  The argument has 64 bits and what is stored 32, so a region of
   4 GiB + 4 KiB is registered as one of 4 KiB, with an area of all of it. *)
Theorem C52_size_truncated_refuted : exists a regs' r, region_ok a /\ args_ok a /\ ra_size a = 2 ^ 32 + 4096 /\
  setup_region true ex_regs a = (Ok tt, regs') /\ nth_error regs' 0 = Some r /\ ri_size r = 4096 /\ ri_areas r = [(0, 2 ^ 32 + 4096)].
Proof.
  exists (mk_rargs 0 (2 ^ 32 + 4096) true 3 None 0 9 0). eexists _, _. split; [|split; [exact I|split; [reflexivity|split; [vm_compute; reflexivity|repeat split; reflexivity]]]].
  unfold region_ok. cbn [ra_flags ra_cb ra_idx ra_areas ra_nr ra_fd ra_size]. split; [lia|]. split; [left; reflexivity|]. split; [discriminate|]. split; [lia|]. split; [lia|]. reflexivity.
Qed.
Print Assumptions C52_size_truncated_refuted.

(* False: afterwards the region has exactly the attributes given.  A mappable region that is set up again without
   descriptor keeps its areas; a client asking for the region is told of them, and the library tries to pass it the
   descriptor -1. *)
Definition ex_again : region_args := mk_rargs 2 65536 true 3 None 0 (-1) 0.
Definition ex_stale : list reg_info := snd (setup_region true (snd (setup_region true ex_regs ex_bar)) ex_again).
Theorem C52_stale_areas_refuted : exists r body, setup_region true (snd (setup_region true ex_regs ex_bar)) ex_again = (Ok tt, ex_stale) /\
  mappable ex_again = [] /\ nth_error ex_stale 2 = Some r /\ ri_fd r = (-1)%Z /\ ri_areas r = [(0, 4096); (8192, 4096)] /\
  get_region_info (set_regs new_ctx ex_stale) (le_bytes 4 1024 ++ le_bytes 4 0 ++ le_bytes 4 2 ++ zeros 20) = HReply 0 body [(-1)%Z].
Proof. eexists _, _. repeat split; vm_compute; reflexivity. Qed.
Print Assumptions C52_stale_areas_refuted.

(* ---------- refused calls *)

Lemma on_ctx_same d : on_ctx d (dv_ctx d) = d.
Proof. destruct d as [[]]. reflexivity. Qed.
Lemma set_regs_same c : set_regs c (cx_regs c) = c.
Proof. destruct c. reflexivity. Qed.
Lemma set_irq_cfg_same c : set_irq_cfg c (cx_irq_cfg c) = c.
Proof. destruct c. reflexivity. Qed.
Lemma set_pci_same c : set_pci c (cx_pci c) = c.
Proof. destruct c. reflexivity. Qed.

Lemma setup_region_refused m regs a e regs' : setup_region m regs a = (Err e, regs') -> e = ENOMEM \/ regs' = regs.
Proof.
  unfold setup_region. intros H. repeat match type of H with (if ?X then _ else _) = _ => destruct X; [injection H as <- <-; auto|] end.
  cbv zeta in H. repeat match type of H with (if ?X then _ else _) = _ => destruct X; [injection H as <- <-; auto|] end.
  destruct (areas_fit _ _ _) as [[]|]; [|injection H as <- <-; auto|discriminate H].
  destruct (nth_error _ _); [|discriminate H]. match type of H with (if ?X then _ else _) = _ => destruct X; [injection H as <- <-; auto|discriminate H] end.
Qed.

Lemma add_capability_refused e ex p pos fl data er p' : add_capability e ex p pos fl data = (Err er, p') -> p' = p.
Proof.
  unfold add_capability, need. intros H. repeat match type of H with
    | (if ?X then _ else _) = _ => destruct X
    | match ?X with _ => _ end = _ => destruct X
    end; try discriminate H; injection H as _ <-; reflexivity.
Qed.

(* A call that is refused changes nothing, apart from two cases. *)
Theorem C52_refused_unchanged : forall d k e d', dev_call d k = (Err e, d') -> ~ refusal_exception d k e -> d' = d.
Proof.
  intros d k e d' H X. destruct k as [m a|b|b|r u|t n|t b|v t r w|t h|v i sv si|b s p|pos fl data|sh i io| |poff pdata]; cbn [dev_call] in H; cbn [refusal_exception] in X; try discriminate H.
  - destruct (setup_region m (cx_regs (dv_ctx d)) a) as [o regs'] eqn:E. cbn [fst snd] in H. injection H as -> <-.
    destruct (setup_region_refused _ _ _ _ _ E) as [->| ->]; [now destruct X|]. now rewrite set_regs_same, on_ctx_same.
  - unfold setup_nr_irqs in H. destruct (NUM_IRQS <=? t); [|discriminate H]. cbn [fst snd] in H. injection H as _ <-. now rewrite set_irq_cfg_same, on_ctx_same.
  - unfold setup_irq_cb in H. destruct (NUM_IRQS <=? t); [|discriminate H]. cbn [fst snd] in H. injection H as _ <-. now rewrite set_irq_cfg_same, on_ctx_same.
  - unfold setup_migration in H. destruct (Z.eqb_spec v 2) as [->|V]; cbn [negb] in H; [|cbn [fst snd] in H; injection H as _ <-; apply on_ctx_same].
    destruct (negb (t && r && w)); [|discriminate H]. cbn [fst snd] in H. injection H as _ <-.
    destruct (cx_mig (dv_ctx d)) as [m|] eqn:M; [exfalso; apply X; split; [reflexivity|discriminate]|].
    transitivity (on_ctx d (dv_ctx d)); [f_equal|apply on_ctx_same]. destruct (dv_ctx d). cbn in M. rewrite M. reflexivity.
  - unfold pci_init in H. destruct (4 <=? t); [injection H as _ <-; reflexivity|]. destruct (negb (h =? 0)); [injection H as _ <-; reflexivity|].
    destruct (pc_cfg (cx_pci (dv_ctx d))); [|injection H as _ <-; reflexivity]. destruct (nth_error (cx_regs (dv_ctx d)) 7); discriminate H.
  - unfold set_hdr in H. destruct (stores _ _); discriminate H.
  - unfold set_hdr in H. destruct (stores _ _); discriminate H.
  - destruct (nth_error (cx_regs (dv_ctx d)) 7) as [r|]; [|discriminate H]. destruct (negb _); [discriminate H|].
    destruct (add_capability (env_of (dv_ctx d)) (dv_express d) (cx_pci (dv_ctx d)) pos fl data) as [o p'] eqn:E. unfold ans in H. cbn [fst snd] in H.
    destruct o as [u|e'|cr]; try discriminate H. injection H as _ <-. apply add_capability_refused in E. subst p'. now rewrite set_pci_same, on_ctx_same.
  - unfold create_ioeventfd in H. destruct (negb sh && negb (ie_shadow_fd io =? -1)%Z); [cbn [fst snd] in H; injection H as _ <-; now rewrite set_regs_same, on_ctx_same|].
    destruct (9 <=? i); [cbn [fst snd] in H; injection H as _ <-; now rewrite set_regs_same, on_ctx_same|].
    destruct (nth_error (cx_regs (dv_ctx d)) (N.to_nat i)); [|discriminate H]. destruct (_ <? _); [|discriminate H].
    cbn [fst snd] in H. injection H as _ <-. now rewrite set_regs_same, on_ctx_same.
  - unfold realize_ctx in H. destruct (sv_realized (dv_sv d)); [discriminate H|]. destruct (nth_error (cx_regs (dv_ctx d)) 7); [|discriminate H].
    cbv zeta in H. destruct (realize_bars _ _ _); [|discriminate H]. destruct (cx_irqs (dv_ctx d)); cbv beta iota in H;
      repeat (match type of H with match ?X with _ => _ end = _ => destruct X end; try discriminate H).
  - unfold dev_poke in H. destruct (put_slice _ _ _); discriminate H.
Qed.
Print Assumptions C52_refused_unchanged.

Definition ex_dev : device := mk_device (mk_server new_ctx PNone false false false) false.
Example C52_refused_case : dev_call ex_dev (CRegion true (mk_rargs 9 4096 true 3 None 0 (-1) 0)) = (Err EINVAL, ex_dev) /\
  dev_call ex_dev (CPciInit 4 0) = (Err EINVAL, ex_dev) /\ dev_call ex_dev (CNrIrqs 5 1) = (Err EINVAL, ex_dev).
Proof. repeat split; vm_compute; reflexivity. Qed.

(* False in the two cases: when memory runs out the region is wiped, and even has descriptor 0; giving incomplete
   migration callbacks takes away the migration support there was. *)
Theorem C52_refused_region_refuted : exists d k d' r, dev_call d k = (Err ENOMEM, d') /\ nth_error (cx_regs (dv_ctx d)) 2 = Some r /\ ri_size r = 65536 /\
  nth_error (cx_regs (dv_ctx d')) 2 = Some (mk_reg 0 0 false [] 0 0 []).
Proof. exists (snd (dev_call ex_dev (CRegion true ex_bar))), (CRegion false ex_bar). eexists _, _. repeat split; vm_compute; reflexivity. Qed.
Print Assumptions C52_refused_region_refuted.
Theorem C52_refused_migration_refuted : exists d k d', dev_call d k = (Err EINVAL, d') /\ cx_mig (dv_ctx d) = Some ST_RUNNING /\ cx_mig (dv_ctx d') = None.
Proof. exists (snd (dev_call ex_dev (CMigration 2 true true true))), (CMigration 2 true false true). eexists. repeat split; vm_compute; reflexivity. Qed.
Print Assumptions C52_refused_migration_refuted.

(* ---------- creating *)

(* A device is created exactly for the socket transport (0), the PCI type (0) and no flags but 1; other flags are
   EINVAL, other transports and types ENOTSUP, and a transport that cannot be set up gives its own error.  A new
   device has nine empty regions, no config space, no DMA, no migration, an error and a request interrupt, no
   callbacks, and is neither realized nor attached. *)
Theorem C52_create : forall trans flags type init,
  (trans = 0 /\ flags < 2 /\ type = 0 /\ init = None -> exists d, create_ctx trans flags type init = Ok d /\ sv_realized (dv_sv d) = false /\
     length (cx_regs (dv_ctx d)) = 9%nat /\
     (forall r, In r (cx_regs (dv_ctx d)) -> ri_size r = 0 /\ ri_fd r = (-1)%Z /\ ri_areas r = [] /\ ri_cb r = false /\ ri_flags r = 0 /\ ri_subs r = []) /\
     ic_count (cx_irq_cfg (dv_ctx d)) = [0; 0; 0; 1; 1] /\ (forall b, In b (ic_state_cb (cx_irq_cfg (dv_ctx d))) -> b = false) /\
     cx_quiesce (dv_ctx d) = false /\ cx_reset (dv_ctx d) = false /\ cx_register (dv_ctx d) = false /\ cx_unregister (dv_ctx d) = false /\
     cx_dma (dv_ctx d) = None /\ cx_mig (dv_ctx d) = None /\ cx_irqs (dv_ctx d) = None /\ pc_cfg (cx_pci (dv_ctx d)) = [] /\
     pc_caps (cx_pci (dv_ctx d)) = [] /\ pc_ext_caps (cx_pci (dv_ctx d)) = [] /\
     sv_conn (dv_sv d) = false /\ sv_pending (dv_sv d) = PNone /\ sv_quiesced (dv_sv d) = false) /\
  (2 <= flags -> create_ctx trans flags type init = Err EINVAL) /\
  (flags < 2 -> trans <> 0 \/ type <> 0 -> create_ctx trans flags type init = Err ENOTSUP) /\
  (forall e, trans = 0 -> flags < 2 -> type = 0 -> init = Some e -> create_ctx trans flags type init = Err e).
Proof.
  intros trans flags type init. unfold create_ctx.
  assert (F : (N.ldiff flags 1 =? 0) = (flags <? 2)).
  { change 1 with (N.ones 1). rewrite N.ldiff_ones_r, N.shiftl_mul_pow2, N.shiftr_div_pow2. change (2 ^ 1) with 2.
    destruct (N.ltb_spec flags 2) as [L|L]; [rewrite N.div_small by lia; reflexivity|].
    assert (1 <= flags / 2) by (apply N.div_le_lower_bound; lia). apply N.eqb_neq. lia. }
  rewrite F. split; [|split; [|split]].
  - intros (-> & H & -> & ->). replace (flags <? 2) with true by lia. cbn [negb N.eqb TRANS_SOCK DEV_TYPE_PCI]. eexists. split; [reflexivity|]. split; [reflexivity|]. split; [reflexivity|].
    split; [intros r R; apply repeat_spec in R; subst r; auto 7|]. split; [reflexivity|]. split; [intros b B; now apply repeat_spec in B|].
    repeat (split; [reflexivity|]). reflexivity.
  - intros H. replace (flags <? 2) with false by lia. reflexivity.
  - intros H T. replace (flags <? 2) with true by lia. cbn [negb]. destruct (N.eqb_spec trans TRANS_SOCK) as [->|]; cbn [negb]; [|reflexivity].
    destruct (N.eqb_spec type DEV_TYPE_PCI) as [->|]; cbn [negb]; [|reflexivity]. exfalso. unfold TRANS_SOCK, DEV_TYPE_PCI in T. destruct T as [T|T]; now apply T.
  - intros e -> H -> ->. replace (flags <? 2) with true by lia. reflexivity.
Qed.
Print Assumptions C52_create.
Example C52_create_case : create_ctx 0 1 0 None = Ok ex_dev /\ create_ctx 0 2 0 None = Err EINVAL /\ create_ctx 1 0 0 None = Err ENOTSUP /\
  create_ctx 0 0 7 None = Err ENOTSUP /\ create_ctx 0 0 0 (Some 98) = Err 98.
Proof. repeat split; vm_compute; reflexivity. Qed.

(* ---------- realizing *)

Record setup_inv (d : device) : Prop := {
  si_pending : sv_pending (dv_sv d) = PNone;
  si_quiesced : sv_quiesced (dv_sv d) = false;
  si_conn : sv_conn (dv_sv d) = false;
  si_real : sv_realized (dv_sv d) = false;
  si_regs : length (cx_regs (dv_ctx d)) = 9%nat;
  si_dma : cx_dma (dv_ctx d) = None \/ cx_dma (dv_ctx d) = Some dma_create;
  si_irqs : cx_irqs (dv_ctx d) = None;
  si_len : length (ic_count (cx_irq_cfg (dv_ctx d))) = 5%nat;
  si_count : Forall (fun n => n < two32 - 1) (ic_count (cx_irq_cfg (dv_ctx d)));
  si_err : nth 3 (ic_count (cx_irq_cfg (dv_ctx d))) 0 = 1;
  si_req : nth 4 (ic_count (cx_irq_cfg (dv_ctx d))) 0 = 1;
  si_mig : cx_mig (dv_ctx d) = None \/ cx_mig (dv_ctx d) = Some ST_RUNNING
}.

Lemma setup_inv_ctx d c ex : setup_inv d -> length (cx_regs c) = 9%nat -> (cx_dma c = cx_dma (dv_ctx d) \/ cx_dma c = Some dma_create) ->
  cx_irqs c = cx_irqs (dv_ctx d) -> ic_count (cx_irq_cfg c) = ic_count (cx_irq_cfg (dv_ctx d)) ->
  (cx_mig c = cx_mig (dv_ctx d) \/ cx_mig c = None \/ cx_mig c = Some ST_RUNNING) -> setup_inv (mk_device (set_ctx (dv_sv d) c) ex).
Proof.
  intros [] L D T C M. unfold dv_ctx in *. constructor; unfold dv_ctx; cbn [dv_sv set_ctx sv_ctx sv_pending sv_quiesced sv_conn sv_realized];
    rewrite ?C, ?T; auto.
  - destruct D as [->|D]; auto.
  - destruct M as [->|M]; auto.
Qed.

Lemma setup_region_length m regs a : length (snd (setup_region m regs a)) = length regs.
Proof.
  unfold setup_region. cbv zeta. repeat match goal with
    | |- context [if ?X then _ else _] => destruct X
    | |- context [match ?X with _ => _ end] => destruct X
    end; cbn [snd]; rewrite ?DmaProofs.set_nth_length; reflexivity.
Qed.

Lemma call_inv d k d' : setup_inv d -> careful k -> (forall cr, fst (dev_call d k) <> Crash cr) -> snd (dev_call d k) = d' -> setup_inv d'.
Proof.
  intros I K NC H. pose proof I as [P Q C R L D T LC FC E3 E4 M].
  destruct k as [m a|b|b|r u|t n|t b|v t r w|t h|v i sv si|b s p|pos fl data|sh i io| |poff pdata]; cbn [dev_call] in H, NC; cbn [careful] in K; cbn [fst snd] in H, NC.
  - subst d'. apply setup_inv_ctx; auto. cbn [set_regs cx_regs]. now rewrite setup_region_length.
  - subst d'. apply setup_inv_ctx; auto.
  - subst d'. apply setup_inv_ctx; auto.
  - subst d'. apply setup_inv_ctx; auto.
  - subst d'. unfold setup_nr_irqs. destruct (NUM_IRQS <=? t) eqn:E; cbn [snd]; [rewrite set_irq_cfg_same, on_ctx_same; exact I|].
    destruct K as [K1 K2]. change NUM_IRQS with 5 in E. unfold dv_ctx in *.
    constructor; unfold dv_ctx; cbn [on_ctx dv_sv set_ctx sv_ctx sv_pending sv_quiesced sv_conn sv_realized set_irq_cfg cx_regs cx_dma cx_irqs cx_irq_cfg cx_mig ic_count]; auto.
    + now rewrite DmaProofs.set_nth_length.
    + apply Forall_set_nth; [exact FC|exact K1].
    + rewrite IrqProofs.nth_set_nth. rewrite LC. destruct (Nat.eqb (N.to_nat t) 3 && Nat.ltb (N.to_nat t) 5) eqn:X; [|exact E3]. apply K2. lia.
    + rewrite IrqProofs.nth_set_nth. rewrite LC. destruct (Nat.eqb (N.to_nat t) 4 && Nat.ltb (N.to_nat t) 5) eqn:X; [|exact E4]. apply K2. lia.
  - subst d'. unfold setup_irq_cb. destruct (NUM_IRQS <=? t); cbn [snd]; [rewrite set_irq_cfg_same, on_ctx_same; exact I|]. apply setup_inv_ctx; auto.
  - subst d'. unfold setup_migration. destruct (negb (v =? 2)%Z); cbn [snd]; [rewrite on_ctx_same; exact I|].
    destruct (negb (t && r && w)); cbn [snd]; apply setup_inv_ctx; auto.
  - subst d'. unfold pci_init. destruct (4 <=? t); [exact I|]. destruct (negb (h =? 0)); [exact I|]. destruct (pc_cfg (cx_pci (dv_ctx d))); [|exact I].
    destruct (nth_error (cx_regs (dv_ctx d)) 7); [|exact I]. cbn [snd]. cbv zeta. apply setup_inv_ctx; auto. cbn [set_regs cx_regs]. now rewrite DmaProofs.set_nth_length.
  - subst d'. unfold set_hdr. cbv zeta. destruct (stores _ _); [|exact I]. apply setup_inv_ctx; auto.
  - subst d'. unfold set_hdr. cbv zeta. destruct (stores _ _); [|exact I]. apply setup_inv_ctx; auto.
  - subst d'. destruct (nth_error (cx_regs (dv_ctx d)) 7); [|exact I]. destruct (negb _); [exact I|]. apply setup_inv_ctx; auto.
  - subst d'. apply setup_inv_ctx; auto. cbn [set_regs cx_regs]. unfold create_ioeventfd.
    repeat match goal with
    | |- context [if ?X then _ else _] => destruct X
    | |- context [match ?X with _ => _ end] => destruct X
    end; cbn [snd]; rewrite ?DmaProofs.set_nth_length; auto.
  - now destruct K.
  - subst d'. unfold dev_poke in *. fold (dv_ctx d). cbv zeta. destruct (put_slice _ _ _); cbn [snd]; [apply setup_inv_ctx; auto|].
    destruct d as [sv ex]. exact I.
Qed.

Lemma calls_inv l : forall d d' os, setup_inv d -> Forall careful l -> dev_calls d l = (Some d', os) -> setup_inv d'.
Proof.
  induction l as [|k l IH]; intros d d' os I F H; cbn [dev_calls] in H; [injection H as <- _; exact I|].
  inversion_clear F as [|? ? K Fl]. destruct (dev_call d k) as [o d1] eqn:E.
  assert (NC : (forall cr, o <> Crash cr) -> setup_inv d1) by (intros N; apply (call_inv d k); auto; rewrite E; auto).
  destruct o as [u|e|cr]; [| |discriminate H]; destruct (dev_calls d1 l) as [r os1] eqn:R; injection H as -> <-;
    (apply (IH d1 d' os1); [apply NC; discriminate|exact Fl|exact R]).
Qed.

Lemma in_setup_inv d : in_setup d -> setup_inv d.
Proof.
  intros (d0 & l & os & C & H & F). injection C as <-. eapply calls_inv; [|exact F|exact H].
  constructor; try reflexivity; auto. repeat constructor.
Qed.

Lemma wr1 l off v l' j : wr l off 1 v = Some l' -> nth j l' 0 = if Nat.eqb j off then v mod 256 else nth j l 0.
Proof.
  intros H. rewrite (wr_nth _ _ _ _ _ _ H). destruct (Nat.eqb_spec j off) as [->|N].
  - replace (Nat.leb off off && Nat.ltb off (off + 1)) with true by lia. now rewrite Nat.sub_diag.
  - now replace (Nat.leb off j && Nat.ltb j (off + 1)) with false by lia.
Qed.

Lemma mod256_bit v b : b < 8 -> N.testbit (v mod 256) b = N.testbit v b.
Proof. intros H. change 256 with (2 ^ 8). now rewrite N.mod_pow2_bits_low. Qed.

Lemma realize_bars_spec fl : forall cfg off cfg', realize_bars cfg off fl = Some cfg' ->
  length cfg' = length cfg /\
  (forall i f, nth_error fl i = Some f -> nth (off + 4 * i) cfg' 0 = bar_type f (nth (off + 4 * i) cfg 0) mod 256) /\
  (forall p, (forall i, (i < length fl)%nat -> p <> (off + 4 * i)%nat) -> nth p cfg' 0 = nth p cfg 0).
Proof.
  induction fl as [|f fl IH]; intros cfg off cfg' H; cbn [realize_bars] in H.
  - injection H as <-. split; [reflexivity|]. split; [intros [|i] f E; discriminate E|auto].
  - destruct (rd cfg off 1) as [v|] eqn:R; [|discriminate H]. pose proof (rd_inv _ _ _ _ R) as B. rewrite rd1 in R by lia. injection R as <-.
    destruct (wr cfg off 1 (bar_type f (nth off cfg 0))) as [c1|] eqn:W; [|discriminate H]. pose proof (wr_length _ _ _ _ _ W) as L1.
    destruct (IH _ _ _ H) as (L & A & O). split; [congruence|]. split.
    + intros [|i] g E.
      * cbn in E. injection E as <-. rewrite O by lia. rewrite (wr1 _ _ _ _ _ W). rewrite Nat.mul_0_r, Nat.add_0_r, Nat.eqb_refl. reflexivity.
      * replace (off + 4 * S i)%nat with (off + 4 + 4 * i)%nat by lia. rewrite (A i g E). rewrite (wr1 _ _ _ _ _ W). replace (Nat.eqb (off + 4 + 4 * i) off) with false by lia. reflexivity.
    + intros p Hp. rewrite O.
      * rewrite (wr1 _ _ _ _ _ W). specialize (Hp 0%nat). cbn [length] in Hp. replace (Nat.eqb p off) with false by lia. reflexivity.
      * intros i Hi. specialize (Hp (S i)). cbn [length] in Hp. lia.
Qed.

Lemma realize_bars_some fl : forall cfg off, (off + 4 * length fl <= length cfg)%nat -> exists cfg', realize_bars cfg off fl = Some cfg'.
Proof.
  induction fl as [|f fl IH]; intros cfg off H; cbn [realize_bars length] in *; [eauto|].
  rewrite rd1 by lia. destruct (wr_some cfg off 1 (bar_type f (nth off cfg 0))) as [c1 W]; [lia|]. rewrite W. apply IH. apply wr_length in W. lia.
Qed.

Lemma bar_type_bit f v b : N.testbit (bar_type f v) b =
  match b with
  | 0 => N.testbit v 0 || negb (N.testbit f 2)
  | 1 => if N.testbit f 4 then false else N.testbit v 1
  | 2 => if N.testbit f 4 then true else N.testbit v 2
  | 3 => if N.testbit f 5 then true else N.testbit v 3
  | _ => N.testbit v b
  end.
Proof.
  unfold bar_type. change REGION_FLAG_MEM with (2 ^ 2). change REGION_FLAG_64_BITS with (2 ^ 4). change REGION_FLAG_PREFETCH with (2 ^ 5). rewrite !has_bit.
  assert (O : forall x i, N.testbit (N.lor x 1) i = if i =? 0 then true else N.testbit x i).
  { intros x i. rewrite N.lor_spec. destruct (N.eqb_spec i 0) as [->|]; [apply orb_true_r|]. destruct i; [lia|]. cbn. apply orb_false_r. }
  assert (C : b = 0 \/ b = 1 \/ b = 2 \/ b = 3 \/ 4 <= b) by lia.
  destruct C as [->|[->|[->|[->|C]]]].
  5: { replace (match b with 0 => _ | 1 => _ | 2 => _ | 3 => _ | _ => N.testbit v b end) with (N.testbit v b)
         by (destruct b as [|[[]|[]|]]; try reflexivity; lia).
       destruct (N.testbit f 5), (N.testbit f 4), (N.testbit f 2); rewrite ?bf_set_bit, ?O;
         replace (b <? 1 + 2) with false by lia; replace (b <? 3 + 1) with false by lia; rewrite ?andb_false_r; replace (b =? 0) with false by lia; reflexivity. }
  all: destruct (N.testbit f 5), (N.testbit f 4), (N.testbit f 2); rewrite ?bf_set_bit, ?O; cbn [negb]; rewrite ?orb_true_r, ?orb_false_r; reflexivity.
Qed.

Lemma firstn_nth_error_lt {A} (l : list A) n i : (i < n)%nat -> nth_error (firstn n l) i = nth_error l i.
Proof. revert n i. induction l as [|x l IH]; intros [|n] [|i] H; cbn; try reflexivity; try lia. apply IH. lia. Qed.

(* The stages of vfu_realize_ctx on the configuration space. *)
Lemma realize_inv d d' : setup_inv d -> realize_ctx d = (Ok tt, d') ->
  exists r cfg1 cfg2 cfg3, nth_error (cx_regs (dv_ctx d)) 7 = Some r /\
    realize_bars (config_before (dv_ctx d)) 16 (map ri_flags (firstn 6 (cx_regs (dv_ctx d)))) = Some cfg1 /\
    (if negb (nth 0 (ic_count (cx_irq_cfg (dv_ctx d))) 0 =? 0) then wr cfg1 61 1 1 else Some cfg1) = Some cfg2 /\
    match pc_caps (cx_pci (dv_ctx d)) with
    | [] => cfg3 = cfg2
    | _ => (6 < length cfg2)%nat /\ wr cfg2 6 1 (bf_set (nth 6 cfg2 0) 4 1 1) = Some cfg3
    end /\
    d' = mk_device (mk_server (set_pci (set_irqt (set_regs (dv_ctx d) (set_nth 7 (config_region r) (cx_regs (dv_ctx d)))) (irqs_create (cx_irq_cfg (dv_ctx d))))
                                 (set_cfg (cx_pci (dv_ctx d)) cfg3)) (sv_pending (dv_sv d)) (sv_quiesced (dv_sv d)) (sv_conn (dv_sv d)) true) (dv_express d).
Proof.
  intros I H. unfold realize_ctx in H. rewrite (si_real _ I), (si_irqs _ I) in H. cbv zeta in H.
  destruct (nth_error (cx_regs (dv_ctx d)) 7) as [r|] eqn:R; [|discriminate H].
  assert (RR : (if ri_size r =? 0 then mk_reg 3 PCI_CFG_SPACE_SIZE (ri_cb r) (ri_areas r) (ri_fd r) (ri_off r) (ri_subs r) else r) = config_region r).
  { unfold config_region. destruct (N.eq_dec (ri_size r) 0) as [->|N]; [reflexivity|]. now replace (ri_size r =? 0) with false by lia. }
  rewrite RR in H. clear RR.
  assert (CB : match pc_cfg (cx_pci (dv_ctx d)) with [] => zeros (N.to_nat (ri_size (config_region r))) | l => l end = config_before (dv_ctx d)).
  { unfold config_before, config_region. rewrite R. destruct (pc_cfg (cx_pci (dv_ctx d))); [|reflexivity]. unfold zeros. destruct (N.eq_dec (ri_size r) 0); reflexivity. }
  assert (CB' : match pc_cfg (cx_pci (dv_ctx d)) with [] => zeros (N.to_nat (ri_size (config_region r))) | n :: l => n :: l end = config_before (dv_ctx d)) by exact CB.
  rewrite CB' in H. clear CB CB'.
  destruct (realize_bars (config_before (dv_ctx d)) 16 (map ri_flags (firstn 6 (cx_regs (dv_ctx d))))) as [cfg1|] eqn:B; [|discriminate H].
  change (irq_count (cx_irq_cfg (dv_ctx d)) IRQ_INTX) with (nth 0 (ic_count (cx_irq_cfg (dv_ctx d))) 0) in H.
  destruct (if negb (nth 0 (ic_count (cx_irq_cfg (dv_ctx d))) 0 =? 0) then wr cfg1 61 1 1 else Some cfg1) as [cfg2|] eqn:W; [|discriminate H].
  exists r, cfg1, cfg2. destruct (pc_caps (cx_pci (dv_ctx d))) as [|cap caps].
  - exists cfg2. injection H as <-. auto 10.
  - destruct (rd cfg2 6 1) as [v|] eqn:V; [|discriminate H]. pose proof (rd_inv _ _ _ _ V) as VL. rewrite rd1 in V by lia. injection V as <-.
    destruct (wr cfg2 6 1 (bf_set (nth 6 cfg2 0) 4 1 1)) as [cfg3|] eqn:W3; [|discriminate H]. exists cfg3. injection H as <-.
    do 3 (split; [auto|]). split; [split; [lia|reflexivity]|reflexivity].
Qed.

(* Realizing a device: it is realized and realizing it again changes nothing; the configuration space keeps its size
   and every bit of it is as described; region 7 gets its default if it was not registered; no interrupt vector is
   bound, and there are as many as any of the types needs; nothing else changes. *)
Theorem C52_realize : forall d d', in_setup d -> realize_ctx d = (Ok tt, d') ->
  sv_realized (dv_sv d') = true /\ realize_ctx d' = (Ok tt, d') /\
  length (pc_cfg (cx_pci (dv_ctx d'))) = length (config_before (dv_ctx d)) /\
  (forall p b, p < N.of_nat (length (config_before (dv_ctx d))) -> b < 8 ->
     N.testbit (nth (N.to_nat p) (pc_cfg (cx_pci (dv_ctx d'))) 0) b = config_bit_after (dv_ctx d) p b) /\
  only_at 7 (cx_regs (dv_ctx d)) (cx_regs (dv_ctx d')) /\
  nth_error (cx_regs (dv_ctx d')) 7 = option_map config_region (nth_error (cx_regs (dv_ctx d)) 7) /\
  (forall fd, In fd (irq_fds (dv_sv d')) -> fd = (-1)%Z) /\
  (exists t, cx_irqs (dv_ctx d') = Some t /\ forall n, In n (ic_count (cx_irq_cfg (dv_ctx d))) -> n <= N.of_nat (length (iq_efds t))) /\
  realize_keeps d d'.
Proof.
  intros d d' S H. pose proof (in_setup_inv d S) as I. destruct (realize_inv d d' I H) as (r & cfg1 & cfg2 & cfg3 & R & B & W & C & E).
  pose proof (realize_bars_spec _ _ _ _ B) as (L1 & A1 & O1).
  set (c := dv_ctx d) in *. set (intx := negb (nth 0 (ic_count (cx_irq_cfg c)) 0 =? 0)) in *.
  assert (L2 : length cfg2 = length cfg1) by (destruct intx; [now apply wr_length in W|now injection W as <-]).
  assert (L3 : length cfg3 = length cfg2) by (destruct (pc_caps (cx_pci c)); [now subst|destruct C as [_ C]; now apply wr_length in C]).
  assert (N2 : forall j, nth j cfg2 0 = if intx && Nat.eqb j 61 then 1 else nth j cfg1 0).
  { intros j. destruct intx; [|injection W as <-; reflexivity]. rewrite (wr1 _ _ _ _ _ W). cbn [andb]. now destruct (Nat.eqb j 61). }
  set (caps := match pc_caps (cx_pci c) with [] => false | _ => true end).
  assert (N3 : forall j, nth j cfg3 0 = if caps && Nat.eqb j 6 then bf_set (nth 6 cfg2 0) 4 1 1 mod 256 else nth j cfg2 0).
  { intros j. unfold caps. destruct (pc_caps (cx_pci c)); [now subst cfg3|]. destruct C as [_ C]. rewrite (wr1 _ _ _ _ _ C). cbn [andb]. reflexivity. }
  assert (F6 : length (firstn 6 (cx_regs c)) = 6%nat) by (rewrite firstn_length; unfold c; rewrite (si_regs _ I); reflexivity).
  subst d'. cbn [dv_sv sv_realized].
  split; [reflexivity|]. split; [reflexivity|]. unfold dv_ctx at 1. cbn [dv_sv sv_ctx cx_pci set_pci set_cfg pc_cfg].
  split; [congruence|]. split.
  { intros p b Hp Hb. unfold dv_ctx at 1. cbn [dv_sv sv_ctx cx_pci set_pci set_cfg pc_cfg].
    unfold config_bit_after. fold c. set (old := nth (N.to_nat p) (config_before c) 0). rewrite N3, (N2 (N.to_nat p)).
    destruct ((16 <=? p) && (p <? 40) && (p mod 4 =? 0)) eqn:BAR.
    - apply andb_true_iff in BAR. destruct BAR as [BAR P4]. apply andb_true_iff in BAR. destruct BAR as [P1 P2].
      apply N.leb_le in P1. apply N.ltb_lt in P2. apply N.eqb_eq in P4.
      set (i := (p - 16) / 4). assert (PI : p = 16 + 4 * i). { unfold i. pose proof (N.div_mod (p - 16) 4 ltac:(lia)) as DM. pose proof (N.div_mod p 4 ltac:(lia)) as DP. rewrite P4 in DP.
        assert ((p - 16) mod 4 = 0). { replace (p - 16) with ((p / 4 - 4) * 4) by lia. apply N.mod_mul. lia. } lia. }
      assert (Hi : (N.to_nat i < 6)%nat) by lia.
      destruct (nth_error (cx_regs c) (N.to_nat i)) as [rr|] eqn:RI; [|apply nth_error_None in RI; unfold c in RI; rewrite (si_regs _ I) in RI; lia].
      assert (FI : nth_error (map ri_flags (firstn 6 (cx_regs c))) (N.to_nat i) = Some (ri_flags rr)).
      { rewrite nth_error_map. rewrite firstn_nth_error_lt by lia. now rewrite RI. }
      replace (Nat.eqb (N.to_nat p) 6) with false by lia. replace (Nat.eqb (N.to_nat p) 61) with false by lia. rewrite !andb_false_r.
      specialize (A1 _ _ FI). replace (16 + 4 * N.to_nat i)%nat with (N.to_nat p) in A1 by lia. rewrite A1. fold old.
      rewrite mod256_bit by exact Hb. rewrite bar_type_bit. destruct b as [|[[]|[]|]]; reflexivity.
    - assert (SAME : nth (N.to_nat p) cfg1 0 = old).
      { apply O1. rewrite map_length, F6. intros i Hi. intros E. apply andb_false_iff in BAR.
        assert (PE : p = 16 + N.of_nat i * 4) by lia. destruct BAR as [BAR|BAR]; [clear - BAR PE Hi; lia|].
        apply N.eqb_neq in BAR. apply BAR. rewrite PE. replace (16 + N.of_nat i * 4) with ((4 + N.of_nat i) * 4) by lia. apply N.mod_mul. lia. }
      assert (SIX : nth 6 cfg1 0 = nth 6 (config_before c) 0) by (apply O1; rewrite map_length, F6; lia).
      destruct (N.eqb_spec p 6) as [->|P6].
      + change (N.to_nat 6) with 6%nat in *. change (Nat.eqb 6 61) with false. change (Nat.eqb 6 6) with true. rewrite ?andb_true_r, ?andb_false_r.
        change (6 =? 61) with false. cbn [andb]. rewrite N2. change (Nat.eqb 6 61) with false. rewrite andb_false_r. fold caps. unfold old.
        destruct caps.
        * rewrite mod256_bit by exact Hb. rewrite bf_set_bit, SIX.
          destruct (N.eqb_spec b 4) as [->|B4]; [now rewrite orb_true_r|].
          replace ((4 <=? b) && (b <? 4 + 1)) with false by lia. reflexivity.
        * rewrite orb_false_r, SIX. now destruct (b =? 4).
      + replace (Nat.eqb (N.to_nat p) 6) with false by lia. rewrite andb_false_r. cbn [andb]. fold intx.
        destruct (N.eqb_spec p 61) as [->|P61].
        * change (Nat.eqb (N.to_nat 61) 61) with true. rewrite andb_true_r, andb_true_l. destruct intx; [|now rewrite SAME].
          destruct (N.eqb_spec b 0) as [->|]; [reflexivity|]. apply N.bits_above_log2. cbn. lia.
        * replace (Nat.eqb (N.to_nat p) 61) with false by lia. rewrite andb_false_r. cbn [andb]. now rewrite SAME. }
  unfold dv_ctx. cbn [dv_sv sv_ctx cx_regs set_pci set_irqt set_regs]. fold (dv_ctx d). fold c.
  split; [split; [apply DmaProofs.set_nth_length|intros j Hj; apply set_nth_neq; auto]|].
  split; [rewrite R; cbn [option_map]; apply set_nth_eq; unfold c; rewrite (si_regs _ I); lia|].
  split.
  { unfold irq_fds. cbn [sv_ctx set_pci set_irqt cx_irqs irqs_create iq_req iq_err iq_efds]. intros fd [<-|[<-|F]]; [reflexivity|reflexivity|].
    now apply repeat_spec in F. }
  split.
  { exists (irqs_create (cx_irq_cfg c)). split; [reflexivity|]. intros n Hn. unfold irqs_create. cbn [iq_efds]. rewrite repeat_length, N2Nat.id.
    assert (G : forall l a, In n l \/ n <= a -> n <= fold_left N.max l a).
    { induction l as [|x l IH]; intros a [X|X]; cbn [fold_left]; [destruct X|exact X| |apply IH; right; lia].
      destruct X as [->|X]; apply IH; [right; lia|now left]. }
    apply G. now left. }
  unfold realize_keeps, dv_ctx. cbn [dv_sv sv_ctx]. fold (dv_ctx d). fold c. repeat split; reflexivity.
Qed.
Print Assumptions C52_realize.

(* A device with two BARs, INTx, a capability and DMA: base address register 0 is I/O, 1 is 64-bit memory, and 2 to 5,
   never registered, are I/O too. *)
Definition ex_calls : list call :=
  [CPciInit 0 0; CPciId 4242 17 4242 17; CPciClass 1 8 2; CRegion true (mk_rargs 0 256 true 3 None 0 (-1) 0);
   CRegion true (mk_rargs 1 65536 true 23 (Some [(0, 4096)]) 1 9 0); CNrIrqs 0 1; CNrIrqs 2 16; CDma true true; CQuiesce true; CReset true;
   CCap 0 0 [1; 0; 3; 0; 8; 0; 0; 0]].
Definition ex_ready : device := match dev_calls ex_dev ex_calls with (Some d, _) => d | _ => ex_dev end.
Definition ex_real : device := snd (realize_ctx ex_ready).
Lemma ex_set_up : set_up ex_calls ex_ready.
Proof. exists ex_dev. split; vm_compute; reflexivity. Qed.
Lemma ex_in_setup : in_setup ex_ready.
Proof.
  destruct ex_set_up as (d0 & C & H). exists d0, ex_calls. eexists. split; [exact C|]. split; [exact H|]. unfold ex_calls.
  repeat (apply Forall_cons || apply Forall_nil); cbn [careful]; try exact I; (split; [reflexivity|intros [E|E]; discriminate E]).
Qed.
Example C52_realize_case : in_setup ex_ready /\ realize_ctx ex_ready = (Ok tt, ex_real) /\
  firstn 64 (pc_cfg (cx_pci (dv_ctx ex_real))) =
    [146; 16; 17; 0; 0; 0; 16; 0; 0; 2; 8; 1; 0; 0; 0; 0; 1; 0; 0; 0; 4; 0; 0; 0; 1; 0; 0; 0; 1; 0; 0; 0; 1; 0; 0; 0; 1; 0; 0; 0;
     0; 0; 0; 0; 146; 16; 17; 0; 0; 0; 0; 0; 64; 0; 0; 0; 0; 0; 0; 0; 0; 1; 0; 0].
Proof. split; [apply ex_in_setup|]. split; vm_compute; reflexivity. Qed.

(* Realizing succeeds if the configuration space has the 64 bytes of the standard header. *)
Theorem C52_realize_succeeds : forall d, in_setup d -> (64 <= length (config_before (dv_ctx d)))%nat -> exists d', realize_ctx d = (Ok tt, d').
Proof.
  intros d S L. pose proof (in_setup_inv d S) as I. unfold realize_ctx. rewrite (si_real _ I), (si_irqs _ I).
  destruct (nth_error (cx_regs (dv_ctx d)) 7) as [r|] eqn:R; [|apply nth_error_None in R; rewrite (si_regs _ I) in R; lia]. cbv zeta.
  set (r' := if ri_size r =? 0 then _ else r).
  assert (CB : match pc_cfg (cx_pci (dv_ctx d)) with [] => zeros (N.to_nat (ri_size r')) | n :: l => n :: l end = config_before (dv_ctx d)).
  { unfold config_before. rewrite R. destruct (pc_cfg (cx_pci (dv_ctx d))); [|reflexivity]. unfold zeros, r'. destruct (N.eq_dec (ri_size r) 0) as [E|E].
    - rewrite E. reflexivity.
    - now replace (ri_size r =? 0) with false by lia. }
  rewrite CB.
  destruct (realize_bars_some (map ri_flags (firstn 6 (cx_regs (dv_ctx d)))) (config_before (dv_ctx d)) 16) as [cfg1 B].
  { rewrite map_length, firstn_length. lia. }
  rewrite B. pose proof (realize_bars_spec _ _ _ _ B) as (L1 & _).
  assert (W : exists cfg2, (if negb (irq_count (cx_irq_cfg (dv_ctx d)) IRQ_INTX =? 0) then wr cfg1 61 1 1 else Some cfg1) = Some cfg2 /\ length cfg2 = length cfg1).
  { destruct (negb _); [|eauto]. destruct (wr_some cfg1 61 1 1) as [c2 W]; [lia|]. exists c2. split; [exact W|]. now apply wr_length in W. }
  destruct W as (cfg2 & -> & L2). destruct (pc_caps (cx_pci (dv_ctx d))); [eauto|]. rewrite rd1 by lia.
  destruct (wr_some cfg2 6 1 (bf_set (nth 6 cfg2 0) 4 1 1)) as [c3 ->]; [lia|]. eauto.
Qed.
Print Assumptions C52_realize_succeeds.
Example C52_realize_succeeds_case : length (config_before (dv_ctx ex_ready)) = 256%nat.
Proof. vm_compute. reflexivity. Qed.

(* False without the condition: a configuration space of 4 bytes can be registered, and realizing writes outside. *)
Theorem C52_small_config_refuted : exists l d, set_up l d /\ fst (realize_ctx d) = Crash OutOfBounds.
Proof. exists [CRegion true (mk_rargs 7 4 true 3 None 0 (-1) 0)]. eexists. split; [exists ex_dev; split; vm_compute; reflexivity|]. vm_compute. reflexivity. Qed.
Print Assumptions C52_small_config_refuted.

(* A realized device is a server from which the theorems about histories start. *)
Theorem C52_realized_fresh : forall d d', in_setup d -> realize_ctx d = (Ok tt, d') -> fresh (dv_sv d').
Proof.
  intros d d' S H. pose proof (in_setup_inv d S) as I. destruct (realize_inv d d' I H) as (r & cfg1 & cfg2 & cfg3 & R & B & W & C & ->).
  unfold fresh, realized_ctx. cbn [dv_sv sv_ctx set_pci set_irqt set_regs cx_dma cx_irqs cx_irq_cfg cx_mig sv_pending sv_quiesced sv_conn sv_realized].
  destruct I. repeat split; auto.
Qed.
Print Assumptions C52_realized_fresh.
Example C52_realized_fresh_case : fresh (dv_sv ex_real).
Proof. apply (C52_realized_fresh ex_ready); [apply ex_in_setup|]. apply C52_realize_case. Qed.

(* A device that is not realized serves no request. *)
Theorem C52_not_realized : forall s, sv_realized s = false ->
  (forall blocking ens, run_ctx blocking s ens = (Returned (Err EINVAL), s, [])) /\ (forall en, sv_step s (SRun en) = (Err EINVAL, s, [])).
Proof. intros s R. unfold run_ctx. cbn [sv_step]. rewrite R. auto. Qed.
Print Assumptions C52_not_realized.
Example C52_not_realized_case : sv_realized (dv_sv ex_ready) = false.
Proof. vm_compute. reflexivity. Qed.

(* False: a device that has been set up without error has a configuration space of the size of its region.
   vfu_pci_init allocates 256 bytes; registering region 7 with 4096 afterwards is accepted, and a client that reads across
   offset 256 makes the server read outside. *)
Definition read_body (off region count : N) : list N := le_bytes 8 off ++ le_bytes 4 region ++ le_bytes 4 count.
Theorem C52_config_size_refuted : exists l d, set_up l d /\ sv_realized (dv_sv d) = true /\ length (pc_cfg (cx_pci (dv_ctx d))) = 256%nat /\
  first_request d 9 (read_body 254 7 4) [] ex_or = Crash OutOfBounds.
Proof.
  exists [CPciInit 0 0; CRegion true (mk_rargs 7 4096 false 3 None 0 (-1) 0); CRealize]. eexists.
  split; [exists ex_dev; split; vm_compute; reflexivity|]. split; [|split]; vm_compute; reflexivity.
Qed.
Print Assumptions C52_config_size_refuted.

(* False: a number of vectors that is accepted can be used.  After realizing a larger number is accepted and told to
   clients, but the table is not; a client that binds a descriptor to one of the new vectors makes the server write
   outside. *)
Theorem C52_late_vectors_refuted : exists l d, set_up l d /\ sv_realized (dv_sv d) = true /\
  first_request d 8 (irq_set_body 20 36 2 10 1 []) [9%Z] ex_or = Crash OutOfBounds.
Proof.
  exists [CNrIrqs 2 4; CRealize; CNrIrqs 2 16]. eexists.
  split; [exists ex_dev; split; vm_compute; reflexivity|]. split; vm_compute; reflexivity.
Qed.
Print Assumptions C52_late_vectors_refuted.

(* ---------- destroying *)

(* Destroying a device, at any time, succeeds without asking it to quiesce; it is told of every DMA region and that the
   connection is lost; every mapping is removed; with no request waiting for the device to quiesce, each descriptor is
   closed as often as it is held. *)
Theorem C56_destroy : forall s q lost, reachable s ->
  destroy_ctx s q lost = (Ok tt, lost_events s) /\
  ((forall m, sv_pending s <> PMsg m) -> forall fd, (0 <= fd)%Z -> closed (lost_events s) fd = held s fd).
Proof.
  intros s q lost R. pose proof (reachable_sinv s R) as (C & _).
  set (s0 := set_ctx s (set_quiesce (sv_ctx s) false)).
  assert (C0 : cinv (sv_ctx s0)) by (destruct C as [A B]; constructor; [exact A|exact B]).
  split.
  - unfold destroy_ctx. fold s0. destruct (reset_ctx_spec s0 q lost C0) as [(e & _ & Q & _)|(s' & _ & E & P)]; [discriminate Q|].
    rewrite E. assert (EV : (match sv_pending s0 with PNone => quiesce_call s0 | _ => [] end) ++ lost_events s0 = lost_events s).
    { change (lost_events s0) with (lost_events s). unfold quiesce_call. change (cx_quiesce (sv_ctx s0)) with false. destruct (sv_pending s0); reflexivity. }
    rewrite EV. destruct P as (P & _). unfold regions_of in P. destruct (cx_dma (sv_ctx s')) as [d|]; [|reflexivity]. now rewrite P.
  - intros NP fd F. rewrite lost_fds by exact F. unfold cheld, held. change (cregs (sv_ctx s)) with (regions_of s). 
    assert (X : times fd (cirqs (sv_ctx s)) = times fd (irq_fds s)) by (unfold cirqs, irq_fds, tfds; reflexivity). rewrite X.
    destruct (sv_pending s) as [|m|]; [lia|now destruct (NP m)|lia].
Qed.
Print Assumptions C56_destroy.
Example C56_destroy_case : reachable (ex_busy true) /\ (forall m, sv_pending (ex_busy true) <> PMsg m) /\
  lost_events (ex_busy true) <> [] /\ held (ex_busy true) 5 = 1%nat /\ held (ex_busy true) 9 = 1%nat.
Proof.
  split; [apply ex_busy_reachable|]. split; [intros m; vm_compute; discriminate|]. split; [vm_compute; discriminate|]. split; vm_compute; reflexivity.
Qed.

(* Nor does destroying a device that has not been realized crash. *)
Theorem C56_destroy_setup : forall d q lost, in_setup d -> destroy_ctx (dv_sv d) q lost = (Ok tt, lost_events (dv_sv d)).
Proof.
  intros d q lost S. pose proof (in_setup_inv d S) as I. unfold destroy_ctx, reset_ctx, set_quiesce, lost_events, regions_of, irq_fds.
  cbn [set_ctx sv_ctx cx_quiesce andb]. unfold reset_ctx_quiesced. cbn [set_ctx sv_ctx cx_dma].
  pose proof (si_dma _ I) as D. pose proof (si_irqs _ I) as T. unfold dv_ctx in D, T. rewrite T. unfold device_reset.
  destruct D as [D|D]; rewrite D; cbn; rewrite ?T; destruct (cx_reset (sv_ctx (dv_sv d))), lost; cbn; rewrite ?T, ?D; reflexivity.
Qed.
Print Assumptions C56_destroy_setup.
Example C56_destroy_setup_case : in_setup ex_ready /\ lost_events (dv_sv ex_ready) <> [].
Proof. split; [apply ex_in_setup|vm_compute; discriminate]. Qed.

(* False with a request waiting: its descriptors are not closed. *)
Theorem C56_pending_refuted : exists s q lost fd, reachable s /\ held s fd = 1%nat /\ destroy_ctx s q lost = (Ok tt, lost_events s) /\ closed (lost_events s) fd = 0%nat.
Proof.
  pose (w := mk_senv (RxMsg (ex_map_hdr 1) [5%Z] (inr ex_map_body)) ex_or (Some EBUSY) None None None).
  exists (fst (sv_run (ex_server true) [SAttach 1048576; SRun w])), None, None, 5%Z.
  split; [|repeat split; vm_compute; reflexivity].
  destruct (history_run (ex_server true) [SAttach 1048576; SRun w] (fst (sv_run (ex_server true) [SAttach 1048576; SRun w])) (snd (sv_run (ex_server true) [SAttach 1048576; SRun w]))) as (arr & H).
  - vm_compute. reflexivity.
  - vm_compute. repeat constructor.
  - eexists (ex_server true), _, arr, _. split; [apply ex_fresh|exact H].
Qed.
Print Assumptions C56_pending_refuted.
