(* C60: a client sees the device that was set up, at any time. *)
From Coq Require Import NArith ZArith String List Bool Lia ZifyBool ZifyNat ZifyN.
From Verif Require Import Base Types Bytes BytesProofs Spec Dma DmaOps SpecDma DmaProofs Migr Irq SpecIrq IrqProofs PropIrq Pci SpecPci BufProofs PciProofs PciWrite PciLoop PropPci
  Handlers SpecHandlers HandlersProofs PropHandlers HandlersDma Server SpecServer ServerProofs ServerDma SpecMsg PropDmaMsg CapsAdd PropCaps SpecCaps
  Setup SpecSetup PropServer PropSetup PropCalls SpecIdent IdentProofs.
Import ListNotations.
Open Scope N_scope.
Ltac Zify.zify_post_hook ::= idtac.

(* ---------- the header of the configuration space *)

(* Whatever clients do, and however often they come and go: the registers of the configuration space header that a
   client may not write (of which C45_header_writes tells which these are) are what they were when the device was
   realized. *)
Theorem C60_header : forall l d s x, life l d s -> x < 64 -> ~ header_writable x -> byte_at (cx_pci (sv_ctx s)) x = byte_at (cx_pci (dv_ctx d)) x.
Proof.
  intros l d s x L X NW. destruct (life_facts _ _ _ L) as (d1 & _ & _ & _ & _ & _ & _ & _ & _ & H). exact (ho_same _ _ H x X NW).
Qed.
Print Assumptions C60_header.

Lemma read_header s en id off n r : reachable s -> request s en id 9 (read_req off 7 n) [] -> nth_error (cx_regs (sv_ctx s)) 7 = Some r ->
  N.testbit (ri_flags r) 3 = false -> (64 <= length (pc_cfg (cx_pci (sv_ctx s))))%nat -> 0 < n -> off + n <= 64 -> off + n <= ri_size r ->
  responds s en id 9 0 (read_req off 7 n ++ firstn (N.to_nat n) (skipn (N.to_nat off) (pc_cfg (cx_pci (sv_ctx s))))) s [].
Proof.
  intros RE RQ R7 FL LEN P H64 HS. set (data := firstn (N.to_nat n) (skipn (N.to_nat off) (pc_cfg (cx_pci (sv_ctx s))))).
  enough (G : responds s en id 9 0 (read_req off 7 n ++ data) (set_ctx s (sv_ctx s)) []) by (rewrite same_ctx in G; exact G).
  eapply request_responds; [exact RE|exact RQ| |intros r' []]. unfold data. clear data.
  change (dispatch (sv_ctx s) (en_or en) 9 (read_req off 7 n) []) with
    (let '(r, c', ev) := handle_region_access (sv_ctx s) (en_or en) false (read_req off 7 n) in (r, c', @nil Z, ev)).
  assert (E : handle_region_access (sv_ctx s) (en_or en) false (read_req off 7 n) =
    (HReply 0 (read_req off 7 n ++ firstn (N.to_nat n) (skipn (N.to_nat off) (pc_cfg (cx_pci (sv_ctx s))))) [], sv_ctx s, [])); [|now rewrite E].
  assert (LB : N.of_nat (length (read_req off 7 n)) = 16) by (unfold read_req; rewrite !app_length, !le_bytes_length; reflexivity).
  unfold handle_region_access. rewrite LB. change (16 <? 16) with false. cbv iota.
  assert (B8 : off < 256 ^ N.of_nat 8) by (change (256 ^ N.of_nat 8) with 18446744073709551616; lia).
  assert (B4 : n < 256 ^ N.of_nat 4) by (change (256 ^ N.of_nat 4) with 4294967296; lia).
  assert (D1 : rd (read_req off 7 n) 0 8 = Some off) by (unfold read_req; apply rd_front; exact B8).
  assert (D2 : rd (read_req off 7 n) 8 4 = Some 7).
  { unfold read_req. rewrite rd_skip by (rewrite le_bytes_length; lia). rewrite le_bytes_length. apply rd_front. reflexivity. }
  assert (D3 : rd (read_req off 7 n) 12 4 = Some n).
  { unfold read_req. rewrite rd_skip by (rewrite le_bytes_length; lia). rewrite le_bytes_length. rewrite rd_skip by (rewrite le_bytes_length; lia). rewrite le_bytes_length.
    rewrite <- (app_nil_r (le_bytes 4 n)). apply rd_front. exact B4. }
  rewrite D1, D2, D3. unfold need.
  assert (V : valid_region_access (sv_ctx s) 16 false off 7 n = true).
  { unfold valid_region_access. change MAX_XFER with 1048576. replace (1048576 <? n) with false by lia. cbn [andb]. change (N.to_nat 7) with 7%nat. rewrite R7.
    assert (SA : satadd_u64 off n = off + n) by (unfold satadd_u64; cbv zeta; rewrite w64_small by (change two64 with 18446744073709551616; lia); replace (off + n <? off) with false by lia; reflexivity).
    rewrite SA. replace (ri_size r <? off + n) with false by lia. unfold is_stopped_and_copying. destruct RQ as [_ _ _ _ (_ & M3)].
    destruct (cx_mig (sv_ctx s)) as [m|]; [|reflexivity]. unfold ST_STOP_COPY. destruct (N.eqb_spec m 3); [congruence|reflexivity]. }
  rewrite V. cbn [negb]. replace (n =? 0) with false by lia.
  unfold region_access. change (N.to_nat 7) with 7%nat. rewrite R7. change (7 =? CFG_REGION) with true. change REGION_FLAG_ALWAYS_CB with (2 ^ 3). rewrite has_bit, FL. cbn [negb andb].
  rewrite header_read by (try exact LEN; assumption). rewrite N.eqb_refl.
  assert (F : fit (N.to_nat n) (firstn (N.to_nat n) (skipn (N.to_nat off) (pc_cfg (cx_pci (sv_ctx s))))) = firstn (N.to_nat n) (skipn (N.to_nat off) (pc_cfg (cx_pci (sv_ctx s))))).
  { unfold fit. apply fit_exact. rewrite firstn_length, skipn_length. lia. }
  rewrite F. unfold read_req. rewrite <- !app_assoc. reflexivity.
Qed.

(* So a client that reads any part of the header gets, in these registers, what was there when the device was
   realized.  (Region 7 is the configuration space; it must not have been registered with the flag 8 that leaves
   everything to the callback.) *)
Theorem C60_header_read : forall l d s en id off n r, life l d s -> request s en id 9 (read_req off 7 n) [] ->
  nth_error (cx_regs (dv_ctx d)) 7 = Some r -> N.testbit (ri_flags r) 3 = false -> (64 <= length (pc_cfg (cx_pci (dv_ctx d))))%nat ->
  0 < n -> off + n <= 64 -> off + n <= ri_size r ->
  exists data, responds s en id 9 0 (read_req off 7 n ++ data) s [] /\ length data = N.to_nat n /\
    forall i, i < n -> ~ header_writable (off + i) -> nth (N.to_nat i) data 0 = byte_at (cx_pci (dv_ctx d)) (off + i).
Proof.
  intros l d s en id off n r L RQ R7 FL LEN P H64 HS. pose proof (life_facts _ _ _ L) as (d1 & _ & _ & _ & _ & _ & _ & RE & SS & H).
  destruct SS as (RG & _). eexists. split; [eapply read_header; eauto; [rewrite RG; exact R7|rewrite (ho_len _ _ H); exact LEN]|].
  pose proof (ho_len _ _ H) as HL. split; [rewrite firstn_length, skipn_length; lia|].
  intros i I NW. rewrite nth_firstn by lia. rewrite nth_skipn. replace (N.to_nat off + N.to_nat i)%nat with (N.to_nat (off + i)) by lia.
  change (byte_at (cx_pci (sv_ctx s)) (off + i) = byte_at (cx_pci (dv_ctx d)) (off + i)). apply (ho_same _ _ H); [lia|exact NW].
Qed.
Print Assumptions C60_header_read.

(* The last of the calls that sets a byte of the header other than by realizing: its effect is there at any time. *)
Lemma set_byte l1 k l2 d s x v : life (l1 ++ k :: l2) d s -> x < 64 -> x <> 52 -> x <> 61 -> x <> 6 -> ~ (16 <= x < 40) -> ~ header_writable x ->
  (forall k', In k' l2 -> ~ sets k' x) ->
  (forall da, (64 <= length (pc_cfg (cx_pci (dv_ctx da))))%nat -> (forall cr, fst (dev_call da k) <> Crash cr) ->
     byte_at (cx_pci (dv_ctx (snd (dev_call da k)))) x = v) ->
  (forall da, pc_cfg (cx_pci (dv_ctx da)) = [] -> exists cr, fst (dev_call da k) = Crash cr) ->
  byte_at (cx_pci (sv_ctx s)) x = v /\ (256 <= length (pc_cfg (cx_pci (dv_ctx d))))%nat.
Proof.
  intros L X X52 X61 X6 XB NW N2 HV HC. pose proof (life_facts _ _ _ L) as (d1 & (d0 & os & C0 & D) & T & LOW & S & C & R & _ & _ & H).
  destruct (calls_mid _ _ _ _ _ _ D) as (da & os1 & os2 & D1 & NC & D2).
  pose proof (proj1 (Forall_app _ _ _) T) as (T1 & T2). inversion T2 as [|? ? Tk T2']; subst.
  assert (LM : low_caps (snd (dev_call da k))) by (intros c Hc; apply LOW; eapply calls_caps_in; eauto).
  assert (LA : low_caps da) by (intros c Hc; apply LM; apply call_caps_in; [exact Hc|apply Tk]).
  destruct (calls_caps _ _ _ _ D1 T1 LA (new_caps _ C0)) as (CA & _).
  assert (NE : (256 <= length (pc_cfg (cx_pci (dv_ctx da))))%nat).
  { destruct CA as [(E & _)|(l0 & I)]; [destruct (HC _ E) as (cr & Q); now destruct (NC cr)|exact (iv_256 _ _ _ I)]. }
  destruct (call_caps _ _ Tk NC LM CA) as (CM & _). destruct (calls_caps _ _ _ _ D2 T2' LOW CM) as (_ & S2).
  destruct (realize_hdr _ _ S C R) as (_ & SR & LR). split.
  - rewrite (ho_same _ _ H) by (auto; lia). rewrite SR by (auto; lia). rewrite S2 by auto. apply HV; [lia|exact NC].
  - apply LR. apply (calls_nonempty _ _ _ _ D2 T2'). apply call_nonempty; [exact Tk|]. intros E. rewrite E in NE. cbn in NE. lia.
Qed.

Lemma window p off n : off + n <= N.of_nat (length (pc_cfg p)) ->
  firstn (N.to_nat n) (skipn (N.to_nat off) (pc_cfg p)) = map (fun i => byte_at p (off + N.of_nat i)) (seq 0 (N.to_nat n)).
Proof.
  intros H. apply nth_ext with (d := 0) (d' := byte_at p (off + N.of_nat 0)).
  - rewrite firstn_length, skipn_length, map_length, seq_length. lia.
  - intros i Hi. rewrite firstn_length, skipn_length in Hi.
    rewrite (map_nth (fun i => byte_at p (off + N.of_nat i)) (seq 0 (N.to_nat n)) 0%nat i), seq_nth by lia. rewrite nth_firstn by lia. rewrite nth_skipn.
    unfold byte_at. f_equal. lia.
Qed.

(* The ids given to vfu_pci_set_id: whatever else is called while the device is set up, whatever clients do later, a
   client reading the vendor and device id (4 bytes at 0) or those of the subsystem (4 bytes at 44) gets those of the
   last call. *)
Theorem C60_ids : forall l1 vid did svid sid l2 d s en id r, life (l1 ++ CPciId vid did svid sid :: l2) d s ->
  (forall a b c e, ~ In (CPciId a b c e) l2) ->
  (forall off data, In (CPoke off data) l2 -> leaves off data 0 4 /\ leaves off data 44 4) ->
  nth_error (cx_regs (dv_ctx d)) 7 = Some r -> N.testbit (ri_flags r) 3 = false -> 64 <= ri_size r ->
  (request s en id 9 (read_req 0 7 4) [] -> responds s en id 9 0 (read_req 0 7 4 ++ [lo vid; hi vid; lo did; hi did]) s []) /\
  (request s en id 9 (read_req 44 7 4) [] -> responds s en id 9 0 (read_req 44 7 4 ++ [lo svid; hi svid; lo sid; hi sid]) s []).
Proof.
  intros l1 vid did svid sid l2 d s en id r L N2 N3 R7 FL SZ. set (k := CPciId vid did svid sid) in *.
  assert (B : forall x v, In (x, v) [(0%nat, lo vid); (1%nat, hi vid); (2%nat, lo did); (3%nat, hi did); (44%nat, lo svid); (45%nat, hi svid); (46%nat, lo sid); (47%nat, hi sid)] ->
     byte_at (cx_pci (sv_ctx s)) (N.of_nat x) = v /\ (256 <= length (pc_cfg (cx_pci (dv_ctx d))))%nat).
  { intros x v HI. assert (XR : (x < 4 \/ 44 <= x < 48)%nat) by (cbn [In] in HI; destruct HI as [E|[E|[E|[E|[E|[E|[E|[E|[]]]]]]]]]; injection E as <- _; lia).
    eapply set_byte; [exact L|lia|lia|lia|lia|lia|unfold header_writable; lia| | |].
    - intros k' K' Sk. destruct k' as [ | | | | | | | |a b c e|a b c| | | |a b]; cbn [sets] in Sk; try contradiction; [exact (N2 _ _ _ _ K')|lia|destruct (N3 _ _ K'); unfold leaves in *; lia].
    - intros da LA _. destruct (C52_pci_id da vid did svid sid LA) as (d' & E & _ & (_ & W & _)). fold k in E. rewrite E. cbn [snd]. unfold byte_at. rewrite Nat2N.id. apply W. exact HI.
    - intros da E. exists OutOfBounds. unfold k. cbn [dev_call]. unfold set_hdr. cbv zeta. rewrite E. reflexivity. }
  pose proof (life_facts _ _ _ L) as (d1 & _ & _ & _ & _ & _ & _ & RE & (RG & _) & H). pose proof (ho_len _ _ H) as HL.
  assert (LEN : (256 <= length (pc_cfg (cx_pci (dv_ctx d))))%nat) by (eapply B; left; reflexivity).
  rewrite <- RG in R7.
  assert (V : forall x v, In (x, v) [(0%nat, lo vid); (1%nat, hi vid); (2%nat, lo did); (3%nat, hi did); (44%nat, lo svid); (45%nat, hi svid); (46%nat, lo sid); (47%nat, hi sid)] ->
     byte_at (cx_pci (sv_ctx s)) (N.of_nat x) = v) by (intros x v Q; apply (B x v Q)). clear B.
  split; intros RQ.
  - pose proof (read_header _ _ _ _ _ _ RE RQ R7 FL ltac:(lia) ltac:(lia) ltac:(lia) ltac:(lia)) as G. rewrite window in G by lia.
    change (seq 0 (N.to_nat 4)) with [0; 1; 2; 3]%nat in G. cbn [map] in G.
    change (0 + N.of_nat 0) with (N.of_nat 0) in G. change (0 + N.of_nat 1) with (N.of_nat 1) in G. change (0 + N.of_nat 2) with (N.of_nat 2) in G. change (0 + N.of_nat 3) with (N.of_nat 3) in G.
    rewrite (V 0%nat (lo vid)), (V 1%nat (hi vid)), (V 2%nat (lo did)), (V 3%nat (hi did)) in G by (cbn [In]; auto 10). exact G.
  - pose proof (read_header _ _ _ _ _ _ RE RQ R7 FL ltac:(lia) ltac:(lia) ltac:(lia) ltac:(lia)) as G. rewrite window in G by lia.
    change (seq 0 (N.to_nat 4)) with [0; 1; 2; 3]%nat in G. cbn [map] in G.
    change (44 + N.of_nat 0) with (N.of_nat 44) in G. change (44 + N.of_nat 1) with (N.of_nat 45) in G. change (44 + N.of_nat 2) with (N.of_nat 46) in G. change (44 + N.of_nat 3) with (N.of_nat 47) in G.
    rewrite (V 44%nat (lo svid)), (V 45%nat (hi svid)), (V 46%nat (lo sid)), (V 47%nat (hi sid)) in G by (cbn [In]; auto 10). exact G.
Qed.
Print Assumptions C60_ids.

(* The class given to vfu_pci_set_class: programming interface, subclass and base class (3 bytes at 9). *)
Theorem C60_class : forall l1 base sub pi l2 d s en id r, life (l1 ++ CPciClass base sub pi :: l2) d s ->
  (forall a b c, ~ In (CPciClass a b c) l2) -> (forall off data, In (CPoke off data) l2 -> leaves off data 9 3) ->
  nth_error (cx_regs (dv_ctx d)) 7 = Some r -> N.testbit (ri_flags r) 3 = false -> 64 <= ri_size r ->
  request s en id 9 (read_req 9 7 3) [] -> responds s en id 9 0 (read_req 9 7 3 ++ [lo pi; lo sub; lo base]) s [].
Proof.
  intros l1 base sub pi l2 d s en id r L N2 N3 R7 FL SZ RQ. set (k := CPciClass base sub pi) in *.
  assert (B : forall x v, In (x, v) [(11%nat, lo base); (10%nat, lo sub); (9%nat, lo pi)] ->
     byte_at (cx_pci (sv_ctx s)) (N.of_nat x) = v /\ (256 <= length (pc_cfg (cx_pci (dv_ctx d))))%nat).
  { intros x v HI. assert (XR : (9 <= x < 12)%nat) by (cbn [In] in HI; destruct HI as [E|[E|[E|[]]]]; injection E as <- _; lia).
    eapply set_byte; [exact L|lia|lia|lia|lia|lia|unfold header_writable; lia| | |].
    - intros k' K' Sk. destruct k' as [ | | | | | | | |a b c e|a b c| | | |a b]; cbn [sets] in Sk; try contradiction; [lia|exact (N2 _ _ _ K')|pose proof (N3 _ _ K'); unfold leaves in *; lia].
    - intros da LA _. destruct (C52_pci_class da base sub pi LA) as (d' & E & _ & (_ & W & _)). fold k in E. rewrite E. cbn [snd]. unfold byte_at. rewrite Nat2N.id. apply W. exact HI.
    - intros da E. exists OutOfBounds. unfold k. cbn [dev_call]. unfold set_hdr. cbv zeta. rewrite E. reflexivity. }
  pose proof (life_facts _ _ _ L) as (d1 & _ & _ & _ & _ & _ & _ & RE & (RG & _) & H). pose proof (ho_len _ _ H) as HL.
  assert (LEN : (256 <= length (pc_cfg (cx_pci (dv_ctx d))))%nat) by (eapply B; left; reflexivity).
  rewrite <- RG in R7.
  assert (V : forall x v, In (x, v) [(11%nat, lo base); (10%nat, lo sub); (9%nat, lo pi)] -> byte_at (cx_pci (sv_ctx s)) (N.of_nat x) = v) by (intros x v Q; apply (B x v Q)). clear B.
  pose proof (read_header _ _ _ _ _ _ RE RQ R7 FL ltac:(lia) ltac:(lia) ltac:(lia) ltac:(lia)) as G. rewrite window in G by lia.
  change (seq 0 (N.to_nat 3)) with [0; 1; 2]%nat in G. cbn [map] in G.
  change (9 + N.of_nat 0) with (N.of_nat 9) in G. change (9 + N.of_nat 1) with (N.of_nat 10) in G. change (9 + N.of_nat 2) with (N.of_nat 11) in G.
  rewrite (V 9%nat (lo pi)), (V 10%nat (lo sub)), (V 11%nat (lo base)) in G by (cbn [In]; auto 10). exact G.
Qed.
Print Assumptions C60_class.

(* ---------- regions and interrupts *)

(* A region (other than the configuration space) that is registered once, by a call that vfu_setup_region accepts: at
   any time a client that asks for information about it gets the size, access and offset it was registered with, and
   the mappable areas with their descriptor if there are any and it leaves room for them. *)
Theorem C60_region : forall l1 a l2 d s, life (l1 ++ CRegion true a :: l2) d s -> region_ok a -> args_ok a -> ra_idx a <> 7%Z ->
  (forall m b, In (CRegion m b) (l1 ++ l2) -> ra_idx b <> ra_idx a /\ (0 <= ra_idx b)%Z) ->
  exists r, nth_error (cx_regs (sv_ctx s)) (Z.to_nat (ra_idx a)) = Some r /\
    ri_flags r = ra_flags a /\ ri_size r = ra_size a mod 2 ^ 32 /\ ri_cb r = ra_cb a /\ ri_fd r = ra_fd a /\ ri_off r = ra_off a /\ ri_areas r = mappable a /\
    forall en id argsz flags cap_off size off rest, 
      request s en id 5 (region_info_req argsz flags (Z.to_N (ra_idx a)) cap_off size off rest) [] ->
      32 <= argsz -> argsz < 2 ^ 32 -> region_info_size r < 2 ^ 32 ->
      exists body fds, sv_step s (SRun en) = (Ok 1, s, [EvReply (mk_reply id 5 0 body fds)]) /\
        (has_areas r -> region_info_size r <= argsz -> body = region_info_reply r (Z.to_N (ra_idx a)) true (areas_cap (mappable a)) /\ fds = [ra_fd a]) /\
        (~ has_areas r \/ argsz < region_info_size r -> fds = [] /\ exists n, body = region_info_reply r (Z.to_N (ra_idx a)) false (repeat 0 n)).
Proof.
  intros l1 a l2 d s L RO AO I7 N2. pose proof (life_facts _ _ _ L) as (d1 & (d0 & os & C0 & D) & T & _ & S & _ & R & RE & (RG & _) & _).
  set (i := Z.to_nat (ra_idx a)). assert (RI : (0 <= ra_idx a < 9)%Z) by apply RO. assert (I7' : i <> 7%nat) by (unfold i; lia).
  destruct (calls_mid _ _ _ _ _ _ D) as (da & os1 & os2 & D1 & NC & D2).
  pose proof (proj1 (Forall_app _ _ _) T) as (T1 & T2). inversion T2 as [|? ? Tk T2']; subst.
  assert (NR : forall k, In k l1 \/ In k l2 -> ~ registers i k).
  { intros k K Q. destruct k; cbn [registers] in Q; try contradiction. destruct (N2 _ _ (proj2 (in_app_iff _ _ _) K)) as (X & Y). unfold i in Q. lia. }
  assert (E0 : nth_error (cx_regs (dv_ctx d0)) i = Some new_region).
  { injection C0 as <-. change (nth_error (repeat new_region 9) i = Some new_region). apply nth_error_repeat. unfold i. lia. }
  destruct (calls_region _ _ _ _ _ _ D1 T1 I7' (fun k K => NR k (or_introl K)) E0) as (old & O & (_ & _ & _ & OA & _)).
  assert (IA : in_setup da) by (exists d0, l1, os1; split; [exact C0|]; split; [exact D1|]; eapply Forall_impl; [|exact T1]; intros k (K & _); exact K).
  pose proof (si_regs _ (in_setup_inv _ IA)) as LR.
  destruct (proj1 (C52_region true _ a LR AO) RO) as (regs' & old' & r1 & SR & _ & O' & N1 & F1 & F2 & F3 & F4 & F5 & _ & F6).
  fold i in O', N1. rewrite O in O'. injection O' as <-. rewrite OA in F6.
  assert (MA : ri_areas r1 = mappable a) by (rewrite F6; destruct (mappable a); reflexivity). clear F6.
  assert (N1' : nth_error (cx_regs (dv_ctx (snd (dev_call da (CRegion true a))))) i = Some r1).
  { cbn [dev_call snd]. change (nth_error (snd (setup_region true (cx_regs (dv_ctx da)) a)) i = Some r1). rewrite SR. exact N1. }
  destruct (calls_region _ _ _ _ _ _ D2 T2' I7' (fun k K => NR k (or_intror K)) N1') as (r2 & N2' & (E1 & E2 & E3 & E4 & E5 & E6)).
  assert (NS : nth_error (cx_regs (sv_ctx s)) i = Some r2).
  { rewrite RG. destruct (C52_realize _ _ S R) as (_ & _ & _ & _ & (_ & Z) & _). rewrite Z by exact I7'. exact N2'. }
  exists r2. split; [exact NS|]. do 5 (split; [congruence|]). split; [congruence|].
  intros en id argsz flags cap_off size off rest RQ A1 A2 SZ.
  assert (NI : nth_error (cx_regs (sv_ctx s)) (N.to_nat (Z.to_N (ra_idx a))) = Some r2) by (replace (N.to_nat (Z.to_N (ra_idx a))) with i by (unfold i; lia); exact NS).
  destruct (C38_region_info (sv_ctx s) (en_or en) argsz flags (Z.to_N (ra_idx a)) cap_off size off rest [] r2 A2 ltac:(lia) A1 NI SZ) as (body & fds & DI & _ & Y & N).
  exists body, fds. split.
  { rewrite (request_step _ _ _ _ _ _ _ _ _ _ _ _ RE RQ DI). rewrite same_ctx. f_equal. replace (needs_quiesce (sv_ctx s) 5 _) with false; [reflexivity|].
    unfold needs_quiesce. destruct (negb _); reflexivity. }
  split.
  - intros HA HS. destruct (Y HA HS) as (-> & _ & ->). rewrite E4, MA, E5, F4. auto.
  - intros HN. destruct (N HN) as (n & -> & ->). eauto.
Qed.
Print Assumptions C60_region.

(* The number of vectors of an interrupt type, given to vfu_setup_device_nr_irqs last: at any time a client that asks
   gets it. *)
Theorem C60_irqs : forall l1 t n l2 d s en id argsz flags count rest, life (l1 ++ CNrIrqs t n :: l2) d s -> t < 5 ->
  (forall m, ~ In (CNrIrqs t m) l2) ->
  request s en id 7 (le_bytes 4 argsz ++ le_bytes 4 flags ++ le_bytes 4 t ++ le_bytes 4 count ++ rest) [] ->
  16 <= argsz -> argsz < 2 ^ 32 -> flags < 2 ^ 32 -> count < 2 ^ 32 ->
  responds s en id 7 0 (le_bytes 4 16 ++ le_bytes 4 1 ++ le_bytes 4 t ++ le_bytes 4 n) s [].
Proof.
  intros l1 t n l2 d s en id argsz flags count rest L T5 N2 RQ A1 A2 FB CB.
  pose proof (life_facts _ _ _ L) as (d1 & (d0 & os & C0 & D) & T & _ & S & _ & R & RE & (_ & _ & _ & _ & _ & IC & _) & _).
  destruct (calls_mid _ _ _ _ _ _ D) as (da & os1 & os2 & D1 & NC & D2).
  pose proof (proj1 (Forall_app _ _ _) T) as (T1 & T2). inversion T2 as [|? ? Tk T2']; subst.
  assert (IA : in_setup da) by (exists d0, l1, os1; split; [exact C0|]; split; [exact D1|]; eapply Forall_impl; [|exact T1]; intros k (K & _); exact K).
  pose proof (si_len _ (in_setup_inv _ IA)) as LC.
  assert (N1 : nth_error (ic_count (cx_irq_cfg (dv_ctx (snd (dev_call da (CNrIrqs t n)))))) (N.to_nat t) = Some n).
  { cbn [dev_call snd]. change (nth_error (ic_count (snd (setup_nr_irqs (cx_irq_cfg (dv_ctx da)) t n))) (N.to_nat t) = Some n). unfold setup_nr_irqs.
    change NUM_IRQS with 5. replace (5 <=? t) with false by lia. cbn [snd ic_count]. apply set_nth_eq. rewrite LC. lia. }
  assert (N3 : nth_error (ic_count (cx_irq_cfg (sv_ctx s))) (N.to_nat t) = Some n).
  { rewrite IC. destruct (C52_realize _ _ S R) as (_ & _ & _ & _ & _ & _ & _ & _ & K). unfold realize_keeps in K. cbv zeta in K. destruct K as (_ & _ & -> & _).
    rewrite (calls_count _ _ _ _ t D2 T2'); [exact N1|]. intros k K Q. destruct k; cbn [counts] in Q; try contradiction. subst. exact (N2 _ K). }
  enough (G : responds s en id 7 0 (le_bytes 4 16 ++ le_bytes 4 1 ++ le_bytes 4 t ++ le_bytes 4 n) (set_ctx s (sv_ctx s)) []) by (rewrite same_ctx in G; exact G).
  eapply request_responds; [exact RE|exact RQ| |intros r []].
  change (dispatch (sv_ctx s) (en_or en) 7 ?b []) with (get_irq_info (cx_irq_cfg (sv_ctx s)) b, sv_ctx s, @nil Z, @nil event).
  rewrite C55_irq_info by (assumption || lia). replace (argsz <? 16) with false by lia. replace (5 <=? t) with false by lia. cbn [orb].
  rewrite (nth_error_nth _ _ 0 N3). reflexivity.
Qed.
Print Assumptions C60_irqs.

(* ---------- a device that meets all of this *)

(* Its client enables bus mastering, tries to change the vendor and device id and the class, moves a BAR and resets the
   device; another client comes. *)
Definition ex_id_steps : list step :=
  [SAttach 1048576; SRun (ex_ask 10 (read_req 4 7 2 ++ [4; 0]) []); SRun (ex_ask 10 (read_req 0 7 4 ++ [1; 2; 3; 4]) []);
   SRun (ex_ask 10 (read_req 9 7 1 ++ [255]) []); SRun (ex_ask 10 (read_req 16 7 4 ++ [0; 0; 0; 254]) []); SRun (ex_ask 13 [] []);
   SRun (PropServer.ex_env (RxErr ENOMSG)); SAttach 65536].
Definition ex_id : server := fst (sv_run (dv_sv ex_real) ex_id_steps).
Lemma ex_life : life ex_calls ex_real ex_id.
Proof.
  destruct (history_run (dv_sv ex_real) ex_id_steps ex_id (snd (sv_run (dv_sv ex_real) ex_id_steps))) as (arr & H).
  - vm_compute; reflexivity.
  - vm_compute; repeat constructor.
  - exists ex_ready. eexists _, _, _. split; [exists ex_dev; eexists; split; vm_compute; reflexivity|]. split.
    { repeat apply Forall_cons; try apply Forall_nil; split; vm_compute; intuition (try discriminate); repeat constructor. }
    split; [intros c Hc; vm_compute in Hc; destruct Hc as [<-|[]]; vm_compute; discriminate|]. split; [vm_compute; reflexivity|]. split; [exact H|].
    repeat apply Forall_cons; try apply Forall_nil; vm_compute; auto; repeat constructor.
Qed.
Lemma ex_id_request cmd body : N.of_nat (length body) <= 1024 -> body <> [] -> request ex_id (ex_ask cmd body []) 7 cmd body [].
Proof.
  intros L NE. constructor; try reflexivity.
  - vm_compute; auto.
  - exists (mk_header 7 cmd (16 + N.of_nat (length body)) 0 0). split; [reflexivity|]. split.
    + unfold valid_hdr. cbn [hd_flags hd_size hd_cmd]. split; [reflexivity|]. split; [lia|]. intros E. destruct body; [congruence|]. cbn [length] in E. lia.
    + repeat split.
  - vm_compute; split; discriminate.
Qed.
Example C60_header_case : life ex_calls ex_real ex_id /\ ~ header_writable 9 /\ byte_at (cx_pci (sv_ctx ex_id)) 9 = 2 /\
  byte_at (cx_pci (sv_ctx ex_id)) 4 = 4 /\ byte_at (cx_pci (dv_ctx ex_real)) 4 = 0.
Proof. split; [exact ex_life|]. split; [unfold header_writable; lia|]. repeat split; vm_compute; reflexivity. Qed.
Example C60_header_read_case : exists r, request ex_id (ex_ask 9 (read_req 0 7 64) []) 7 9 (read_req 0 7 64) [] /\
  nth_error (cx_regs (dv_ctx ex_real)) 7 = Some r /\ N.testbit (ri_flags r) 3 = false /\ ri_size r = 256 /\ length (pc_cfg (cx_pci (dv_ctx ex_real))) = 256%nat.
Proof. eexists. split; [apply ex_id_request; vm_compute; discriminate|]. repeat split; vm_compute; reflexivity. Qed.
Example C60_ids_case : ex_calls = [CPciInit 0 0] ++ CPciId 4242 17 4242 17 :: skipn 2 ex_calls /\
  (forall a b c e, ~ In (CPciId a b c e) (skipn 2 ex_calls)) /\ (forall off data, ~ In (CPoke off data) (skipn 2 ex_calls)) /\
  snd (sv_step ex_id (SRun (ex_ask 9 (read_req 0 7 4) []))) = [EvReply (mk_reply 7 9 0 (read_req 0 7 4 ++ [146; 16; 17; 0]) [])] /\
  lo 4242 = 146 /\ hi 4242 = 16.
Proof. split; [reflexivity|]. split; [intros a b c e H; cbn in H; intuition discriminate|]. split; [intros a b H; cbn in H; intuition discriminate|]. repeat split; vm_compute; reflexivity. Qed.
Example C60_class_case : ex_calls = firstn 2 ex_calls ++ CPciClass 1 8 2 :: skipn 3 ex_calls /\
  (forall a b c, ~ In (CPciClass a b c) (skipn 3 ex_calls)) /\ (forall off data, ~ In (CPoke off data) (skipn 3 ex_calls)) /\
  snd (sv_step ex_id (SRun (ex_ask 9 (read_req 9 7 3) []))) = [EvReply (mk_reply 7 9 0 (read_req 9 7 3 ++ [2; 8; 1]) [])].
Proof. split; [reflexivity|]. split; [intros a b c H; cbn in H; intuition discriminate|]. split; [intros a b H; cbn in H; intuition discriminate|]. vm_compute; reflexivity. Qed.
Definition ex_bar1 : region_args := mk_rargs 1 65536 true 23 (Some [(0, 4096)]) 1 9 0.
Example C60_region_case : ex_calls = firstn 4 ex_calls ++ CRegion true ex_bar1 :: skipn 5 ex_calls /\ region_ok ex_bar1 /\ args_ok ex_bar1 /\
  (forall m b, In (CRegion m b) (firstn 4 ex_calls ++ skipn 5 ex_calls) -> ra_idx b <> ra_idx ex_bar1 /\ (0 <= ra_idx b)%Z) /\
  request ex_id (ex_ask 5 (region_info_req 1024 0 1 0 0 0 []) []) 7 5 (region_info_req 1024 0 1 0 0 0 []) [].
Proof.
  split; [reflexivity|]. split.
  { unfold region_ok, ex_bar1. cbn [ra_flags ra_cb ra_idx ra_areas ra_nr ra_fd ra_size]. split; [lia|]. split; [left; reflexivity|]. split; [discriminate|].
    split; [lia|]. split; [intros; discriminate|]. split; [discriminate|]. split; [discriminate|]. intros b l [E|[]]. injection E as <- <-. lia. }
  split; [split; [reflexivity|]; intros b l [E|[]]; injection E as <- <-; lia|]. split; [|apply ex_id_request; vm_compute; discriminate].
  intros m b H. cbn in H. repeat (destruct H as [H|H]; [try discriminate H; injection H as <- <-; vm_compute; split; discriminate|]). destruct H.
Qed.
Example C60_irqs_case : ex_calls = firstn 6 ex_calls ++ CNrIrqs 2 16 :: skipn 7 ex_calls /\ (forall m, ~ In (CNrIrqs 2 m) (skipn 7 ex_calls)) /\
  snd (sv_step ex_id (SRun (ex_ask 7 (le_bytes 4 16 ++ le_bytes 4 0 ++ le_bytes 4 2 ++ le_bytes 4 0) []))) =
    [EvReply (mk_reply 7 7 0 (le_bytes 4 16 ++ le_bytes 4 1 ++ le_bytes 4 2 ++ le_bytes 4 16) [])].
Proof. split; [reflexivity|]. split; [intros m H; cbn in H; intuition discriminate|]. vm_compute; reflexivity. Qed.
