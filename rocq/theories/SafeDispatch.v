(* Harmless messages do not crash the server: the handlers. *)
From Coq Require Import NArith ZArith List Bool Lia ZifyBool ZifyNat ZifyN.
From Verif Require Import Base Types Bytes BytesProofs Spec Dma Dirty DmaOps SpecDma DmaProofs DmaRemap DirtyScale DirtyHist Migr SpecMigr PropMigr
  Irq SpecIrq IrqProofs PropIrq Pci SpecPci BufProofs PciProofs PciWrite PciCapWrite PciLoop Handlers SpecHandlers HandlersProofs HandlersDma
  Server SpecServer ServerProofs SpecSafe SafeProofs.
Import ListNotations.
Open Scope N_scope.
Ltac Zify.zify_post_hook ::= idtac.

Lemma rd_word body off n v : rd body off n = Some v -> v = word body off n.
Proof. unfold rd, slice, word. destruct (Nat.leb (off + n) (length body)); intros H; [injection H as <-; reflexivity|discriminate H]. Qed.

Lemma rd_le l off n v : rd l off n = Some v -> (off + n <= length l)%nat.
Proof. unfold rd, slice. destruct (Nat.leb_spec (off + n) (length l)); [auto|discriminate]. Qed.

Ltac rds := repeat match goal with |- context [rd ?b ?o ?n] => let v := fresh "v" in let E := fresh "E" in
   destruct (rd_some b o n ltac:(lia)) as [v E]; rewrite E; cbn [need] end.

(* ---------- information *)

Lemma get_region_info_ok c body : sound c -> no_crash (get_region_info c body).
Proof.
  intros (_ & _ & _ & S). unfold get_region_info. destruct (N.of_nat (length body) <? 32) eqn:L; [exact I|]. rds.
  destruct (v <? 32) eqn:A; [exact I|]. destruct (nth_error (cx_regs c) (N.to_nat v0)) as [r|] eqn:R; [|exact I].
  destruct (S r (nth_error_In _ _ R)) as (B & _). set (cs := if 0 <? ri_size r then caps_size r else 0).
  assert (CS : 32 + cs = region_info_size r).
  { unfold cs, region_info_size, caps_size. destruct (ri_size r =? 0) eqn:EZ; cbn [orb].
    - replace (0 <? ri_size r) with false by lia. reflexivity.
    - replace (0 <? ri_size r) with true by lia. destruct (ri_areas r); reflexivity. }
  rewrite CS. assert (W : w32 (region_info_size r) = region_info_size r) by (unfold w32, two32; apply N.mod_small; lia). rewrite W.
  destruct ((0 <? cs) && (region_info_size r <=? v)) eqn:G; [|exact I].
  replace (N.min (region_info_size r) v <? region_info_size r) with false by lia. exact I.
Qed.

Lemma add_fd_ok cap out fd : (-1 <= fd)%Z -> (length out < cap)%nat -> exists i out', add_fd cap out fd = Ok (i, out') /\ (length out' <= S (length out))%nat.
Proof.
  intros F L. unfold add_fd. replace (fd <? -1)%Z with false by lia. destruct (fd =? -1)%Z; [eauto|]. destruct (fd_index out fd 0); [eauto|].
  replace (Nat.leb cap (length out)) with false by (symmetry; apply Nat.leb_gt; lia). do 2 eexists. split; [reflexivity|]. rewrite app_length. cbn [length]. lia.
Qed.

Lemma io_subs_ok cap : forall l out, (forall s, In s l -> (-1 <= ie_fd s)%Z /\ (-1 <= ie_shadow_fd s)%Z) ->
  (length out + length l + length (filter (fun s => negb (ie_shadow_fd s =? -1)%Z) l) <= cap)%nat -> exists r, io_subs cap out l = Ok r.
Proof.
  induction l as [|s l IH]; intros out F L; cbn [io_subs]; [eauto|]. destruct (F s (or_introl eq_refl)) as [F1 F2]. cbn [length filter] in L.
  destruct (add_fd_ok cap out (ie_fd s) F1 ltac:(lia)) as (i & out1 & A & L1). unfold io_sub. rewrite A.
  assert (Q : exists ty j out2, (if (ie_shadow_fd s =? -1)%Z then Ok (0, 0, out1)
             else match add_fd cap out1 (ie_shadow_fd s) with
                  | Ok (j, out2) => Ok (2, j, out2)
                  | Err e => Err e
                  | Crash cr => Crash cr
                  end) = Ok (ty, j, out2) /\ (length out2 + length l + length (filter (fun s => negb (ie_shadow_fd s =? -1)%Z) l) <= cap)%nat).
  { destruct (ie_shadow_fd s =? -1)%Z eqn:E; cbn [negb length] in L; [do 3 eexists; split; [reflexivity|lia]|].
    destruct (add_fd_ok cap out1 (ie_shadow_fd s) F2 ltac:(lia)) as (j & out2 & A2 & L2). rewrite A2. do 3 eexists. split; [reflexivity|lia]. }
  destruct Q as (ty & j & out2 & -> & L2). destruct (IH out2 (fun s H => F s (or_intror H)) L2) as [[b' o'] ->]. eauto.
Qed.

Lemma get_region_io_fds_ok c body : sound c -> no_crash (get_region_io_fds c body).
Proof.
  intros (_ & _ & _ & S). unfold get_region_io_fds. destruct (N.of_nat (length body) <? 16) eqn:L; [exact I|]. rds.
  destruct (negb (v0 =? 0) || negb (v2 =? 0)); [exact I|]. destruct (nth_error (cx_regs c) (N.to_nat v1)) as [r|] eqn:R; [|exact I].
  destruct (negb (has (ri_flags r) REGION_FLAG_MASK)); [exact I|]. destruct ((v <? 16) || (MAX_XFER <? v)) eqn:A; [exact I|].
  destruct (S r (nth_error_In _ _ R)) as (_ & B & FD). set (nr := N.of_nat (length (ri_subs r))) in *.
  assert (W : w32 (16 + nr * 48) = 16 + nr * 48) by (unfold w32, two32; apply N.mod_small; lia). rewrite W.
  assert (W2 : w32 (nr * 48) = nr * 48) by (unfold w32, two32; apply N.mod_small; lia). rewrite W2.
  assert (DV : 16 + nr * 48 <= v -> nr <= (v - 16) / 48) by (intros; apply N.div_le_lower_bound; lia).
  destruct ((0 <? N.min ((v - 16) / 48) nr) && (16 + nr * 48 <=? v)) eqn:G; [|exact I].
  assert (M : N.min ((v - 16) / 48) nr = nr) by lia. rewrite M. replace (nr <=? nr) with true by lia.
  replace (16 + nr * 48 <? 16 + nr * 48) with false by lia. unfold nr. rewrite Nnat.Nat2N.id, firstn_all.
  destruct (io_subs_ok (length (ri_subs r) + length (filter (fun s => negb (ie_shadow_fd s =? -1)%Z) (ri_subs r))) (ri_subs r) [] FD ltac:(cbn [length]; lia)) as [[b f] ->].
  exact I.
Qed.

Lemma get_info_ok c body : no_crash (get_info c body).
Proof. unfold get_info. destruct (N.of_nat (length body) <? 16) eqn:L; [exact I|]. rds. destruct (v <? 16); exact I. Qed.

Lemma get_irq_info_ok c body : no_crash (get_irq_info c body).
Proof. unfold get_irq_info. destruct (N.of_nat (length body) <? 16) eqn:L; [exact I|]. rds. destruct (v <? 16); [exact I|]. destruct (NUM_IRQS <=? v0); exact I. Qed.

(* ---------- interrupts *)

Lemma set_irqs_ok cfg t answers body fds r t' rest ev : irq_table_ok cfg t -> bytes body -> Forall (fun fd => (0 <= fd)%Z) fds ->
  set_irqs cfg t answers body fds = (r, t', rest, ev) -> no_crash r.
Proof.
  intros T B F H. destruct (Nat.lt_ge_cases (length body) 20) as [L|L].
  - rewrite (C33_short_payload_refused _ _ _ _ _ L) in H. injection H as <- _ _ _. exact I.
  - destruct (isb_complete body B L) as (argsz & flags & index & start & count & data & H1 & H2 & H3 & H4 & H5 & ->).
    destruct (set_irqs_valid cfg (N.of_nat (20 + length data)) argsz flags index start count (N.of_nat (length fds))) eqn:V.
    + apply valid_iff in V; [|exact H4|exact H5|apply T].
      destruct (C33_accepted_safe cfg t answers argsz flags index start count data fds H1 H2 H3 H4 H5 T F V) as (err & t1 & rest1 & ev1 & Q & _).
      rewrite Q in H. injection H as <- _ _ _. exact I.
    + assert (NV : ~ irq_request_ok cfg argsz flags index start count data fds).
      { intros K. apply valid_iff in K; [congruence|exact H4|exact H5|apply T]. }
      rewrite (C33_refused_no_effect cfg t answers argsz flags index start count data fds H1 H2 H3 H4 H5 (proj1 (proj2 T)) NV) in H.
      injection H as <- _ _ _. exact I.
Qed.

(* ---------- DMA *)

Definition modest (c : ctx) : Prop := forall d, cx_dma c = Some d -> dm_max_size d <= 8 * 2 ^ 40.

Lemma handle_dma_map_ok c d o body fds r c' f' ev : inv d -> handle_dma_map c d o body fds = (r, c', f', ev) -> no_crash r.
Proof.
  intros Id H. unfold handle_dma_map in H. destruct (N.of_nat (length body) <? 32) eqn:L; [injection H as <- _ _ _; exact I|].
  revert H. rds. destruct (v <? 32); [intros H; injection H as <- _ _ _; exact I|].
  destruct (negb (N.ldiff v0 3 =? 0)); [intros H; injection H as <- _ _ _; exact I|].
  destruct (match fds with [] => ((-1)%Z, []) | f :: fs => (f, (-1)%Z :: fs) end) as [fd rest].
  destruct (negb (Nat.eqb (length fds) 0) && (fd <? 0)%Z); [intros H; injection H as <- _ _ _; exact I|].
  set (prot := (if has v0 1 then PROT_READ else 0) + (if has v0 2 then PROT_WRITE else 0)).
  destruct (dma_map_request (cx_register c) (or_os o) d v2 v3 fd v1 prot) as [[res d'] ev1] eqn:M. intros H. injection H as <- _ _ _.
  unfold dma_map_request in M. destruct (add_region (or_os o) d v2 v3 fd v1 prot) as [[[idx|e|cr] d1] ev2] eqn:A.
  - assert (K : nth_error (dm_regions d1) idx <> None).
    { destruct (add_region_ok _ _ _ _ _ _ _ _ _ _ A) as (_ & _ & [(-> & rg & N & _)|(rg & -> & -> & _)]); [congruence|].
      cbn [set_regions dm_regions]. rewrite nth_error_app2, Nat.sub_diag by lia. discriminate. }
    destruct (nth_error (dm_regions d1) idx) as [rg|] eqn:N; [|congruence]. injection M as <- _ _. exact I.
  - injection M as <- _ _. exact I.
  - now destruct (add_region_no_crash _ _ _ _ _ _ _ _ _ _ A).
Qed.

Lemma room_for argsz bsize : bsize < two64 -> (argsz <? satadd_u64 40 bsize) || (MAX_XFER <? argsz) = false -> 40 + bsize <= argsz <= 1024 * 1024.
Proof.
  intros W H. apply orb_false_iff in H. destruct H as [A B]. change MAX_XFER with (1024 * 1024) in B. unfold satadd_u64, w64 in A.
  destruct (N.lt_ge_cases (40 + bsize) two64) as [Q|Q].
  - rewrite N.mod_small in A by exact Q. destruct (40 + bsize <? 40) eqn:E; lia.
  - assert (M2 : (40 + bsize) mod two64 = 40 + bsize - two64) by (symmetry; apply (N.mod_unique _ _ 1); unfold two64 in *; lia).
    rewrite M2 in A. destruct (40 + bsize - two64 <? 40) eqn:Q2; unfold two64 in *; lia.
Qed.

Lemma dma_unmap_ok c d o body r c' ev : inv d -> cx_dma c = Some d -> dm_max_size d <= 8 * 2 ^ 40 -> bytes body -> harmless_unmap c body ->
  handle_dma_unmap c d o body = (r, c', ev) -> no_crash r.
Proof.
  intros Id Ed Mx B (L8 & D & A) H. unfold handle_dma_unmap in H. revert H.
  destruct (rd_some body 4 4 ltac:(lia)) as [flags F]. rewrite F. cbn [need]. pose proof (rd_word _ _ _ _ F) as WF. rewrite <- WF in *.
  assert (FIN : forall d1 h1 out addr size, inv d1 -> match remove_region (cx_unregister c) d1 addr size with
    | (Ok ev, d2) => (HReply 0 out [], set_dma c d2 h1, ev)
    | (Err e, d2) => (herr e, set_dma c d2 h1, [])
    | (Crash cr, d2) => (HCrash cr, set_dma c d2 h1, [])
    end = (r, c', ev) -> no_crash r).
  { intros d1 h1 out addr size I1 H. destruct (remove_region_spec (cx_unregister c) d1 addr size I1) as [(l & rg & l' & ev1 & _ & _ & _ & _ & Q)|[_ Q]];
      rewrite Q in H; injection H as <- _ _; exact I. }
  destruct (flags =? UNMAP_DIRTY) eqn:E1.
  { apply N.eqb_eq in E1. destruct (D E1) as [L40 RO].
    destruct (rd_some body 32 8 ltac:(lia)) as [bsize Eb]. rewrite Eb. cbn [need]. replace (N.of_nat (length body) <? 40) with false by lia.
    destruct (rd_some body 0 4 ltac:(lia)) as [argsz Ea]. rewrite Ea. cbn [need].
    destruct (rd_some body 8 8 ltac:(lia)) as [addr Eaddr]. rewrite Eaddr. cbn [need].
    destruct (rd_some body 16 8 ltac:(lia)) as [size Es]. rewrite Es. cbn [need].
    destruct (rd_some body 24 8 ltac:(lia)) as [pg Ep]. rewrite Ep. cbn [need].
    destruct (slice_some body 0 40 ltac:(lia)) as [hdr Eh]. rewrite Eh. cbn [need].
    destruct ((argsz <? satadd_u64 40 bsize) || (MAX_XFER <? argsz)) eqn:AZ; [intros H; injection H as <- _ _; exact I|].
    rewrite <- (rd_word _ _ _ _ Ea), <- (rd_word _ _ _ _ Eb) in RO. specialize (RO (room_for argsz bsize (rd_bound _ _ _ _ B Eb) AZ)).
    rewrite <- (rd_word _ _ _ _ Eaddr), <- (rd_word _ _ _ _ Es), <- (rd_word _ _ _ _ Ep) in RO. unfold logged_pages in RO. rewrite Ed in RO.
    assert (P64 : pg < two64) by exact (rd_bound _ _ _ _ B Ep).
    assert (LB : N.of_nat (length (fit (N.to_nat bsize) (or_junk o))) = bsize).
    { unfold fit, zeros. rewrite firstn_length_le; [lia|]. rewrite app_length, repeat_length. lia. }
    pose proof (dirty_page_get_safe d (cx_hint c) addr size pg bsize (fit (N.to_nat bsize) (or_junk o)) Id Mx P64 LB RO) as NC.
    destruct (dirty_page_get d (cx_hint c) addr size pg bsize (fit (N.to_nat bsize) (or_junk o))) as [[[bm|e|cr] d1] h1] eqn:G.
    - apply FIN. exact (proj1 (dirty_page_get_inv _ _ _ _ _ _ _ _ _ _ Id G)).
    - intros H; injection H as <- _ _; exact I.
    - now destruct (NC cr d1 h1). }
  destruct (flags =? UNMAP_ALL) eqn:E2.
  { apply N.eqb_eq in E2. destruct (A E2) as [A16 A24]. destruct (rd_some body 0 4 ltac:(lia)) as [v1 Ea]. destruct (rd_some body 8 8 ltac:(lia)) as [v Eaddr].
    rewrite Eaddr. cbn [need]. rewrite <- (rd_word _ _ _ _ Eaddr) in A24.
    destruct (negb (v =? 0)) eqn:V0; [intros H; injection H as <- _ _; exact I|]. specialize (A24 ltac:(lia)).
    destruct (rd_some body 16 8 ltac:(lia)) as [v0 Es]. rewrite Es. cbn [need]. rewrite Ea. cbn [need]. destruct (negb (v0 =? 0)); [intros H; injection H as <- _ _; exact I|].
    destruct (N.of_nat (length body) <? 24); [intros H; injection H as <- _ _; exact I|].
    destruct (slice_some body 0 24 ltac:(lia)) as [hdr Eh]. rewrite Eh. cbn [need].
    destruct ((v1 <? 24) || (MAX_XFER <? v1)); [intros H; injection H as <- _ _; exact I|].
    unfold remove_all_regions. destruct (release_all_ok (cx_unregister c) (dm_regions d) (inv_fd _ Id)) as [ev1 ->]. intros H; injection H as <- _ _; exact I. }
  destruct (flags =? 0); [|intros H; injection H as <- _ _; exact I].
  destruct (N.of_nat (length body) <? 24) eqn:L24; [intros H; injection H as <- _ _; exact I|]. rds.
  destruct (slice_some body 0 24 ltac:(lia)) as [hdr Eh]. rewrite Eh. cbn [need].
  destruct ((v <? 24) || (MAX_XFER <? v)); [intros H; injection H as <- _ _; exact I|]. now apply FIN.
Qed.

(* ---------- region accesses *)

Lemma valid_access_end c len w off region count r : valid_region_access c len w off region count = true -> nth_error (cx_regs c) (N.to_nat region) = Some r ->
  off < two64 -> count < two64 -> ri_size r < two64 - 1 -> off + count <= ri_size r /\ count <= MAX_XFER /\ (w = true -> len - 16 = count).
Proof.
  intros V R O C S. unfold valid_region_access in V. destruct (MAX_XFER <? count) eqn:M; [discriminate V|].
  destruct (w && negb (len - 16 =? count)) eqn:W; [discriminate V|]. rewrite R in V. destruct (ri_size r <? satadd_u64 off count) eqn:E; [discriminate V|].
  split; [|split; [lia|]].
  - unfold satadd_u64, w64 in E. destruct (N.lt_ge_cases (off + count) two64) as [Q|Q].
    + rewrite N.mod_small in E by exact Q. destruct (off + count <? off) eqn:Q2; lia.
    + assert (M2 : (off + count) mod two64 = off + count - two64) by (symmetry; apply (N.mod_unique _ _ 1); unfold two64 in *; lia).
      rewrite M2 in E. destruct (off + count - two64 <? off) eqn:Q2; lia.
  - intros ->. cbn [andb] in W. lia.
Qed.

Lemma access_ok c o w body r c' ev : sound c -> bytes body -> full_callbacks (or_access o) -> (w = true -> harmless_write c body) ->
  handle_region_access c o w body = (r, c', ev) -> no_crash r /\ sound c' /\ all_caps (cx_pci c') = all_caps (cx_pci c).
Proof.
  intros S B FC HW H. pose proof S as (K & Lc & (r7 & R7 & Z7) & _).
  assert (SELF : forall r0 ev0, no_crash r0 -> (r0, c, ev0) = (r, c', ev) -> no_crash r /\ sound c' /\ all_caps (cx_pci c') = all_caps (cx_pci c)).
  { intros r0 ev0 N Q. injection Q as <- <- <-. auto. }
  unfold handle_region_access in H. destruct (N.of_nat (length body) <? 16) eqn:L; [refine (SELF _ _ _ H); exact Logic.I|].
  destruct (rd_some body 0 8 ltac:(lia)) as [off Eo]. destruct (rd_some body 8 4 ltac:(lia)) as [region Er]. destruct (rd_some body 12 4 ltac:(lia)) as [count Ec].
  rewrite Eo, Er, Ec in H. cbn [need] in H.
  destruct (valid_region_access c (N.of_nat (length body)) w off region count) eqn:V; cbn [negb] in H; [|refine (SELF _ _ _ H); exact Logic.I].
  destruct (count =? 0) eqn:C0; [refine (SELF _ _ _ H); exact Logic.I|].
  set (out := le_bytes 8 off ++ le_bytes 4 region ++ le_bytes 4 count) in *.
  assert (FIN : forall res buf c1 ev1, (forall cr, res <> Crash cr) -> sound c1 -> all_caps (cx_pci c1) = all_caps (cx_pci c) ->
    region_access c o region w off count (if w then skipn 16 body else []) = (res, buf, c1, ev1) ->
    no_crash r /\ sound c' /\ all_caps (cx_pci c') = all_caps (cx_pci c)).
  { intros res buf c1 ev1 N S1 A1 Q. rewrite Q in H. destruct res as [n|e|cr]; [destruct (n =? count)| |now destruct (N cr)]; injection H as <- <- <-; split; try exact Logic.I; auto. }
  destruct (region_access c o region w off count (if w then skipn 16 body else [])) as [[[res buf] c1] ev1] eqn:Q.
  unfold region_access in Q. destruct (nth_error (cx_regs c) (N.to_nat region)) as [rg|] eqn:Rg.
  2:{ unfold valid_region_access in V. rewrite Rg in V. destruct (MAX_XFER <? count); [discriminate V|]. destruct (w && negb (N.of_nat (length body) - 16 =? count)); discriminate V. }
  destruct ((region =? CFG_REGION) && negb (has (ri_flags rg) REGION_FLAG_ALWAYS_CB)) eqn:CF.
  - assert (E7 : region = 7) by (change CFG_REGION with 7 in CF; lia). rewrite E7 in Rg, Er. change (N.to_nat 7) with 7%nat in Rg. rewrite R7 in Rg. injection Rg as <-.
    assert (R7' : nth_error (cx_regs c) (N.to_nat region) = Some r7) by (rewrite E7; exact R7).
    assert (C64 : count < two64) by (pose proof (rd_bound _ _ _ _ B Ec) as Q4; change (256 ^ N.of_nat 4) with 4294967296 in Q4; unfold two64; lia).
    destruct (valid_access_end _ _ _ _ _ _ _ V R7' (rd_bound _ _ _ _ B Eo) C64 ltac:(unfold two64; lia)) as (En & Mc & Wc). rewrite Z7 in En.
    destruct w.
    + specialize (HW eq_refl). specialize (Wc eq_refl). unfold harmless_write in HW.
      rewrite <- (rd_word _ _ _ _ Eo), <- (rd_word _ _ _ _ Er) in HW. destruct (HW eq_refl) as [NR HR].
      assert (Ld : length (skipn 16 body) = (length body - 16)%nat) by (apply skipn_length).
      destruct (config_write (env_of c) (cx_pci c) (or_access o) (or_reset o) off (skipn 16 body)) as [[res1 p1] ev2] eqn:CW.
      pose proof CW as CW2. unfold config_write in CW. 
      assert (NRs : forall cc, In cc (all_caps (cx_pci c)) -> ~ runs_past cc off (N.of_nat (length (skipn 16 body)))) by (rewrite Ld; exact NR).
      assert (HRs : whole off (N.of_nat (length (skipn 16 body)))) by (rewrite Ld; exact HR).
      pose proof (cfg_write_safe (length (skipn 16 body)) (env_of c) (cx_pci c) (or_access o) (or_reset o) 0 off (skipn 16 body) 0 K (bytes_skipn _ _ B) FC (le_n _) NRs HRs) as NC.
      destruct (cfg_write_frame _ _ _ _ _ _ _ _ _ _ _ _ K (bytes_skipn _ _ B) FC NRs CW) as (P1 & BS & _).
      rewrite CW in NC. cbn [fst] in NC. destruct BS as (BL & BB & _).
      injection Q as <- <- <- <-.
      assert (AC : all_caps p1 = all_caps (cx_pci c)) by (rewrite P1; reflexivity).
      assert (K1 : caps_ok p1) by (rewrite P1; apply caps_ok_cfg; [exact K|exact BL|apply BB; apply (co_bytes _ K)]).
      refine (FIN _ _ (set_pci c p1) _ NC _ AC eq_refl). destruct S as (_ & _ & _ & Sr). split; [exact K1|]. cbn [set_pci cx_pci cx_regs]. rewrite BL. split; [exact Lc|]. split; [eauto|exact Sr].
    + destruct (config_read (env_of c) (cx_pci c) (or_access o) off count) as [[res1 p1] ev2] eqn:CR. injection Q as <- <- <- <-.
      unfold config_read in CR. pose proof (cfg_read_safe (N.to_nat count) (env_of c) (cx_pci c) (or_access o) 0 count off 0 K FC (le_n _) En) as NC. rewrite CR in NC.
      exact (FIN _ _ c _ NC S eq_refl eq_refl).
  - destruct (negb (ri_cb rg)); [injection Q as <- <- <- <-; refine (FIN _ _ c _ _ S eq_refl eq_refl); discriminate|].
    destruct (or_access o 0%nat off count) as [n bf|e]; injection Q as <- <- <- <-; (refine (FIN _ _ c _ _ S eq_refl eq_refl); discriminate).
Qed.

(* ---------- device features *)

Lemma mig_safe answers s target o st ev : target <> 8 -> migration_set_state answers (wire s) target = (o, st, ev) ->
  (forall cr, o <> Crash cr) /\ exists s', st = wire s'.
Proof.
  intros N8 H. destruct (C30_legal_transitions answers s target o st ev N8 H) as (s' & E & _). split; [|eauto].
  assert (Bad : (forall t, target <> wire t) \/ (s = VFU_STOP_AND_COPY /\ target = wire VFU_PRE_COPY) -> forall cr, o <> Crash cr).
  { intros D. rewrite (C30_refused_without_notification answers s target N8 D) in H. injection H as <- _ _. discriminate. }
  assert (Good : forall t, target = wire t -> forall cr, o <> Crash cr).
  { intros t ->. assert (D : (s = VFU_STOP_AND_COPY /\ t = VFU_PRE_COPY) \/ ~ (s = VFU_STOP_AND_COPY /\ t = VFU_PRE_COPY)).
    { destruct s, t; (left; split; reflexivity) || (right; intros [? ?]; discriminate). }
    destruct D as [[D1 ->]|D]; [apply Bad; right; auto|].
    destruct (C31_shortest_path answers s t D) as (p & s1 & seen & r & _ & _ & Q). rewrite Q in H. injection H as <- _ _. destruct r; discriminate. }
  destruct (N.eq_dec target 1); [apply (Good VFU_STOP); assumption|]. destruct (N.eq_dec target 2); [apply (Good VFU_RUNNING); assumption|].
  destruct (N.eq_dec target 3); [apply (Good VFU_STOP_AND_COPY); assumption|]. destruct (N.eq_dec target 4); [apply (Good VFU_RESUME); assumption|].
  destruct (N.eq_dec target 6); [apply (Good VFU_PRE_COPY); assumption|]. apply Bad. left. intros []; cbn; assumption.
Qed.

Definition mig_known (c : ctx) : Prop := cx_mig c = None \/ exists m, cx_mig c = Some (wire m).

Lemma feature_ok c o body r c' ev : (forall d, cx_dma c = Some d -> inv d) -> modest c -> mig_known c -> bytes body -> harmless_feature c body ->
  handle_device_feature c o body = (r, c', ev) -> no_crash r /\ mig_known c'.
Proof.
  intros Id Mx MK B HF H.
  assert (SELF : forall r0 ev0, no_crash r0 -> (r0, c, ev0) = (r, c', ev) -> no_crash r /\ mig_known c').
  { intros r0 ev0 N Q. injection Q as <- <- <-. auto. }
  unfold handle_device_feature in H. destruct (N.of_nat (length body) <? 8) eqn:L; [refine (SELF _ _ _ H); exact Logic.I|].
  destruct (rd_some body 0 4 ltac:(lia)) as [argsz Ea]. destruct (rd_some body 4 4 ltac:(lia)) as [flags Ef]. rewrite Ea, Ef in H. cbn [need] in H.
  unfold harmless_feature in HF. rewrite <- (rd_word _ _ _ _ Ef), <- (rd_word _ _ _ _ Ea) in HF.
  pose proof (N.lor_ldiff_and flags FEATURE_MASK) as FL. set (ops := N.ldiff flags FEATURE_MASK) in *. set (ft := N.land flags FEATURE_MASK) in *. clearbody ops ft.
  destruct (negb (N.land flags (feature_supported (cx_mig c) ft) =? ops) || (feature_supported (cx_mig c) ft =? 0)) eqn:SUP; [refine (SELF _ _ _ H); exact Logic.I|].
  assert (MIG : exists m, cx_mig c = Some (wire m)).
  { destruct MK as [M|M]; [|exact M]. rewrite M in SUP. cbn [feature_supported] in SUP. change (0 =? 0) with true in SUP. rewrite orb_true_r in SUP. discriminate SUP. }
  destruct MIG as [m Em]. rewrite Em in SUP.
  destruct (HF ltac:(rewrite Em; discriminate) ltac:(lia)) as (H2 & H6 & H7 & H8).
  destruct (ops =? FEATURE_GET) eqn:EG.
  { apply N.eqb_eq in EG. subst ops. destruct (is_migration_feature ft) eqn:IM.
    { refine (SELF _ _ _ H). unfold migration_feature_get. destruct (argsz <? 16); [exact Logic.I|]. destruct (ft =? FEATURE_MIGRATION); [exact Logic.I|].
      destruct (ft =? FEATURE_MIG_DEVICE_STATE); [rewrite Em; exact Logic.I|exact Logic.I]. }
    destruct (is_dma_feature ft) eqn:ID; [|refine (SELF _ _ _ H); exact Logic.I].
    assert (ft = 8).
    { unfold is_dma_feature in ID. apply orb_prop in ID. destruct ID as [ID|ID]; [apply orb_prop in ID; destruct ID as [ID|ID]|]; apply N.eqb_eq in ID.
      - exfalso. subst ft. subst flags. vm_compute in SUP. discriminate SUP.
      - exfalso. subst ft. subst flags. vm_compute in SUP. discriminate SUP.
      - exact ID. }
    subst ft. change (N.lor FEATURE_GET 8) with (8 + 2 ^ 16) in FL. specialize (H8 (eq_sym FL)).
    destruct (dma_feature_get c argsz flags body) as [r1 c1] eqn:G. injection H as <- <- <-. unfold dma_feature_get in G.
    destruct (cx_dma c) as [d|] eqn:Ed; [|injection G as <- <-; split; [exact Logic.I|exact MK]]. destruct (H8 ltac:(discriminate)) as [L32 RO].
    destruct (rd_some body 16 8 ltac:(lia)) as [size Es]. rewrite Es in G. destruct (rd_some body 24 8 ltac:(lia)) as [pg Ep]. rewrite Ep in G. cbn [need] in G.
    destruct (get_bitmap_size size pg) as [bsize|e|cr] eqn:BS; [|injection G as <- <-; split; [exact Logic.I|exact MK]|].
    2:{ exfalso. unfold get_bitmap_size in BS. repeat match type of BS with (if ?b then _ else _) = _ => destruct b end; discriminate BS. }
    destruct (argsz <? 32 + bsize); [injection G as <- <-; split; [exact Logic.I|exact MK]|].
    destruct (rd_some body 8 8 ltac:(lia)) as [addr Eaddr]. rewrite Eaddr in G. cbn [need] in G.
    rewrite <- (rd_word _ _ _ _ Eaddr), <- (rd_word _ _ _ _ Es), <- (rd_word _ _ _ _ Ep) in RO. unfold logged_pages in RO. rewrite Ed in RO.
    assert (P64 : pg < two64) by exact (rd_bound _ _ _ _ B Ep).
    assert (LB : N.of_nat (length (zeros (N.to_nat bsize))) = bsize) by (unfold zeros; rewrite repeat_length; lia).
    pose proof (dirty_page_get_safe d (cx_hint c) addr size pg bsize (zeros (N.to_nat bsize)) (Id d eq_refl) (Mx d Ed) P64 LB RO) as NC.
    destruct (dirty_page_get d (cx_hint c) addr size pg bsize (zeros (N.to_nat bsize))) as [[[bm|e|cr] d1] h1] eqn:GG; [| |now destruct (NC cr d1 h1)];
      injection G as <- <-; split; try exact Logic.I; exact MK. }
  destruct (ops =? FEATURE_SET) eqn:ES.
  { apply N.eqb_eq in ES. subst ops. destruct (argsz <? N.of_nat (length body)) eqn:AZ; [refine (SELF _ _ _ H); exact Logic.I|]. assert (AL : N.of_nat (length body) <= argsz) by (clear - AZ; lia).
    destruct (is_migration_feature ft) eqn:IM.
    { assert (ft = 2).
      { unfold is_migration_feature in IM. apply orb_prop in IM. destruct IM as [IM|IM]; apply N.eqb_eq in IM; [|exact IM].
        exfalso. subst ft. subst flags. vm_compute in SUP. discriminate SUP. }
      subst ft. change (N.lor FEATURE_SET 2) with (2 + 2 ^ 17) in FL. destruct (H2 (eq_sym FL) AL) as [L12 T8].
      unfold migration_feature_set in H. change (negb (2 =? FEATURE_MIG_DEVICE_STATE)) with false in H.
      destruct (rd_some body 8 4 ltac:(lia)) as [st Est]. rewrite Est in H. cbn [need] in H. rewrite <- (rd_word _ _ _ _ Est) in T8. rewrite Em in H.
      destruct (migration_set_state (or_trans o) (wire m) st) as [[res cur'] ev1] eqn:MS. destruct (mig_safe _ _ _ _ _ _ T8 MS) as [NC [s' E']].
      injection H as <- <- <-. split; [destruct res as [u|e|cr]; [exact Logic.I|exact Logic.I|now destruct (NC cr)]|]. right. exists s'. cbn [set_mig cx_mig]. now rewrite E'. }
    destruct (is_dma_feature ft) eqn:ID; [|refine (SELF _ _ _ H); exact Logic.I].
    destruct (dma_feature_set c o ft body) as [r1 c1] eqn:G. injection H as <- <- <-. unfold dma_feature_set in G.
    assert (C67 : ft = 6 \/ ft = 7).
    { unfold is_dma_feature in ID. apply orb_prop in ID. destruct ID as [ID|ID]; [apply orb_prop in ID; destruct ID as [ID|ID]|]; apply N.eqb_eq in ID; [auto|auto|].
      exfalso. subst ft. subst flags. vm_compute in SUP. discriminate SUP. }
    destruct C67 as [->| ->].
    - change (N.lor FEATURE_SET 6) with (6 + 2 ^ 17) in FL. destruct (H6 (eq_sym FL) AL) as [L16 DN]. destruct (cx_dma c) as [d|] eqn:Ed; [|congruence].
      change (6 =? FEATURE_DMA_LOGGING_START) with true in G. destruct (rd_some body 8 8 ltac:(lia)) as [pg Ep]. rewrite Ep in G. cbn [need] in G.
      destruct (logging_start (or_calloc o) d pg) as [res d'] eqn:LS. destruct (logging_start_spec _ _ _ _ _ (Id d eq_refl) LS) as (_ & _ & [(e & -> & _)|(-> & _)]);
      injection G as <- <-; (split; [exact Logic.I|exact MK]).
    - change (N.lor FEATURE_SET 7) with (7 + 2 ^ 17) in FL. specialize (H7 (eq_sym FL) AL). destruct (cx_dma c) as [d|] eqn:Ed; [|congruence].
      change (7 =? FEATURE_DMA_LOGGING_START) with false in G. change (7 =? FEATURE_DMA_LOGGING_STOP) with true in G. cbn match in G.
      injection G as <- <-. split; [exact Logic.I|exact MK]. }
  destruct (negb (has ops FEATURE_PROBE)); [refine (SELF _ _ _ H); exact Logic.I|].
  destruct (argsz <? N.of_nat (length body)); refine (SELF _ _ _ H); exact Logic.I.
Qed.

(* ---------- dispatch *)

Lemma access_mig c o w body r c' ev : handle_region_access c o w body = (r, c', ev) -> cx_mig c' = cx_mig c.
Proof.
  intros H. unfold handle_region_access in H. destruct (N.of_nat (length body) <? 16); [injection H as <- <- <-; auto|].
  needs H; try (injection H as <- <- <-; auto).
  destruct (negb (valid_region_access c (N.of_nat (length body)) w n n0 n1)); [injection H as <- <- <-; auto|].
  destruct (n1 =? 0); [injection H as <- <- <-; auto|].
  destruct (region_access c o n0 w n n1 (if w then skipn 16 body else [])) as [[[res buf] c1] ev1] eqn:Q.
  assert (E : cx_mig c1 = cx_mig c).
  { unfold region_access in Q. destruct (nth_error (cx_regs c) (N.to_nat n0)) as [rg|]; [|injection Q as <- <- <- <-; auto].
    destruct ((n0 =? CFG_REGION) && negb (has (ri_flags rg) REGION_FLAG_ALWAYS_CB)).
    - destruct w; [destruct (config_write (env_of c) (cx_pci c) (or_access o) (or_reset o) n (skipn 16 body)) as [[o1 p1] e1]|
        destruct (config_read (env_of c) (cx_pci c) (or_access o) n n1) as [[o1 p1] e1]]; injection Q as <- <- <- <-; reflexivity.
    - destruct (negb (ri_cb rg)); [injection Q as <- <- <- <-; reflexivity|]. destruct (or_access o 0%nat n n1); injection Q as <- <- <- <-; reflexivity. }
  destruct res as [k|e|cr]; [destruct (k =? n1)| |]; injection H as <- <- <-; exact E.
Qed.

Record good (c : ctx) : Prop := {
  g_inv : cinv c;
  g_max : modest c;
  g_sound : sound c;
  g_mig : mig_known c
}.

Lemma sound_same c c' : sound c -> cx_pci c' = cx_pci c -> cx_regs c' = cx_regs c -> sound c'.
Proof. intros S P R. unfold sound. rewrite P, R. exact S. Qed.

Lemma mig_same c c' : mig_known c -> cx_mig c' = cx_mig c -> mig_known c'.
Proof. intros M E. unfold mig_known. rewrite E. exact M. Qed.

Lemma mig_data_read_ok m max a body : no_crash (fst (mig_data_read m max a body)).
Proof.
  unfold mig_data_read. destruct (N.of_nat (length body) <? 8) eqn:L; [exact I|]. rds. destruct m as [st|]; [|exact I].
  destruct (negb (st =? ST_PRE_COPY) && negb (st =? ST_STOP_COPY)); [exact I|]. destruct (max <? v0); [exact I|]. destruct (v <? 8 + v0); [exact I|]. destruct a; exact I.
Qed.
Lemma mig_data_write_ok m max a body : no_crash (fst (mig_data_write m max a body)).
Proof.
  unfold mig_data_write. destruct (N.of_nat (length body) <? 8) eqn:L; [exact I|]. rds. destruct m as [st|]; [|exact I].
  destruct (negb (st =? ST_RESUMING)); [exact I|]. destruct (max <? v0); [exact I|]. destruct (v <? 8 + v0); [exact I|].
  destruct (N.of_nat (length body) <? 8 + v0) eqn:L2; [exact I|]. destruct (slice_some body 8 (N.to_nat v0) ltac:(lia)) as [s ->]. cbn [need].
  destruct a as [n b|e]; [destruct (n =? v0); exact I|exact I].
Qed.

Lemma dispatch_safe c o cmd body fds r c' fds' ev : good c -> bytes body -> Forall (fun fd => (0 <= fd)%Z) fds -> full_callbacks (or_access o) ->
  harmless c cmd body -> dispatch c o cmd body fds = (r, c', fds', ev) -> no_crash r /\ good c'.
Proof.
  intros [Gi Gm Gs Gg] B F FC (HU & HF & HW) H. pose proof Gi as [Id (t & Et & Ot)].
  assert (MAIN : no_crash r /\ sound c' /\ mig_known c').
  { pose proof H as H0. unfold dispatch in H.
    assert (SELF : forall r0 f0 ev0, no_crash r0 -> (r0, c, f0, ev0) = (r, c', fds', ev) -> no_crash r /\ sound c' /\ mig_known c').
    { intros r0 f0 ev0 N Q. injection Q as <- <- _ _. auto. }
    assert (DM : forall c1, (c1 = c \/ exists d h, c1 = set_dma c d h) -> sound c1 /\ mig_known c1).
    { intros c1 [->|(d & h & ->)]; [auto|]. split; [now apply (sound_same c)|now apply (mig_same c)]. }
    destruct (cmd =? CMD_DMA_MAP) eqn:E2.
    { destruct (cx_dma c) as [d|] eqn:Ed; [|refine (SELF _ _ _ _ H); exact Logic.I].
      split; [exact (handle_dma_map_ok _ _ _ _ _ _ _ _ _ (Id d eq_refl) H)|]. apply dma_map_kept in H. apply DM, H. }
    destruct (cmd =? CMD_DMA_UNMAP) eqn:E3.
    { destruct (cx_dma c) as [d|] eqn:Ed; [|refine (SELF _ _ _ _ H); exact Logic.I].
      destruct (handle_dma_unmap c d o body) as [[r1 c1] ev1] eqn:Q. injection H as <- <- _ _.
      assert (HUb : harmless_unmap c body) by (apply HU; [change CMD_DMA_UNMAP with 3 in E3; lia|discriminate]).
      split; [exact (dma_unmap_ok _ _ _ _ _ _ _ (Id d eq_refl) Ed (Gm d Ed) B HUb Q)|]. apply dma_unmap_kept in Q. apply DM, Q. }
    destruct (cmd =? CMD_GET_INFO); [refine (SELF _ _ _ _ H); apply get_info_ok|].
    destruct (cmd =? CMD_GET_REGION_INFO); [refine (SELF _ _ _ _ H); now apply get_region_info_ok|].
    destruct (cmd =? CMD_GET_REGION_IO_FDS); [refine (SELF _ _ _ _ H); now apply get_region_io_fds_ok|].
    destruct (cmd =? CMD_GET_IRQ_INFO); [refine (SELF _ _ _ _ H); apply get_irq_info_ok|].
    destruct (cmd =? CMD_SET_IRQS).
    { rewrite Et in H. destruct (set_irqs (cx_irq_cfg c) t (or_efd o) body fds) as [[[r1 t1] f1] ev1] eqn:Q. injection H as <- <- _ _.
      split; [exact (set_irqs_ok _ _ _ _ _ _ _ _ _ Ot B F Q)|]. split; [now apply (sound_same c)|now apply (mig_same c)]. }
    destruct (cmd =? CMD_REGION_READ).
    { destruct (handle_region_access c o false body) as [[r1 c1] ev1] eqn:Q. injection H as <- <- _ _.
      assert (M1 : cx_mig c1 = cx_mig c) by exact (access_mig _ _ _ _ _ _ _ Q).
      apply access_ok in Q; [|exact Gs|exact B|exact FC|discriminate]. destruct Q as (Q1 & Q2 & _). split; [exact Q1|]. split; [exact Q2|now apply (mig_same c)]. }
    destruct (cmd =? CMD_REGION_WRITE) eqn:E10.
    { destruct (handle_region_access c o true body) as [[r1 c1] ev1] eqn:Q. injection H as <- <- _ _.
      assert (M1 : cx_mig c1 = cx_mig c) by exact (access_mig _ _ _ _ _ _ _ Q).
      apply access_ok in Q; [|exact Gs|exact B|exact FC|]. 2:{ intros _. apply HW. change CMD_REGION_WRITE with 10 in E10. lia. }
      destruct Q as (Q1 & Q2 & _). split; [exact Q1|]. split; [exact Q2|now apply (mig_same c)]. }
    destruct (cmd =? CMD_RESET).
    { unfold device_reset in H.
      assert (MR : mig_known (set_mig c match cx_mig c with Some _ => Some ST_RUNNING | None => None end)).
      { unfold mig_known. cbn [set_mig cx_mig]. destruct (cx_mig c); [right; exists VFU_RUNNING; reflexivity|left; reflexivity]. }
      destruct (cx_reset c); [destruct (or_reset o 0%nat)|]; injection H as <- <- _ _; (split; [exact Logic.I|]); (split; [now apply (sound_same c)|]); [exact Gg|exact MR|exact MR]. }
    destruct (cmd =? CMD_FEATURE) eqn:E16.
    { destruct (handle_device_feature c o body) as [[r1 c1] ev1] eqn:Q. injection H as <- <- _ _.
      assert (HFb : harmless_feature c body) by (apply HF; change CMD_FEATURE with 16 in E16; lia).
      destruct (feature_ok _ _ _ _ _ _ Id Gm Gg B HFb Q) as [Q1 Q2]. split; [exact Q1|]. split; [|exact Q2].
      apply (feature_shape true) in Q. destruct Q as (S & _ & _ & P & _). destruct S as (SR & _). now apply (sound_same c). }
    destruct (cmd =? CMD_MIG_READ).
    { pose proof (mig_data_read_ok (cx_mig c) (cx_max_xfer c) (or_data o) body) as K. destruct (mig_data_read (cx_mig c) (cx_max_xfer c) (or_data o) body). exact (SELF _ _ _ K H). }
    destruct (cmd =? CMD_MIG_WRITE).
    { pose proof (mig_data_write_ok (cx_mig c) (cx_max_xfer c) (or_data o) body) as K. destruct (mig_data_write (cx_mig c) (cx_max_xfer c) (or_data o) body). exact (SELF _ _ _ K H). }
    refine (SELF _ _ _ _ H); exact Logic.I. }
  destruct MAIN as (NC & S' & M'). split; [exact NC|]. constructor; [exact (dispatch_cinv _ _ _ _ _ _ _ _ _ Gi H NC)| |exact S'|exact M'].
  intros d' E'. destruct (dispatch_shape _ _ _ _ _ _ _ _ _ H) as (SS & _ & D).
  destruct (cx_dma c) as [d|] eqn:Ed.
  - destruct (D (if cmd =? 2 then cx_register c else cx_unregister c) d) as (d1 & E1 & ops & evd & R & _); auto.
    { intros ->. reflexivity. } { intros ->. reflexivity. }
    rewrite E' in E1. injection E1 as <-. rewrite (run_max _ _ _ _ _ R). exact (Gm d Ed).
  - destruct SS as (_ & _ & _ & _ & _ & _ & _ & [SS _] & _). rewrite (SS Ed) in E'. discriminate E'.
Qed.

(* ---------- the server *)

Definition waiting_ok (s : server) : Prop :=
  forall m, sv_pending s = PMsg m ->
    bytes (mg_body m) /\ Forall (fun fd => (0 <= fd)%Z) (mg_fds m) /\ harmless (sv_ctx s) (hd_cmd (mg_hdr m)) (mg_body m).
Definition safe_state (s : server) : Prop := sinv s /\ good (sv_ctx s) /\ waiting_ok s.

Lemma good_loss s s' lost : good (sv_ctx s) -> loss_post s s' lost -> good (sv_ctx s').
Proof.
  intros [Gi Gm Gs Gg] (_ & _ & _ & M & _ & _ & _ & S & I & P & D). pose proof S as (SR & _).
  constructor; [exact I| |now apply (sound_same (sv_ctx s))|].
  - intros d' E'. destruct (cx_dma (sv_ctx s)) as [d|] eqn:Ed.
    + rewrite (D d eq_refl) in E'. injection E' as <-. exact (Gm d Ed).
    + destruct S as (_ & _ & _ & _ & _ & _ & _ & [S _] & _). rewrite (S Ed) in E'. discriminate E'.
  - unfold mig_known. rewrite M. destruct (cx_reset (sv_ctx s) && match lost with Some _ => true | None => false end); [exact Gg|].
    destruct (cx_mig (sv_ctx s)); [right; exists VFU_RUNNING; reflexivity|left; reflexivity].
Qed.

Lemma good_reply s en h r o s' ev : good (sv_ctx s) -> reply_case s en h r o s' ev -> good (sv_ctx s').
Proof.
  intros G [W|W S|e W S E|e e' W S E Q P Qr|e s1 W S E Q P]; try exact G.
  - destruct (e' =? EBUSY); exact G.
  - exact (good_loss _ _ _ G P).
Qed.

Lemma handle_safe s en m : good (sv_ctx s) -> bytes (mg_body m) -> Forall (fun fd => (0 <= fd)%Z) (mg_fds m) -> full_callbacks (or_access (en_or en)) ->
  harmless (sv_ctx s) (hd_cmd (mg_hdr m)) (mg_body m) ->
  forall o s' f ev, handle_request s en m = (o, s', f, ev) -> (forall cr, o <> Crash cr) /\ good (sv_ctx s').
Proof.
  intros G B F FC HA o s' f ev H. unfold handle_request in H.
  destruct (dispatch (sv_ctx s) (en_or en) (hd_cmd (mg_hdr m)) (mg_body m) (mg_fds m)) as [[[r c1] f1] ev1] eqn:D.
  destruct (dispatch_safe _ _ _ _ _ _ _ _ _ G B F FC HA D) as [NC G1]. destruct r as [err body fds|cr]; [|destruct NC].
  destruct (do_reply (set_ctx s c1) en (mg_hdr m) err body fds) as [[o2 s2] ev2] eqn:R. injection H as <- <- <- <-.
  apply (do_reply_cases _ _ _ _ _ _ _ _ _ (g_inv _ G1 : cinv (sv_ctx (set_ctx s c1)))) in R. split.
  - exact (proj1 (proj2 (reply_replies _ _ _ _ _ _ _ R eq_refl eq_refl))).
  - exact (good_reply (set_ctx s c1) _ _ _ _ _ _ G1 R).
Qed.

Lemma accepted_body s h rbody body : accepted s h rbody body ->
  (body = [] /\ hd_cmd h = 13) \/ exists l, rbody = inr l /\ body = firstn (N.to_nat (hd_size h - 16)) l.
Proof.
  intros [b V R E]. destruct (hd_size h =? 16) eqn:Z.
  { injection R as <-. left. split; [reflexivity|]. unfold is_valid_header in V. rewrite Z in V.
    destruct (negb (N.land (hd_flags h) F_TYPE_MASK =? F_TYPE_COMMAND)); [discriminate V|]. destruct (hd_size h <? 16); [discriminate V|].
    cbn [andb] in V. destruct (hd_cmd h =? CMD_RESET) eqn:C; [change CMD_RESET with 13 in C; lia|discriminate V]. }
  right. unfold recv_body in R. destruct rbody as [e|l]; [discriminate R|].
  exists l. split; [reflexivity|]. destruct (N.of_nat (length (firstn (N.to_nat (hd_size h - 16)) l)) =? 0); [discriminate R|].
  destruct (negb (N.of_nat (length (firstn (N.to_nat (hd_size h - 16)) l)) =? hd_size h - 16)); [discriminate R|]. injection R as <-. reflexivity.
Qed.

Lemma harmless_same c c' cmd body : (cx_dma c = None <-> cx_dma c' = None) -> cx_mig c' = cx_mig c -> logged_pages c' = logged_pages c -> all_caps (cx_pci c') = all_caps (cx_pci c) ->
  harmless c cmd body -> harmless c' cmd body.
Proof.
  intros D M P C (A & B & W). unfold harmless, harmless_unmap, harmless_feature, harmless_write in *. rewrite P, C, M.
  split; [intros E N; apply A; tauto|]. split; [|exact W]. intros E Mn L. destruct (B E Mn L) as (B1 & B2 & B3 & B4). split; [exact B1|].
  split; [intros F Z; destruct (B2 F Z); split; tauto|]. split; [intros F Z; specialize (B3 F Z); tauto|intros F Z; apply B4; tauto].
Qed.

Lemma waiting_none s : sv_pending s = PNone \/ sv_pending s = PReset -> waiting_ok s.
Proof. intros [P|P] m Q; rewrite P in Q; discriminate Q. Qed.

(* What a harmless step delivers. *)
Lemma delivered_msg s en h fds rbody body : delivered en -> en_rx en = RxMsg h fds rbody -> accepted s h rbody body ->
  match en_rx en with RxMsg h _ (inr l) => harmless (sv_ctx s) (hd_cmd h) (firstn (N.to_nat (hd_size h - 16)) l) | _ => True end ->
  bytes body /\ Forall (fun fd => (0 <= fd)%Z) fds /\ harmless (sv_ctx s) (hd_cmd h) body.
Proof.
  intros D X A H. unfold delivered in D. rewrite X in D, H. destruct (accepted_body _ _ _ _ A) as [[-> C]|(l & -> & ->)].
  - split; [constructor|]. split; [destruct rbody; tauto|]. unfold harmless. rewrite C. split; [discriminate|split; discriminate].
  - destruct D as [Db Df]. split; [now apply bytes_firstn|]. auto.
Qed.

Lemma run_iter_safe s en : safe_state s -> serving s -> harmless_step s (SRun en) -> forall o s' ev, run_iter s en = (o, s', ev) -> forall cr, o <> Crash cr.
Proof.
  intros ((I & Q0 & PQ) & G & WO) (R & P & C) (FC & D & HM) o s' ev H cr. unfold run_iter in H.
  destruct (get_request s en) as [[g s1] ev1] eqn:GR. destruct (en_rx en) as [e|h fds rbody] eqn:X.
  - unfold get_request in GR. rewrite C, X in GR. cbn [negb] in GR. destruct ((e =? ENOMSG) || (e =? ECONNRESET)).
    + destruct (reset_ctx_spec s (en_quiesce_reset en) (en_lost en) I) as [(e' & _ & _ & _ & Rs)|(s2 & _ & Rs & _)]; rewrite Rs in GR; injection GR as <- <- <-.
      * injection H as <- _ _. destruct ((e' =? ENOMSG) || (e' =? EAGAIN)); discriminate.
      * injection H as <- _ _. destruct ((ENOTCONN =? ENOMSG) || (ENOTCONN =? EAGAIN)); discriminate.
    + injection GR as <- <- <-. injection H as <- _ _. destruct ((e =? ENOMSG) || (e =? EAGAIN)); discriminate.
  - apply (get_request_msg _ _ _ _ _ _ _ _ I C X) in GR.
    assert (HD : forall body, accepted s h rbody body -> bytes body /\ Forall (fun fd => (0 <= fd)%Z) fds /\ harmless (sv_ctx s) (hd_cmd h) body).
    { intros body A. apply (delivered_msg s en h fds rbody body D X A). rewrite X. exact HM. }
    inversion GR; subst; clear GR.
    + destruct (reply_replies _ _ _ _ _ _ _ H1 eq_refl eq_refl) as (_ & Hc & _).
      destruct o0 as [u|e'|c0]; [injection H as <- _ _; discriminate|injection H as <- _ _; destruct ((e' =? ENOMSG) || (e' =? EAGAIN)); discriminate|now destruct (Hc c0)].
    + injection H as <- _ _. discriminate.
    + destruct (HD _ H0) as (B & F & HA).
      destruct (handle_request (set_quiesced s true) en (mk_msg h body fds)) as [[[o2 s2] f2] ev2] eqn:Hr.
      destruct (handle_safe (set_quiesced s true) en (mk_msg h body fds) G B F FC HA _ _ _ _ Hr) as [Hc _].
      destruct o2 as [u|e|c0]; [injection H as <- _ _; discriminate|injection H as <- _ _; discriminate|now destruct (Hc c0)].
    + destruct (HD _ H0) as (B & F & HA).
      destruct (handle_request s1 en (mk_msg h body fds)) as [[[o2 s2] f2] ev2] eqn:Hr.
      destruct (handle_safe s1 en (mk_msg h body fds) G B F FC HA _ _ _ _ Hr) as [Hc _].
      destruct o2 as [u|e|c0]; [injection H as <- _ _; discriminate|injection H as <- _ _; discriminate|now destruct (Hc c0)].
Qed.

Lemma step_no_crash s st o s' ev : safe_state s -> harmless_step s st -> sv_step s st = (o, s', ev) -> forall cr, o <> Crash cr.
Proof.
  intros SS HS H cr. pose proof SS as ((I & Q0 & PQ) & G & WO). destruct st as [en|errno en|max|l|h|v ans|poff pdata]; cbn [sv_step] in H.
  - destruct (sv_realized s) eqn:R; cbn [negb] in H; [|injection H as <- _ _; discriminate].
    destruct (sv_pending s) eqn:P; [|injection H as <- _ _; discriminate..].
    destruct (sv_conn s) eqn:C.
    + assert (SV : serving s) by (unfold serving; auto). exact (run_iter_safe s en SS SV HS _ _ _ H cr).
    + unfold run_iter, get_request in H. rewrite C in H. cbn [negb] in H. injection H as <- _ _. discriminate.
  - unfold device_quiesced in H. destruct (cx_quiesce (sv_ctx s)); cbn [negb] in H; [|injection H as <- _ _; discriminate].
    destruct (sv_pending s) as [|m|] eqn:P; [injection H as <- _ _; discriminate| |].
    + destruct (errno =? 0); [|injection H as <- _ _; discriminate].
      destruct (WO m P) as (B & F & HA).
      destruct (handle_request (set_quiesced s true) en m) as [[[o2 s2] f2] ev2] eqn:Hr.
      destruct (handle_safe (set_quiesced s true) en m G B F HS HA _ _ _ _ Hr) as [Hc _].
      destruct o2 as [u|e|c0]; [injection H as <- _ _; discriminate|injection H as <- _ _; discriminate|now destruct (Hc c0)].
    + destruct (errno =? 0); [|injection H as <- _ _; discriminate].
      destruct (reset_quiesced_spec (set_quiesced s true) (en_lost en) I) as (s1 & Rs & _). rewrite Rs in H. injection H as <- _ _. discriminate.
  - destruct (sv_conn s); injection H as <- _ _; discriminate.
  - cbn [harmless_step] in HS. cbn [sv_step] in HS. rewrite H in HS. apply HS.
  - injection H as <- _ _. discriminate.
  - destruct I as [_ (t & Et & _)]. rewrite Et in H. unfold irq_trigger in H. destruct (nth_error (iq_efds t) (N.to_nat v)) as [fd|]; [|injection H as <- _ _; discriminate].
    destruct (fd =? -1)%Z; [injection H as <- _ _; discriminate|]. destruct ans; injection H as <- _ _; discriminate.
  - destruct HS as [_ HS]. unfold dev_poke in H. destruct (put_slice (pc_cfg (cx_pci (sv_ctx s))) (N.to_nat poff) pdata) as [cfg|] eqn:PS; [injection H as <- _ _; discriminate|].
    destruct (put_slice_some (pc_cfg (cx_pci (sv_ctx s))) (N.to_nat poff) pdata) as (l' & PS2); [lia|congruence].
Qed.

Lemma handled_good s en m o s' ev : good (sv_ctx s) -> bytes (mg_body m) -> Forall (fun fd => (0 <= fd)%Z) (mg_fds m) ->
  full_callbacks (or_access (en_or en)) -> harmless (sv_ctx s) (hd_cmd (mg_hdr m)) (mg_body m) -> handled s en m o s' ev -> good (sv_ctx s').
Proof.
  intros G B F FC HA [err body fds c1 fds' ev1 o1 s1 ev2 D K Fk R].
  destruct (dispatch_safe _ _ _ _ _ _ _ _ _ G B F FC HA D) as [_ G1]. exact (good_reply (set_ctx s c1) _ _ _ _ _ _ G1 R).
Qed.

Lemma step_safe s st o s' ev : safe_state s -> harmless_step s st -> sv_step s st = (o, s', ev) -> safe_state s'.
Proof.
  intros SS HS H. pose proof (step_no_crash _ _ _ _ _ SS HS H) as NC. pose proof SS as (SI & G & WO). pose proof SI as (I & Q0 & PQ).
  pose proof (step_cases _ _ _ _ _ SI H NC) as SC. destruct (step_kept _ _ _ _ _ SI SC) as [K SI']. split; [exact SI'|]. clear H NC.
  inversion SC; subst; clear SC; try (split; [exact G|exact WO]).
  - destruct (e' =? EBUSY); [|split; [exact G|exact WO]]. split; [exact G|apply waiting_none; right; reflexivity].
  - split; [eapply good_loss; eauto|]. apply waiting_none. left. destruct H3 as (_ & _ & _ & _ & P & _). destruct H as (_ & Pn & _). congruence.
  - split; [eapply good_reply; eauto|]. apply waiting_none. destruct (reply_replies _ _ _ _ _ _ _ H2 eq_refl eq_refl) as (_ & _ & _ & P).
    destruct H as (_ & Pn & _). destruct P as [P|(_ & P & _)]; [left; congruence|right; exact P].
  - split; [exact G|]. intros m E. cbn [set_pending sv_pending] in E. injection E as <-. cbn [mg_body mg_fds mg_hdr]. destruct HS as (FC & D & HM).
    exact (delivered_msg s en h fds rbody body D H0 H1 HM).
  - destruct HS as (FC & D & HM). destruct (delivered_msg s en h fds rbody body D H0 H1 HM) as (B & F & HA).
    pose proof (handled_good (set_quiesced s q) en (mk_msg h body fds) o0 s'0 ev0 G B F FC HA H3) as G'. split; [exact G'|].
    apply waiting_none. destruct (handled_kept _ _ _ _ _ _ H3) as (_ & _ & _ & P). destruct H as (_ & Pn & _). cbn [set_quiesced sv_pending] in *.
    destruct P as [P|(_ & P & _)]; [left; congruence|right; exact P].
  - destruct (WO m H) as (B & F & HA).
    pose proof (handled_good (set_quiesced s true) en m o0 s'0 ev G B F HS HA H1) as G'. split; [exact G'|apply waiting_none; left; reflexivity].
  - split; [|apply waiting_none; left; reflexivity]. exact (good_loss (set_quiesced s true) s'0 _ G H1).
  - split; [exact G|apply waiting_none; left; reflexivity].
  - destruct G as [Gi Gm Gs Gg]. split.
    + constructor; [apply K|exact Gm|exact Gs|exact Gg].
    + intros m E. destruct (WO m E) as (B & F & HA). split; [exact B|]. split; [exact F|]. eapply harmless_same; [..|exact HA]; reflexivity.
  - destruct G as [Gi Gm Gs Gg]. destruct (sgl_mark_dirty_inv _ _ _ (ci_dma _ I d H) H0) as (_ & _ & PG).
    assert (MX : dm_max_size d' = dm_max_size d).
    { apply (run_max true [OpMark l] d d' []). cbn [dma_run dma_step]. now rewrite H0. }
    split.
    + constructor; [apply K| |exact Gs|exact Gg]. intros d0 E. injection E as <-. rewrite MX. exact (Gm d H).
    + intros m E. destruct (WO m E) as (B & F & HA). split; [exact B|]. split; [exact F|].
      eapply harmless_same; [| | | |exact HA]; cbn [set_ctx sv_ctx set_dma cx_dma cx_pci].
      * split; intros Q; congruence.
      * reflexivity.
      * unfold logged_pages. cbn [set_dma cx_dma]. rewrite H. exact PG.
      * reflexivity.
  - unfold dev_hint in *. destruct (cx_dma (sv_ctx s)) as [d|] eqn:Ed; [|split; [exact G|exact WO]].
    destruct G as [Gi Gm Gs Gg]. split.
    + constructor; [apply K| |exact Gs|exact Gg]. intros d0 E. injection E as <-. exact (Gm d Ed).
    + intros m E. destruct (WO m E) as (B & F & HA). split; [exact B|]. split; [exact F|].
      eapply harmless_same; [| | | |exact HA]; cbn [set_ctx sv_ctx set_dma cx_dma cx_pci].
      * split; intros Q; congruence.
      * reflexivity.
      * unfold logged_pages. cbn [set_dma cx_dma]. now rewrite Ed.
      * reflexivity.
  - destruct G as [Gi Gm Gs Gg]. destruct HS as [B HS]. destruct Gs as (C1 & C2 & C3 & C4).
    pose proof (put_slice_length _ _ _ _ H) as L. split.
    + constructor; [apply K|exact Gm| |exact Gg]. cbn [set_ctx sv_ctx]. unfold sound. cbn [set_pci cx_pci cx_regs set_cfg pc_cfg]. rewrite L.
      split; [|split; [exact C2|split; [exact C3|exact C4]]]. apply caps_ok_cfg; [exact C1|exact L|].
      eapply put_slice_bytes; [| |exact H]; [apply C1|exact B].
    + intros m E. destruct (WO m E) as (B0 & F & HA). split; [exact B0|]. split; [exact F|]. eapply harmless_same; [..|exact HA]; reflexivity.
Qed.

Lemma fresh_safe s : fresh s -> sound (sv_ctx s) -> safe_state s.
Proof.
  intros F S. pose proof (fresh_sinv _ F) as SI. split; [exact SI|]. destruct F as ((D & _ & _ & _ & _ & _ & M) & P & _). split.
  - constructor; [apply SI| |exact S|].
    + intros d E. destruct D as [D|D]; rewrite D in E; [discriminate E|]. injection E as <-. cbn. vm_compute. discriminate.
    + destruct M as [M|M]; [left; exact M|right; exists VFU_RUNNING; exact M].
  - apply waiting_none. now left.
Qed.
