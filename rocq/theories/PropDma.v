(* Properties C01-C11: the DMA region table and address translation.
   [reached cb ops d ev]: starting from vfu_setup_device_dma, the operations ops lead to the controller d. *)
From Coq Require Import NArith ZArith List Bool Lia.
From Verif Require Import Base Types Spec Dma Dirty DmaOps SpecDma DmaProofs DmaDisjoint DmaSgl DmaMap DmaRemap.
Import ListNotations.
Open Scope N_scope.

(* ---- a concrete history used as witness: three regions (rw with fd, ro with fd, rw without fd), one unmapped *)
Definition ex_os (base : N) : dma_os := mk_os (Some 4096) (fun _ _ => false) (inl base) true.
Definition ex_ops : list dma_op :=
  [ OpMap (ex_os 139637976727552) 4096 8192 5 0 3;
    OpMap (ex_os 139637976793088) 12288 4096 6 4096 1;
    OpLogStart (fun _ => true) 4096;
    OpMap (ex_os 0) 16384 4096 (-1) 0 3;
    OpMap (ex_os 139637976858624) 1048576 4096 7 0 3;
    OpUnmap 1048576 4096;
    OpMap (ex_os 0) 8192 100 (-1) 0 3 ].
Definition ex_d : dma := fst (dma_run true dma_create ex_ops).
Definition ex_ev : list event := snd (dma_run true dma_create ex_ops).

Lemma ex_reached : reached true ex_ops ex_d ex_ev.
Proof.
  split.
  - repeat (constructor; [exact I || (vm_compute; reflexivity)|]). constructor.
  - reflexivity.
Qed.

Example ex_d_regions : map (fun r => (di_iova (rg_info r), di_len (rg_info r))) (dm_regions ex_d) =
  [(4096, 8192); (12288, 4096); (16384, 4096)].
Proof. vm_compute. reflexivity. Qed.

(* ---- C01 *)
Theorem C01_regions_disjoint : forall cb ops d ev,
  reached cb ops d ev -> regions_disjoint (dm_regions d).
Proof. intros cb ops d ev H. exact (proj2 (proj1 (proj2 (reached_inv _ _ _ _ H)))). Qed.
Print Assumptions C01_regions_disjoint.

Example C01_case : regions_disjoint (dm_regions ex_d) /\ length (dm_regions ex_d) = 3%nat.
Proof. split; [exact (C01_regions_disjoint _ _ _ _ ex_reached)|vm_compute; reflexivity]. Qed.

(* Without the condition on ranges the claim is false: two overlapping regions are accepted when one of them ends
   exactly at 2^64. *)
Theorem C01_wrapping_ranges_refuted : exists ops d ev,
  dma_run true dma_create ops = (d, ev) /\ ~ regions_disjoint (dm_regions d).
Proof.
  exists [OpMap (ex_os 0) 18446744073709547520 4096 (-1) 0 3; OpMap (ex_os 0) 18446744073709543424 8192 (-1) 0 3].
  eexists _, _. split; [vm_compute; reflexivity|].
  intros H. specialize (H 0%nat 1%nat _ _ 18446744073709547520 eq_refl eq_refl).
  assert (0%nat = 1%nat); [|discriminate].
  apply H; unfold covers; simpl; lia.
Qed.
Print Assumptions C01_wrapping_ranges_refuted.

(* ---- C02 *)
Theorem C02_limits : forall cb ops d ev,
  dma_run cb dma_create ops = (d, ev) ->
  (length (dm_regions d) <= 64)%nat /\
  Forall (fun r => di_len (rg_info r) <= 8 * 2 ^ 40) (dm_regions d).
Proof.
  intros cb ops d ev H.
  pose proof (inv_run _ _ _ _ _ inv_create H) as Hi. pose proof (run_limits _ _ _ _ _ H) as Hl.
  injection Hl as E1 E2. split.
  - pose proof (inv_cnt _ Hi) as X. rewrite E1 in X. exact X.
  - pose proof (inv_size _ Hi) as X. rewrite E2 in X. exact X.
Qed.
Print Assumptions C02_limits.

Theorem C02_failed_map_unchanged : forall cb d os addr size fd off prot e d' ev,
  dma_step cb d (OpMap os addr size fd off prot) = (Err e, d', ev) -> d' = d.
Proof. intros cb d os addr size fd off prot e d' ev H. exact (map_request_fail _ _ _ _ _ _ _ _ _ _ _ H). Qed.
Print Assumptions C02_failed_map_unchanged.

Example C02_case : exists e ev,
  dma_step true ex_d (OpMap (mk_os None (fun _ _ => false) (inl 0) true) 65536 4096 9 0 3) = (Err e, ex_d, ev).
Proof. eexists _, _. vm_compute. reflexivity. Qed.

(* ---- C03 *)
Theorem C03_remap : forall cb0 ops d ev cb os r addr size fd off prot,
  reached cb0 ops d ev -> registered d r addr size ->
  let same := off = rg_off r /\ same_file os (rg_fd r) fd /\ prot = di_prot (rg_info r) in
  (same -> exists ev', dma_step cb d (OpMap os addr size fd off prot) = (Ok tt, d, ev')) /\
  (~ same -> exists ev', dma_step cb d (OpMap os addr size fd off prot) = (Err EINVAL, d, ev')).
Proof. exact remap_same. Qed.
Print Assumptions C03_remap.

Example C03_case_same : exists r, registered ex_d r 12288 4096 /\
  rg_off r = 4096 /\ same_file (ex_os 0) (rg_fd r) 6 /\ di_prot (rg_info r) = 1.
Proof.
  eexists. split; [split; [right; left; reflexivity|vm_compute; auto]|].
  vm_compute. repeat split; auto.
Qed.

(* ---- C04 *)
Theorem C04_unmap_exact : forall cb0 ops d ev cb addr size,
  reached cb0 ops d ev ->
  (forall r, registered d r addr size ->
     exists l l' ev', dm_regions d = l ++ r :: l' /\
       dma_step cb d (OpUnmap addr size) = (Ok tt, set_regions d (l ++ l'), ev')) /\
  ((forall r, ~ registered d r addr size) ->
     dma_step cb d (OpUnmap addr size) = (Err ENOENT, d, [])).
Proof. exact unmap_iff. Qed.
Print Assumptions C04_unmap_exact.

Theorem C04_map_unmap_restores : forall cb0 ops d ev cb os addr size fd off prot d' ev',
  reached cb0 ops d ev -> (forall r, ~ registered d r addr size) ->
  dma_step cb d (OpMap os addr size fd off prot) = (Ok tt, d', ev') ->
  exists ev'', dma_step cb d' (OpUnmap addr size) = (Ok tt, d, ev'').
Proof.
  intros cb0 ops d ev cb os addr size fd off prot d' ev' Hr Hn H.
  apply (map_unmap _ _ _ _ _ _ _ _ _ _ _ _ _ Hr H). intros (r & A & B & C). apply (Hn r). repeat split; auto.
Qed.
Print Assumptions C04_map_unmap_restores.

Example C04_case : exists r d' ev', registered ex_d r 12288 4096 /\
  dma_step true ex_d (OpUnmap 12288 4096) = (Ok tt, d', ev') /\
  map (fun r => di_iova (rg_info r)) (dm_regions d') = [4096; 16384].
Proof.
  eexists _, _, _. split; [split; [right; left; reflexivity|vm_compute; auto]|].
  split; vm_compute; reflexivity.
Qed.

Example C04_case_fresh : (forall r, ~ registered ex_d r 65536 4096) /\ exists d' ev',
  dma_step true ex_d (OpMap (ex_os 4096) 65536 4096 9 0 3) = (Ok tt, d', ev') /\ length (dm_regions d') = 4%nat.
Proof.
  split.
  - intros r (A & B & C). vm_compute in A. decompose [or] A; subst; try discriminate; auto.
  - eexists _, _. split; vm_compute; reflexivity.
Qed.

(* ---- C05 *)
Theorem C05_device_view : forall ops d ev i,
  dma_run true dma_create ops = (d, ev) ->
  (In i (map rg_info (dm_regions d)) <-> device_knows ev i).
Proof.
  intros ops d ev i H. pose proof (view_run _ _ _ _ inv_create H i) as V. unfold in_table in V. rewrite V.
  simpl. tauto.
Qed.
Print Assumptions C05_device_view.

Example C05_case : length (filter (fun e => match e with EvRegister _ => true | _ => false end) ex_ev) = 4%nat /\
  length (filter (fun e => match e with EvUnregister _ => true | _ => false end) ex_ev) = 1%nat.
Proof. split; vm_compute; reflexivity. Qed.

(* ---- C06 *)
Theorem C06_sgl_tiles : forall cb ops d ev hint addr len max prot l hint',
  reached cb ops d ev -> range_ok addr len ->
  addr_to_sgl d hint addr len max prot = (SglOk l, hint') ->
  tiles l addr (addr + len) /\ Forall (sg_inside (dm_regions d)) l /\ (length l <= max)%nat.
Proof.
  intros cb ops d ev hint addr len max prot l hint' Hr Hl H.
  destruct (reached_inv _ _ _ _ Hr) as (_ & H2 & _).
  destruct (sgl_ok_tiles _ _ _ _ _ _ _ _ H2 Hl H) as (A & B & C & _). auto.
Qed.
Print Assumptions C06_sgl_tiles.

Example C06_case : exists h, addr_to_sgl ex_d 0 5000 12000 8 1 =
  (SglOk [mk_sg 4096 0 7288 904 false; mk_sg 12288 1 4096 0 false; mk_sg 16384 2 616 0 false], h).
Proof. eexists. vm_compute. reflexivity. Qed.

(* Without the condition on the range the claim is false: the fast path compares a wrapped end address, and returns
   an entry far longer than its region. *)
Theorem C06_wrapping_range_refuted : exists ops d ev hint addr len l hint',
  reached true ops d ev /\ len < 2 ^ 64 /\
  addr_to_sgl d hint addr len 1 1 = (SglOk l, hint') /\ ~ Forall (sg_inside (dm_regions d)) l.
Proof.
  exists ex_ops, ex_d, ex_ev, 0%nat, 4096, 18446744073709547520.
  eexists _, _. split; [exact ex_reached|]. split; [vm_compute; reflexivity|].
  split; [vm_compute; reflexivity|].
  intros H. inversion H as [|? ? (r & Hr & _ & Hb) _]; subst. vm_compute in Hr. injection Hr as <-.
  simpl in Hb. lia.
Qed.
Print Assumptions C06_wrapping_range_refuted.

(* ---- C07 *)
Theorem C07_sgl_answers : forall cb ops d ev addr len,
  reached cb ops d ev -> range_ok addr len ->
  (* some byte not registered: ENOENT, unless a read-only region was hit by a write access first *)
  (forall hint max prot,
     (N.testbit prot 1 = false \/ ~ hits_readonly (dm_regions d) addr len) ->
     ~ all_mapped (dm_regions d) addr len ->
     fst (addr_to_sgl d hint addr len max prot) = SglErr ENOENT) /\
  (* every failure has one of the two documented reasons *)
  (forall hint max prot e, fst (addr_to_sgl d hint addr len max prot) = SglErr e ->
     (e = ENOENT /\ ~ all_mapped (dm_regions d) addr len) \/
     (e = EACCES /\ N.testbit prot 1 = true /\ hits_readonly (dm_regions d) addr len)) /\
  (* one number x of entries answers all array sizes *)
  (exists x, forall hint max prot,
     (N.testbit prot 1 = false \/ ~ hits_readonly (dm_regions d) addr len) ->
     all_mapped (dm_regions d) addr len ->
     if Nat.ltb max x then fst (addr_to_sgl d hint addr len max prot) = SglShort x
     else exists l, fst (addr_to_sgl d hint addr len max prot) = SglOk l /\ length l = x) /\
  (forall hint max prot n, fst (addr_to_sgl d hint addr len max prot) = SglShort n ->
     all_mapped (dm_regions d) addr len /\ (max < n)%nat) /\
  (forall hint max prot c, fst (addr_to_sgl d hint addr len max prot) <> SglCrash c).
Proof.
  intros cb ops d ev addr len Hr Hl. destruct (reached_inv _ _ _ _ Hr) as (_ & H2 & _).
  destruct (sgl_answers _ _ _ H2 Hl) as (A & B & C & D & E). auto.
Qed.
Print Assumptions C07_sgl_answers.

Example C07_case_short : fst (addr_to_sgl ex_d 0 5000 12000 1 1) = SglShort 3.
Proof. vm_compute. reflexivity. Qed.
Example C07_case_enoent : fst (addr_to_sgl ex_d 0 5000 20000 8 1) = SglErr ENOENT.
Proof. vm_compute. reflexivity. Qed.

(* ---- C08 (first two parts; the EPERM part is about vfu_sgl_write) *)
Theorem C08_write_needs_permission : forall cb ops d ev hint addr len max prot l hint' x r,
  reached cb ops d ev -> range_ok addr len ->
  addr_to_sgl d hint addr len max prot = (SglOk l, hint') -> N.testbit prot 1 = true ->
  addr <= x < addr + len -> In r (dm_regions d) -> covers r x ->
  N.testbit (di_prot (rg_info r)) 1 = true.
Proof.
  intros cb ops d ev hint addr len max prot l hint' x r Hr Hl H Hw Hx Hin Hc.
  destruct (reached_inv _ _ _ _ Hr) as (_ & H2 & _).
  destruct (sgl_ok_tiles _ _ _ _ _ _ _ _ H2 Hl H) as (_ & _ & _ & D). exact (D Hw x r Hx Hin Hc).
Qed.
Print Assumptions C08_write_needs_permission.

Example C08_case : fst (addr_to_sgl ex_d 0 4096 12000 8 2) = SglErr EACCES /\
  exists l, fst (addr_to_sgl ex_d 0 4096 5000 8 2) = SglOk l.
Proof. split; [|eexists]; vm_compute; reflexivity. Qed.

Theorem C08_read_only_entry_never_dirties : forall d hint addr len max prot l hint',
  addr_to_sgl d hint addr len max prot = (SglOk l, hint') -> N.testbit prot 1 = false ->
  sgl_mark_dirty d l = Ok d /\ sgl_put d l = Ok d.
Proof. exact read_only_never_dirties. Qed.
Print Assumptions C08_read_only_entry_never_dirties.

(* ---- C09 *)
Theorem C09_hint_independent : forall cb ops d ev addr len h1 h2 max prot,
  reached cb ops d ev -> range_ok addr len ->
  fst (addr_to_sgl d h1 addr len max prot) = fst (addr_to_sgl d h2 addr len max prot).
Proof.
  intros cb ops d ev addr len h1 h2 max prot Hr Hl. destruct (reached_inv _ _ _ _ Hr) as (_ & H2 & _).
  exact (sgl_hint _ _ _ _ _ _ _ H2 Hl).
Qed.
Print Assumptions C09_hint_independent.

Example C09_case : fst (addr_to_sgl ex_d 1 5000 100 1 1) = fst (addr_to_sgl ex_d 0 5000 100 1 1) /\
  fst (addr_to_sgl ex_d 77 5000 100 1 1) = SglOk [mk_sg 4096 0 100 904 false].
Proof. split; vm_compute; reflexivity. Qed.

(* ---- C10 *)
Theorem C10_sgl_get_inside : forall cb ops d ev hint addr len max prot l hint',
  reached cb ops d ev -> along os_sane cb dma_create ops -> along off_aligned cb dma_create ops ->
  range_ok addr len -> addr_to_sgl d hint addr len max prot = (SglOk l, hint') ->
  (* success: every iovec has the entry's length and lies in the mapping of its region *)
  (forall iov, sgl_get d l = Ok iov ->
     Forall2 (fun s h => snd h = sg_len s /\
       exists r, nth_error (dm_regions d) (sg_region s) = Some r /\
         di_map_base (rg_info r) <= fst h /\
         fst h + sg_len s <= di_map_base (rg_info r) + di_map_len (rg_info r)) l iov) /\
  (* failure: EFAULT, and some region has no mapping *)
  (forall e, sgl_get d l = Err e -> e = EFAULT /\
     exists s r, In s l /\ nth_error (dm_regions d) (sg_region s) = Some r /\ di_vaddr (rg_info r) = None) /\
  (forall c, sgl_get d l <> Crash c) /\
  (* the same guest byte is the same host byte and conversely *)
  (forall iov i j s1 s2 h1 h2 k1 k2, sgl_get d l = Ok iov ->
     nth_error l i = Some s1 -> nth_error l j = Some s2 ->
     nth_error iov i = Some h1 -> nth_error iov j = Some h2 -> k1 < sg_len s1 -> k2 < sg_len s2 ->
     (fst h1 + k1 = fst h2 + k2 <-> sg_base s1 + sg_off s1 + k1 = sg_base s2 + sg_off s2 + k2)).
Proof. exact sgl_get_inside. Qed.
Print Assumptions C10_sgl_get_inside.

Lemma ex_sane : along os_sane true dma_create ex_ops /\ along off_aligned true dma_create ex_ops.
Proof.
  assert (Hs : forall d os addr size fd off prot base,
    os = ex_os base -> base < 2 ^ 63 ->
    forallb (fun r => (di_map_base (rg_info r) + di_map_len (rg_info r) <=? base) ||
                      (base + (size + 4096 - 1) / 4096 * 4096 <=? di_map_base (rg_info r)) ||
                      match di_vaddr (rg_info r) with None => true | _ => false end) (dm_regions d) = true ->
    os_sane d (OpMap os addr size fd off prot)).
  { intros d os addr size fd off prot base -> Hb Hf blk E. injection E as <-.
    split; [exists 12; split; [reflexivity|lia]|]. intros base' E. injection E as <-. split; [exact Hb|].
    intros pg r h Hin [Hv Hm]. rewrite forallb_forall in Hf. specialize (Hf r Hin).
    change pg with 4096. destruct (di_vaddr (rg_info r)); [|now elim Hv].
    clear - Hf Hm. apply orb_true_iff in Hf. destruct Hf as [Hf|Hf]; [|discriminate].
    apply orb_true_iff in Hf. destruct Hf as [Hf|Hf]; apply N.leb_le in Hf; intros X.
    - apply (N.lt_irrefl h). eapply N.lt_le_trans; [apply Hm|]. eapply N.le_trans; [exact Hf|apply X].
    - apply (N.lt_irrefl h). eapply N.lt_le_trans; [apply X|]. eapply N.le_trans; [exact Hf|apply Hm]. }
  assert (Hs' : forall d addr size fd off prot base, (base <? 9223372036854775808) &&
    forallb (fun r => (di_map_base (rg_info r) + di_map_len (rg_info r) <=? base) ||
                      (base + (size + 4096 - 1) / 4096 * 4096 <=? di_map_base (rg_info r)) ||
                      match di_vaddr (rg_info r) with None => true | _ => false end) (dm_regions d) = true ->
    os_sane d (OpMap (ex_os base) addr size fd off prot)).
  { intros d addr size fd off prot base X. apply andb_true_iff in X. destruct X as [X1 X2].
    apply (Hs _ _ _ _ _ _ _ base eq_refl); [apply N.ltb_lt in X1; exact X1|exact X2]. }
  clear Hs.
  unfold ex_ops. cbn [along].
  split.
  - split; [apply Hs'; vm_compute; reflexivity|].
    split; [apply Hs'; vm_compute; reflexivity|].
    split; [exact I|].
    split; [apply Hs'; vm_compute; reflexivity|].
    split; [apply Hs'; vm_compute; reflexivity|].
    split; [exact I|].
    split; [apply Hs'; vm_compute; reflexivity|exact I].
  - assert (Ha : forall d base addr size fd off prot, off mod 4096 = 0 -> off_aligned d (OpMap (ex_os base) addr size fd off prot)).
    { intros d base addr size fd off prot H blk E. injection E as <-. exact H. }
    repeat (first [exact I | apply conj; [first [exact I | apply Ha; reflexivity]|]]).
Qed.

Example C10_case_sane : along os_sane true dma_create ex_ops /\ along off_aligned true dma_create ex_ops.
Proof. exact ex_sane. Qed.
Example C10_case : exists l h, addr_to_sgl ex_d 0 5000 8000 8 1 = (SglOk l, h) /\
  sgl_get ex_d l = Ok [(139637976728456, 7288); (139637976793088, 712)].
Proof. eexists _, _. split; vm_compute; reflexivity. Qed.

(* ---- C11 *)
Theorem C11_mapping_holds_region_partial : forall cb ops d ev,
  reached cb ops d ev -> along os_sane cb dma_create ops -> along off_aligned cb dma_create ops ->
  Forall inside_mapping (dm_regions d).
Proof.
  intros cb ops d ev [Hr H] Hs Ha. exact (i3_inside _ (inv3_run _ _ _ _ _ inv_create inv3_create Hs Ha H)).
Qed.
Print Assumptions C11_mapping_holds_region_partial.

(* With a file offset that is not page aligned the region's tail lies beyond the mapping. *)
Theorem C11_unaligned_offset_refuted : exists ops d ev,
  reached true ops d ev /\ along os_sane true dma_create ops /\ ~ Forall inside_mapping (dm_regions d).
Proof.
  exists [OpMap (ex_os 139637976727552) 4096 4096 5 2048 3]. eexists _, _. split.
  - split; [constructor; [vm_compute; reflexivity|constructor]|vm_compute; reflexivity].
  - split.
    + split; [|exact I]. intros blk E. injection E as <-. split; [exists 12; split; [reflexivity|lia]|].
      intros base E. injection E as <-. split; [vm_compute; reflexivity|]. intros pg r h [].
    + intros H. inversion H as [|? ? Hm _]; subst. destruct (Hm _ eq_refl) as [_ B]. vm_compute in B. apply B. reflexivity.
Qed.
Print Assumptions C11_unaligned_offset_refuted.
