(* Properties C12, C13, C15-C18: the dirty page log. *)
From Coq Require Import NArith ZArith List Bool Lia.
From Verif Require Import Base Types Spec Dma Dirty DmaOps SpecDma DmaProofs DmaDisjoint DmaSgl DmaMap DmaRemap PropDma
  DirtyProofs DirtyScale DirtyHist DirtyExact.
Import ListNotations.
Open Scope N_scope.

Lemma reached_max cb ops d ev : reached cb ops d ev -> dm_max_size d <= 8 * 2 ^ 40.
Proof.
  intros H. destruct (reached_inv _ _ _ _ H) as (_ & _ & _ & L). unfold limits in L. injection L as _ ->.
  vm_compute. discriminate.
Qed.

(* ---- C12: marking sets exactly the pages that an entry touches. *)
Theorem C12_mark_exact : forall cb0 ops d ev cb k l,
  reached cb0 ops d ev -> dm_pgsize d = 2 ^ k -> Forall (markable (dm_regions d)) l ->
  exists d', dma_step cb d (OpMark l) = (Ok tt, d', []) /\
    forall j p, logged d' j p <->
      logged d j p \/ exists s, In s l /\ sg_writeable s = true /\ sg_region s = j /\ touches (2 ^ k) s p.
Proof.
  intros cb0 ops d ev cb k l Hr Hk Hm. destruct (reached_inv _ _ _ _ Hr) as (Hi & _).
  destruct (mark_list k l d Hi Hk (reached_max _ _ _ _ Hr) Hm) as (d' & E & H).
  exists d'. simpl. rewrite E. auto.
Qed.
Print Assumptions C12_mark_exact.

Definition ex_mark : list sg := [mk_sg 4096 0 100 4090 true; mk_sg 12288 1 8 0 false].

Example C12_case : dm_pgsize ex_d = 2 ^ 12 /\ Forall (markable (dm_regions ex_d)) ex_mark /\
  exists d', dma_step true ex_d (OpMark ex_mark) = (Ok tt, d', []) /\
    logged d' 0 0 /\ logged d' 0 1 /\ ~ logged d' 0 2 /\ ~ logged d' 1 0.
Proof.
  split; [reflexivity|]. split.
  - repeat constructor; try discriminate; eexists; (split; [reflexivity|]); (split; [discriminate|]); vm_compute; discriminate.
  - eexists. split; [vm_compute; reflexivity|]. repeat split.
    + eexists _, _. repeat split.
    + eexists _, _. repeat split.
    + intros (r & bm & E & Eb & Hp). injection E as <-. injection Eb as <-. vm_compute in Hp. discriminate.
    + intros (r & bm & E & Eb & Hp). injection E as <-. injection Eb as <-. vm_compute in Hp. discriminate.
Qed.

(* A region without a file has no log: marking one of its entries while logging is on stops the program on an
   assertion, although translation returns such entries. *)
Theorem C12_region_without_file_refuted : exists ops d ev s h,
  reached true ops d ev /\ dm_pgsize d = 2 ^ 12 /\
  addr_to_sgl d 0 16384 4096 1 2 = (SglOk [s], h) /\
  dma_step true d (OpMark [s]) = (Crash AssertFailed, d, []).
Proof.
  exists ex_ops, ex_d, ex_ev. eexists _, _. split; [exact ex_reached|]. split; [reflexivity|].
  split; vm_compute; reflexivity.
Qed.
Print Assumptions C12_region_without_file_refuted.

(* ---- C13 *)

(* A report returns exactly what is logged for the region, empties that log and leaves the others alone. *)
Theorem C13_report_returns_and_clears : forall cb ops d ev i r k hint buf,
  reached cb ops d ev -> nth_error (dm_regions d) i = Some r -> rg_fd r <> (-1)%Z ->
  dm_pgsize d = 2 ^ k -> k <= 63 ->
  exists size out d' h,
    dirty_page_get d hint (di_iova (rg_info r)) (di_len (rg_info r)) (2 ^ k) size buf = (Ok out, d', h) /\
    bitmap_bytes (di_len (rg_info r)) (2 ^ k) size /\ N.of_nat (length out) = size /\
    (forall p, page_set out p <-> logged d i p) /\
    (forall j p, logged d' j p <-> j <> i /\ logged d j p).
Proof.
  intros cb ops d ev i r k hint buf Hr Hn Hf Hk Hk63. destruct (reached_inv _ _ _ _ Hr) as (Hi & H2 & _).
  pose proof (proj1 (Forall_forall _ _) (inv_bm _ Hi) r ltac:(eapply nth_error_In; eauto)) as Hok.
  unfold bm_ok in Hok. rewrite Hk in Hok. destruct (rg_bitmap r) as [bm|] eqn:Eb.
  - destruct (report_same d hint i r bm k buf Hi H2 Hn Eb Hk Hk63) as (d' & h & E & Es & Hl).
    exists (N.of_nat (length bm)), bm, d', h. split; [exact E|]. split; [|split; [auto|split; [|auto]]].
    + apply bitmap_size_exact; auto.
      pose proof (proj1 (Forall_forall _ _) (inv_size _ Hi) r ltac:(eapply nth_error_In; eauto)) as Hs.
      pose proof (reached_max _ _ _ _ Hr). simpl in Hs. unfold rg_len in Hs.
      change (8 * 2 ^ 40) with 8796093022208 in *. change (2 ^ 64 - 64) with 18446744073709551552. lia.
    + intros p. symmetry. apply (logged_at _ _ _ _ _ Hn Eb).
  - pose proof (pow_pos k). destruct Hok as [|]; [lia|contradiction].
Qed.
Print Assumptions C13_report_returns_and_clears.

(* Between two reports for a region, any number of marks (and of reports for other addresses) may happen: the second
   report lists exactly the pages marked since the first one. *)
Theorem C13_report_since_last : forall cb0 ops d0 ev i r k hint1 hint2 buf1 buf2 size cb out1 d1 h1 mid d2 ev2 out2 d3 h3,
  reached cb0 ops d0 ev -> nth_error (dm_regions d0) i = Some r -> rg_fd r <> (-1)%Z ->
  dm_pgsize d0 = 2 ^ k -> k <= 63 ->
  dirty_page_get d0 hint1 (di_iova (rg_info r)) (di_len (rg_info r)) (2 ^ k) size buf1 = (Ok out1, d1, h1) ->
  Forall (quiet (dm_regions d1) (di_iova (rg_info r))) mid -> dma_run cb d1 mid = (d2, ev2) ->
  dirty_page_get d2 hint2 (di_iova (rg_info r)) (di_len (rg_info r)) (2 ^ k) size buf2 = (Ok out2, d3, h3) ->
  forall p, page_set out2 p <->
    exists l s, In (OpMark l) mid /\ In s l /\ sg_writeable s = true /\ sg_region s = i /\ touches (2 ^ k) s p.
Proof.
  intros cb0 ops d0 ev i r k hint1 hint2 buf1 buf2 size cb out1 d1 h1 mid d2 ev2 out2 d3 h3 Hr Hn Hf Hk Hk63 E1 Hq Hrun E2 p.
  destruct (reached_inv _ _ _ _ Hr) as (Hi & H2 & _). pose proof (reached_max _ _ _ _ Hr) as Hmax.
  pose proof (proj1 (Forall_forall _ _) (inv_bm _ Hi) r ltac:(eapply nth_error_In; eauto)) as Hok.
  unfold bm_ok in Hok. rewrite Hk in Hok. destruct (rg_bitmap r) as [bm|] eqn:Eb.
  2:{ pose proof (pow_pos k). destruct Hok as [|]; [lia|contradiction]. }
  destruct Hok as (_ & _ & sz & Hsz & Hlen & _).
  assert (Esize : forall d hint buf out d' h, inv d -> inv2 d -> dm_pgsize d = 2 ^ k ->
     (exists r', nth_error (dm_regions d) i = Some r' /\ same_shape r r') ->
     dirty_page_get d hint (di_iova (rg_info r)) (di_len (rg_info r)) (2 ^ k) size buf = (Ok out, d', h) ->
     (forall q, page_set out q <-> logged d i q) /\ (forall j q, logged d' j q <-> j <> i /\ logged d j q) /\
     dm_pgsize d' = 2 ^ k /\ dm_max_size d' = dm_max_size d).
  { intros d hint buf out d' h Hid H2d Hkd (r' & Hn' & Hsh) E.
    destruct Hsh as (X1 & X2 & X3).
    pose proof (proj1 (Forall_forall _ _) (inv_bm _ Hid) r' ltac:(eapply nth_error_In; eauto)) as Hok'.
    unfold bm_ok in Hok'. rewrite Hkd in Hok'. destruct (rg_bitmap r') as [bm'|] eqn:Eb'.
    2:{ pose proof (pow_pos k). destruct Hok' as [|]; [lia|congruence]. }
    destruct Hok' as (_ & _ & sz' & Hsz' & Hlen' & _).
    destruct (report_same d hint i r' bm' k buf Hid H2d Hn' Eb' Hkd Hk63) as (dx & hx & Ex & Esx & Hlx).
    unfold rg_base, rg_len in *. rewrite X1 in *.
    assert (size = N.of_nat (length bm')).
    { unfold dirty_page_get in E. 
      destruct (report_translate d hint i r' H2d Hn') as [hh Et].
      { unfold rg_len. rewrite X1. unfold get_bitmap_size in Hsz'. pose proof (pow_pos k).
        destruct (N.eqb_spec (2 ^ k) 0); [lia|]. destruct (N.ltb_spec (di_len (rg_info r)) (2 ^ k)); [discriminate|lia]. }
      unfold rg_base, rg_len in Et. rewrite X1 in Et. rewrite Et in E. simpl in E.
      rewrite !N.eqb_refl in E. simpl in E.
      destruct (dm_pgsize d =? 0); [discriminate|]. destruct ((2 ^ k =? 0) || negb (pow2_or_zero (2 ^ k))); [discriminate|].
      rewrite Hkd, Hsz' in E. destruct (N.eqb_spec size sz') as [->|]; [lia|discriminate]. }
    subst size. rewrite E in Ex. injection Ex as -> -> ->.
    split; [intros q; symmetry; apply (logged_at _ _ _ _ _ Hn' Eb')|]. split; [auto|].
    pose proof (dirty_page_get_inv _ _ _ _ _ _ _ _ _ _ Hid E) as (_ & _ & Hp). split; [congruence|].
    assert (Es : dma_step true d (OpReport hint (di_iova (rg_info r)) (di_len (rg_info r)) (2 ^ k) (N.of_nat (length bm')) buf)
                 = (Ok tt, dx, [])) by (simpl; now rewrite E).
    apply step_limits in Es. unfold limits in Es. congruence. }
  destruct (Esize d0 hint1 buf1 out1 d1 h1 Hi H2 Hk) as (_ & Hl1 & Hp1 & Hm1); auto.
  { exists r. split; auto. apply same_shape_refl. }
  pose proof (dirty_page_get_inv _ _ _ _ _ _ _ _ _ _ Hi E1) as (Hi1 & Hs1 & _).
  assert (H21 : inv2 d1).
  { assert (Es : dma_step true d0 (OpReport hint1 (di_iova (rg_info r)) (di_len (rg_info r)) (2 ^ k) size buf1)
                 = (Ok tt, d1, [])) by (simpl; now rewrite E1).
    eapply inv2_step; [exact Hi|exact H2| |exact Es]; exact I. }
  destruct (F2_nth_ex _ _ _ Hs1 i r Hn) as (r1 & Hn1 & Hsh1).
  assert (Eb1 : di_iova (rg_info r) = rg_base r1) by (destruct Hsh1 as (X & _); unfold rg_base; now rewrite X).
  rewrite Eb1 in Hq.
  destruct (quiet_run cb k mid d1 d2 ev2 i r1 Hi1 H21 Hp1 ltac:(congruence) Hn1 Hq Hrun)
    as (Hi2 & H22 & Hp2 & (r2 & Hn2 & Hsh2) & Hl2).
  destruct (Esize d2 hint2 buf2 out2 d3 h3 Hi2 H22 Hp2) as (Ho2 & _); auto.
  { exists r2. split; auto. destruct Hsh1 as (A1 & A2 & A3), Hsh2 as (B1 & B2 & B3). repeat split; congruence. }
  rewrite Ho2, Hl2, Hl1. split; [|auto]. intros [[A _]|A]; [now elim A|exact A].
Qed.
Print Assumptions C13_report_since_last.

Definition ex_report (d : dma) := dirty_page_get d 0 4096 8192 4096 8 (repeat 7 8).

Example C13_case : exists r out1 d1 h1 d2 out2 d3 h3,
  nth_error (dm_regions ex_d) 0 = Some r /\ rg_fd r <> (-1)%Z /\ di_iova (rg_info r) = 4096 /\ di_len (rg_info r) = 8192 /\
  ex_report ex_d = (Ok out1, d1, h1) /\
  Forall (quiet (dm_regions d1) 4096) [OpMark [mk_sg 4096 0 1 4096 true]; OpReport 0 12288 4096 4096 8 []; OpMark ex_mark] /\
  dma_run true d1 [OpMark [mk_sg 4096 0 1 4096 true]; OpReport 0 12288 4096 4096 8 []; OpMark ex_mark] = (d2, []) /\
  ex_report d2 = (Ok out2, d3, h3) /\ out2 = [3; 0; 0; 0; 0; 0; 0; 0].
Proof.
  eexists _, _, _, _, _, _, _, _. split; [reflexivity|]. split; [discriminate|]. split; [reflexivity|]. split; [reflexivity|].
  split; [vm_compute; reflexivity|]. split.
  - repeat constructor; try discriminate; try (vm_compute; reflexivity); eexists; (split; [reflexivity|]); (split; [discriminate|]); vm_compute; discriminate.
  - split; [vm_compute; reflexivity|]. split; vm_compute; reflexivity.
Qed.

(* ---- C15: client page size smaller than the logging page size.
   Missing from the full property: client bitmaps of more than 24 bytes, and those that are not a multiple of the
   ratio of the page sizes; the two theorems after this one show that the claim is false there. *)
Theorem C15_finer_report_partial : forall cb ops d ev i r k c cs hint buf,
  reached cb ops d ev -> nth_error (dm_regions d) i = Some r -> rg_fd r <> (-1)%Z ->
  dm_pgsize d = 2 ^ k -> c < k -> k <= 63 ->
  bitmap_bytes (di_len (rg_info r)) (2 ^ c) cs -> cs <= 24 -> cs mod (2 ^ k / 2 ^ c) = 0 ->
  N.of_nat (length buf) = cs -> (forall p, ~ page_set buf p) ->
  exists out d' h, dirty_page_get d hint (di_iova (rg_info r)) (di_len (rg_info r)) (2 ^ c) cs buf = (Ok out, d', h) /\
    (forall p, p < 8 * cs -> (page_set out p <-> logged d i (p * 2 ^ c / 2 ^ k))) /\
    (forall p, p < 8 * cs -> ~ logged d' i (p * 2 ^ c / 2 ^ k)).
Proof.
  intros cb ops d ev i r k c cs hint buf Hr Hn Hf Hk Hck Hk63 Hcs H24 Hdiv Hbuf Hz.
  destruct (reached_inv _ _ _ _ Hr) as (Hi & H2 & _).
  pose proof (proj1 (Forall_forall _ _) (inv_bm _ Hi) r ltac:(eapply nth_error_In; eauto)) as Hok.
  unfold bm_ok in Hok. rewrite Hk in Hok. destruct (rg_bitmap r) as [bm|] eqn:Eb.
  2:{ pose proof (pow_pos k). destruct Hok as [|]; [lia|contradiction]. }
  destruct Hok as (_ & _ & sz & Hsz & _).
  assert (Hle : 2 ^ k <= rg_len r).
  { unfold get_bitmap_size in Hsz. destruct (_ =? 0); [discriminate|].
    destruct (N.ltb_spec (rg_len r) (2 ^ k)); [discriminate|auto]. }
  assert (Hlt : 2 ^ c < 2 ^ k) by (apply N.pow_lt_mono_r; lia).
  rewrite pow_ratio in Hdiv by lia.
  pose proof (proj1 (Forall_forall _ _) (inv_size _ Hi) r ltac:(eapply nth_error_In; eauto)) as Hs.
  pose proof (reached_max _ _ _ _ Hr) as Hmax. simpl in Hs. change (8 * 2 ^ 40) with 8796093022208 in *.
  assert (Hg : get_bitmap_size (rg_len r) (2 ^ c) = Ok cs).
  { pose proof (pow_pos c). apply bitmap_size_complete; auto; [lia|lia|].
    change (2 ^ 64 - 64) with 18446744073709551552. lia. }
  destruct (report_extend d hint i r bm k c cs buf Hi H2 Hn Eb Hk Hck Hk63 Hg H24 Hdiv Hbuf) as (out & d' & h & E & L & B & C).
  exists out, d', h. split; [exact E|]. split; [|exact C].
  intros p Hp. rewrite B. split; [intros [A|A]; [elim (Hz _ A)|tauto]|auto].
Qed.
Print Assumptions C15_finer_report_partial.

(* 24 client pages of 4096 in 3 logging pages of 32768; logging page 1 is dirty. *)
Definition ex15_ops : list dma_op :=
  [ OpMap (ex_os 139637976727552) 0 (512 * 2 ^ 15) 5 0 3; OpLogStart (fun _ => true) (2 ^ 18);
    OpMark [mk_sg 0 0 10 (2 ^ 18 + 5) true] ].
Definition ex15_d := fst (dma_run true dma_create ex15_ops).

Example C15_case : exists r ev, reached true ex15_ops ex15_d ev /\
  nth_error (dm_regions ex15_d) 0 = Some r /\ rg_fd r <> (-1)%Z /\ dm_pgsize ex15_d = 2 ^ 18 /\
  bitmap_bytes (di_len (rg_info r)) (2 ^ 17) 16 /\ 16 mod (2 ^ 18 / 2 ^ 17) = 0 /\
  exists d' h, dirty_page_get ex15_d 0 0 (512 * 2 ^ 15) (2 ^ 17) 16 (repeat 0 16) =
     (Ok [12; 0; 0; 0; 0; 0; 0; 0; 0; 0; 0; 0; 0; 0; 0; 0], d', h).
Proof.
  eexists _, _. split.
  { split; [repeat (constructor; [exact I || (vm_compute; reflexivity)|]); constructor|]. vm_compute. reflexivity. }
  split; [reflexivity|]. split; [discriminate|]. split; [reflexivity|].
  split; [exists 128; vm_compute; repeat split; auto; discriminate|].
  split; [reflexivity|]. eexists _, _. vm_compute. reflexivity.
Qed.

(* In every other case the report never returns: it writes past the end of the client's bitmap, or it never ends. *)
Theorem C15_finer_report_otherwise : forall cb ops d ev i r k c cs hint buf,
  reached cb ops d ev -> nth_error (dm_regions d) i = Some r -> rg_fd r <> (-1)%Z ->
  dm_pgsize d = 2 ^ k -> c < k -> k <= 63 ->
  bitmap_bytes (di_len (rg_info r)) (2 ^ c) cs -> N.of_nat (length buf) = cs ->
  exists h,
    (cs <= 24 -> cs mod (2 ^ k / 2 ^ c) <> 0 ->
     dirty_page_get d hint (di_iova (rg_info r)) (di_len (rg_info r)) (2 ^ c) cs buf = (Crash OutOfBounds, d, h)) /\
    (24 < cs ->
     dirty_page_get d hint (di_iova (rg_info r)) (di_len (rg_info r)) (2 ^ c) cs buf = (Crash Diverges, d, h)).
Proof.
  intros cb ops d ev i r k c cs hint buf Hr Hn Hf Hk Hck Hk63 Hcs Hbuf.
  destruct (reached_inv _ _ _ _ Hr) as (Hi & H2 & _).
  pose proof (proj1 (Forall_forall _ _) (inv_bm _ Hi) r ltac:(eapply nth_error_In; eauto)) as Hok.
  unfold bm_ok in Hok. rewrite Hk in Hok. destruct (rg_bitmap r) as [bm|] eqn:Eb.
  2:{ pose proof (pow_pos k). destruct Hok as [|]; [lia|contradiction]. }
  destruct Hok as (_ & _ & sz & Hsz & _).
  assert (Hle : 2 ^ k <= rg_len r).
  { unfold get_bitmap_size in Hsz. destruct (_ =? 0); [discriminate|].
    destruct (N.ltb_spec (rg_len r) (2 ^ k)); [discriminate|auto]. }
  assert (Hlt : 2 ^ c < 2 ^ k) by (apply N.pow_lt_mono_r; lia).
  pose proof (proj1 (Forall_forall _ _) (inv_size _ Hi) r ltac:(eapply nth_error_In; eauto)) as Hs.
  pose proof (reached_max _ _ _ _ Hr) as Hmax. simpl in Hs. change (8 * 2 ^ 40) with 8796093022208 in *.
  assert (H64 : rg_len r < 2 ^ 64 - 64) by (change (2 ^ 64 - 64) with 18446744073709551552; lia).
  assert (Hg : get_bitmap_size (rg_len r) (2 ^ c) = Ok cs).
  { pose proof (pow_pos c). apply bitmap_size_complete; auto; lia. }
  destruct (report_extend_otherwise d hint i r bm k c cs buf Hi H2 Hn Eb Hk Hck Hk63 H64 Hg Hbuf) as (h & A & B).
  assert (H8 : cs mod 8 = 0) by (destruct Hcs as (pg & _ & X & _); exact X).
  exists h. rewrite pow_ratio by lia. split.
  - intros L. apply A. lia.
  - intros L. apply B. apply N.mod_divide in H8; [|lia]. destruct H8 as [u ->]. lia.
Qed.
Print Assumptions C15_finer_report_otherwise.

(* 256 client pages: the report never ends. *)
Theorem C15_large_bitmap_refuted : exists ops d ev,
  reached true ops d ev /\ dm_pgsize d = 2 ^ 13 /\
  dirty_page_get d 0 0 (256 * 2 ^ 12) (2 ^ 12) 32 (repeat 0 32) = (Crash Diverges, d, 0%nat).
Proof.
  exists [OpMap (ex_os 139637976727552) 0 (256 * 2 ^ 12) 5 0 3; OpLogStart (fun _ => true) (2 ^ 13)].
  eexists _, _. split.
  { split; [repeat (constructor; [exact I || (vm_compute; reflexivity)|]); constructor|]. vm_compute. reflexivity. }
  split; vm_compute; reflexivity.
Qed.
Print Assumptions C15_large_bitmap_refuted.

(* One logging page of 16 client pages: the report writes past the end of the client's bitmap. *)
Theorem C15_small_bitmap_refuted : exists ops d ev,
  reached true ops d ev /\ dm_pgsize d = 2 ^ 16 /\
  dirty_page_get d 0 0 (2 ^ 16) (2 ^ 12) 8 (repeat 0 8) = (Crash OutOfBounds, d, 0%nat).
Proof.
  exists [OpMap (ex_os 139637976727552) 0 (2 ^ 16) 5 0 3; OpLogStart (fun _ => true) (2 ^ 16)].
  eexists _, _. split.
  { split; [repeat (constructor; [exact I || (vm_compute; reflexivity)|]); constructor|]. vm_compute. reflexivity. }
  split; vm_compute; reflexivity.
Qed.
Print Assumptions C15_small_bitmap_refuted.

(* What the hypotheses of C16 give. *)
Lemma coarser_setting cb ops d ev i r k c cs :
  reached cb ops d ev -> nth_error (dm_regions d) i = Some r -> rg_fd r <> (-1)%Z ->
  dm_pgsize d = 2 ^ k -> k < c -> 2 ^ c <= di_len (rg_info r) -> bitmap_bytes (di_len (rg_info r)) (2 ^ c) cs ->
  exists bm, inv d /\ inv2 d /\ rg_bitmap r = Some bm /\ c <= 63 /\ get_bitmap_size (rg_len r) (2 ^ c) = Ok cs.
Proof.
  intros Hr Hn Hf Hk Hck Hc Hcs.
  destruct (reached_inv _ _ _ _ Hr) as (Hi & H2 & _).
  pose proof (proj1 (Forall_forall _ _) (inv_bm _ Hi) r ltac:(eapply nth_error_In; eauto)) as Hok.
  unfold bm_ok in Hok. rewrite Hk in Hok. destruct (rg_bitmap r) as [bm|] eqn:Eb.
  2:{ pose proof (pow_pos k). destruct Hok as [|]; [lia|contradiction]. }
  pose proof (proj1 (Forall_forall _ _) (inv_size _ Hi) r ltac:(eapply nth_error_In; eauto)) as Hs.
  pose proof (reached_max _ _ _ _ Hr) as Hmax. simpl in Hs. change (8 * 2 ^ 40) with 8796093022208 in *.
  assert (Hc63 : c <= 63).
  { unfold rg_len in Hs. assert (Hx : 2 ^ c <= 2 ^ 63) by (change (2 ^ 63) with 9223372036854775808; lia).
    apply N.pow_le_mono_r_iff in Hx; [exact Hx|reflexivity]. }
  exists bm. split; [exact Hi|]. split; [exact H2|]. split; [reflexivity|]. split; [exact Hc63|].
  pose proof (pow_pos c). apply bitmap_size_complete; auto; [lia|].
  change (2 ^ 64 - 64) with 18446744073709551552. lia.
Qed.

(* ---- C16: client page size larger than the logging page size.
   Missing from the full property: regions of which a page is logged that lies in client page 256 or beyond, when the
   bitmap has more than 24 bytes; the theorems after this one show what is reported instead. *)
Theorem C16_coarser_report_partial : forall cb ops d ev i r k c cs hint buf,
  reached cb ops d ev -> nth_error (dm_regions d) i = Some r -> rg_fd r <> (-1)%Z ->
  dm_pgsize d = 2 ^ k -> k < c -> 2 ^ c <= di_len (rg_info r) ->
  bitmap_bytes (di_len (rg_info r)) (2 ^ c) cs ->
  (cs <= 24 \/ forall q, logged d i q -> q * 2 ^ k < 256 * 2 ^ c) ->
  N.of_nat (length buf) = cs -> (forall p, ~ page_set buf p) ->
  exists out d' h, dirty_page_get d hint (di_iova (rg_info r)) (di_len (rg_info r)) (2 ^ c) cs buf = (Ok out, d', h) /\
    (forall p, p < 8 * cs -> (page_set out p <-> exists q, logged d i q /\ q * 2 ^ k / 2 ^ c = p)) /\
    (forall q, q * 2 ^ k / 2 ^ c < 8 * cs -> ~ logged d' i q).
Proof.
  intros cb ops d ev i r k c cs hint buf Hr Hn Hf Hk Hck Hc Hcs Hsmall Hbuf Hz.
  destruct (coarser_setting _ _ _ _ _ _ _ _ _ Hr Hn Hf Hk Hck Hc Hcs) as (bm & Hi & H2 & Eb & Hc63 & Hg).
  destruct (N.le_gt_cases cs 31) as [L|L].
  - destruct (report_combine_small d hint i r bm k c cs buf Hi H2 Hn Eb Hk Hck Hc63 Hg L Hbuf) as (out & d' & h & E & _ & B & C).
    exists out, d', h. split; [exact E|]. split; [|exact C].
    intros p Hp. rewrite B. split; [intros [A|A]; [elim (Hz _ A)|tauto]|auto].
  - destruct (report_combine_wrap d hint i r bm k c cs buf Hi H2 Hn Eb Hk Hck Hc63 Hg) as (out & d' & h & E & _ & B & C); [lia|exact Hbuf|].
    exists out, d', h. split; [exact E|]. split; [|intros q _; apply C].
    destruct Hsmall as [Hs|Hs]; [lia|].
    assert (Hq : forall q, logged d i q -> (q * 2 ^ k / 2 ^ c) mod 256 = q * 2 ^ k / 2 ^ c).
    { intros q Lq. apply N.mod_small. pose proof (pow_pos c). apply N.div_lt_upper_bound; [lia|]. specialize (Hs q Lq). lia. }
    intros p Hp. rewrite B. split.
    + intros [A|(q & Q1 & Q2)]; [elim (Hz _ A)|]. exists q. rewrite (Hq q Q1) in Q2. auto.
    + intros (q & Q1 & Q2). right. exists q. rewrite (Hq q Q1). auto.
Qed.
Print Assumptions C16_coarser_report_partial.

(* 100 logging pages of 4096, reported as 25 client pages of 16384; logging pages 7, 8 and 9 are dirty. *)
Definition ex16_ops : list dma_op :=
  [ OpMap (ex_os 139637976727552) 0 (100 * 4096) 5 0 3; OpLogStart (fun _ => true) 4096;
    OpMark [mk_sg 0 0 4098 (7 * 4096 + 4095) true] ].
Definition ex16_d := fst (dma_run true dma_create ex16_ops).

Example C16_case : exists r ev, reached true ex16_ops ex16_d ev /\
  nth_error (dm_regions ex16_d) 0 = Some r /\ rg_fd r <> (-1)%Z /\ dm_pgsize ex16_d = 2 ^ 12 /\
  bitmap_bytes (di_len (rg_info r)) (2 ^ 14) 8 /\
  exists d' h, dirty_page_get ex16_d 0 0 (100 * 4096) (2 ^ 14) 8 (repeat 0 8) =
     (Ok [6; 0; 0; 0; 0; 0; 0; 0], d', h).
Proof.
  eexists _, _. split.
  { split; [repeat (constructor; [exact I || (vm_compute; reflexivity)|]); constructor|]. vm_compute. reflexivity. }
  split; [reflexivity|]. split; [discriminate|]. split; [reflexivity|].
  split; [exists 25; vm_compute; repeat split; auto; discriminate|].
  eexists _, _. vm_compute. reflexivity.
Qed.

(* With more than 24 bytes, client pages are reported modulo 256. *)
Theorem C16_coarser_report_wraps : forall cb ops d ev i r k c cs hint buf,
  reached cb ops d ev -> nth_error (dm_regions d) i = Some r -> rg_fd r <> (-1)%Z ->
  dm_pgsize d = 2 ^ k -> k < c -> 2 ^ c <= di_len (rg_info r) ->
  bitmap_bytes (di_len (rg_info r)) (2 ^ c) cs -> 24 < cs ->
  N.of_nat (length buf) = cs -> (forall p, ~ page_set buf p) ->
  exists out d' h, dirty_page_get d hint (di_iova (rg_info r)) (di_len (rg_info r)) (2 ^ c) cs buf = (Ok out, d', h) /\
    (forall p, page_set out p <-> exists q, logged d i q /\ (q * 2 ^ k / 2 ^ c) mod 256 = p) /\
    (forall q, ~ logged d' i q).
Proof.
  intros cb ops d ev i r k c cs hint buf Hr Hn Hf Hk Hck Hc Hcs Hbig Hbuf Hz.
  destruct (coarser_setting _ _ _ _ _ _ _ _ _ Hr Hn Hf Hk Hck Hc Hcs) as (bm & Hi & H2 & Eb & Hc63 & Hg).
  assert (H8 : cs mod 8 = 0) by (destruct Hcs as (pg & _ & X & _); exact X).
  assert (H32 : 32 <= cs) by (apply N.mod_divide in H8; [|lia]; destruct H8 as [u ->]; lia).
  destruct (report_combine_wrap d hint i r bm k c cs buf Hi H2 Hn Eb Hk Hck Hc63 Hg H32 Hbuf) as (out & d' & h & E & _ & B & C).
  exists out, d', h. split; [exact E|]. split; [|exact C].
  intros p. rewrite B. split; [intros [A|A]; [elim (Hz _ A)|exact A]|auto].
Qed.
Print Assumptions C16_coarser_report_wraps.

(* 257 client pages, client page 256 dirty: it is reported as client page 0. *)
Theorem C16_large_bitmap_refuted : exists ops d ev out d' h,
  reached true ops d ev /\ dm_pgsize d = 2 ^ 12 /\
  (forall q, logged d 0 q <-> q = 512) /\
  dirty_page_get d 0 0 (257 * 2 ^ 13) (2 ^ 13) 40 (repeat 0 40) = (Ok out, d', h) /\
  page_set out 0 /\ ~ page_set out 256.
Proof.
  exists [OpMap (ex_os 139637976727552) 0 (257 * 2 ^ 13) 5 0 3; OpLogStart (fun _ => true) (2 ^ 12);
          OpMark [mk_sg 0 0 1 (512 * 4096) true]].
  eexists _, _, _, _, _. split.
  { split; [repeat (constructor; [exact I || (vm_compute; reflexivity)|]); constructor|]. vm_compute. reflexivity. }
  split; [reflexivity|]. split.
  { intros q. split.
    - intros (r & bm & E & Eb & Hp). injection E as <-. injection Eb as <-.
      assert (Hq := page_set_bound _ _ Hp). simpl length in Hq.
      assert (Hall : forallb (fun x => implb (N.testbit (nth (N.to_nat (N.of_nat x / 8))
        (repeat 0 64 ++ 1 :: repeat 0 7) 0) (N.of_nat x mod 8)) (N.of_nat x =? 512)) (seq 0 576) = true)
        by (vm_compute; reflexivity).
      rewrite forallb_forall in Hall. assert (Hin : In (N.to_nat q) (seq 0 576)) by (apply in_seq; lia).
      specialize (Hall _ Hin). rewrite N2Nat.id in Hall. clear Hin.
      unfold page_set in Hp. change (N.testbit (nth (N.to_nat (q / 8)) (repeat 0 64 ++ 1 :: repeat 0 7) 0) (q mod 8) = true) in Hp.
      rewrite Hp in Hall. cbn [implb] in Hall. apply N.eqb_eq. exact Hall.
    - intros ->. eexists _, _. split; [reflexivity|]. split; [reflexivity|]. vm_compute. reflexivity. }
  split; [vm_compute; reflexivity|]. split; vm_compute; [reflexivity|discriminate].
Qed.
Print Assumptions C16_large_bitmap_refuted.

(* ---- C17 *)
Theorem C17_start_answers : forall cb0 ops d ev cb calloc pgsize,
  reached cb0 ops d ev ->
  let r := dma_step cb d (OpLogStart calloc pgsize) in
  (pgsize = 0 -> r = (Err EINVAL, d, [])) /\
  (dm_pgsize d <> 0 -> pgsize <> 0 -> dm_pgsize d <> pgsize -> r = (Err EINVAL, d, [])) /\
  (dm_pgsize d <> 0 -> dm_pgsize d = pgsize -> r = (Ok tt, d, [])).
Proof.
  intros cb0 ops d ev cb calloc pgsize Hr. cbv zeta. simpl. unfold logging_start.
  split; [intros ->; reflexivity|]. split.
  - intros H1 H2 H3. rewrite (proj2 (N.eqb_neq pgsize 0)) by auto.
    rewrite (proj2 (N.ltb_lt 0 (dm_pgsize d))) by lia. rewrite (proj2 (N.eqb_neq (dm_pgsize d) pgsize)) by auto. reflexivity.
  - intros H1 H2. subst pgsize. rewrite (proj2 (N.eqb_neq (dm_pgsize d) 0)) by auto.
    rewrite (proj2 (N.ltb_lt 0 (dm_pgsize d))) by lia. rewrite N.eqb_refl. reflexivity.
Qed.
Print Assumptions C17_start_answers.

(* Logging is off: no region has a log.  Logging is on: exactly the regions with a file have one, of the right size. *)
Theorem C17_logs_exist : forall cb ops d ev r,
  reached cb ops d ev -> In r (dm_regions d) ->
  (dm_pgsize d = 0 \/ rg_fd r = (-1)%Z -> rg_bitmap r = None) /\
  (dm_pgsize d <> 0 -> rg_fd r <> (-1)%Z ->
     exists bm, rg_bitmap r = Some bm /\ bitmap_bytes (di_len (rg_info r)) (dm_pgsize d) (N.of_nat (length bm))).
Proof.
  intros cb ops d ev r Hr Hin. destruct (reached_inv _ _ _ _ Hr) as (Hi & _).
  pose proof (proj1 (Forall_forall _ _) (inv_bm _ Hi) r Hin) as Hok. unfold bm_ok in Hok.
  pose proof (proj1 (Forall_forall _ _) (inv_size _ Hi) r Hin) as Hs. simpl in Hs.
  pose proof (reached_max _ _ _ _ Hr) as Hmax. change (8 * 2 ^ 40) with 8796093022208 in *.
  destruct (rg_bitmap r) as [bm|].
  - destruct Hok as (A & B & sz & C & D & _). split; [tauto|]. intros _ _. exists bm. split; auto.
    apply bitmap_size_exact.
    + unfold rg_len in Hs. change (2 ^ 64 - 64) with 18446744073709551552. lia.
    + rewrite D, N2Nat.id. exact C.
  - split; [auto|]. tauto.
Qed.
Print Assumptions C17_logs_exist.

(* A start that succeeds while logging is off turns it on with every log empty; a start that fails changes nothing
   (so no region has a log).  Neither changes the regions. *)
Theorem C17_start_effect : forall cb0 ops d ev cb calloc pgsize o d' ev',
  reached cb0 ops d ev -> dm_pgsize d = 0 ->
  dma_step cb d (OpLogStart calloc pgsize) = (o, d', ev') ->
  map rg_info (dm_regions d') = map rg_info (dm_regions d) /\
  ((o = Ok tt /\ dm_pgsize d' = pgsize /\ pgsize <> 0 /\ forall j p, ~ logged d' j p) \/
   (exists e, o = Err e /\ d' = d)).
Proof.
  intros cb0 ops d ev cb calloc pgsize o d' ev' Hr Hp H. destruct (reached_inv _ _ _ _ Hr) as (Hi & _).
  simpl in H. destruct (logging_start calloc d pgsize) as [o1 d1] eqn:E. injection H as <- <- <-.
  destruct (logging_start_spec _ _ _ _ _ Hi E) as (_ & Hs & [(e & -> & ->)|(-> & P1 & P2 & [[P3 _]|[_ Hz]])]).
  - split; [auto|]. right. eauto.
  - lia.
  - split; [now apply shape_infos|]. left. repeat split; auto. intros j p (r & bm & Hn & Hb & Hps).
    rewrite Forall_forall in Hz. specialize (Hz r (nth_error_In _ _ Hn) bm Hb).
    unfold page_set in Hps.
    assert (En : nth (N.to_nat (p / 8)) bm 0 = 0).
    { destruct (nth_in_or_default (N.to_nat (p / 8)) bm 0) as [Hx|Hx]; [|exact Hx].
      rewrite Forall_forall in Hz. now apply Hz. }
    rewrite En, N.bits_0 in Hps. discriminate.
Qed.
Print Assumptions C17_start_effect.

Theorem C17_stop_effect : forall cb0 ops d ev cb,
  reached cb0 ops d ev ->
  exists d', dma_step cb d OpLogStop = (Ok tt, d', []) /\ dm_pgsize d' = 0 /\
    map rg_info (dm_regions d') = map rg_info (dm_regions d) /\
    forall r, In r (dm_regions d') -> rg_bitmap r = None.
Proof.
  intros cb0 ops d ev cb Hr. destruct (reached_inv _ _ _ _ Hr) as (Hi & _).
  exists (logging_stop d). split; [reflexivity|].
  assert (Hp : dm_pgsize (logging_stop d) = 0).
  { unfold logging_stop. destruct (N.eqb_spec (dm_pgsize d) 0); auto. }
  split; [exact Hp|]. split; [apply shape_infos, logging_stop_shape|].
  intros r Hin. pose proof (proj1 (Forall_forall _ _) (inv_bm _ (logging_stop_inv _ Hi)) r Hin) as Hok.
  rewrite Hp in Hok. now apply bm_ok_none0.
Qed.
Print Assumptions C17_stop_effect.

(* A region mapped while logging is on starts with an empty log. *)
Theorem C17_map_while_logging : forall cb0 ops d ev cb os addr size fd off prot d' ev',
  reached cb0 ops d ev -> dm_pgsize d <> 0 -> fd <> (-1)%Z ->
  (forall r, ~ registered d r addr size) ->
  dma_step cb d (OpMap os addr size fd off prot) = (Ok tt, d', ev') ->
  exists r bm, dm_regions d' = dm_regions d ++ [r] /\ di_iova (rg_info r) = addr /\ di_len (rg_info r) = size /\
    rg_bitmap r = Some bm /\ forall p, ~ page_set bm p.
Proof.
  intros cb0 ops d ev cb os addr size fd off prot d' ev' Hr Hp Hf Hfresh H. simpl in H.
  unfold dma_map_request in H. destruct (add_region os d addr size fd off prot) as [[o d1] ev1] eqn:E.
  destruct o as [n|e|c].
  - assert (d1 = d') by (destruct (nth_error (dm_regions d1) n); congruence). subst d1. clear H.
    apply add_region_ok in E. destruct E as (_ & _ & [(-> & r & Hn & Hk & _)|(r & -> & _ & _ & _ & Hk & Hfd & _ & _ & _ & Hb & _ & Hz)]).
    + elim (Hfresh r). unfold key, rg_base, rg_len in Hk. injection Hk as E1 E2.
      repeat split; auto. eapply nth_error_In; eauto.
    + unfold key, rg_base, rg_len in Hk. injection Hk as E1 E2.
      unfold bm_ok in Hb. destruct (rg_bitmap r) as [bm|] eqn:Eb; [|destruct Hb; [contradiction|congruence]].
      exists r, bm. repeat split; auto. intros p Hps. unfold page_set in Hps.
      specialize (Hz bm eq_refl).
      assert (En : nth (N.to_nat (p / 8)) bm 0 = 0).
      { destruct (nth_in_or_default (N.to_nat (p / 8)) bm 0) as [Hx|Hx]; [|exact Hx].
        rewrite Forall_forall in Hz. now apply Hz. }
      rewrite En, N.bits_0 in Hps. discriminate.
  - discriminate.
  - discriminate.
Qed.
Print Assumptions C17_map_while_logging.

(* The history ex_ops starts logging with a file-backed region present, and maps another while logging. *)
Example C17_case : map (fun r => option_map (@length N) (rg_bitmap r)) (dm_regions ex_d) = [Some 8%nat; Some 8%nat; None] /\
  exists d d', reached true (firstn 2 ex_ops) d (snd (dma_run true dma_create (firstn 2 ex_ops))) /\ dm_pgsize d = 0 /\
    dma_step true d (OpLogStart (fun _ => true) 4096) = (Ok tt, d', []) /\
    (exists d2 ev2, dma_step true d' (OpMap (ex_os 8192) 65536 4096 9 0 3) = (Ok tt, d2, ev2)) /\
    dma_step true d (OpLogStart (fun i => Nat.eqb i 0) 4096) = (Err ENOMEM, d, []).
Proof.
  split; [vm_compute; reflexivity|]. eexists _, _. split.
  { split; [repeat (constructor; [exact I || (vm_compute; reflexivity)|]); constructor|]. vm_compute. reflexivity. }
  split; [reflexivity|]. split; [vm_compute; reflexivity|]. split; [eexists _, _; vm_compute; reflexivity|]. vm_compute. reflexivity.
Qed.

(* ---- C18 *)
Theorem C18_bitmap_size : forall len pgsize,
  len < 2 ^ 64 - 64 ->
  match get_bitmap_size len pgsize with
  | Ok n => bitmap_bytes len pgsize n /\ pgsize <> 0 /\ pgsize <= len
  | Err e => e = EINVAL /\ (pgsize = 0 \/ len < pgsize)
  | Crash _ => False
  end.
Proof.
  intros len pg H. destruct (get_bitmap_size len pg) as [n|e|c] eqn:E.
  - split; [now apply bitmap_size_exact|]. unfold get_bitmap_size in E.
    destruct (N.eqb_spec pg 0); [discriminate|]. destruct (N.ltb_spec len pg); [discriminate|auto].
  - now apply bitmap_size_refused in E.
  - unfold get_bitmap_size in E. destruct (_ =? 0); [discriminate|]. destruct (_ <? _); discriminate.
Qed.
Print Assumptions C18_bitmap_size.

Example C18_case : get_bitmap_size (65 * 4096 + 1) 4096 = Ok 16 /\ get_bitmap_size 4095 4096 = Err EINVAL /\
  get_bitmap_size (64 * 4096) 4096 = Ok 8.
Proof. repeat split; vm_compute; reflexivity. Qed.

(* Up to the very end of the 64-bit range the size is not computed correctly. *)
Theorem C18_huge_range_refuted : exists len n, len < 2 ^ 64 /\ get_bitmap_size len 1 = Ok n /\ ~ bitmap_bytes len 1 n.
Proof.
  exists (2 ^ 64 - 1), 0. split; [reflexivity|]. split; [vm_compute; reflexivity|].
  intros (pg & A & _ & B & _). change (2 ^ 64 - 1) with 18446744073709551615 in A. lia.
Qed.
Print Assumptions C18_huge_range_refuted.
