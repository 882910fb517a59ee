(* A config space write changes only the bytes it covers. *)
From Coq Require Import NArith ZArith List Bool Lia ZifyBool ZifyNat ZifyN.
From Verif Require Import Base Types Bytes BytesProofs Migr Pci SpecPci SpecCfg BufProofs PciProofs PciWrite PciCapWrite PciLoop CfgPieces.
Import ListNotations.
Open Scope N_scope.
Ltac Zify.zify_post_hook ::= idtac.

Definition outside (off : N) (n : nat) (x : N) : Prop := x < off \/ off + N.of_nat n <= x.

Lemma rd_fits l off n v : rd l off n = Some v -> (off + n <= length l)%nat.
Proof. unfold rd. destruct (slice l off n) eqn:S; [|discriminate]. intros _. eapply slice_bound; eauto. Qed.

Lemma put_outside cfg off data cfg' x : put_slice cfg (N.to_nat off) data = Some cfg' -> outside off (length data) x ->
  nth (N.to_nat x) cfg' 0 = nth (N.to_nat x) cfg 0.
Proof.
  intros P O. rewrite (put_overlay _ _ _ _ x P). unfold overlay. unfold outside in O.
  replace ((off <=? x) && (x <? off + N.of_nat (length data))) with false by lia. reflexivity.
Qed.

Lemma masked_outside cfg cfg' base size off data m x : masked_to cfg cfg' base size off data m -> outside off (length data) x ->
  nth (N.to_nat x) cfg' 0 = nth (N.to_nat x) cfg 0.
Proof.
  intros M O. rewrite (M x). unfold overlay. unfold outside in O.
  replace ((off <=? x) && (x <? off + N.of_nat (length data))) with false by lia. rewrite merged_same.
  now destruct ((base <=? x) && (x <? base + size)).
Qed.

Lemma hdr_outside e cfg off buf o cfg' x : hdr_write e cfg off buf = (o, cfg') -> outside off (length buf) x ->
  nth (N.to_nat x) cfg' 0 = nth (N.to_nat x) cfg 0.
Proof.
  intros H O. unfold outside in O.
  assert (ST : forall n v o1, (n <= length buf)%nat ->
    (match wr cfg (N.to_nat off) n v with Some c => (o1, c) | None => (Crash OutOfBounds, cfg) end) = (o, cfg') ->
    nth (N.to_nat x) cfg' 0 = nth (N.to_nat x) cfg 0).
  { intros n v o1 L Q. destruct (wr cfg (N.to_nat off) n v) as [c|] eqn:W; injection Q as <- <-; [|reflexivity].
    eapply wr_other; [exact W|]. lia. }
  unfold hdr_write in H. cbv zeta in H.
  destruct (off =? 4) eqn:E4.
  { unfold need in H. destruct (rd buf 0 2) as [v|] eqn:R; [|injection H as <- <-; reflexivity].
    destruct (rd cfg 4 2) as [old|]; [|injection H as <- <-; reflexivity]. destruct (command_write old v) as [new good].
    apply rd_fits in R. apply N.eqb_eq in E4. subst off.
    exact (ST 2%nat new _ R H). }
  destruct ((off =? 6) || (off =? 8) || (off =? 9) || (off =? 61) || (off =? 62) || (off =? 63)); [injection H as <- <-; reflexivity|].
  destruct ((off =? 60) || (off =? 12) || (off =? 13)).
  { unfold need in H. destruct (rd buf 0 1) as [v|] eqn:R; [|injection H as <- <-; reflexivity]. apply rd_fits in R. exact (ST 1%nat v _ R H). }
  destruct ((off =? 16) || (off =? 20) || (off =? 24) || (off =? 28) || (off =? 32) || (off =? 36)).
  { destruct (nth _ (pe_bar_size e) 0 =? 0); [injection H as <- <-; reflexivity|]. unfold need in H.
    destruct (rd buf 0 4) as [v|] eqn:R; [|injection H as <- <-; reflexivity]. apply rd_fits in R.
    destruct (rd cfg (N.to_nat off) 4) as [old|]; [|injection H as <- <-; reflexivity]. exact (ST 4%nat _ _ R H). }
  destruct (off =? 48); [|injection H as <- <-; reflexivity].
  unfold need in H. destruct (rd buf 0 4) as [v|] eqn:R; [|injection H as <- <-; reflexivity]. apply rd_fits in R.
  destruct (erom_write v) as [[|]|]; [exact (ST 4%nat 0 _ R H)|injection H as <- <-; reflexivity|injection H as <- <-; reflexivity].
Qed.

Lemma cap_outside e cfg c off data ans o cfg' ev x : bytes cfg -> bytes data -> cp_off c <= off ->
  cap_write e cfg c off data ans = (o, cfg', ev) -> outside off (length data) x -> nth (N.to_nat x) cfg' 0 = nth (N.to_nat x) cfg 0.
Proof.
  intros B Bd Lo H O.
  assert (V : forall at_, at_ = off -> (match put_slice cfg (N.to_nat at_) data with Some c => (Ok tt, c, []) | None => (Crash OutOfBounds, cfg, []) end) = (o, cfg', ev) ->
    nth (N.to_nat x) cfg' 0 = nth (N.to_nat x) cfg 0).
  { intros at_ -> Q. destruct (put_slice cfg (N.to_nat off) data) as [c1|] eqn:P; injection Q as <- <- <-; [|reflexivity]. eapply put_outside; eauto. }
  unfold cap_write in H. cbv zeta in H.
  destruct (cp_ext c).
  { destruct (cp_id c =? PCI_EXT_CAP_ID_DSN); [injection H as <- <- <-; reflexivity|exact (V off eq_refl H)]. }
  destruct (cp_id c =? PCI_CAP_ID_PM).
  { unfold cap_write_pm in H. cbv zeta in H. destruct (off - cp_off c =? 2); [injection H as <- <- <-; reflexivity|].
    destruct (off - cp_off c =? 4) eqn:E.
    - destruct (negb _); [injection H as <- <- <-; reflexivity|]. apply (V (cp_off c + 4)); [lia|exact H].
    - destruct (_ || _); injection H as <- <- <-; reflexivity. }
  destruct (cp_id c =? PCI_CAP_ID_EXP).
  { unfold cap_write_px in H. destruct (negb (N.of_nat (length data) =? 2)) eqn:L; [injection H as <- <- <-; reflexivity|].
    destruct (off - cp_off c =? 8) eqn:E8.
    - unfold px_pxdc_write, need in H. destruct (rd cfg _ 2) as [old|]; [|injection H as <- <- <-; reflexivity].
      destruct (rd cfg _ 4) as [dc|]; [|injection H as <- <- <-; reflexivity].
      destruct (wr cfg (N.to_nat (cp_off c + 8)) 2 _) as [c1|] eqn:W; [|injection H as <- <- <-; reflexivity].
      assert (Q : nth (N.to_nat x) c1 0 = nth (N.to_nat x) cfg 0).
      { eapply wr_other; [exact W|]. unfold outside in O. lia. }
      destruct (N.testbit (le_val data) 15); [|injection H as <- <- <-; exact Q].
      destruct (negb (N.testbit dc 28)); [injection H as <- <- <-; exact Q|].
      destruct (pe_reset_cb e); [destruct ans|]; injection H as <- <- <-; exact Q.
    - destruct (_ || _ || _ || _); [injection H as <- <- <-; reflexivity|].
      destruct ((off - cp_off c =? 40) || (off - cp_off c =? 48)); [|injection H as <- <- <-; reflexivity].
      apply (V (cp_off c + (off - cp_off c))); [lia|exact H]. }
  assert (Eo : cp_off c + (off - cp_off c) = off) by lia.
  destruct (cp_id c =? PCI_CAP_ID_MSI).
  { destruct (slice cfg (N.to_nat (cp_off c)) 24) as [old|] eqn:So.
    2:{ unfold cap_write_msi, need in H. rewrite So in H. injection H as <- <- <-. reflexivity. }
    destruct (put_slice old (N.to_nat (off - cp_off c)) data) as [new|] eqn:Pn.
    2:{ unfold cap_write_msi, need in H. rewrite So, Pn in H. injection H as <- <- <-. reflexivity. }
    pose proof (slice_bound _ _ _ _ So) as L1. apply put_slice_bound in Pn. rewrite (slice_length _ _ _ _ So) in Pn.
    pose proof (msi_exact cfg (cp_off c) (off - cp_off c) data o cfg' ev B Bd ltac:(lia) ltac:(lia) H) as Q. cbv zeta in Q.
    destruct Q as (_ & _ & _ & _ & M). rewrite Eo in M. eapply masked_outside; eauto. }
  destruct (cp_id c =? PCI_CAP_ID_MSIX).
  { destruct (slice cfg (N.to_nat (cp_off c)) 12) as [old|] eqn:So.
    2:{ unfold cap_write_msix, need in H. rewrite So in H. injection H as <- <- <-. reflexivity. }
    destruct (put_slice old (N.to_nat (off - cp_off c)) data) as [new|] eqn:Pn.
    2:{ unfold cap_write_msix, need in H. rewrite So, Pn in H. injection H as <- <- <-. reflexivity. }
    pose proof (slice_bound _ _ _ _ So) as L1. apply put_slice_bound in Pn. rewrite (slice_length _ _ _ _ So) in Pn.
    pose proof (msix_exact cfg (cp_off c) (off - cp_off c) data o cfg' ev B Bd ltac:(lia) ltac:(lia) H) as Q.
    destruct Q as (_ & _ & _ & _ & M). rewrite Eo in M. eapply masked_outside; eauto. }
  exact (V off eq_refl H).
Qed.

Lemma segment_outside e p off buf a r o cfg' ev x : bytes (pc_cfg p) -> bytes buf ->
  write_segment e p off buf a r = Some (o, cfg', ev) -> outside off (length buf) x -> nth (N.to_nat x) cfg' 0 = nth (N.to_nat x) (pc_cfg p) 0.
Proof.
  intros B Bb H O. unfold write_segment in H.
  assert (FO : forall j, outside off (length (firstn j buf)) x) by (intros j; unfold outside in *; rewrite firstn_length; lia).
  destruct (next_segment p (N.of_nat (length buf)) off true) as [n| |n|c n] eqn:S; [|discriminate| |].
  - destruct (hdr_write e (pc_cfg p) off buf) as [o' c'] eqn:HW. pose proof (hdr_outside _ _ _ _ _ _ x HW O) as Q.
    destruct o'; injection H as <- <- <-; exact Q.
  - destruct (nonstd_write _ _ _ _) as [o' ev']. injection H as <- <- <-. reflexivity.
  - destruct (has _ _); [injection H as <- <- <-; reflexivity|]. destruct (has _ _).
    { destruct (nonstd_write _ _ _ _) as [o' ev']. injection H as <- <- <-. reflexivity. }
    destruct (_ <? _); [injection H as <- <- <-; reflexivity|].
    assert (Lo : cp_off c <= off).
    { unfold next_segment in S. destruct (off <? PCI_STD_HEADER_SIZEOF); [destruct (reg_size off =? 0); discriminate|].
      destruct (cap_find_by_offset _ _ _) as [c0|]; [|discriminate]. destruct (off <? cp_off c0) eqn:E; [discriminate|]. injection S as -> _. lia. }
    destruct (cap_write e (pc_cfg p) c off (firstn (N.to_nat n) buf) r) as [[o' c'] ev'] eqn:CW.
    pose proof (cap_outside _ _ _ _ _ _ _ _ _ x B (bytes_firstn _ _ Bb) Lo CW (FO _)) as Q.
    destruct o'; injection H as <- <- <-; exact Q.
Qed.

Lemma write_outside fuel : forall e p answers rans k off buf done o p' ev x, bytes (pc_cfg p) -> bytes buf ->
  (forall c, In c (all_caps p) -> cap_wf c /\ 64 <= cp_off c) ->
  cfg_write fuel e p answers rans k off buf done = (o, p', ev) -> outside off (length buf) x -> byte_at p' x = byte_at p x.
Proof.
  induction fuel as [|fuel IH]; intros e p answers rans k off buf done o p' ev x B Bb LOW H O; cbn [cfg_write] in H.
  - destruct buf; injection H as <- <- <-; reflexivity.
  - destruct buf as [|b l]; [injection H as <- <- <-; reflexivity|]. set (buf := b :: l) in *.
    pose proof (write_step_header e p off buf (answers k) (rans k) B Bb LOW) as SH.
    destruct (write_segment e p off buf (answers k) (rans k)) as [[[o1 cfg'] ev1]|] eqn:W; [|injection H as <- <- <-; reflexivity].
    pose proof (segment_outside _ _ _ _ _ _ _ _ _ x B Bb W O) as Q. destruct SH as (_ & SB & _).
    destruct o1 as [n|er|cr]; [|injection H as <- <- <-; exact Q|injection H as <- <- <-; exact Q].
    destruct (cfg_write fuel e (set_cfg p cfg') answers rans (k + length ev1) (off + n) (skipn (N.to_nat n) buf) (done + n)) as [[o2 p2] ev2] eqn:R.
    injection H as <- <- <-. pose proof (write_le _ _ _ _ _ _ _ _ _ W) as NL.
    transitivity (byte_at (set_cfg p cfg') x); [|exact Q].
    eapply IH; [| | |exact R|].
    + cbn [set_cfg pc_cfg]. auto.
    + apply bytes_skipn. exact Bb.
    + exact LOW.
    + unfold outside in *. rewrite skipn_length. lia.
Qed.
