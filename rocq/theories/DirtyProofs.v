(* Dirty page logging: which bits are set by a marking, what a report returns. *)
From Coq Require Import NArith ZArith List Bool Lia ZifyBool ZifyNat ZifyN.
From Verif Require Import Base Types Spec Dma Dirty DmaOps SpecDma DmaProofs DmaDisjoint DmaSgl DmaMap DmaRemap.
Import ListNotations.
Open Scope N_scope.
Ltac Zify.zify_post_hook ::= Z.div_mod_to_equations.

(* ---- bits of or_bytes *)

Lemma nth_set_nth {A} i j (v x : A) l : (i < length l)%nat ->
  nth j (set_nth i v l) x = if Nat.eqb j i then v else nth j l x.
Proof.
  revert i j; induction l as [|y l IH]; intros i j H; simpl in H; [lia|].
  destruct i as [|i], j as [|j]; simpl; auto. apply IH. lia.
Qed.

Lemma or_byte_bits bm i m bm' : or_byte bm i m = Ok bm' ->
  forall p, page_set bm' p <-> page_set bm p \/ (p / 8 = i /\ N.testbit m (p mod 8) = true).
Proof.
  intros H p. apply or_byte_ok in H. destruct H as (Hl & b & Hb & ->). unfold page_set.
  rewrite nth_set_nth by auto.
  destruct (Nat.eqb_spec (N.to_nat (p / 8)) (N.to_nat i)) as [E|E].
  - assert (E' : p / 8 = i) by (apply N2Nat.inj; auto).
    rewrite E. erewrite nth_error_nth by eauto. rewrite N.lor_spec, orb_true_iff. intuition.
  - split; [auto|]. intros [H|[H _]]; auto. subst i. now elim E.
Qed.

Lemma or_bytes_bits ops : forall bm bm', or_bytes bm ops = Ok bm' ->
  forall p, page_set bm' p <->
    page_set bm p \/ exists i m, In (i, m) ops /\ p / 8 = i /\ N.testbit m (p mod 8) = true.
Proof.
  induction ops as [|[i m] ops IH]; intros bm bm' H p; simpl in H.
  - injection H as <-. split; auto. intros [|(i & m & [] & _)]; auto.
  - destruct (or_byte bm i m) as [b1| |] eqn:E; try discriminate.
    rewrite (IH _ _ H p), (or_byte_bits _ _ _ _ E p). split.
    + intros [[A|A]|(i' & m' & A & B)]; auto.
      * right. exists i, m. split; [left; auto|tauto].
      * right. exists i', m'. split; [right; auto|tauto].
    + intros [A|(i' & m' & [A|A] & B)]; auto.
      * injection A as <- <-. auto.
      * right. exists i', m'. auto.
Qed.

Lemma or_bytes_total ops : forall bm,
  Forall (fun p => (N.to_nat (fst p) < length bm)%nat) ops -> exists bm', or_bytes bm ops = Ok bm'.
Proof.
  induction ops as [|[i m] ops IH]; intros bm H; simpl; eauto.
  inversion H as [|? ? Hi Hops]; subst. simpl in Hi. unfold or_byte.
  destruct (nth_error bm (N.to_nat i)) as [b|] eqn:E; [|apply nth_error_None in E; lia].
  apply IH. eapply Forall_impl; [|exact Hops]. simpl. intros p Hp. rewrite set_nth_length. exact Hp.
Qed.

(* ---- the masks of one marking *)

Lemma testbit_255 b : b < 8 -> N.testbit 255 b = true.
Proof. intros H. change 255 with (N.ones 8). now apply N.ones_spec_low. Qed.

Lemma testbit_pow_sub1 k b : N.testbit (2 ^ k - 1) b = (b <? k).
Proof.
  replace (2 ^ k - 1) with (N.ones k) by (rewrite N.ones_equiv; lia).
  destruct (N.ltb_spec b k); [now apply N.ones_spec_low|now apply N.ones_spec_high].
Qed.

Lemma mark_mask_bit s e index last i b : b < 8 -> 0 < last < two64 ->
  N.testbit (mark_mask s e index last i) b =
  (if (i =? index) && negb (s mod 8 =? 0) then s mod 8 <=? b else true) &&
  (if (i =? last - 1) && negb (e mod 8 =? 0) then b <? e mod 8 else true).
Proof.
  intros Hb Hl. unfold mark_mask. rewrite sub64_small by lia.
  destruct ((i =? index) && negb (s mod 8 =? 0)); destruct ((i =? last - 1) && negb (e mod 8 =? 0));
    rewrite ?N.land_spec, ?N.ldiff_spec, ?testbit_255, ?testbit_pow_sub1 by auto; simpl; lia.
Qed.

Lemma mark_ops_bits s e p : s < e -> e < two63 ->
  (exists i m, In (i, m) (mark_ops s e) /\ p / 8 = i /\ N.testbit m (p mod 8) = true) <-> s <= p < e.
Proof.
  intros Hse He. unfold mark_ops.
  set (index := s / 8). set (last := e / 8 + (if e mod 8 =? 0 then 0 else 1)).
  assert (Hidx : index < last).
  { unfold index, last. destruct (N.eqb_spec (e mod 8) 0); lia. }
  assert (Hlast : 0 < last < two64).
  { unfold last, two63, two64 in *. split; [lia|]. destruct (N.eqb_spec (e mod 8) 0); lia. }
  split.
  - intros (i & m & Hin & Hp & Hm). apply in_map_iff in Hin. destruct Hin as (k & E & Hk).
    apply in_seq in Hk. injection E as Ei Em. subst m.
    rewrite mark_mask_bit in Hm by lia. apply andb_true_iff in Hm. destruct Hm as [H1 H2].
    rewrite Ei in *.
    assert (Hi : index <= i < last) by lia. clear Hk Ei k.
    unfold index, last in *.
    destruct (N.eqb_spec i (s / 8)), (N.eqb_spec (s mod 8) 0), (N.eqb_spec (e mod 8) 0);
      simpl in *; destruct (N.eqb_spec i (e / 8 + 1 - 1)), (N.eqb_spec i (e / 8 + 0 - 1)); simpl in *; lia.
  - intros Hp. exists (p / 8), (mark_mask s e index last (p / 8)).
    assert (Hi : index <= p / 8 < last).
    { unfold index, last. destruct (N.eqb_spec (e mod 8) 0); lia. }
    split; [|split; [auto|]].
    + apply in_map_iff. exists (N.to_nat (p / 8 - index)).
      rewrite N2Nat.id. replace (index + (p / 8 - index)) with (p / 8) by lia.
      split; auto. apply in_seq. lia.
    + rewrite mark_mask_bit by lia. apply andb_true_iff. unfold index, last in *.
      destruct (N.eqb_spec (e mod 8) 0), (N.eqb_spec (s mod 8) 0); simpl; rewrite ?andb_false_r, ?andb_true_r;
      split; auto; repeat (match goal with |- context [if ?x =? ?y then _ else _] => destruct (N.eqb_spec x y) end); lia.
Qed.

Lemma mark_ops_bound s e : Forall (fun q => fst q < e / 8 + (if e mod 8 =? 0 then 0 else 1)) (mark_ops s e).
Proof.
  unfold mark_ops. apply Forall_forall. intros q Hq. apply in_map_iff in Hq. destruct Hq as (k & <- & Hk).
  apply in_seq in Hk. simpl. lia.
Qed.

(* ---- pages of a byte range, page size 2^k *)

Lemma page_range off len k p : len <> 0 -> off + len + 2 ^ k < two64 -> k <= 63 ->
  (pg_start off (2 ^ k) <= p < pg_end off len (2 ^ k)) <-> exists x, off <= x < off + len /\ x / 2 ^ k = p.
Proof.
  intros Hl Hw Hk. unfold pg_start, pg_end.
  pose proof (pow_pos k) as Hp. set (P := 2 ^ k) in *.
  rewrite w64_small by lia. unfold P. rewrite round_up_pow2 by (auto; fold P; lia). fold P.
  rewrite N.div_mul by lia.
  assert (E1 := N.div_mod off P ltac:(lia)). assert (M1 := N.mod_lt off P ltac:(lia)).
  set (T := off + len + P - 1). assert (E2 := N.div_mod T P ltac:(lia)). assert (M2 := N.mod_lt T P ltac:(lia)).
  split.
  - intros [H1 H2]. exists (N.max off (p * P)). split.
    + split; [lia|]. apply N.max_lub_lt; [lia|].
      assert ((p + 1) * P <= T / P * P) by (apply N.mul_le_mono_r; lia). unfold T in *. nia.
    + symmetry. apply N.div_unique with (r := N.max off (p * P) - P * p); [|lia].
      assert (off < (p + 1) * P). { assert (off / P * P <= p * P) by (apply N.mul_le_mono_r; lia). nia. }
      nia.
  - intros (x & Hx & <-).
    assert (E3 := N.div_mod x P ltac:(lia)). assert (M3 := N.mod_lt x P ltac:(lia)).
    split; [apply N.div_le_mono; lia|].
    assert (x / P * P < T / P * P); [|nia].
    unfold T in *. nia.
Qed.

Lemma page_end_pos off len k : len <> 0 -> off + len + 2 ^ k < two64 -> k <= 63 ->
  pg_start off (2 ^ k) < pg_end off len (2 ^ k).
Proof.
  intros Hl Hw Hk. pose proof (proj2 (page_range off len k (off / 2 ^ k) Hl Hw Hk)) as H.
  destruct H as [A B]; [exists off; split; [lia|auto]|]. lia.
Qed.

Lemma bitmap_size_pages len k sz : k <= 63 -> len + 2 ^ k < two63 ->
  get_bitmap_size len (2 ^ k) = Ok sz ->
  (len + 2 ^ k - 1) / 2 ^ k <= 8 * sz /\ sz mod 8 = 0 /\ 2 ^ k <= len /\ 8 * sz < (len + 2 ^ k - 1) / 2 ^ k + 64.
Proof.
  intros Hk Hlen H. pose proof (pow_pos k) as Hp. set (P := 2 ^ k) in *.
  unfold get_bitmap_size in H.
  destruct (N.eqb_spec P 0); [lia|]. destruct (N.ltb_spec len P); [discriminate|].
  set (nr := len / P + (if len mod P =? 0 then 0 else 1)) in *.
  assert (E1 := N.div_mod len P ltac:(lia)). assert (M1 := N.mod_lt len P ltac:(lia)).
  assert (Hnr : nr = (len + P - 1) / P).
  { unfold nr. destruct (N.eqb_spec (len mod P) 0) as [E|E].
    - apply N.div_unique with (r := P - 1); lia.
    - apply N.div_unique with (r := len mod P - 1); lia. }
  assert (Hnr2 : nr <= len). { rewrite Hnr. apply N.div_le_upper_bound; [lia|]. nia. }
  change 64 with (2 ^ 6) in H.
  rewrite round_up_pow2 in H by (change (2 ^ 6) with 64; unfold two63, two64 in *; lia).
  change (2 ^ 6) with 64 in H. injection H as <-. rewrite <- Hnr.
  pose proof (ceil_bounds nr 64 ltac:(lia)) as Hc.
  set (q := (nr + 64 - 1) / 64) in *.
  replace (q * 64) with (q * 8 * 8) by lia. rewrite N.div_mul by lia. lia.
Qed.

(* ---- marking one entry *)

Lemma page_size_small len k sz : len <= 8 * 2 ^ 40 -> get_bitmap_size len (2 ^ k) = Ok sz ->
  k <= 43 /\ 2 ^ k <= 8796093022208.
Proof.
  intros Hlen H. unfold get_bitmap_size in H. destruct (_ =? 0); [discriminate|].
  destruct (N.ltb_spec len (2 ^ k)); [discriminate|].
  change (8 * 2 ^ 40) with (2 ^ 43) in Hlen.
  assert (Hp : 2 ^ k <= 2 ^ 43) by lia.
  split; [|exact Hp]. apply N.pow_le_mono_r_iff in Hp; [exact Hp|reflexivity].
Qed.

Lemma mark_region_total k r s bm :
  rg_len r <= 8 * 2 ^ 40 -> sg_off s + sg_len s <= rg_len r -> sg_len s <> 0 ->
  rg_bitmap r = Some bm -> bm_ok (2 ^ k) r ->
  exists bm', mark_region (2 ^ k) r s = Ok (set_bitmap r (Some bm')) /\ length bm' = length bm /\
    forall p, page_set bm' p <-> page_set bm p \/ touches (2 ^ k) s p.
Proof.
  intros Hlen Hin Hl Hbm Hok.
  unfold bm_ok in Hok. rewrite Hbm in Hok. destruct Hok as (_ & _ & sz & Hsz & Hlb & _).
  destruct (page_size_small _ _ _ Hlen Hsz) as [Hk HP].
  change (8 * 2 ^ 40) with 8796093022208 in *.
  assert (Hw : sg_off s + sg_len s + 2 ^ k < two64) by (unfold two64; lia).
  apply bitmap_size_pages in Hsz; [|lia|unfold two63; lia]. destruct Hsz as (Hs1 & Hs2 & Hs3 & _).
  unfold mark_region. rewrite Hbm.
  set (s0 := pg_start (sg_off s) (2 ^ k)). set (e0 := pg_end (sg_off s) (sg_len s) (2 ^ k)).
  assert (Hse : s0 < e0) by (apply page_end_pos; lia).
  assert (He : e0 <= (rg_len r + 2 ^ k - 1) / 2 ^ k).
  { unfold e0, pg_end. rewrite w64_small by lia. rewrite round_up_pow2 by lia.
    pose proof (pow_pos k). rewrite N.div_mul by lia. apply N.div_le_mono; lia. }
  assert (He63 : e0 < two63).
  { assert ((rg_len r + 2 ^ k - 1) / 2 ^ k <= rg_len r + 2 ^ k - 1).
    { pose proof (pow_pos k). apply N.div_le_upper_bound; [lia|]. nia. }
    unfold two63. lia. }
  destruct (or_bytes_total (mark_ops s0 e0) bm) as [bm' E].
  { eapply Forall_impl; [|apply mark_ops_bound]. simpl. intros q Hq.
    destruct (N.eqb_spec (e0 mod 8) 0); lia. }
  rewrite E. exists bm'. split; [reflexivity|]. split; [eapply or_bytes_length; eauto|].
  intros p. rewrite (or_bytes_bits _ _ _ E p).
  rewrite (mark_ops_bits s0 e0 p Hse He63). unfold s0, e0.
  rewrite page_range by lia. reflexivity.
Qed.

Lemma logged_set d j r bm bm' :
  nth_error (dm_regions d) j = Some r -> rg_bitmap r = Some bm ->
  forall i p, logged (set_regions d (set_nth j (set_bitmap r (Some bm')) (dm_regions d))) i p <->
    (if Nat.eqb i j then page_set bm' p else logged d i p).
Proof.
  intros Hn Hb i p. unfold logged. simpl.
  assert (Hj : (j < length (dm_regions d))%nat) by (apply nth_error_Some; congruence).
  destruct (Nat.eqb_spec i j) as [->|Hne].
  - rewrite set_nth_eq by auto. split.
    + intros (r' & b & E & Eb & Hp). injection E as <-. simpl in Eb. injection Eb as <-. auto.
    + intros Hp. eexists _, _. split; [reflexivity|]. split; [reflexivity|auto].
  - rewrite set_nth_neq by auto. reflexivity.
Qed.

Lemma logged_at d j r bm p :
  nth_error (dm_regions d) j = Some r -> rg_bitmap r = Some bm -> (logged d j p <-> page_set bm p).
Proof.
  intros Hn Hb. split.
  - intros (r' & b & E & Eb & Hp). congruence.
  - intros Hp. exists r, bm. auto.
Qed.

Lemma markable_shape rs rs' s : Forall2 same_shape rs rs' -> markable rs s -> markable rs' s.
Proof.
  intros H (Hl & r & Hr & Hf & Ho). split; auto.
  assert (Hx : exists r', nth_error rs' (sg_region s) = Some r' /\ same_shape r r').
  { clear - H Hr. revert Hr. generalize (sg_region s) as n. revert r. induction H as [|a b l l' Hab _ IH]; intros r n Hr.
    - destruct n; discriminate.
    - destruct n as [|n]; simpl in *; eauto. injection Hr as <-. eauto. }
  destruct Hx as (r' & Hr' & Hi & Hfd & _). exists r'. rewrite Hi, Hfd. auto.
Qed.

Lemma mark_list k l : forall d,
  inv d -> dm_pgsize d = 2 ^ k -> dm_max_size d <= 8 * 2 ^ 40 -> Forall (markable (dm_regions d)) l ->
  exists d', sgl_mark_dirty d l = Ok d' /\
    forall j p, logged d' j p <->
      logged d j p \/ exists s, In s l /\ sg_writeable s = true /\ sg_region s = j /\ touches (2 ^ k) s p.
Proof.
  induction l as [|s l IH]; intros d Hi Hpg Hmax Hm.
  - exists d. split; [reflexivity|]. intros j p. split; [auto|]. intros [H|(s & [] & _)]; auto.
  - inversion Hm as [|? ? Hs Hl]; subst. destruct Hs as (Hlen & r & Hr & Hfd & Ho).
    simpl. rewrite Hr.
    assert (Hpos : 0 <? dm_pgsize d = true) by (rewrite Hpg; apply N.ltb_lt, pow_pos).
    rewrite Hpos, andb_true_r.
    destruct (sg_writeable s) eqn:Ew.
    + assert (Hin : In r (dm_regions d)) by (eapply nth_error_In; eauto).
      pose proof (proj1 (Forall_forall _ _) (inv_bm _ Hi) r Hin) as Hok.
      pose proof (proj1 (Forall_forall _ _) (inv_size _ Hi) r Hin) as Hsz. simpl in Hsz.
      destruct (rg_bitmap r) as [bm|] eqn:Eb.
      2:{ exfalso. unfold bm_ok in Hok. rewrite Eb in Hok. destruct Hok as [Hok|Hok]; [|contradiction].
          rewrite Hok in Hpg. pose proof (pow_pos k). lia. }
      rewrite Hpg in Hok.
      destruct (mark_region_total k r s bm) as (bm' & Em & Hlb & Hbits); auto; [lia|].
      rewrite Hpg, Em.
      set (d1 := set_regions d (set_nth (sg_region s) (set_bitmap r (Some bm')) (dm_regions d))).
      assert (Hsh : Forall2 same_shape (dm_regions d) (dm_regions d1)).
      { unfold d1. simpl. eapply set_nth_shape; eauto. apply set_bitmap_shape. }
      assert (Hi1 : inv d1).
      { apply (inv_set_region d _ r); auto; [apply set_bitmap_shape|].
        apply mark_region_ok in Em. destruct Em as [_ Em]. rewrite Hpg. apply Em; auto.
        pose proof (pow_pos k); lia. }
      destruct (IH d1 Hi1 Hpg Hmax) as (d' & E & H').
      { eapply Forall_impl; [|exact Hl]. intros x. now apply markable_shape. }
      exists d'. split; [exact E|]. intros j p. rewrite H'. unfold d1.
      rewrite (logged_set d (sg_region s) r bm bm' Hr Eb).
      destruct (Nat.eqb_spec j (sg_region s)) as [->|Hne].
      * rewrite Hbits, <- (logged_at d _ r bm p Hr Eb). split.
        -- intros [[A|A]|(s' & A & B)]; auto.
           ++ right. exists s. simpl; auto.
           ++ right. exists s'. simpl; tauto.
        -- intros [A|(s' & [A|A] & B)]; auto.
           ++ subst s'. tauto.
           ++ right. exists s'. tauto.
      * split.
        -- intros [A|(s' & A & B)]; auto. right. exists s'. simpl; tauto.
        -- intros [A|(s' & [A|A] & B)]; auto.
           ++ subst s'. destruct B as (_ & B & _). congruence.
           ++ right. exists s'. tauto.
    + destruct (IH d Hi Hpg Hmax Hl) as (d' & E & H'). exists d'. split; [exact E|].
      intros j p. rewrite H'. split.
      * intros [A|(s' & A & B)]; auto. right. exists s'. simpl; tauto.
      * intros [A|(s' & [A|A] & B)]; auto; [subst s'; destruct B; congruence|].
        right. exists s'. tauto.
Qed.

(* ---- reports *)

Lemma report_translate d hint i r :
  inv2 d -> nth_error (dm_regions d) i = Some r -> rg_len r <> 0 ->
  exists h, addr_to_sgl d hint (rg_base r) (rg_len r) 1 0 =
    (SglOk [mk_sg (rg_base r) i (rg_len r) 0 false], h).
Proof.
  intros H2 Hn Hl.
  assert (Hnw : nowrap r). { pose proof (proj1 H2) as X. rewrite Forall_forall in X. apply X. eapply nth_error_In; eauto. }
  pose proof (sgl_hint d (rg_base r) (rg_len r) hint i 1 0 H2 Hnw) as E.
  assert (E2 : fst (addr_to_sgl d i (rg_base r) (rg_len r) 1 0) = SglOk [mk_sg (rg_base r) i (rg_len r) 0 false]).
  { unfold addr_to_sgl. rewrite Hn. rewrite (proj2 (N.ltb_lt 0 (rg_len r))) by lia.
    rewrite N.leb_refl. unfold iov_end. rewrite N.leb_refl. simpl.
    unfold init_sg. simpl. rewrite sub64_small, N.sub_diag by (unfold nowrap in Hnw; lia). reflexivity. }
  rewrite E2 in E. destruct (addr_to_sgl d hint (rg_base r) (rg_len r) 1 0) as [o h]. simpl in E. subst o. eauto.
Qed.

Lemma pow2_test k : k <= 63 -> pow2_or_zero (2 ^ k) = true.
Proof.
  intros Hk. unfold pow2_or_zero. apply N.eqb_eq. pose proof (pow_pos k). pose proof (pow_lt64 k Hk).
  rewrite sub64_small by lia. replace (2 ^ k - 1) with (N.ones k) by (rewrite N.ones_equiv; lia).
  rewrite N.land_ones. apply N.mod_same. lia.
Qed.

Lemma report_exact d hint i r bm k P ss cs buf :
  inv d -> inv2 d -> nth_error (dm_regions d) i = Some r -> rg_bitmap r = Some bm ->
  dm_pgsize d = P -> k <= 63 -> get_bitmap_size (rg_len r) P = Ok ss -> get_bitmap_size (rg_len r) (2 ^ k) = Ok cs ->
  exists h, dirty_page_get d hint (rg_base r) (rg_len r) (2 ^ k) cs buf =
    match report_bitmap P (2 ^ k) ss cs bm buf with
    | Ok (out, bm') => (Ok out, set_regions d (set_nth i (set_bitmap r (Some bm')) (dm_regions d)), h)
    | Err e => (Err e, d, h)
    | Crash c => (Crash c, d, h)
    end.
Proof.
  intros Hi H2 Hn Hb HP Hk Hss Hcs.
  assert (HP0 : P <> 0 /\ rg_len r <> 0).
  { unfold get_bitmap_size in Hss. destruct (N.eqb_spec P 0); [discriminate|].
    destruct (N.ltb_spec (rg_len r) P); [discriminate|]. lia. }
  destruct (report_translate d hint i r H2 Hn ltac:(lia)) as [h E]. exists h.
  unfold dirty_page_get. rewrite E. simpl sg_base. simpl sg_len. rewrite !N.eqb_refl. simpl negb. simpl orb.
  rewrite HP. rewrite (proj2 (N.eqb_neq P 0)) by lia.
  pose proof (pow_pos k). rewrite (proj2 (N.eqb_neq (2 ^ k) 0)) by lia. rewrite pow2_test by auto. simpl.
  rewrite Hss, Hcs, N.eqb_refl. simpl. rewrite Hn.
  assert (Hfd : rg_fd r <> (-1)%Z).
  { pose proof (proj1 (Forall_forall _ _) (inv_bm _ Hi) r ltac:(eapply nth_error_In; eauto)) as Hok.
    unfold bm_ok in Hok. rewrite Hb in Hok. tauto. }
  rewrite (proj2 (Z.eqb_neq _ _) Hfd), Hb. reflexivity.
Qed.

Lemma page_set_repeat0 n p : ~ page_set (repeat 0 n) p.
Proof.
  unfold page_set. intros H.
  assert (E : nth (N.to_nat (p / 8)) (repeat 0 n) 0 = 0).
  { clear H. generalize (N.to_nat (p / 8)). induction n as [|n IH]; intros [|m]; simpl; auto. }
  rewrite E, N.bits_0 in H. discriminate.
Qed.

Lemma get_same_full bm : get_same (length bm) bm = Ok (bm, repeat 0 (length bm)).
Proof. induction bm as [|b bm IH]; simpl; [reflexivity|]. now rewrite IH. Qed.

Lemma report_same d hint i r bm k buf :
  inv d -> inv2 d -> nth_error (dm_regions d) i = Some r -> rg_bitmap r = Some bm ->
  dm_pgsize d = 2 ^ k -> k <= 63 ->
  exists d' h, dirty_page_get d hint (rg_base r) (rg_len r) (2 ^ k) (N.of_nat (length bm)) buf = (Ok bm, d', h) /\
    get_bitmap_size (rg_len r) (2 ^ k) = Ok (N.of_nat (length bm)) /\
    (forall j p, logged d' j p <-> j <> i /\ logged d j p).
Proof.
  intros Hi H2 Hn Hb HP Hk.
  pose proof (proj1 (Forall_forall _ _) (inv_bm _ Hi) r ltac:(eapply nth_error_In; eauto)) as Hok.
  unfold bm_ok in Hok. rewrite Hb, HP in Hok. destruct Hok as (_ & _ & sz & Hsz & Hlen & _).
  assert (Esz : sz = N.of_nat (length bm)) by lia. subst sz.
  destruct (report_exact d hint i r bm k _ _ _ buf Hi H2 Hn Hb HP Hk Hsz Hsz) as [h E].
  unfold report_bitmap in E. rewrite N.eqb_refl, Nat2N.id, get_same_full in E.
  eexists _, h. split; [exact E|]. split; [exact Hsz|]. intros j p.
  rewrite (logged_set d i r bm _ Hn Hb). destruct (Nat.eqb_spec j i) as [->|Hne].
  - split; [intros X; now apply page_set_repeat0 in X|]. intros [X _]; now elim X.
  - tauto.
Qed.
