(* Histories of marks and reports, scaled reports, logging life cycle, bitmap sizes. *)
From Coq Require Import NArith ZArith List Bool Lia ZifyBool ZifyNat ZifyN.
From Verif Require Import Base Types Spec Dma Dirty DmaOps SpecDma DmaProofs DmaDisjoint DmaSgl DmaMap DmaRemap
  DirtyProofs DirtyScale.
Import ListNotations.
Open Scope N_scope.
Ltac Zify.zify_post_hook ::= idtac.

(* ---- bitmap size *)

Lemma bitmap_size_exact len pg n : len < 2 ^ 64 - 64 -> get_bitmap_size len pg = Ok n -> bitmap_bytes len pg n.
Proof.
  intros Hlen H. unfold get_bitmap_size in H.
  destruct (N.eqb_spec pg 0) as [|Hp]; [discriminate|]. destruct (N.ltb_spec len pg) as [|Hl]; [discriminate|].
  change (2 ^ 64 - 64) with 18446744073709551552 in Hlen.
  set (nr := len / pg + (if len mod pg =? 0 then 0 else 1)) in *.
  assert (E1 := N.div_mod len pg Hp). assert (M1 := N.mod_lt len pg Hp).
  assert (Hd : len / pg <= len) by (apply N.div_le_upper_bound; nia).
  assert (D1 : 1 <= len / pg) by (apply N.div_le_lower_bound; lia).
  assert (Hnr : (nr - 1) * pg < len <= nr * pg).
  { unfold nr. destruct (N.eqb_spec (len mod pg) 0) as [E|E].
    - rewrite N.add_0_r. nia.
    - rewrite N.add_sub. nia. }
  assert (Hn1 : nr + 64 < two64).
  { unfold two64. change (2 ^ 64) with 18446744073709551616.
    assert (nr <= len); [|lia]. destruct (N.le_gt_cases nr len); auto. exfalso.
    assert (len <= nr - 1) by lia. nia. }
  assert (Hru : round_up nr 64 = (nr + 63) / 64 * 64).
  { change 64 with (2 ^ 6) at 1. rewrite round_up_pow2 by (lia || exact Hn1). change (2 ^ 6) with 64.
    do 2 f_equal. lia. }
  rewrite Hru in H. injection H as <-.
  exists nr. split; [exact Hnr|]. clear - D1.
  assert (T := N.div_mod (nr + 63) 64 ltac:(lia)). assert (T2 := N.mod_lt (nr + 63) 64 ltac:(lia)).
  set (q := (nr + 63) / 64) in *.
  replace (q * 64 / 8) with (q * 8).
  2:{ replace (q * 64) with (q * 8 * 8) by lia. rewrite N.div_mul by lia. reflexivity. }
  split; [apply N.mod_mul; lia|lia].
Qed.

Lemma bitmap_size_refused len pg e : get_bitmap_size len pg = Err e <-> e = EINVAL /\ (pg = 0 \/ len < pg).
Proof.
  unfold get_bitmap_size. destruct (N.eqb_spec pg 0) as [|Hp]; [split; [intros H; injection H as <-; auto|intros [-> _]; auto]|].
  destruct (N.ltb_spec len pg) as [Hl|Hl]; [split; [intros H; injection H as <-; auto|intros [-> _]; auto]|].
  split; [discriminate|]. intros [_ [|]]; lia.
Qed.

Lemma pages_unique a b pg len : (a - 1) * pg < len <= a * pg -> (b - 1) * pg < len <= b * pg -> a = b.
Proof.
  intros [A1 A2] [B1 B2]. destruct (N.lt_trichotomy a b) as [H|[H|H]]; [|exact H|]; exfalso.
  - assert (a * pg <= (b - 1) * pg) by (apply N.mul_le_mono_r; lia). lia.
  - assert (b * pg <= (a - 1) * pg) by (apply N.mul_le_mono_r; lia). lia.
Qed.

Lemma bitmap_bytes_unique len pg n m : bitmap_bytes len pg n -> bitmap_bytes len pg m -> n = m.
Proof.
  intros (a & A1 & A2 & A3 & A4) (b & B1 & B2 & B3 & B4).
  assert (a = b) by (eapply pages_unique; eauto). subst b. clear A1 B1.
  apply N.div_exact in A2; [|lia]. apply N.div_exact in B2; [|lia]. lia.
Qed.

Lemma bitmap_size_complete len pg n : pg <> 0 -> pg <= len -> len < 2 ^ 64 - 64 ->
  bitmap_bytes len pg n -> get_bitmap_size len pg = Ok n.
Proof.
  intros H0 Hle Hlen Hb. destruct (get_bitmap_size len pg) as [n'|e|cr] eqn:E.
  - apply bitmap_size_exact in E; auto. f_equal. eapply bitmap_bytes_unique; eauto.
  - apply bitmap_size_refused in E. lia.
  - unfold get_bitmap_size in E. destruct (_ =? 0); [discriminate|]. destruct (_ <? _); discriminate.
Qed.

(* ---- marks and reports in sequence *)

Lemma report_other d hint addr len cp size buf o d' h i r :
  inv2 d -> range_ok addr len ->
  dirty_page_get d hint addr len cp size buf = (o, d', h) ->
  nth_error (dm_regions d) i = Some r -> rg_base r <> addr ->
  nth_error (dm_regions d') i = Some r.
Proof.
  intros H2 Hr H Hn Hb. unfold dirty_page_get in H.
  destruct (addr_to_sgl d hint addr len 1 0) as [res hint'] eqn:E.
  destruct res as [[|s l]|n|e|c]; try (injection H as _ <- _; exact Hn).
  unfold range_ok in Hr. apply (sgl_ok_tiles _ _ _ _ _ _ _ _ H2 Hr) in E.
  destruct E as (_ & Hin & _). inversion Hin as [|? ? Hs _]; subst.
  destruct Hs as (r' & Hr' & Hbase & _).
  destruct (N.eqb_spec (sg_base s) addr) as [Ea|Ea]; simpl in H; [|injection H as _ <- _; exact Hn].
  destruct (negb (sg_len s =? len)); [injection H as _ <- _; exact Hn|].
  destruct (dm_pgsize d =? 0); [injection H as _ <- _; exact Hn|].
  destruct ((cp =? 0) || negb (pow2_or_zero cp)); [injection H as _ <- _; exact Hn|].
  destruct (get_bitmap_size len (dm_pgsize d)); try (injection H as _ <- _; exact Hn);
    destruct (get_bitmap_size len cp) as [n0| |]; try (injection H as _ <- _; exact Hn).
  destruct (negb (size =? n0)); [injection H as _ <- _; exact Hn|].
  rewrite Hr' in H. destruct (rg_fd r' =? -1)%Z; [injection H as _ <- _; exact Hn|].
  destruct (rg_bitmap r') as [bm|]; [|injection H as _ <- _; exact Hn].
  destruct (report_bitmap _ _ _ _ _ _) as [[out bm']| |]; injection H as _ <- _; try exact Hn.
  simpl. rewrite set_nth_neq; [exact Hn|].
  intros E. subst. rewrite Hn in Hr'. injection Hr' as <-. apply Hb. unfold rg_base. congruence.
Qed.

Lemma F2_nth_ex {A B} (R : A -> B -> Prop) l l' : Forall2 R l l' ->
  forall i x, nth_error l i = Some x -> exists y, nth_error l' i = Some y /\ R x y.
Proof.
  induction 1 as [|a b l l' Hab _ IH]; intros i x Hx; destruct i; try discriminate; simpl in *; eauto.
  injection Hx as <-. eauto.
Qed.

Lemma quiet_run cb k ops : forall d d' ev i r,
  inv d -> inv2 d -> dm_pgsize d = 2 ^ k -> dm_max_size d <= 8 * 2 ^ 40 ->
  nth_error (dm_regions d) i = Some r ->
  Forall (quiet (dm_regions d) (rg_base r)) ops ->
  dma_run cb d ops = (d', ev) ->
  inv d' /\ inv2 d' /\ dm_pgsize d' = 2 ^ k /\
  (exists r', nth_error (dm_regions d') i = Some r' /\ same_shape r r') /\
  forall p, logged d' i p <->
    logged d i p \/ exists l s, In (OpMark l) ops /\ In s l /\ sg_writeable s = true /\ sg_region s = i /\ touches (2 ^ k) s p.
Proof.
  induction ops as [|o ops IH]; intros d d' ev i r Hi H2 Hk Hm Hn Hq Hrun.
  - injection Hrun as <- <-. split; [auto|]. split; [auto|]. split; [auto|].
    split; [exists r; split; [auto|apply same_shape_refl]|].
    intros p. split; [auto|]. intros [A|(l & s & [] & _)]; auto.
  - simpl in Hrun. destruct (dma_step cb d o) as [[res d1] ev1] eqn:Es.
    destruct (dma_run cb d1 ops) as [d2 ev2] eqn:Er. injection Hrun as <- <-.
    inversion Hq as [|? ? Ho Hops]; subst.
    assert (Hi1 : inv d1) by (eapply inv_step; eauto).
    assert (Hi2 : inv2 d1).
    { apply (inv2_step cb d o res d1 ev1 Hi H2); [|exact Es]. clear - Ho. destruct o; simpl in Ho |- *; try exact I; contradiction. }
    pose proof (step_limits _ _ _ _ _ _ Es) as Hlim. unfold limits in Hlim. injection Hlim as L1 L2.
    assert (Hstep : dm_pgsize d1 = dm_pgsize d /\ Forall2 same_shape (dm_regions d) (dm_regions d1) /\
      forall p, logged d1 i p <-> logged d i p \/
        exists l s, OpMark l = o /\ In s l /\ sg_writeable s = true /\ sg_region s = i /\ touches (2 ^ k) s p).
    { destruct o as [| | | | |l|hint addr len pg size buf]; try contradiction.
      - simpl in Ho. destruct (mark_list k l d Hi Hk Hm Ho) as (dx & Ex & Hx).
        simpl in Es. rewrite Ex in Es. injection Es as <- <- <-.
        pose proof (sgl_mark_dirty_inv _ _ _ Hi Ex) as (_ & Hs & Hp). split; [auto|]. split; [auto|].
        intros p. rewrite Hx. split; (intros [A|A]; [auto|right]).
        + destruct A as (s & A). exists l, s. tauto.
        + destruct A as (l' & s & E & A). injection E as <-. exists s. tauto.
      - simpl in Ho, Es. destruct Ho as [Hro Hne].
        destruct (dirty_page_get d hint addr len pg size buf) as [[o2 dx] h2] eqn:Ed.
        pose proof (dirty_page_get_inv _ _ _ _ _ _ _ _ _ _ Hi Ed) as (_ & Hs & Hp).
        pose proof (report_other _ _ _ _ _ _ _ _ _ _ _ _ H2 Hro Ed Hn ltac:(congruence)) as Hsame.
        assert (Hlog : forall p, logged dx i p <-> logged d i p).
        { intros p. unfold logged. rewrite Hsame, Hn. reflexivity. }
        assert (Hself : dm_pgsize d = dm_pgsize d /\ Forall2 same_shape (dm_regions d) (dm_regions d)).
        { split; [auto|]. apply Forall2_refl, same_shape_refl. }
        destruct o2 as [b|e|c]; injection Es as <- <- <-;
          (split; [tauto|]); (split; [tauto|]); intros p; rewrite ?Hlog;
          (split; [auto|]); (intros [A|(l & s & E & _)]; [auto|discriminate]). }
    destruct Hstep as (Hp1 & Hs1 & Hl1).
    destruct (F2_nth_ex _ _ _ Hs1 i r Hn) as (r1 & Hr1 & Hsh).
    assert (Hq1 : Forall (quiet (dm_regions d1) (rg_base r1)) ops).
    { eapply Forall_impl; [|exact Hops]. intros o' Ho'.
      assert (Eb : rg_base r1 = rg_base r) by (destruct Hsh as (E & _); unfold rg_base; now rewrite E).
      destruct o'; simpl in *; rewrite ?Eb; auto.
      eapply Forall_impl; [|exact Ho']. intros s. apply markable_shape; auto. }
    destruct (IH d1 d2 ev2 i r1 Hi1 Hi2 ltac:(congruence) ltac:(congruence) Hr1 Hq1 Er)
      as (A1 & A2 & A3 & (r2 & Hr2 & Hsh2) & A4).
    split; [auto|]. split; [auto|]. split; [auto|]. split.
    { exists r2. split; auto. destruct Hsh as (X1 & X2 & X3), Hsh2 as (Y1 & Y2 & Y3). repeat split; congruence. }
    intros p. rewrite A4, Hl1. split.
    + intros [[A|(l & s & E & A)]|(l & s & E & A)]; [auto|right|right].
      * exists l, s. split; [left; auto|tauto].
      * exists l, s. split; [right; auto|tauto].
    + intros [A|(l & s & [E|E] & A)]; [auto| |].
      * left; right. exists l, s. auto.
      * right. exists l, s. auto.
Qed.

(* ---- scaled reports *)

Lemma pow_ratio a b : a <= b -> 2 ^ b / 2 ^ a = 2 ^ (b - a).
Proof.
  intros H. replace b with (b - a + a) at 1 by lia. rewrite N.pow_add_r.
  apply N.div_mul. apply N.pow_nonzero. lia.
Qed.

Lemma scale_div p a b : a <= b -> p * 2 ^ a / 2 ^ b = p / 2 ^ (b - a).
Proof.
  intros H. replace b with (b - a + a) at 1 by lia. rewrite N.pow_add_r.
  apply N.div_mul_cancel_r; apply N.pow_nonzero; lia.
Qed.

Lemma report_extend d hint i r bm k c cs buf :
  inv d -> inv2 d -> nth_error (dm_regions d) i = Some r -> rg_bitmap r = Some bm ->
  dm_pgsize d = 2 ^ k -> c < k -> k <= 63 ->
  get_bitmap_size (rg_len r) (2 ^ c) = Ok cs ->
  cs <= 24 -> cs mod 2 ^ (k - c) = 0 -> N.of_nat (length buf) = cs ->
  exists out d' h, dirty_page_get d hint (rg_base r) (rg_len r) (2 ^ c) cs buf = (Ok out, d', h) /\
    length out = length buf /\
    (forall p, page_set out p <-> page_set buf p \/ (p < 8 * cs /\ logged d i (p * 2 ^ c / 2 ^ k))) /\
    (forall p, p < 8 * cs -> ~ logged d' i (p * 2 ^ c / 2 ^ k)).
Proof.
  intros Hi H2 Hn Hb HP Hck Hk Hcs Hcs24 Hdiv Hbuf.
  pose proof (proj1 (Forall_forall _ _) (inv_bm _ Hi) r ltac:(eapply nth_error_In; eauto)) as Hok.
  unfold bm_ok in Hok. rewrite Hb, HP in Hok. destruct Hok as (_ & _ & ss & Hss & Hlen & _).
  destruct (report_exact d hint i r bm c _ _ _ buf Hi H2 Hn Hb HP ltac:(lia) Hss Hcs) as [h E].
  assert (Hpc := pow_pos c). assert (Hlt : 2 ^ c < 2 ^ k) by (apply N.pow_lt_mono_r; lia).
  unfold report_bitmap in E. rewrite (proj2 (N.eqb_neq (2 ^ c) (2 ^ k))) in E by lia.
  rewrite (proj2 (N.ltb_lt (2 ^ c) (2 ^ k))) in E by lia.
  rewrite pow_ratio in E by lia. set (f := 2 ^ (k - c)) in *.
  assert (Hf : 0 < f) by apply pow_pos.
  destruct (extend_bytes_spec (N.to_nat ss) bm f (cs / f) 0 buf Hf) as (out & m & E2 & L & Hm & Hd & B).
  { rewrite Hbuf. symmetry. apply N.div_exact; [lia|auto]. }
  { lia. } { lia. } { apply N.mod_0_l. lia. } { lia. }
  rewrite Hbuf in E2. rewrite E2 in E.
  eexists _, _, _. split; [exact E|]. split; [auto|]. split.
  - intros p. rewrite B, Hbuf, scale_div, N.sub_0_r by lia. fold f.
    rewrite (logged_at _ _ _ _ _ Hn Hb). intuition lia.
  - intros p Hp. rewrite scale_div by lia. fold f. rewrite (logged_set _ _ _ _ _ Hn Hb), Nat.eqb_refl.
    intros Hps. unfold page_set in Hps.
    assert (Hz : p / f < 8 * N.of_nat m).
    { destruct Hd as [Hd|Hd].
      - assert (Hx : p / f < 8 * ss \/ 8 * ss <= p / f) by lia. destruct Hx as [Hx|Hx]; [lia|]. exfalso.
        rewrite nth_overflow in Hps; [rewrite N.bits_0 in Hps; discriminate|].
        rewrite app_length, repeat_length, skipn_length.
        assert (ss <= p / f / 8) by (apply N.div_le_lower_bound; lia). lia.
      - rewrite Hbuf in Hd. apply N.div_lt_upper_bound; lia. }
    assert (Hz2 : (N.to_nat (p / f / 8) < m)%nat).
    { assert (p / f / 8 < N.of_nat m) by (apply N.div_lt_upper_bound; lia). lia. }
    rewrite app_nth1 in Hps by (rewrite repeat_length; auto).
    assert (En : nth (N.to_nat (p / f / 8)) (repeat 0 m) 0 = 0).
    { generalize (N.to_nat (p / f / 8)). clear. induction m as [|m IH]; intros [|n]; simpl; auto. }
    rewrite En, N.bits_0 in Hps. discriminate.
Qed.

