(* Host mappings of regions: vfu_sgl_get. *)
From Coq Require Import NArith ZArith List Bool Lia ZifyBool ZifyNat ZifyN.
From Verif Require Import Base Types Spec Dma Dirty DmaOps SpecDma DmaProofs DmaDisjoint DmaSgl.
Import ListNotations.
Open Scope N_scope.
Ltac Zify.zify_post_hook ::= Z.div_mod_to_equations.

Lemma max_pow2 k : N.max (2 ^ k) 4096 = 2 ^ (N.max k 12).
Proof.
  change 4096 with (2 ^ 12).
  destruct (N.le_ge_cases k 12) as [H|H].
  - rewrite (N.max_r k) by auto. apply N.max_r. apply N.pow_le_mono_r; lia.
  - rewrite (N.max_l k) by auto. apply N.max_l. apply N.pow_le_mono_r; lia.
Qed.

Lemma pow_pos k : 0 < 2 ^ k.
Proof. apply N.neq_0_lt_0, N.pow_nonzero. discriminate. Qed.

Lemma pow_lt64 k : k <= 63 -> 2 ^ k < two64.
Proof. intros H. change two64 with (2 ^ 64). apply N.pow_lt_mono_r; lia. Qed.

Lemma round_down_pow2 x k : k <= 63 -> round_down x (2 ^ k) = x / 2 ^ k * 2 ^ k.
Proof.
  intros H. unfold round_down. pose proof (pow_pos k). pose proof (pow_lt64 k H).
  rewrite sub64_small by lia.
  replace (2 ^ k - 1) with (N.ones k) by (rewrite N.ones_equiv; lia).
  rewrite N.ldiff_ones_r, N.shiftl_mul_pow2, N.shiftr_div_pow2. reflexivity.
Qed.

Lemma round_up_pow2 x k : k <= 63 -> x + 2 ^ k < two64 -> round_up x (2 ^ k) = (x + 2 ^ k - 1) / 2 ^ k * 2 ^ k.
Proof.
  intros H H1. unfold round_up. rewrite round_down_pow2 by auto.
  pose proof (pow_pos k). rewrite w64_small by auto. rewrite sub64_small by lia. reflexivity.
Qed.

Lemma ceil_bounds x p : 0 < p -> x <= (x + p - 1) / p * p < x + p.
Proof.
  intros Hp. assert (E := N.div_mod (x + p - 1) p ltac:(lia)).
  assert (M := N.mod_lt (x + p - 1) p ltac:(lia)).
  rewrite (N.mul_comm p) in E. lia.
Qed.

(* ---- how an operation changes the table *)

Lemma step_table cb d op o d' ev :
  inv d -> dma_step cb d op = (o, d', ev) ->
  Forall2 same_shape (dm_regions d) (dm_regions d') \/
  (exists l r l', dm_regions d = l ++ r :: l' /\ dm_regions d' = l ++ l') \/
  dm_regions d' = [] \/
  (exists os addr size fd off prot n, op = OpMap os addr size fd off prot /\
     add_region os d addr size fd off prot = (Ok n, d', [])).
Proof.
  intros Hi. destruct op as [os addr size fd off prot|addr size| |calloc pg| |l|hint addr len pg size buf];
    simpl.
  - unfold dma_map_request. destruct (add_region os d addr size fd off prot) as [[r d1] ev1] eqn:E.
    destruct r as [n|e|c].
    + pose proof (add_region_ok _ _ _ _ _ _ _ _ _ _ E) as (-> & _).
      intros H. right; right; right. exists os, addr, size, fd, off, prot, n. split; auto.
      destruct (nth_error (dm_regions d1) n); injection H as _ <- _; auto.
    + apply add_region_fail in E. intros H; injection H as _ <- _. subst d1. left.
      apply Forall2_refl, same_shape_refl.
    + now apply add_region_no_crash in E.
  - destruct (remove_region_spec cb d addr size Hi) as [(l & r & l' & ev' & E & _ & _ & _ & ->)|[_ ->]];
      intros H; injection H as _ <- _.
    + right; left. exists l, r, l'. auto.
    + left. apply Forall2_refl, same_shape_refl.
  - unfold remove_all_regions. destruct (release_all_ok cb _ (inv_fd _ Hi)) as [ev' ->].
    intros H; injection H as _ <- _. right; right; left. reflexivity.
  - destruct (logging_start calloc d pg) as [o' d1] eqn:E. apply logging_start_spec in E; auto.
    intros H; injection H as _ <- _. left; tauto.
  - intros H; injection H as _ <- _. left. apply logging_stop_shape.
  - destruct (sgl_mark_dirty d l) as [d1| |] eqn:E; intros H; injection H as _ <- _;
      try (left; apply Forall2_refl, same_shape_refl).
    apply sgl_mark_dirty_inv in E; auto. left; tauto.
  - destruct (dirty_page_get d hint addr len pg size buf) as [[o' d1] h1] eqn:E.
    apply dirty_page_get_inv in E; auto.
    destruct o'; intros H; injection H as _ <- _; left; try tauto; apply Forall2_refl, same_shape_refl.
Qed.

(* ---- invariant: mappings are sane, pairwise disjoint *)

Definition maps_disjoint (rs : list region) : Prop :=
  forall i j ri rj h, nth_error rs i = Some ri -> nth_error rs j = Some rj ->
    mapping_holds ri h -> mapping_holds rj h -> i = j.

Definition map_sane (r : region) : Prop :=
  di_map_base (rg_info r) < 2 ^ 63 /\ di_map_len (rg_info r) < 2 ^ 45.

Record inv3 (d : dma) : Prop := {
  i3_inside : Forall inside_mapping (dm_regions d);
  i3_sane : Forall (fun r => di_vaddr (rg_info r) <> None -> map_sane r) (dm_regions d);
  i3_disj : maps_disjoint (dm_regions d);
  i3_size : dm_max_size d <= MAX_DMA_SIZE
}.

Lemma infos_nth rs rs' k r :
  map rg_info rs' = map rg_info rs -> nth_error rs' k = Some r ->
  exists r', nth_error rs k = Some r' /\ rg_info r' = rg_info r.
Proof.
  intros E Hk. pose proof (map_nth_error rg_info _ _ Hk) as Hm. rewrite E in Hm.
  rewrite nth_error_map in Hm. destruct (nth_error rs k) as [r'|]; [|discriminate].
  simpl in Hm. exists r'. split; congruence.
Qed.

Lemma Forall_infos (P : region -> Prop) rs rs' :
  (forall r r', rg_info r' = rg_info r -> P r -> P r') ->
  map rg_info rs' = map rg_info rs -> Forall P rs -> Forall P rs'.
Proof.
  intros HP. revert rs; induction rs' as [|r rs' IH]; intros [|r0 rs] E H; try discriminate; constructor.
  - inversion H; subst. injection E as E _. eauto.
  - inversion H; subst. injection E as _ E. eauto.
Qed.

Lemma inv3_infos d d' :
  map rg_info (dm_regions d') = map rg_info (dm_regions d) -> dm_max_size d' = dm_max_size d -> inv3 d -> inv3 d'.
Proof.
  intros E Es [H1 H2 H3 H4]. constructor.
  - eapply Forall_infos; eauto. unfold inside_mapping. intros r r' ->; auto.
  - eapply Forall_infos; eauto. unfold map_sane. intros r r' ->; auto.
  - intros i j ri rj h Hi Hj Mi Mj.
    destruct (infos_nth _ _ _ _ E Hi) as (ri' & Hi' & Ei). destruct (infos_nth _ _ _ _ E Hj) as (rj' & Hj' & Ej).
    apply (H3 i j ri' rj' h); auto; unfold mapping_holds in *; [rewrite Ei|rewrite Ej]; auto.
  - congruence.
Qed.

Lemma maps_disjoint_sub l r l' : maps_disjoint (l ++ r :: l') -> maps_disjoint (l ++ l').
Proof.
  intros H i j ri rj a Hi Hj Ci Cj.
  set (f := fun k => if Nat.ltb k (length l) then k else S k).
  assert (Hf : forall k x, nth_error (l ++ l') k = Some x -> nth_error (l ++ r :: l') (f k) = Some x).
  { intros k x Hk. unfold f. destruct (Nat.ltb_spec k (length l)).
    - rewrite nth_error_app1 in Hk by auto. rewrite nth_error_app1 by auto. exact Hk.
    - rewrite nth_error_app2 in Hk by auto. rewrite nth_error_app2 by lia.
      replace (S k - length l)%nat with (S (k - length l)) by lia. exact Hk. }
  assert (E : f i = f j) by (eapply H; eauto).
  unfold f in E. destruct (Nat.ltb_spec i (length l)), (Nat.ltb_spec j (length l)); lia.
Qed.

Definition limits (d : dma) : nat * N := (dm_max_regions d, dm_max_size d).

Lemma mark_limits l : forall d d', sgl_mark_dirty d l = Ok d' -> limits d' = limits d.
Proof.
  induction l as [|s l IH]; intros d d' E; simpl in E; [injection E as <-; auto|].
  destruct (nth_error (dm_regions d) (sg_region s)) as [r|]; [|injection E as <-; auto].
  destruct (sg_writeable s && (0 <? dm_pgsize d)); [|now apply IH].
  destruct (mark_region _ _ _) as [r'| |]; try discriminate. apply IH in E. exact E.
Qed.

Ltac gone := let H := fresh in intros H; injection H as _ <- _; reflexivity.

Lemma step_limits cb d op o d' ev :
  dma_step cb d op = (o, d', ev) -> limits d' = limits d.
Proof.
  destruct op as [os addr size fd off prot|addr size| |calloc pg| |l|hint addr len pg size buf];
    simpl in *.
  - unfold dma_map_request. destruct (add_region os d addr size fd off prot) as [[r d1] ev1] eqn:E.
    assert (limits d1 = limits d).
    { destruct r as [n|e|c].
      + apply add_region_ok in E. destruct E as (_ & _ & [[-> _]|(r & -> & _)]); reflexivity.
      + apply add_region_fail in E. now subst.
      + now apply add_region_no_crash in E. }
    destruct r as [n|e|c]; [destruct (nth_error (dm_regions d1) n)|..]; intros X; injection X as _ <- _; auto.
  - unfold remove_region. destruct (remove_scan _ _ _ _) as [[|e|c] rs]; gone.
  - unfold remove_all_regions. destruct (release_all _ _); gone.
  - unfold logging_start. destruct (pg =? 0); [gone|].
    destruct (0 <? dm_pgsize d).
    { destruct (negb _); gone. }
    destruct (start_scan _ _ _ _) as [o' rs']. destruct o' as [[]| |]; gone.
  - unfold logging_stop. destruct (dm_pgsize d =? 0); gone.
  - destruct (sgl_mark_dirty d l) as [d1| |] eqn:E; intros H; injection H as _ <- _; auto.
    eapply mark_limits; eauto.
  - unfold dirty_page_get. destruct (addr_to_sgl _ _ _ _ _ _) as [res h'].
    destruct res as [[|s l]|n|e|c]; try gone.
    destruct (_ || _); try gone. destruct (dm_pgsize d =? 0); try gone. destruct (_ || _); try gone.
    destruct (get_bitmap_size len (dm_pgsize d)); try gone;
    destruct (get_bitmap_size len pg); try gone.
    destruct (negb _); try gone. destruct (nth_error _ _) as [r|]; try gone.
    destruct (rg_fd r =? -1)%Z; try gone. destruct (rg_bitmap r) as [bm|]; try gone.
    destruct (report_bitmap _ _ _ _ _ _) as [[out bm']| |]; gone.
Qed.

Lemma run_limits cb ops : forall d d' ev, dma_run cb d ops = (d', ev) -> limits d' = limits d.
Proof.
  induction ops as [|op ops IH]; intros d d' ev H; simpl in H; [injection H as <- _; auto|].
  destruct (dma_step cb d op) as [[o d1] ev1] eqn:E. destruct (dma_run cb d1 ops) as [d2 ev2] eqn:E2.
  injection H as <- _. rewrite (IH _ _ _ E2). eapply step_limits; eauto.
Qed.

Lemma fd_no_vaddr r : fd_ok r -> rg_fd r = (-1)%Z -> di_vaddr (rg_info r) = None.
Proof. unfold fd_ok. tauto. Qed.

Lemma inv3_step cb d op o d' ev :
  inv d -> inv3 d -> os_sane d op -> off_aligned d op -> dma_step cb d op = (o, d', ev) -> inv3 d'.
Proof.
  intros Hi H3 Hs Ha H. pose proof (step_limits _ _ _ _ _ _ H) as Hlim. injection Hlim as _ Hlim.
  destruct (step_table _ _ _ _ _ _ Hi H) as [Hsh|[(l & r & l' & E & E')|[E|Hmap]]].
  - apply (inv3_infos d); auto. now apply shape_infos.
  - destruct H3 as [A B C D]. rewrite E in *. constructor; rewrite ?E', ?Hlim; auto.
    + apply Forall_app in A. destruct A as [A1 A2]. inversion A2. apply Forall_app; auto.
    + apply Forall_app in B. destruct B as [A1 A2]. inversion A2. apply Forall_app; auto.
    + eapply maps_disjoint_sub; eauto.
  - destruct H3 as [A B C D]. constructor; rewrite ?E, ?Hlim; auto.
    intros i j ri rj h Hx. destruct i; discriminate.
  - destruct Hmap as (os & addr & size & fd & off & prot & n & -> & E).
    apply add_region_ok in E. destruct E as (_ & Hsz & [[-> _]|E]); [auto|].
    destruct E as (r & -> & _ & _ & _ & Hkey & Hfd & Hoff & _ & Hfdok & _ & Hmap & _).
    destruct H3 as [A B C D]. simpl in Hs, Ha.
    unfold key in Hkey. injection Hkey as Hb Hl.
    destruct (Z.eq_dec fd (-1)) as [->|Hne].
    + assert (Ev : di_vaddr (rg_info r) = None) by (apply fd_no_vaddr; auto).
      constructor; simpl; auto.
      * apply Forall_app; split; auto. constructor; auto. intros v Hv. congruence.
      * apply Forall_app; split; auto. constructor; auto. congruence.
      * intros i j ri rj h Hi' Hj' Mi Mj.
        destruct (Nat.lt_ge_cases i (length (dm_regions d))) as [Li|Li];
        destruct (Nat.lt_ge_cases j (length (dm_regions d))) as [Lj|Lj].
        -- rewrite nth_error_app1 in Hi', Hj' by auto. eapply C; eauto.
        -- rewrite nth_error_app2 in Hj' by auto. destruct (j - length (dm_regions d))%nat as [|[|]]; try discriminate.
           injection Hj' as <-. destruct Mj as [Mj _]. congruence.
        -- rewrite nth_error_app2 in Hi' by auto. destruct (i - length (dm_regions d))%nat as [|[|]]; try discriminate.
           injection Hi' as <-. destruct Mi as [Mi _]. congruence.
        -- rewrite nth_error_app2 in Hi' by auto. destruct (i - length (dm_regions d))%nat as [|[|]]; try discriminate.
           injection Hi' as <-. destruct Mi as [Mi _]. congruence.
    + destruct (Hmap Hne) as (blk & base & Eb & Em & Epg & Ebase & Elen & Ev).
      destruct (Hs blk Eb) as [(k & -> & Hk) Hmm]. destruct (Hmm base Em) as [Hbase Hfresh].
      specialize (Ha _ Eb). unfold PAGE_SIZE in *. rewrite max_pow2 in *.
      set (K := N.max k 12) in *. assert (HK : K <= 40) by (unfold K; lia).
      assert (P1 : 2 ^ K <= 2 ^ 40) by (apply N.pow_le_mono_r; lia).
      pose proof (pow_pos K) as P0.
      assert (Hsize : size <= 2 ^ 43) by (unfold MAX_DMA_SIZE in D; change (2 ^ 43) with (8 * 1024 * 1024 * 1024 * 1024); lia).
      change (2 ^ 43) with 8796093022208 in Hsize. change (2 ^ 40) with 1099511627776 in P1.
      change (2 ^ 63) with 9223372036854775808 in Hbase.
      rewrite round_up_pow2 in Elen by (unfold two64; lia).
      rewrite round_down_pow2 in Ev by lia.
      pose proof (ceil_bounds size (2 ^ K) P0) as Hceil.
      assert (Eoff : off - off / 2 ^ K * 2 ^ K = 0).
      { pose proof (N.div_mod off (2 ^ K) ltac:(lia)) as Q. rewrite Ha in Q. lia. }
      rewrite Eoff, N.add_0_r, w64_small in Ev by (unfold two64; lia).
      unfold rg_len in Hl.
      constructor; simpl; auto.
      * apply Forall_app; split; auto. constructor; auto. intros v Hv. rewrite Ev in Hv. injection Hv as <-.
        rewrite Hl, Ebase, Elen. split; [apply N.le_refl|]. apply N.add_le_mono_l. apply Hceil.
      * apply Forall_app; split; auto. constructor; auto. intros _. unfold map_sane. rewrite Ebase, Elen.
        change (2 ^ 63) with 9223372036854775808. change (2 ^ 45) with 35184372088832. lia.
      * assert (Hnew : forall x h, In x (dm_regions d) -> mapping_holds x h -> mapping_holds r h -> False).
        { intros x h Hx Mx [_ Mr]. rewrite Ebase, Elen in Mr. exact (Hfresh x h Hx Mx Mr). }
        intros i j ri rj h Hi' Hj' Mi Mj.
        destruct (Nat.lt_ge_cases i (length (dm_regions d))) as [Li|Li];
        destruct (Nat.lt_ge_cases j (length (dm_regions d))) as [Lj|Lj].
        -- rewrite nth_error_app1 in Hi', Hj' by auto. eapply C; eauto.
        -- rewrite nth_error_app1 in Hi' by auto.
           rewrite nth_error_app2 in Hj' by auto. destruct (j - length (dm_regions d))%nat as [|[|]]; try discriminate.
           injection Hj' as <-. elim (Hnew ri h); auto. eapply nth_error_In; eauto.
        -- rewrite nth_error_app1 in Hj' by auto.
           rewrite nth_error_app2 in Hi' by auto. destruct (i - length (dm_regions d))%nat as [|[|]]; try discriminate.
           injection Hi' as <-. elim (Hnew rj h); auto. eapply nth_error_In; eauto.
        -- assert (i < length (dm_regions d ++ [r]))%nat by (apply nth_error_Some; congruence).
           assert (j < length (dm_regions d ++ [r]))%nat by (apply nth_error_Some; congruence).
           rewrite app_length in *. simpl in *. lia.
Qed.

Lemma inv3_create : inv3 dma_create.
Proof.
  constructor; simpl; try constructor; try apply N.le_refl.
  intros i j ri rj h Hx. destruct i; discriminate.
Qed.

Lemma inv3_run cb ops : forall d d' ev,
  inv d -> inv3 d -> along os_sane cb d ops -> along off_aligned cb d ops ->
  dma_run cb d ops = (d', ev) -> inv3 d'.
Proof.
  induction ops as [|op ops IH]; intros d d' ev Hi H3 Hs Ha H; simpl in *; [injection H as <- _; auto|].
  destruct (dma_step cb d op) as [[o d1] ev1] eqn:E. simpl in *.
  destruct (dma_run cb d1 ops) as [d2 ev2] eqn:E2. injection H as <- _.
  destruct Hs as [Hs1 Hs2]. destruct Ha as [Ha1 Ha2].
  assert (inv d1) by (exact (inv_step _ _ _ _ _ _ Hi E)).
  assert (inv3 d1) by (exact (inv3_step _ _ _ _ _ _ Hi H3 Hs1 Ha1 E)).
  eapply IH; eauto.
Qed.

(* ---- vfu_sgl_get *)

Lemma sgl_get_spec d l : Forall (sg_inside (dm_regions d)) l -> inv3 d ->
  match sgl_get d l with
  | Ok iov =>
      Forall2 (fun s h => snd h = sg_len s /\
        exists r v, nth_error (dm_regions d) (sg_region s) = Some r /\ di_vaddr (rg_info r) = Some v /\
          fst h = v + sg_off s /\
          di_map_base (rg_info r) <= fst h /\
          fst h + sg_len s <= di_map_base (rg_info r) + di_map_len (rg_info r)) l iov
  | Err e => e = EFAULT /\ exists s r, In s l /\ nth_error (dm_regions d) (sg_region s) = Some r /\
                                      di_vaddr (rg_info r) = None
  | Crash _ => False
  end.
Proof.
  intros Hl H3. induction l as [|s l IH]; simpl; [constructor|].
  inversion Hl as [|? ? (r & Hr & Hb & Ho) Hl']; subst. specialize (IH Hl').
  rewrite Hr. destruct (di_vaddr (rg_info r)) as [v|] eqn:Ev.
  - destruct (sgl_get d l) as [iov|e|c].
    + assert (Hin : In r (dm_regions d)) by (eapply nth_error_In; eauto).
      pose proof (proj1 (Forall_forall _ _) (i3_inside _ H3) r Hin v Ev) as [A B].
      pose proof (proj1 (Forall_forall _ _) (i3_sane _ H3) r Hin ltac:(congruence)) as [C D].
      change (2 ^ 63) with 9223372036854775808 in C. change (2 ^ 45) with 35184372088832 in D.
      constructor; auto. simpl. split; auto. exists r, v.
      rewrite w64_small by (unfold two64; lia). repeat split; auto; lia.
    + destruct IH as (He & x & rx & Hx & Hnx & Hvx). split; auto. exists x, rx. auto.
    + auto.
  - split; auto. exists s, r. auto.
Qed.

Lemma Forall2_nth {A B} (R : A -> B -> Prop) l l' : Forall2 R l l' ->
  forall i x y, nth_error l i = Some x -> nth_error l' i = Some y -> R x y.
Proof.
  induction 1; intros i a b H1 H2; destruct i; try discriminate; simpl in *; eauto.
  congruence.
Qed.

(* Distinct guest bytes have distinct host bytes, and vice versa. *)
Lemma sgl_get_inj d l iov i j s1 s2 h1 h2 k1 k2 :
  Forall (sg_inside (dm_regions d)) l -> inv2 d -> inv3 d -> sgl_get d l = Ok iov ->
  nth_error l i = Some s1 -> nth_error l j = Some s2 ->
  nth_error iov i = Some h1 -> nth_error iov j = Some h2 ->
  k1 < sg_len s1 -> k2 < sg_len s2 ->
  (fst h1 + k1 = fst h2 + k2 <-> sg_base s1 + sg_off s1 + k1 = sg_base s2 + sg_off s2 + k2).
Proof.
  intros Hl H2 H3 E E1 E2 E3 E4 K1 K2.
  pose proof (sgl_get_spec d l Hl H3) as S. rewrite E in S.
  destruct (Forall2_nth _ _ _ S _ _ _ E1 E3) as (L1 & r1 & v1 & N1 & V1 & F1 & A1 & B1).
  destruct (Forall2_nth _ _ _ S _ _ _ E2 E4) as (L2 & r2 & v2 & N2 & V2 & F2 & A2 & B2).
  pose proof (proj1 (Forall_forall _ _) Hl s1 ltac:(eapply nth_error_In; eauto)) as (r1' & N1' & Ba1 & In1).
  pose proof (proj1 (Forall_forall _ _) Hl s2 ltac:(eapply nth_error_In; eauto)) as (r2' & N2' & Ba2 & In2).
  assert (r1' = r1) by congruence. assert (r2' = r2) by congruence. subst r1' r2'.
  split; intros Heq.
  - assert (Eq : sg_region s1 = sg_region s2).
    { apply (i3_disj _ H3 _ _ r1 r2 (fst h1 + k1)); auto; split; try congruence; lia. }
    assert (r1 = r2) by congruence. subst r2. assert (v1 = v2) by congruence. lia.
  - assert (Eq : sg_region s1 = sg_region s2).
    { apply (proj2 H2 _ _ r1 r2 (sg_base s1 + sg_off s1 + k1)); auto; unfold covers; lia. }
    assert (r1 = r2) by congruence. subst r2. assert (v1 = v2) by congruence. lia.
Qed.
