(* Disjointness of regions over histories; the device's view of the table. *)
From Verif Require Import Base Types Spec Dma Dirty DmaOps SpecDma DmaProofs.
From Coq Require Import NArith ZArith List Bool Lia ZifyBool ZifyNat ZifyN.
Import ListNotations.
Open Scope N_scope.
Ltac Zify.zify_post_hook ::= Z.div_mod_to_equations.

Definition inv2 (d : dma) : Prop := Forall nowrap (dm_regions d) /\ regions_disjoint (dm_regions d).

Lemma disjoint_infos rs rs' :
  map rg_info rs' = map rg_info rs -> regions_disjoint rs -> regions_disjoint rs'.
Proof.
  intros E H i j ri rj a Hi Hj Ci Cj.
  assert (Hx : forall k r, nth_error rs' k = Some r -> exists r', nth_error rs k = Some r' /\ rg_info r' = rg_info r).
  { intros k r Hk. pose proof (map_nth_error rg_info _ _ Hk) as Hm. rewrite E in Hm.
    rewrite nth_error_map in Hm. destruct (nth_error rs k) as [r'|]; [|discriminate].
    injection Hm as Hm. eauto. }
  destruct (Hx _ _ Hi) as (ri' & Hi' & Ei). destruct (Hx _ _ Hj) as (rj' & Hj' & Ej).
  apply (H i j ri' rj' a); auto; unfold covers in *; congruence.
Qed.

Lemma nowrap_infos rs rs' :
  map rg_info rs' = map rg_info rs -> Forall nowrap rs -> Forall nowrap rs'.
Proof.
  revert rs; induction rs' as [|r rs' IH]; intros [|r0 rs] E H; try discriminate; constructor.
  - inversion H; subst. injection E as E _. unfold nowrap, rg_base, rg_len in *. now rewrite E.
  - inversion H; subst. injection E as _ E. eauto.
Qed.

Lemma disjoint_sub l r l' : regions_disjoint (l ++ r :: l') -> regions_disjoint (l ++ l').
Proof.
  intros H i j ri rj a Hi Hj Ci Cj.
  set (f := fun k => if Nat.ltb k (length l) then k else S k).
  assert (Hf : forall k x, nth_error (l ++ l') k = Some x -> nth_error (l ++ r :: l') (f k) = Some x).
  { intros k x Hk. unfold f. destruct (Nat.ltb_spec k (length l)).
    - rewrite nth_error_app1 in Hk by auto. rewrite nth_error_app1 by auto. exact Hk.
    - rewrite nth_error_app2 in Hk by auto. rewrite nth_error_app2 by lia.
      replace (S k - length l)%nat with (S (k - length l)) by lia. exact Hk. }
  assert (E : f i = f j) by (eapply H; eauto).
  unfold f in E. destruct (Nat.ltb_spec i (length l)), (Nat.ltb_spec j (length l)); lia.
Qed.

Lemma no_overlap r addr size :
  nowrap r -> addr + size < two64 -> overlap_test r addr size = false ->
  forall a, covers r a -> addr <= a < addr + size -> False.
Proof.
  intros Hn Hr Ho a Hc Ha. apply (proj1 (covers_iff _ _)) in Hc.
  unfold overlap_test in Ho. rewrite iov_end_nowrap in Ho by auto.
  rewrite (w64_small (addr + size)) in Ho by auto.
  unfold nowrap in Hn. lia.
Qed.

Lemma inv2_add os d addr size fd off prot o d' ev :
  inv2 d -> range_ok addr size -> add_region os d addr size fd off prot = (o, d', ev) -> inv2 d'.
Proof.
  intros [Hn Hd] Hr H. destruct o as [n|e|c].
  - apply add_region_ok in H. destruct H as (_ & Hsz & [[-> _]|H]); [now split|].
    destruct H as (r & -> & _ & Hall & Hlen & Hkey & _).
    unfold key in Hkey. injection Hkey as Hb Hl.
    assert (Hnr : nowrap r) by (unfold nowrap; rewrite Hb, Hl, two64_pow; exact Hr).
    split; simpl.
    + apply Forall_app; split; auto.
    + assert (Hnew : forall i ri a, nth_error (dm_regions d) i = Some ri -> covers ri a -> covers r a -> False).
      { intros i ri a Hi Ci Cr. apply nth_error_In in Hi.
        rewrite Forall_forall in Hall, Hn. destruct (Hall _ Hi) as [_ Ho].
        apply (proj1 (covers_iff _ _)) in Cr. rewrite Hb, Hl in Cr.
        eapply (no_overlap ri addr size); eauto. }
      intros i j ri rj a Hi Hj Ci Cj.
      assert (Hli : (i < length (dm_regions d ++ [r]))%nat) by (apply nth_error_Some; congruence).
      assert (Hlj : (j < length (dm_regions d ++ [r]))%nat) by (apply nth_error_Some; congruence).
      rewrite app_length in *. simpl in *.
      destruct (Nat.lt_ge_cases i (length (dm_regions d))) as [Li|Li];
        destruct (Nat.lt_ge_cases j (length (dm_regions d))) as [Lj|Lj].
      * rewrite nth_error_app1 in Hi, Hj by auto. eapply Hd; eauto.
      * rewrite nth_error_app1 in Hi by auto. rewrite nth_error_app2 in Hj by auto.
        replace (j - length (dm_regions d))%nat with 0%nat in Hj by lia. injection Hj as <-.
        elim (Hnew _ _ _ Hi Ci Cj).
      * rewrite nth_error_app1 in Hj by auto. rewrite nth_error_app2 in Hi by auto.
        replace (i - length (dm_regions d))%nat with 0%nat in Hi by lia. injection Hi as <-.
        elim (Hnew _ _ _ Hj Cj Ci).
      * lia.
  - apply add_region_fail in H. subst. now split.
  - elim (add_region_no_crash _ _ _ _ _ _ _ _ _ _ H).
Qed.

Lemma inv2_shape rs d : inv2 d -> Forall2 same_shape (dm_regions d) rs ->
  Forall nowrap rs /\ regions_disjoint rs.
Proof.
  intros [H1 H2] H. apply shape_infos in H. split; [eapply nowrap_infos|eapply disjoint_infos]; eauto.
Qed.

Lemma inv2_step cb d op o d' ev :
  inv d -> inv2 d -> op_range_ok op -> dma_step cb d op = (o, d', ev) -> inv2 d'.
Proof.
  intros Hi H2 Hr. destruct op as [os addr size fd off prot|addr size| |calloc pg| |l|hint addr len pg size buf];
    simpl in *.
  - unfold dma_map_request. destruct (add_region os d addr size fd off prot) as [[r d1] ev1] eqn:E.
    eapply inv2_add in E; eauto. destruct r as [n|e|c].
    + destruct (nth_error (dm_regions d1) n); intros H; injection H as _ <- _; auto.
    + intros H; injection H as _ <- _; auto.
    + intros H; injection H as _ <- _; auto.
  - destruct (remove_region_spec cb d addr size Hi) as [(l & r & l' & ev' & E & _ & _ & _ & ->)|[_ ->]];
      intros H; injection H as _ <- _; auto.
    destruct H2 as [Hn Hd]. rewrite E in *. split; simpl.
    + apply Forall_app in Hn. destruct Hn as [Ha Hb]. inversion Hb. apply Forall_app; auto.
    + eapply disjoint_sub; eauto.
  - unfold remove_all_regions. destruct (release_all_ok cb _ (inv_fd _ Hi)) as [ev' ->].
    intros H; injection H as _ <- _. split; simpl; [constructor|].
    intros i j ri rj a Hi'. destruct i; discriminate.
  - destruct (logging_start calloc d pg) as [o' d1] eqn:E. apply logging_start_spec in E; auto.
    intros H; injection H as _ <- _. eapply inv2_shape; eauto; tauto.
  - intros H; injection H as _ <- _. eapply inv2_shape; eauto. apply logging_stop_shape.
  - destruct (sgl_mark_dirty d l) as [d1| |] eqn:E; intros H; injection H as _ <- _; auto.
    apply sgl_mark_dirty_inv in E; auto. eapply inv2_shape; eauto; tauto.
  - destruct (dirty_page_get d hint addr len pg size buf) as [[o' d1] h1] eqn:E.
    apply dirty_page_get_inv in E; auto.
    destruct o'; intros H; injection H as _ <- _; auto; eapply inv2_shape; eauto; tauto.
Qed.

Lemma inv2_run cb ops : forall d d' ev,
  inv d -> inv2 d -> Forall op_range_ok ops -> dma_run cb d ops = (d', ev) -> inv d' /\ inv2 d'.
Proof.
  induction ops as [|op ops IH]; intros d d' ev Hi H2 Hr H; simpl in H.
  - injection H as <- _. auto.
  - destruct (dma_step cb d op) as [[o d1] ev1] eqn:E.
    destruct (dma_run cb d1 ops) as [dd ev2] eqn:E2. injection H as <- _.
    inversion Hr; subst.
    assert (Hi1 : inv d1) by exact (inv_step _ _ _ _ _ _ Hi E).
    assert (Hi2 : inv2 d1) by exact (inv2_step _ _ _ _ _ _ Hi H2 H1 E).
    exact (IH _ _ _ Hi1 Hi2 H3 E2).
Qed.

Lemma inv2_create : inv2 dma_create.
Proof.
  split; simpl; [constructor|]. intros i j ri rj a H. destruct i; discriminate.
Qed.

(* ------------------------------------------------------------------ the device's view *)

Lemma knows_app evs evs' i :
  device_knows (evs ++ evs') i <->
  device_knows evs' i \/ (device_knows evs i /\ ~ In (EvUnregister i) evs').
Proof.
  split.
  - intros (b & a & E & Hn).
    apply app_eq_app in E. destruct E as (m & [[-> E]|[-> E]]).
    + destruct m as [|x m].
      * left. simpl in E. subst evs'. exists [], a. auto.
      * simpl in E. injection E as <- ->. rewrite in_app_iff in Hn. right. split; [|tauto].
        exists b, m. tauto.
    + left. subst evs'. exists m, a. auto.
  - intros [(b & a & -> & Hn)|[(b & a & -> & Hn) Hn']].
    + exists (evs ++ b), a. rewrite app_assoc. auto.
    + exists b, (a ++ evs'). rewrite <- app_assoc. split; auto. rewrite in_app_iff. tauto.
Qed.

Lemma knows_nil i : ~ device_knows [] i.
Proof. intros (b & a & E & _). destruct b; discriminate. Qed.

Definition in_table (d : dma) (i : dma_info) : Prop := In i (map rg_info (dm_regions d)).

Lemma release_all_spec cb rs ev :
  release_all cb rs = Ok ev ->
  (forall i, ~ In (EvRegister i) ev) /\
  (cb = true -> forall i, In i (map rg_info rs) -> In (EvUnregister i) ev).
Proof.
  revert ev; induction rs as [|r rs IH]; intros ev H; simpl in H.
  - injection H as <-. simpl. split; auto.
  - destruct (release_region cb r) as [e1| |] eqn:Er; try discriminate.
    destruct (release_all cb rs) as [e2| |] eqn:Ea; try discriminate.
    injection H as <-. destruct (IH _ eq_refl) as [H1 H2].
    apply release_events in Er. destruct Er as (rest & -> & H3 & H4 & _).
    split.
    + intros i Hi. rewrite !in_app_iff in Hi. destruct Hi as [[Hi|Hi]|Hi].
      * destruct cb; simpl in Hi; [destruct Hi as [Hi|[]]; discriminate|auto].
      * eapply H3; eauto.
      * eapply H1; eauto.
    + intros -> i Hi. simpl in Hi. rewrite !in_app_iff. destruct Hi as [<-|Hi].
      * left; left; simpl; auto.
      * right; auto.
Qed.

Lemma close_ev_no fd : (forall i, ~ In (EvRegister i) (close_ev fd)) /\ (forall i, ~ In (EvUnregister i) (close_ev fd)).
Proof. unfold close_ev. destruct (fd =? -1)%Z; simpl; split; auto; intros i [H|[]]; discriminate. Qed.

Lemma no_register_knows evs i : (forall j, ~ In (EvRegister j) evs) -> ~ device_knows evs i.
Proof. intros H (b & a & -> & _). apply (H i). apply in_app_iff. right; left; auto. Qed.

Lemma shape_in_table d d' i : Forall2 same_shape (dm_regions d) (dm_regions d') ->
  (in_table d' i <-> in_table d i).
Proof. intros H. apply shape_infos in H. unfold in_table. now rewrite H. Qed.

Lemma fail_ev_no os d addr size fd off prot e d' ev :
  add_region os d addr size fd off prot = (Err e, d', ev) ->
  (forall i, ~ In (EvRegister i) ev) /\ (forall i, ~ In (EvUnregister i) ev).
Proof.
  unfold add_region. destruct (dm_max_size d <? size); [intros H; injection H as _ _ <-; simpl; tauto|].
  destruct (add_scan _ _ _ _ _ _ _ _) as [o|]; [intros H; injection H as _ _ <-; simpl; tauto|].
  destruct (Nat.eqb _ _); [intros H; injection H as _ _ <-; simpl; tauto|].
  destruct (fd =? -1)%Z; [discriminate|].
  destruct (os_blksize os); [|intros H; injection H as _ _ <-; simpl; tauto].
  destruct (if dm_pgsize d =? 0 then _ else _) as [r1| |]; try discriminate;
    [|intros H; injection H as _ _ <-; simpl; tauto].
  destruct (map_region os r1); intros H; try discriminate. injection H as _ _ <-. apply close_ev_no.
Qed.

Lemma view_step d op o d' ev :
  inv d -> dma_step true d op = (o, d', ev) ->
  forall i, in_table d' i <-> device_knows ev i \/ (in_table d i /\ ~ In (EvUnregister i) ev).
Proof.
  intros Hi. destruct op as [os addr size fd off prot|addr size| |calloc pg| |l|hint addr len pg size buf];
    simpl.
  - unfold dma_map_request. destruct (add_region os d addr size fd off prot) as [[[n|e|c] d1] ev1] eqn:E.
    + apply add_region_ok in E. destruct E as (-> & _ & E).
      destruct (nth_error (dm_regions d1) n) as [r|] eqn:En.
      * intros H; injection H as _ <- <-. simpl. intros i.
        assert (Hk : device_knows [EvRegister (rg_info r)] i <-> i = rg_info r).
        { split.
          - intros (b & a & Eb & _). destruct b as [|x b]; [injection Eb as ->; auto|].
            destruct b; discriminate.
          - intros ->. exists [], []. simpl; auto. }
        rewrite Hk.
        destruct E as [[-> Hex]|(r0 & -> & -> & _)].
        -- assert (in_table d (rg_info r)) by (apply in_map; eapply nth_error_In; eauto).
           split; [intros Ht; right; split; [auto|simpl; intros [X|[]]; discriminate]|].
           intros [->|[Ht _]]; auto.
        -- unfold in_table. simpl in *. rewrite nth_error_app2, Nat.sub_diag in En by lia.
           injection En as <-. rewrite map_app, in_app_iff. simpl.
           split.
           ++ intros [H|[H|[]]]; [right; split; auto; intros [X|[]]; discriminate|left; auto].
           ++ intros [->|[H _]]; auto.
      * exfalso. destruct E as [[-> (r & Hr & _)]|(r0 & -> & -> & _)]; [congruence|].
        simpl in En. rewrite nth_error_app2, Nat.sub_diag in En by lia. discriminate.
    + intros H; injection H as _ <- <-. pose proof (add_region_fail _ _ _ _ _ _ _ _ _ _ E) as ->.
      apply fail_ev_no in E. destruct E as [H1 H2]. destruct (close_ev_no fd) as [H3 H4].
      intros i. split.
      * intros Ht. right. split; auto. rewrite in_app_iff. intros [X|X]; [eapply H2|eapply H4]; eauto.
      * intros [Hk|[Ht _]]; auto. exfalso. revert Hk. apply no_register_knows.
        intros j. rewrite in_app_iff. intros [X|X]; [eapply H1|eapply H3]; eauto.
    + elim (add_region_no_crash _ _ _ _ _ _ _ _ _ _ E).
  - destruct (remove_region_spec true d addr size Hi)
      as [(l & r & l' & ev' & E & Hk & Hall & Hrel & ->)|[_ ->]];
      intros H; injection H as _ <- <-; intros i.
    + apply release_events in Hrel. destruct Hrel as (rest & -> & Hr1 & Hr2 & _).
      unfold in_table. simpl. rewrite E, !map_app. simpl. rewrite !in_app_iff. simpl.
      assert (Hno : ~ device_knows (EvUnregister (rg_info r) :: rest) i).
      { apply no_register_knows. intros j [X|X]; [discriminate|]. eapply Hr1; eauto. }
      assert (Hne : In i (map rg_info (l ++ l')) -> i <> rg_info r).
      { intros Hin ->. apply in_map_iff in Hin. destruct Hin as (x & Ex & Hx).
        rewrite Forall_forall in Hall. apply (Hall x Hx). rewrite <- Hk.
        unfold key, rg_base, rg_len. now rewrite Ex. }
      rewrite map_app, in_app_iff in Hne. split.
      * intros Ht. right. split; [tauto|]. intros [X|X]; [injection X as X|eapply Hr2; eauto].
        exact (Hne Ht (eq_sym X)).
      * intros [X|[[X|[X|X]] Hn]]; auto; [tauto|]. exfalso. apply Hn. left. now rewrite X.
    + split; [intros Ht; right; split; simpl; auto|]. intros [Hk|[Ht _]]; auto. now apply knows_nil in Hk.
  - unfold remove_all_regions. destruct (release_all_ok true _ (inv_fd _ Hi)) as [ev' Hev]. rewrite Hev.
    intros H; injection H as _ <- <-. intros i. apply release_all_spec in Hev. destruct Hev as [H1 H2].
    unfold in_table. simpl. split; [tauto|]. intros [Hk|[Ht Hn]].
    + revert Hk. now apply no_register_knows.
    + apply Hn, H2; auto.
  - destruct (logging_start calloc d pg) as [o' d1] eqn:E. apply logging_start_spec in E; auto.
    intros H; injection H as _ <- <-. intros i. destruct E as (_ & Hs & _).
    rewrite (shape_in_table _ _ i Hs).
    split; [intros Ht; right; split; simpl; auto|]. intros [Hk|[Ht _]]; auto. now apply knows_nil in Hk.
  - intros H; injection H as _ <- <-. intros i. rewrite (shape_in_table _ _ i (logging_stop_shape d)).
    split; [intros Ht; right; split; simpl; auto|]. intros [Hk|[Ht _]]; auto. now apply knows_nil in Hk.
  - destruct (sgl_mark_dirty d l) as [d1| |] eqn:E; intros H; injection H as _ <- <-; intros i.
    + apply sgl_mark_dirty_inv in E; auto. destruct E as (_ & Hs & _). rewrite (shape_in_table _ _ i Hs).
      split; [intros Ht; right; split; simpl; auto|]. intros [Hk|[Ht _]]; auto. now apply knows_nil in Hk.
    + split; [intros Ht; right; split; simpl; auto|]. intros [Hk|[Ht _]]; auto. now apply knows_nil in Hk.
    + split; [intros Ht; right; split; simpl; auto|]. intros [Hk|[Ht _]]; auto. now apply knows_nil in Hk.
  - destruct (dirty_page_get d hint addr len pg size buf) as [[o' d1] h1] eqn:E.
    apply dirty_page_get_inv in E; auto. destruct E as (_ & Hs & _).
    destruct o'; intros H; injection H as _ <- <-; intros i; try rewrite (shape_in_table _ _ i Hs);
      (split; [intros Ht; right; split; simpl; auto|]; intros [Hk|[Ht _]]; auto; now apply knows_nil in Hk).
Qed.

Lemma view_run ops : forall d d' ev,
  inv d -> dma_run true d ops = (d', ev) ->
  forall i, in_table d' i <-> device_knows ev i \/ (in_table d i /\ ~ In (EvUnregister i) ev).
Proof.
  induction ops as [|op ops IH]; intros d d' ev Hi H i; simpl in H.
  - injection H as <- <-. split; [intros; right; split; simpl; auto|].
    intros [Hk|[Ht _]]; auto. now apply knows_nil in Hk.
  - destruct (dma_step true d op) as [[o d1] ev1] eqn:E.
    destruct (dma_run true d1 ops) as [dd ev2] eqn:E2. injection H as <- <-.
    assert (Hi1 : inv d1) by (eapply inv_step; eauto).
    rewrite (IH _ _ _ Hi1 E2 i), (view_step _ _ _ _ _ Hi E i), knows_app, in_app_iff. tauto.
Qed.
