(* Repeated maps and exact unmaps. *)
From Coq Require Import NArith ZArith List Bool Lia ZifyBool ZifyNat ZifyN.
From Verif Require Import Base Types Spec Dma Dirty DmaOps SpecDma DmaProofs DmaDisjoint DmaSgl DmaMap.
Import ListNotations.
Open Scope N_scope.
Ltac Zify.zify_post_hook ::= Z.div_mod_to_equations.

(* No registered region passes the overlap test against another one (stronger than disjointness for empty regions). *)
Definition apart (rs : list region) : Prop :=
  forall i j ri rj, i <> j -> nth_error rs i = Some ri -> nth_error rs j = Some rj ->
    overlap_test ri (rg_base rj) (rg_len rj) = false.

Lemma overlap_sym r r' : nowrap r -> nowrap r' ->
  overlap_test r (rg_base r') (rg_len r') = overlap_test r' (rg_base r) (rg_len r).
Proof.
  unfold overlap_test, nowrap. intros H H'. rewrite !iov_end_nowrap, !w64_small by auto. apply orb_comm.
Qed.

Lemma apart_infos rs rs' : map rg_info rs' = map rg_info rs -> apart rs -> apart rs'.
Proof.
  intros E H i j ri rj Hne Hi Hj.
  destruct (infos_nth _ _ _ _ E Hi) as (ri' & Hi' & Ei). destruct (infos_nth _ _ _ _ E Hj) as (rj' & Hj' & Ej).
  specialize (H i j ri' rj' Hne Hi' Hj'). unfold overlap_test, iov_end, rg_base, rg_len in *.
  now rewrite <- Ei, <- Ej.
Qed.

Lemma apart_sub l r l' : apart (l ++ r :: l') -> apart (l ++ l').
Proof.
  intros H i j ri rj Hne Hi Hj.
  set (f := fun k => if Nat.ltb k (length l) then k else S k).
  assert (Hf : forall k x, nth_error (l ++ l') k = Some x -> nth_error (l ++ r :: l') (f k) = Some x).
  { intros k x Hk. unfold f. destruct (Nat.ltb_spec k (length l)).
    - rewrite nth_error_app1 in Hk by auto. rewrite nth_error_app1 by auto. exact Hk.
    - rewrite nth_error_app2 in Hk by auto. rewrite nth_error_app2 by lia.
      replace (S k - length l)%nat with (S (k - length l)) by lia. exact Hk. }
  apply (H (f i) (f j)); auto.
  unfold f. destruct (Nat.ltb_spec i (length l)), (Nat.ltb_spec j (length l)); lia.
Qed.

Lemma apart_step cb d op o d' ev :
  inv d -> inv2 d -> apart (dm_regions d) -> op_range_ok op -> dma_step cb d op = (o, d', ev) ->
  apart (dm_regions d').
Proof.
  intros Hi H2 Ha Hr H.
  destruct (step_table _ _ _ _ _ _ Hi H) as [Hsh|[(l & r & l' & E & E')|[E|Hmap]]].
  - apply (apart_infos (dm_regions d)); auto. now apply shape_infos.
  - rewrite E' . rewrite E in Ha. eapply apart_sub; eauto.
  - rewrite E. intros i j ri rj _ Hx. destruct i; discriminate.
  - destruct Hmap as (os & addr & size & fd & off & prot & n & -> & E). simpl in Hr.
    apply add_region_ok in E. destruct E as (_ & Hsz & [[-> _]|E]); [auto|].
    destruct E as (r & -> & _ & Hall & _ & Hkey & _).
    unfold key in Hkey. injection Hkey as Hb Hl. simpl.
    assert (Hnr : nowrap r) by (unfold nowrap; rewrite Hb, Hl; exact Hr).
    destruct H2 as [Hn _]. rewrite Forall_forall in Hall, Hn.
    intros i j ri rj Hne Hi' Hj'.
    destruct (Nat.lt_ge_cases i (length (dm_regions d))) as [Li|Li];
    destruct (Nat.lt_ge_cases j (length (dm_regions d))) as [Lj|Lj].
    + rewrite nth_error_app1 in Hi', Hj' by auto. eapply Ha; eauto.
    + rewrite nth_error_app1 in Hi' by auto.
      rewrite nth_error_app2 in Hj' by auto. destruct (j - length (dm_regions d))%nat as [|[|]]; try discriminate.
      injection Hj' as <-. rewrite Hb, Hl. apply Hall. eapply nth_error_In; eauto.
    + rewrite nth_error_app1 in Hj' by auto.
      rewrite nth_error_app2 in Hi' by auto. destruct (i - length (dm_regions d))%nat as [|[|]]; try discriminate.
      injection Hi' as <-. assert (In rj (dm_regions d)) by (eapply nth_error_In; eauto).
      rewrite overlap_sym by auto. rewrite Hb, Hl. apply Hall; auto.
    + assert (i < length (dm_regions d ++ [r]))%nat by (apply nth_error_Some; congruence).
      assert (j < length (dm_regions d ++ [r]))%nat by (apply nth_error_Some; congruence).
      rewrite app_length in *. simpl in *. lia.
Qed.

Lemma apart_run cb ops : forall d d' ev,
  inv d -> inv2 d -> apart (dm_regions d) -> Forall op_range_ok ops -> dma_run cb d ops = (d', ev) ->
  apart (dm_regions d').
Proof.
  induction ops as [|op ops IH]; intros d d' ev Hi H2 Ha Hr H; simpl in *; [injection H as <- _; auto|].
  destruct (dma_step cb d op) as [[o d1] ev1] eqn:E. simpl in *.
  destruct (dma_run cb d1 ops) as [d2 ev2] eqn:E2. injection H as <- _.
  inversion Hr as [|? ? Hr1 Hr2]; subst.
  assert (inv d1) by (exact (inv_step _ _ _ _ _ _ Hi E)).
  assert (inv2 d1) by (exact (inv2_step _ _ _ _ _ _ Hi H2 Hr1 E)).
  assert (apart (dm_regions d1)) by (exact (apart_step _ _ _ _ _ _ Hi H2 Ha Hr1 E)).
  eapply IH; eauto.
Qed.

Lemma reached_inv cb ops d ev : reached cb ops d ev ->
  inv d /\ inv2 d /\ apart (dm_regions d) /\ limits d = (64%nat, MAX_DMA_SIZE).
Proof.
  intros [Hr H].
  assert (Ha : apart (dm_regions dma_create)) by (intros i j ri rj _ Hx; destruct i; discriminate).
  destruct (inv2_run _ _ _ _ _ inv_create inv2_create Hr H) as [A B].
  split; [exact A|]. split; [exact B|]. split.
  - exact (apart_run _ _ _ _ _ inv_create inv2_create Ha Hr H).
  - apply run_limits in H. exact H.
Qed.

(* ---- scanning for a registered range *)

Lemma same_range_key r addr size : same_range r addr size = true <-> key r = (addr, size).
Proof.
  unfold same_range, key. rewrite andb_true_iff, !N.eqb_eq. split; [intros [-> ->]; auto|].
  intros E. injection E; auto.
Qed.

Lemma add_scan_found os rs : forall n i r addr size fd off prot,
  NoDup (map key rs) ->
  (forall k x, nth_error rs k = Some x -> k <> i -> overlap_test x addr size = false) ->
  nth_error rs i = Some r -> key r = (addr, size) ->
  add_scan os rs n addr size fd off prot =
  Some (if (off =? rg_off r) && fds_same os (rg_fd r) fd && (di_prot (rg_info r) =? prot)
        then Ok (n + i)%nat else Err EINVAL).
Proof.
  induction rs as [|x rs IH]; intros n i r addr size fd off prot Hnd Hov Hi Hk; [destruct i; discriminate|].
  inversion Hnd as [|? ? Hnot Hnd']; subst. destruct i as [|i]; simpl in Hi.
  - injection Hi as <-. simpl. rewrite (proj2 (same_range_key x addr size) Hk).
    destruct (off =? rg_off x); simpl; auto. destruct (fds_same os (rg_fd x) fd); simpl; auto.
    destruct (di_prot (rg_info x) =? prot); simpl; auto. now rewrite Nat.add_0_r.
  - simpl. assert (Hs : same_range x addr size = false).
    { destruct (same_range x addr size) eqn:E; auto. apply same_range_key in E. exfalso. apply Hnot.
      rewrite E, <- Hk. apply in_map. eapply nth_error_In; eauto. }
    rewrite Hs, (Hov 0%nat x) by (auto; lia).
    rewrite (IH (S n) i r) by (auto; intros k y Hy Hne; apply (Hov (S k) y); auto; lia).
    replace (S n + i)%nat with (n + S i)%nat by lia. reflexivity.
Qed.

Lemma remap cb0 ops d ev cb os r fd off prot :
  reached cb0 ops d ev -> In r (dm_regions d) ->
  let same := (off =? rg_off r) && fds_same os (rg_fd r) fd && (di_prot (rg_info r) =? prot) in
  exists ev', dma_step cb d (OpMap os (di_iova (rg_info r)) (di_len (rg_info r)) fd off prot) =
    ((if same then Ok tt else Err EINVAL), d, ev').
Proof.
  intros Hre Hin same. destruct (reached_inv _ _ _ _ Hre) as (Hi & H2 & Ha & Hlim).
  destruct (In_nth_error _ _ Hin) as [i Hnth].
  simpl. unfold dma_map_request, add_region.
  assert (Hsz := proj1 (Forall_forall _ _) (inv_size _ Hi) r Hin). simpl in Hsz. unfold rg_len in Hsz.
  destruct (N.ltb_spec (dm_max_size d) (di_len (rg_info r))); [lia|].
  rewrite (add_scan_found os (dm_regions d) 0 i r); auto.
  - fold same. destruct same; simpl.
    + rewrite Hnth. eauto.
    + eauto.
  - apply (inv_key _ Hi).
  - intros k x Hx Hne. apply (Ha k i x r); auto.
Qed.

Lemma unmap_exact cb0 ops d ev cb addr size :
  reached cb0 ops d ev ->
  (exists l r l' ev', dm_regions d = l ++ r :: l' /\ di_iova (rg_info r) = addr /\ di_len (rg_info r) = size /\
     dma_step cb d (OpUnmap addr size) = (Ok tt, set_regions d (l ++ l'), ev'))
  \/ ((forall r, In r (dm_regions d) -> ~ (di_iova (rg_info r) = addr /\ di_len (rg_info r) = size)) /\
      dma_step cb d (OpUnmap addr size) = (Err ENOENT, d, [])).
Proof.
  intros Hre. destruct (reached_inv _ _ _ _ Hre) as (Hi & _).
  destruct (remove_region_spec cb d addr size Hi) as [(l & r & l' & ev' & E & Hk & _ & _ & Hrm)|[Hn Hrm]].
  - left. unfold key in Hk. injection Hk as Hb Hl.
    exists l, r, l', ev'. simpl. rewrite Hrm. repeat split; auto.
  - right. simpl. rewrite Hrm. split; auto. intros r Hr [E1 E2].
    rewrite Forall_forall in Hn. apply (Hn r Hr). unfold key, rg_base, rg_len. congruence.
Qed.

Lemma map_unmap cb0 ops d ev cb os addr size fd off prot d' ev' :
  reached cb0 ops d ev ->
  dma_step cb d (OpMap os addr size fd off prot) = (Ok tt, d', ev') ->
  ~ (exists r, In r (dm_regions d) /\ di_iova (rg_info r) = addr /\ di_len (rg_info r) = size) ->
  exists ev'', dma_step cb d' (OpUnmap addr size) = (Ok tt, d, ev'').
Proof.
  intros Hre H Hnew. destruct (reached_inv _ _ _ _ Hre) as (Hi & _).
  assert (Hi' : inv d') by (exact (inv_step _ _ _ _ _ _ Hi H)).
  simpl in H. unfold dma_map_request in H.
  destruct (add_region os d addr size fd off prot) as [[o d1] ev1] eqn:E.
  destruct o as [n|e|c]; try discriminate.
  assert (d' = d1). { destruct (nth_error (dm_regions d1) n); injection H; auto. }
  subst d1. apply add_region_ok in E. destruct E as (_ & Hsz & [[_ (r & Hr & Hk & _)]|E]).
  - exfalso. apply Hnew. exists r. split; [eapply nth_error_In; eauto|].
    unfold key in Hk. injection Hk as A B. auto.
  - destruct E as (r & -> & _ & Hall & _ & Hk & _). simpl.
    destruct (remove_region_spec cb (set_regions d (dm_regions d ++ [r])) addr size Hi')
      as [(l & r0 & l' & ev0 & E & Hk0 & Hne & _ & Hrm)|[Hn _]].
    + rewrite Hrm. exists ev0. simpl in E.
      assert (l' = []).
      { destruct l' as [|y l'] using rev_ind; auto. exfalso. clear IHl'.
        rewrite app_comm_cons, app_assoc in E. apply app_inj_tail in E. destruct E as [_ <-].
        rewrite Forall_forall in Hne. apply (Hne r); auto. rewrite !in_app_iff. simpl; auto. }
      subst l'. apply app_inj_tail in E. destruct E as [<- <-]. rewrite app_nil_r.
      unfold set_regions. simpl. destruct d; reflexivity.
    + exfalso. simpl in Hn. apply Forall_app in Hn. destruct Hn as [_ Hn]. inversion Hn; subst. auto.
Qed.

Lemma fds_same_iff os fd fd' : fds_same os fd fd' = true <-> same_file os fd fd'.
Proof.
  unfold fds_same, same_file. destruct (Z.eqb_spec fd fd'); split; auto. intros [E|E]; [contradiction|auto].
Qed.

Lemma remap_same cb0 ops d ev cb os r addr size fd off prot :
  reached cb0 ops d ev -> registered d r addr size ->
  let same := off = rg_off r /\ same_file os (rg_fd r) fd /\ prot = di_prot (rg_info r) in
  (same -> exists ev', dma_step cb d (OpMap os addr size fd off prot) = (Ok tt, d, ev')) /\
  (~ same -> exists ev', dma_step cb d (OpMap os addr size fd off prot) = (Err EINVAL, d, ev')).
Proof.
  intros Hr (Hin & <- & <-) same. destruct (remap _ _ _ _ cb os r fd off prot Hr Hin) as [ev' E].
  set (b := (off =? rg_off r) && fds_same os (rg_fd r) fd && (di_prot (rg_info r) =? prot)) in *.
  assert (Hb : b = true <-> same).
  { unfold b, same. rewrite !andb_true_iff, !N.eqb_eq, fds_same_iff. intuition auto. }
  split; intros Hs; exists ev'; simpl in E |- *; rewrite E.
  - assert (Eb : b = true) by tauto. now rewrite Eb.
  - assert (Eb : b = false) by (destruct b; auto; tauto). now rewrite Eb.
Qed.

Lemma unmap_iff cb0 ops d ev cb addr size :
  reached cb0 ops d ev ->
  (forall r, registered d r addr size ->
     exists l l' ev', dm_regions d = l ++ r :: l' /\
       dma_step cb d (OpUnmap addr size) = (Ok tt, set_regions d (l ++ l'), ev')) /\
  ((forall r, ~ registered d r addr size) ->
     dma_step cb d (OpUnmap addr size) = (Err ENOENT, d, [])).
Proof.
  intros Hr. destruct (unmap_exact _ _ _ _ cb addr size Hr) as [(l & r & l' & ev' & E & A & B & H)|[Hn H]].
  - split.
    + intros r' (Hin & A' & B').
      assert (r' = r).
      { destruct (reached_inv _ _ _ _ Hr) as (Hi & _). pose proof (inv_key _ Hi) as Hnd.
        rewrite E, map_app in Hnd. simpl in Hnd. apply NoDup_remove_2 in Hnd. rewrite <- map_app in Hnd.
        rewrite E in Hin. rewrite in_app_iff in Hin. simpl in Hin.
        assert (Hk : key r = key r') by (unfold key, rg_base, rg_len; congruence).
        destruct Hin as [Hin|[Hin|Hin]]; auto; exfalso; apply Hnd; rewrite Hk; apply in_map;
          apply in_app_iff; auto. }
      subst r'. exists l, l', ev'. auto.
    + intros Hno. elim (Hno r). repeat split; auto. rewrite E. apply in_app_iff. simpl; auto.
  - split; auto. intros r (Hin & A & B). elim (Hn r Hin). auto.
Qed.

Lemma split_pass_writeable rs : forall idx found addr len cnt acc max prot,
  has prot PROT_WRITE = false -> Forall (fun s => sg_writeable s = false) acc ->
  match split_pass rs idx found addr len cnt acc max prot with
  | PassErr _ => True
  | PassOut _ acc' => Forall (fun s => sg_writeable s = false) acc'
  | PassEnd _ _ _ _ acc' => Forall (fun s => sg_writeable s = false) acc'
  end.
Proof.
  induction rs as [|r rs IH]; intros idx found addr len cnt acc max prot Hp Ha; simpl; auto.
  destruct (_ && _); [|apply IH; auto].
  destruct (Nat.ltb cnt max).
  - unfold init_sg. rewrite Hp. simpl.
    assert (Ha' : Forall (fun s => sg_writeable s = false)
              (acc ++ [mk_sg (rg_base r) idx (N.min (iov_end r - addr) len) (sub64 addr (rg_base r)) false])).
    { apply Forall_app; split; auto. }
    destruct (len - _ =? 0); auto. apply IH; auto.
  - destruct (len - _ =? 0); auto. apply IH; auto.
Qed.

Lemma split_loop_writeable fuel : forall rs addr len cnt acc max prot,
  has prot PROT_WRITE = false -> Forall (fun s => sg_writeable s = false) acc ->
  forall l, split_loop fuel rs addr len cnt acc max prot = SglOk l -> Forall (fun s => sg_writeable s = false) l.
Proof.
  induction fuel as [|f IH]; intros rs addr len cnt acc max prot Hp Ha l; simpl; unfold split_out;
    (destruct (len =? 0); [destruct (Nat.ltb max cnt); intros H; [discriminate|injection H as <-; auto]|]).
  - discriminate.
  - pose proof (split_pass_writeable rs 0 false addr len cnt acc max prot Hp Ha) as X.
    destruct (split_pass rs 0 false addr len cnt acc max prot) as [e|c a|fnd a' l' c a]; [discriminate|..].
    + unfold split_out. destruct (Nat.ltb max c); intros H; [discriminate|injection H as <-; auto].
    + destruct fnd; [|discriminate]. apply IH; auto.
Qed.

Lemma mark_read_only d l : Forall (fun s => sg_writeable s = false) l -> sgl_mark_dirty d l = Ok d.
Proof.
  induction 1 as [|s l Hs _ IH]; simpl; auto. destruct (nth_error _ _); auto. rewrite Hs. simpl. exact IH.
Qed.

Lemma read_only_entries d hint addr len max prot l hint' :
  addr_to_sgl d hint addr len max prot = (SglOk l, hint') -> N.testbit prot 1 = false ->
  Forall (fun s => sg_writeable s = false) l.
Proof.
  intros H Hp. rewrite <- has_write in Hp. unfold addr_to_sgl in H.
  assert (Hslow : forall h, (match sg_split d addr len max prot with
    | SglOk [] => (SglOk [], hint)
    | SglOk (s :: l) => (SglOk (s :: l), sg_region s)
    | o => (o, hint)
    end) = (SglOk l, h) -> Forall (fun s => sg_writeable s = false) l).
  { intros h Hs. unfold sg_split in Hs.
    destruct (split_loop _ _ _ _ _ _ _ _) as [l0|n|e|c] eqn:E; try discriminate.
    apply split_loop_writeable in E; auto. destruct l0; injection Hs; intros; subst; auto. }
  destruct (nth_error (dm_regions d) hint) as [r|]; [|eapply Hslow; eauto].
  match type of H with context [if ?b then _ else _] => destruct b end; [|eapply Hslow; eauto].
  unfold init_sg in H. rewrite Hp in H. simpl in H. injection H as <- _. auto.
Qed.

Lemma read_only_never_dirties d hint addr len max prot l hint' :
  addr_to_sgl d hint addr len max prot = (SglOk l, hint') -> N.testbit prot 1 = false ->
  sgl_mark_dirty d l = Ok d /\ sgl_put d l = Ok d.
Proof.
  intros H Hp. unfold sgl_put. pose proof (mark_read_only d l (read_only_entries _ _ _ _ _ _ _ _ H Hp)). auto.
Qed.

Lemma sgl_get_inside cb ops d ev hint addr len max prot l hint' :
  reached cb ops d ev -> along os_sane cb dma_create ops -> along off_aligned cb dma_create ops ->
  range_ok addr len -> addr_to_sgl d hint addr len max prot = (SglOk l, hint') ->
  (forall iov, sgl_get d l = Ok iov ->
     Forall2 (fun s h => snd h = sg_len s /\
       exists r, nth_error (dm_regions d) (sg_region s) = Some r /\
         di_map_base (rg_info r) <= fst h /\
         fst h + sg_len s <= di_map_base (rg_info r) + di_map_len (rg_info r)) l iov) /\
  (forall e, sgl_get d l = Err e -> e = EFAULT /\
     exists s r, In s l /\ nth_error (dm_regions d) (sg_region s) = Some r /\ di_vaddr (rg_info r) = None) /\
  (forall c, sgl_get d l <> Crash c) /\
  (forall iov i j s1 s2 h1 h2 k1 k2, sgl_get d l = Ok iov ->
     nth_error l i = Some s1 -> nth_error l j = Some s2 ->
     nth_error iov i = Some h1 -> nth_error iov j = Some h2 -> k1 < sg_len s1 -> k2 < sg_len s2 ->
     (fst h1 + k1 = fst h2 + k2 <-> sg_base s1 + sg_off s1 + k1 = sg_base s2 + sg_off s2 + k2)).
Proof.
  intros Hr Hs Ha Hl H. destruct (reached_inv _ _ _ _ Hr) as (Hi & H2 & _).
  assert (H3 : inv3 d) by (exact (inv3_run _ _ _ _ _ inv_create inv3_create Hs Ha (proj2 Hr))).
  destruct (sgl_ok_tiles _ _ _ _ _ _ _ _ H2 Hl H) as (_ & Hin & _).
  pose proof (sgl_get_spec d l Hin H3) as S.
  split; [|split; [|split]].
  - intros iov E. rewrite E in S. clear - S. induction S as [|s h l iov (A & r & v & B & _ & C & D & F) S IH]; constructor; auto.
    split; auto. exists r. auto.
  - intros e E. rewrite E in S. exact S.
  - intros c E. rewrite E in S. exact S.
  - intros. eapply sgl_get_inj; eauto.
Qed.
