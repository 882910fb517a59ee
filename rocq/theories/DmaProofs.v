(* Lemmas about the DMA region table. *)
From Verif Require Import Base Types Spec Dma Dirty DmaOps.
From Coq Require Import NArith ZArith List Bool Lia ZifyBool ZifyNat ZifyN.
Import ListNotations.
Open Scope N_scope.
Ltac Zify.zify_post_hook ::= Z.div_mod_to_equations.

#[global] Arguments N.add : simpl never.
#[global] Arguments N.sub : simpl never.
#[global] Arguments N.mul : simpl never.
#[global] Arguments N.div : simpl never.
#[global] Arguments N.modulo : simpl never.
#[global] Arguments N.pow : simpl never.
#[global] Arguments N.land : simpl never.
#[global] Arguments N.lor : simpl never.
#[global] Arguments N.shiftr : simpl never.
#[global] Arguments N.ldiff : simpl never.
#[global] Arguments N.testbit : simpl never.
#[global] Arguments extend_bits : simpl never.
#[global] Arguments repeat_bit : simpl never.
#[global] Arguments combine_bits : simpl never.
#[global] Arguments MAX_DMA_SIZE : simpl never.

Lemma two64_pow : two64 = 2 ^ 64. Proof. reflexivity. Qed.

Lemma w64_small x : x < two64 -> w64 x = x.
Proof. intros H; unfold w64; now apply N.mod_small. Qed.

Lemma w64_lt x : w64 x < two64.
Proof. unfold w64; apply N.mod_lt; discriminate. Qed.

Definition nowrap (r : region) : Prop := rg_base r + rg_len r < two64.

Lemma iov_end_nowrap r : nowrap r -> iov_end r = rg_base r + rg_len r.
Proof. intros H; apply w64_small; exact H. Qed.

Lemma covers_iff r a : covers r a <-> rg_base r <= a < rg_base r + rg_len r.
Proof. unfold covers, rg_base, rg_len; tauto. Qed.

(* ------------------------------------------------------------------ structure of add_region *)

Definition fd_ok (r : region) : Prop := di_vaddr (rg_info r) = None <-> rg_fd r = (-1)%Z.

Definition bm_ok (pgsize : N) (r : region) : Prop :=
  match rg_bitmap r with
  | None => pgsize = 0 \/ rg_fd r = (-1)%Z
  | Some bm =>
      pgsize <> 0 /\ rg_fd r <> (-1)%Z /\
      exists sz, get_bitmap_size (rg_len r) pgsize = Ok sz /\ length bm = N.to_nat sz /\
                 Forall (fun b => b < 256) bm
  end.

Definition key (r : region) : N * N := (rg_base r, rg_len r).

Lemma same_range_key r addr size : same_range r addr size = true <-> key r = (addr, size).
Proof.
  unfold same_range, key. rewrite andb_true_iff, !N.eqb_eq. split.
  - intros [-> ->]; reflexivity.
  - intros H; inversion H; auto.
Qed.

Lemma add_scan_none os rs : forall idx addr size fd off prot,
  add_scan os rs idx addr size fd off prot = None ->
  Forall (fun r => same_range r addr size = false /\ overlap_test r addr size = false) rs.
Proof.
  induction rs as [|r rs IH]; intros idx addr size fd off prot H; [constructor|].
  simpl in H. destruct (same_range r addr size) eqn:Es.
  - destruct (negb (off =? rg_off r)); [discriminate|].
    destruct (negb (fds_same os (rg_fd r) fd)); [discriminate|].
    destruct (negb (di_prot (rg_info r) =? prot)); discriminate.
  - destruct (overlap_test r addr size) eqn:Eo; [discriminate|].
    constructor; [auto|]. eapply IH; eauto.
Qed.

Lemma add_scan_ok os rs : forall idx addr size fd off prot n,
  add_scan os rs idx addr size fd off prot = Some (Ok n) ->
  exists k r, n = (idx + k)%nat /\ nth_error rs k = Some r /\ key r = (addr, size) /\
              rg_off r = off /\ di_prot (rg_info r) = prot /\ fds_same os (rg_fd r) fd = true.
Proof.
  induction rs as [|r rs IH]; intros idx addr size fd off prot n H; [discriminate|].
  simpl in H. destruct (same_range r addr size) eqn:Es.
  - destruct (negb (off =? rg_off r)) eqn:E1; [discriminate|].
    destruct (negb (fds_same os (rg_fd r) fd)) eqn:E2; [discriminate|].
    destruct (negb (di_prot (rg_info r) =? prot)) eqn:E3; [discriminate|].
    injection H as <-. exists 0%nat, r.
    apply negb_false_iff in E1, E2, E3. apply N.eqb_eq in E1, E3.
    apply same_range_key in Es. simpl. repeat split; auto.
  - destruct (overlap_test r addr size) eqn:Eo; [discriminate|].
    apply IH in H. destruct H as (k & r' & -> & Hn & Hr). exists (S k), r'.
    split; [lia|]. split; auto.
Qed.

Lemma add_scan_no_crash os rs : forall idx addr size fd off prot c,
  add_scan os rs idx addr size fd off prot <> Some (Crash c).
Proof.
  induction rs as [|r rs IH]; intros idx addr size fd off prot c H; [discriminate|].
  simpl in H. destruct (same_range r addr size).
  - destruct (negb (off =? rg_off r)); [discriminate|].
    destruct (negb (fds_same os (rg_fd r) fd)); [discriminate|].
    destruct (negb (di_prot (rg_info r) =? prot)); discriminate.
  - destruct (overlap_test r addr size); [discriminate|]. eapply IH; eauto.
Qed.

Lemma start_on_region_spec c r pgsize r' :
  start_on_region c r pgsize = Ok r' ->
  rg_info r' = rg_info r /\ rg_fd r' = rg_fd r /\ rg_off r' = rg_off r /\
  exists sz, get_bitmap_size (rg_len r) pgsize = Ok sz /\ rg_bitmap r' = Some (repeat 0 (N.to_nat sz)).
Proof.
  unfold start_on_region. destruct (get_bitmap_size (rg_len r) pgsize) as [sz| |]; try discriminate.
  destruct c; try discriminate. intros H; injection H as <-. simpl. repeat split; auto. exists sz; auto.
Qed.

Lemma Forall_repeat {A} (P : A -> Prop) x n : P x -> Forall P (repeat x n).
Proof. intros; induction n; simpl; constructor; auto. Qed.

(* The two ways add_region succeeds. *)
Lemma add_region_ok os d addr size fd off prot n d' ev :
  add_region os d addr size fd off prot = (Ok n, d', ev) ->
  ev = [] /\ size <= dm_max_size d /\
  ((d' = d /\ exists r, nth_error (dm_regions d) n = Some r /\ key r = (addr, size) /\
                         rg_off r = off /\ di_prot (rg_info r) = prot /\ fds_same os (rg_fd r) fd = true)
   \/
   (exists r, d' = set_regions d (dm_regions d ++ [r]) /\ n = length (dm_regions d) /\
      Forall (fun r => same_range r addr size = false /\ overlap_test r addr size = false) (dm_regions d) /\
      length (dm_regions d) <> dm_max_regions d /\
      key r = (addr, size) /\ rg_fd r = fd /\ rg_off r = off /\ di_prot (rg_info r) = prot /\
      fd_ok r /\ bm_ok (dm_pgsize d) r /\
      (fd <> (-1)%Z -> exists blk base, os_blksize os = Some blk /\ os_mmap os = inl base /\
         di_page_size (rg_info r) = N.max blk PAGE_SIZE /\
         di_map_base (rg_info r) = base /\
         di_map_len (rg_info r) = round_up size (N.max blk PAGE_SIZE) /\
         di_vaddr (rg_info r) = Some (w64 (base + (off - round_down off (N.max blk PAGE_SIZE))))) /\
      (forall bm, rg_bitmap r = Some bm -> Forall (fun b => b = 0) bm))).
Proof.
  unfold add_region. destruct (N.ltb_spec (dm_max_size d) size) as [Hs|Hs]; [discriminate|].
  destruct (add_scan os (dm_regions d) 0 addr size fd off prot) as [o|] eqn:Escan.
  { intros H. injection H as -> <- <-. split; [auto|]. split; [auto|]. left. split; [auto|].
    apply add_scan_ok in Escan. destruct Escan as (k & r & -> & Hr). exists r. simpl. tauto. }
  apply add_scan_none in Escan.
  destruct (Nat.eqb_spec (length (dm_regions d)) (dm_max_regions d)) as [|Hlen]; [discriminate|].
  destruct (Z.eqb_spec fd (-1)) as [->|Hfd].
  { intros H. injection H as <- <- <-. split; [auto|]. split; [auto|]. right.
    eexists. split; [reflexivity|]. split; [reflexivity|]. split; [exact Escan|]. split; [exact Hlen|].
    split; [reflexivity|]. split; [reflexivity|]. split; [reflexivity|]. split; [reflexivity|].
    split; [split; auto|]. split; [simpl; right; reflexivity|].
    split; [intros X; now elim X|]. simpl; discriminate. }
  destruct (os_blksize os) as [blk|] eqn:Eblk; [|discriminate].
  set (r0 := mk_region (mk_info addr size None 0 0 (N.max blk PAGE_SIZE) prot) fd off None).
  assert (Hstep : forall r1,
    (if dm_pgsize d =? 0 then Ok r0 else start_on_region (os_calloc os) r0 (dm_pgsize d)) = Ok r1 ->
    rg_info r1 = rg_info r0 /\ rg_fd r1 = fd /\ rg_off r1 = off /\
    bm_ok (dm_pgsize d) r1 /\ (forall bm, rg_bitmap r1 = Some bm -> Forall (fun b => b = 0) bm)).
  { intros r1. destruct (N.eqb_spec (dm_pgsize d) 0) as [E0|E0].
    - intros H; injection H as <-. simpl. repeat split; auto.
      + left; auto.
      + discriminate.
    - intros H. apply start_on_region_spec in H. destruct H as (H1 & H2 & H3 & sz & Hsz & Hbm).
      split; [auto|]. split; [auto|]. split; [auto|]. split.
      + unfold bm_ok. rewrite Hbm. split; [auto|]. split; [rewrite H2; auto|].
        exists sz. split; [|split].
        * unfold rg_len in *. rewrite H1. exact Hsz.
        * apply repeat_length.
        * apply Forall_repeat; lia.
      + intros bm Hb. rewrite Hbm in Hb. injection Hb as <-. apply Forall_repeat; auto. }
  destruct (if dm_pgsize d =? 0 then Ok r0 else start_on_region (os_calloc os) r0 (dm_pgsize d))
    as [r1| |]; try discriminate.
  specialize (Hstep r1 eq_refl). destruct Hstep as (Hi & Hf & Ho & Hb & Hz).
  unfold map_region. destruct (os_mmap os) as [base|e] eqn:Em; [|discriminate].
  intros H. injection H as <- <- <-. split; [auto|]. split; [auto|]. right.
  eexists. split; [reflexivity|]. split; [reflexivity|]. split; [exact Escan|]. split; [exact Hlen|].
  rewrite Hi, Ho, Hf. simpl.
  split; [reflexivity|]. split; [reflexivity|]. split; [reflexivity|]. split; [reflexivity|].
  split; [split; simpl; [discriminate|congruence]|].
  split.
  { unfold bm_ok in *; simpl in *. unfold rg_len in *; simpl in *. rewrite Hi in Hb. rewrite Hf in Hb. exact Hb. }
  split.
  { intros _. exists blk, base. repeat split; auto. }
  exact Hz.
Qed.

Lemma add_region_fail os d addr size fd off prot e d' ev :
  add_region os d addr size fd off prot = (Err e, d', ev) -> d' = d.
Proof.
  unfold add_region. destruct (N.ltb_spec (dm_max_size d) size) as [Hs|Hs].
  { intros H; injection H; auto. }
  destruct (add_scan _ _ _ _ _ _ _ _) as [o|]; [intros H; injection H; auto|].
  destruct (Nat.eqb _ _); [intros H; injection H; auto|].
  destruct (fd =? -1)%Z; [discriminate|].
  destruct (os_blksize os); [|intros H; injection H; auto].
  destruct (if dm_pgsize d =? 0 then _ else _) as [r1| |]; try (intros H; injection H; auto; fail); try discriminate.
  destruct (map_region os r1); intros H; injection H; auto; discriminate.
Qed.

Lemma start_no_crash c r p x : start_on_region c r p <> Crash x.
Proof.
  unfold start_on_region, get_bitmap_size.
  destruct (p =? 0); [discriminate|]. destruct (rg_len r <? p); [discriminate|].
  destruct c; discriminate.
Qed.

Lemma add_region_no_crash os d addr size fd off prot c d' ev :
  add_region os d addr size fd off prot <> (Crash c, d', ev).
Proof.
  unfold add_region. destruct (N.ltb_spec (dm_max_size d) size) as [Hs|Hs]; [discriminate|].
  destruct (add_scan _ _ _ _ _ _ _ _) as [o|] eqn:E.
  { intros H; injection H as -> _ _. eapply add_scan_no_crash; eauto. }
  destruct (Nat.eqb _ _); [discriminate|].
  destruct (fd =? -1)%Z; [discriminate|].
  destruct (os_blksize os) as [b|]; [|discriminate].
  destruct (dm_pgsize d =? 0).
  - unfold map_region. destruct (os_mmap os); discriminate.
  - destruct (start_on_region _ _ _) as [r1| |] eqn:Es; try discriminate.
    + unfold map_region. destruct (os_mmap os); discriminate.
    + intros _. eapply start_no_crash; eauto.
Qed.

(* ------------------------------------------------------------------ remove *)

Lemma release_ok cb r : fd_ok r -> exists ev, release_region cb r = Ok ev.
Proof.
  unfold fd_ok, release_region. intros [H1 H2].
  destruct (di_vaddr (rg_info r)) eqn:E.
  - destruct (Z.eqb_spec (rg_fd r) (-1)) as [Ef|Ef]; [apply H2 in Ef; discriminate|]. eauto.
  - rewrite (H1 eq_refl). simpl. eauto.
Qed.

Lemma release_events cb r ev :
  release_region cb r = Ok ev ->
  exists rest, ev = (if cb then [EvUnregister (rg_info r)] else []) ++ rest /\
     (forall i, ~ In (EvRegister i) rest) /\ (forall i, ~ In (EvUnregister i) rest) /\
     rest = match di_vaddr (rg_info r) with
            | Some _ => EvMunmap (di_map_base (rg_info r)) (di_map_len (rg_info r)) :: close_ev (rg_fd r)
            | None => []
            end.
Proof.
  unfold release_region. destruct (di_vaddr (rg_info r)).
  - destruct (rg_fd r =? -1)%Z eqn:E; [discriminate|]. intros H; injection H as <-.
    eexists. split; [reflexivity|]. simpl. unfold close_ev. rewrite E. simpl.
    repeat split; auto; intros i [H|[H|[]]]; discriminate.
  - destruct (rg_fd r =? -1)%Z; [|discriminate]. intros H; injection H as <-.
    exists []. rewrite app_nil_r. auto.
Qed.

Lemma remove_scan_spec cb rs : forall addr size,
  Forall fd_ok rs ->
  (exists l r l' ev, rs = l ++ r :: l' /\ key r = (addr, size) /\ Forall (fun x => key x <> (addr, size)) l /\
     release_region cb r = Ok ev /\ remove_scan cb rs addr size = (Ok ev, l ++ l'))
  \/ (Forall (fun x => key x <> (addr, size)) rs /\ remove_scan cb rs addr size = (Err ENOENT, rs)).
Proof.
  induction rs as [|r rs IH]; intros addr size Hf.
  - right. split; [constructor|reflexivity].
  - inversion Hf as [|? ? Hr Hrs]; subst. simpl.
    destruct (same_range r addr size) eqn:E.
    + left. destruct (release_ok cb r Hr) as [ev Hev].
      exists [], r, rs, ev. rewrite Hev. simpl. repeat split; auto.
      now apply same_range_key.
    + assert (Hk : key r <> (addr, size)).
      { intros H. apply same_range_key in H. congruence. }
      destruct (IH addr size Hrs) as [(l & r' & l' & ev & -> & Hk' & Hl & Hev & Hrm)|[Hl Hrm]].
      * left. exists (r :: l), r', l', ev. rewrite Hrm. simpl. repeat split; auto.
      * right. rewrite Hrm. split; auto.
Qed.

Lemma release_all_ok cb rs : Forall fd_ok rs -> exists ev, release_all cb rs = Ok ev.
Proof.
  induction 1 as [|r rs Hr Hrs [ev' IH]]; simpl; [eauto|].
  destruct (release_ok cb r Hr) as [ev ->]. rewrite IH. eauto.
Qed.

(* ------------------------------------------------------------------ invariant *)

Record inv (d : dma) : Prop := mk_inv {
  inv_cnt : (length (dm_regions d) <= dm_max_regions d)%nat;
  inv_size : Forall (fun r => rg_len r <= dm_max_size d) (dm_regions d);
  inv_key : NoDup (map key (dm_regions d));
  inv_fd : Forall fd_ok (dm_regions d);
  inv_bm : Forall (bm_ok (dm_pgsize d)) (dm_regions d)
}.

Lemma inv_create : inv dma_create.
Proof. constructor; simpl; try constructor. lia. Qed.

Lemma NoDup_snoc {A} (l : list A) x : NoDup l -> ~ In x l -> NoDup (l ++ [x]).
Proof.
  intros H Hx. apply NoDup_rev in H. rewrite <- (rev_involutive (l ++ [x])).
  apply NoDup_rev. rewrite rev_app_distr. simpl. constructor; auto.
  now rewrite <- in_rev.
Qed.

Lemma inv_add os d addr size fd off prot o d' ev :
  inv d -> add_region os d addr size fd off prot = (o, d', ev) -> inv d'.
Proof.
  intros Hi H. destruct o as [n|e|c].
  - apply add_region_ok in H. destruct H as (_ & Hsz & [[-> _]|H]); auto.
    destruct H as (r & -> & _ & Hall & Hlen & Hkey & Hfd & Hoff & Hprot & Hfdok & Hbm & _).
    destruct Hi as [H1 H2 H3 H4 H5]. constructor; simpl.
    + rewrite app_length; simpl. lia.
    + apply Forall_app; split; auto. constructor; auto.
      unfold key in Hkey. inversion Hkey; subst. auto.
    + rewrite map_app. simpl. apply NoDup_snoc; auto.
      intros Hin. apply in_map_iff in Hin. destruct Hin as (x & Hx & Hin).
      rewrite Forall_forall in Hall. destruct (Hall x Hin) as [Hs _].
      assert (same_range x addr size = true) by (apply same_range_key; congruence). congruence.
    + apply Forall_app; split; auto.
    + apply Forall_app; split; auto.
  - apply add_region_fail in H. now subst.
  - elim (add_region_no_crash _ _ _ _ _ _ _ _ _ _ H).
Qed.

Lemma NoDup_app_remove {A} (l1 l2 : list A) x : NoDup (l1 ++ x :: l2) -> NoDup (l1 ++ l2).
Proof. apply NoDup_remove_1. Qed.

Lemma inv_sub d l r l' :
  inv d -> dm_regions d = l ++ r :: l' -> inv (set_regions d (l ++ l')).
Proof.
  intros [H1 H2 H3 H4 H5] E. rewrite E in *.
  constructor; simpl.
  - rewrite app_length in *. simpl in *. lia.
  - apply Forall_app in H2. destruct H2 as [Ha Hb]. inversion Hb; apply Forall_app; auto.
  - rewrite map_app in *. simpl in H3. now apply NoDup_remove_1 in H3.
  - apply Forall_app in H4. destruct H4 as [Ha Hb]. inversion Hb; apply Forall_app; auto.
  - apply Forall_app in H5. destruct H5 as [Ha Hb]. inversion Hb; apply Forall_app; auto.
Qed.

Lemma set_regions_id d : set_regions d (dm_regions d) = d.
Proof. destruct d; reflexivity. Qed.

Lemma remove_region_spec cb d addr size :
  inv d ->
  (exists l r l' ev, dm_regions d = l ++ r :: l' /\ key r = (addr, size) /\
     Forall (fun x => key x <> (addr, size)) (l ++ l') /\
     release_region cb r = Ok ev /\
     remove_region cb d addr size = (Ok ev, set_regions d (l ++ l')))
  \/ (Forall (fun x => key x <> (addr, size)) (dm_regions d) /\
      remove_region cb d addr size = (Err ENOENT, d)).
Proof.
  intros Hi. unfold remove_region.
  destruct (remove_scan_spec cb (dm_regions d) addr size (inv_fd _ Hi))
    as [(l & r & l' & ev & E & Hk & Hl & Hev & Hrm)|[Hl Hrm]].
  - left. exists l, r, l', ev. rewrite Hrm. repeat split; auto.
    apply Forall_app; split; auto.
    pose proof (inv_key _ Hi) as Hnd. rewrite E, map_app in Hnd. simpl in Hnd.
    apply NoDup_remove_2 in Hnd. rewrite Hk in Hnd. rewrite in_app_iff in Hnd.
    apply Forall_forall. intros x Hx Hkx. apply Hnd. right. apply in_map_iff. eauto.
  - right. rewrite Hrm, set_regions_id. auto.
Qed.

(* ------------------------------------------------------------------ effect of the other operations *)

Definition same_shape (r r' : region) : Prop :=
  rg_info r' = rg_info r /\ rg_fd r' = rg_fd r /\ rg_off r' = rg_off r.

Lemma same_shape_refl r : same_shape r r.
Proof. repeat split. Qed.

Lemma set_bitmap_shape r b : same_shape r (set_bitmap r b).
Proof. repeat split. Qed.

Lemma shape_infos rs rs' : Forall2 same_shape rs rs' -> map rg_info rs' = map rg_info rs.
Proof. induction 1 as [|r r' l l' H _ IH]; simpl; [auto|]. destruct H as (-> & _). now rewrite IH. Qed.

Lemma shape_keys rs rs' : Forall2 same_shape rs rs' -> map key rs' = map key rs.
Proof.
  induction 1 as [|r r' l l' H _ IH]; simpl; [auto|]. destruct H as (E & _).
  f_equal; [|exact IH]. unfold key, rg_base, rg_len. now rewrite E.
Qed.

Lemma shape_fd_ok rs rs' : Forall2 same_shape rs rs' -> Forall fd_ok rs -> Forall fd_ok rs'.
Proof.
  induction 1 as [|r r' l l' H _ IH]; intros Hf; [auto|]. inversion Hf; subst. constructor; auto.
  destruct H as (E & E2 & _). unfold fd_ok in *. now rewrite E, E2.
Qed.

Lemma shape_len_le m rs rs' : Forall2 same_shape rs rs' ->
  Forall (fun r => rg_len r <= m) rs -> Forall (fun r => rg_len r <= m) rs'.
Proof.
  induction 1 as [|r r' l l' H _ IH]; intros Hf; [auto|]. inversion Hf; subst. constructor; auto.
  destruct H as (E & _). unfold rg_len in *. now rewrite E.
Qed.

Lemma Forall2_refl {A} (R : A -> A -> Prop) l : (forall x, R x x) -> Forall2 R l l.
Proof. intros; induction l; constructor; auto. Qed.

Lemma F2_length {A B} (R : A -> B -> Prop) l l' : Forall2 R l l' -> length l = length l'.
Proof. induction 1; simpl; auto. Qed.

Lemma inv_shape d rs p :
  inv d -> Forall2 same_shape (dm_regions d) rs -> Forall (bm_ok p) rs ->
  inv (set_pgsize (set_regions d rs) p).
Proof.
  intros [H1 H2 H3 H4 H5] Hs Hb. constructor; simpl; auto.
  - now rewrite <- (F2_length _ _ _ Hs).
  - eapply shape_len_le; eauto.
  - rewrite (shape_keys _ _ Hs); auto.
  - eapply shape_fd_ok; eauto.
Qed.

Lemma set_pgsize_id d rs : set_pgsize (set_regions d rs) (dm_pgsize d) = set_regions d rs.
Proof. reflexivity. Qed.

Lemma bm_ok_none0 r : bm_ok 0 r -> rg_bitmap r = None.
Proof. unfold bm_ok. destruct (rg_bitmap r); [intros (H & _); now elim H|auto]. Qed.

Lemma set_bitmap_id r : set_bitmap r (rg_bitmap r) = r.
Proof. destruct r; reflexivity. Qed.

Lemma start_scan_spec calloc rs : forall idx pgsize o rs',
  pgsize <> 0 ->
  Forall (bm_ok 0) rs ->
  start_scan calloc idx rs pgsize = (o, rs') ->
  (o = Ok tt /\ Forall2 same_shape rs rs' /\ Forall (bm_ok pgsize) rs' /\
   Forall (fun r => forall bm, rg_bitmap r = Some bm -> Forall (fun b => b = 0) bm) rs')
  \/ (exists e, o = Err e /\ rs' = rs).
Proof.
  induction rs as [|r rs IH]; intros idx pgsize o rs' Hp Hb H; simpl in H.
  - injection H as <- <-. left. repeat split; constructor.
  - inversion Hb as [|? ? Hr Hrs]; subst. apply bm_ok_none0 in Hr.
    destruct (Z.eqb_spec (rg_fd r) (-1)) as [Ef|Ef].
    + destruct (start_scan calloc (S idx) rs pgsize) as [o' rs''] eqn:Es.
      apply IH in Es; auto. destruct Es as [(-> & Hsh & Hbm & Hz)|(e & -> & ->)].
      * injection H as <- <-. left. split; [auto|]. split; [constructor; auto using same_shape_refl|].
        split; constructor; auto.
        -- unfold bm_ok. rewrite Hr. auto.
        -- rewrite Hr; discriminate.
      * injection H as <- <-. right. exists e. split; auto. f_equal.
        rewrite <- Hr. apply set_bitmap_id.
    + destruct (start_on_region (calloc idx) r pgsize) as [r'|e|c] eqn:Er.
      * apply start_on_region_spec in Er. destruct Er as (E1 & E2 & E3 & sz & Esz & Ebm).
        destruct (start_scan calloc (S idx) rs pgsize) as [o' rs''] eqn:Es.
        apply IH in Es; auto. destruct Es as [(-> & Hsh & Hbm & Hz)|(e & -> & ->)].
        -- injection H as <- <-. left. split; [auto|]. split.
           { constructor; auto. repeat split; auto. }
           split; constructor; auto.
           ++ unfold bm_ok. rewrite Ebm. split; [auto|]. split; [now rewrite E2|].
              exists sz. split; [|split].
              ** unfold rg_len in *. now rewrite E1.
              ** apply repeat_length.
              ** apply Forall_repeat; lia.
           ++ intros bm Hx. rewrite Ebm in Hx. injection Hx as <-. apply Forall_repeat; auto.
        -- injection H as <- <-. right. exists e. split; auto. f_equal.
           rewrite <- Hr. apply set_bitmap_id.
      * injection H as <- <-. right; eauto.
      * elim (start_no_crash _ _ _ _ Er).
Qed.

Lemma logging_start_spec calloc d pgsize o d' :
  inv d -> logging_start calloc d pgsize = (o, d') ->
  inv d' /\ Forall2 same_shape (dm_regions d) (dm_regions d') /\
  ((exists e, o = Err e /\ d' = d) \/
   (o = Ok tt /\ dm_pgsize d' = pgsize /\ pgsize <> 0 /\
     (dm_pgsize d = pgsize /\ d' = d \/
      dm_pgsize d = 0 /\
      Forall (fun r => forall bm, rg_bitmap r = Some bm -> Forall (fun b => b = 0) bm) (dm_regions d')))).
Proof.
  intros Hi. unfold logging_start.
  destruct (N.eqb_spec pgsize 0) as [->|Hp].
  { intros H; injection H as <- <-. split; [auto|]. split; [apply Forall2_refl, same_shape_refl|].
    left; eauto. }
  destruct (N.ltb_spec 0 (dm_pgsize d)) as [Hd|Hd].
  { destruct (N.eqb_spec (dm_pgsize d) pgsize) as [E|E]; simpl; intros H; injection H as <- <-;
      (split; [auto|]; split; [apply Forall2_refl, same_shape_refl|]).
    - right. repeat split; auto.
    - left; eauto. }
  assert (E0 : dm_pgsize d = 0) by lia.
  destruct (start_scan calloc 0 (dm_regions d) pgsize) as [o' rs'] eqn:Es.
  pose proof (inv_bm _ Hi) as Hb. rewrite E0 in Hb.
  apply start_scan_spec in Es; auto.
  destruct Es as [(-> & Hsh & Hbm & Hz)|(e & -> & ->)]; intros H; injection H as <- <-.
  - split; [now apply inv_shape|]. split; [exact Hsh|]. right. repeat split; auto.
  - rewrite set_regions_id. split; [auto|]. split; [apply Forall2_refl, same_shape_refl|]. left; eauto.
Qed.

Lemma logging_stop_inv d : inv d -> inv (logging_stop d).
Proof.
  intros Hi. unfold logging_stop. destruct (N.eqb_spec (dm_pgsize d) 0); auto.
  apply inv_shape; auto.
  - induction (dm_regions d); simpl; constructor; auto using set_bitmap_shape.
  - induction (dm_regions d); simpl; constructor; auto. left; reflexivity.
Qed.

Lemma logging_stop_shape d : Forall2 same_shape (dm_regions d) (dm_regions (logging_stop d)).
Proof.
  unfold logging_stop. destruct (N.eqb_spec (dm_pgsize d) 0); simpl.
  - apply Forall2_refl, same_shape_refl.
  - induction (dm_regions d); simpl; constructor; auto using set_bitmap_shape.
Qed.

(* ---- byte array lemmas *)

Lemma set_nth_length {A} i (v : A) l : length (set_nth i v l) = length l.
Proof. revert i; induction l as [|x l IH]; intros [|i]; simpl; auto. Qed.

Lemma set_nth_eq {A} i (v : A) l : (i < length l)%nat -> nth_error (set_nth i v l) i = Some v.
Proof. revert i; induction l as [|x l IH]; intros [|i] H; simpl in *; try lia; auto. apply IH; lia. Qed.

Lemma set_nth_neq {A} i j (v : A) l : i <> j -> nth_error (set_nth i v l) j = nth_error l j.
Proof. revert i j; induction l as [|x l IH]; intros [|i] [|j] H; simpl; auto; try congruence. Qed.

Lemma Forall_set_nth {A} (P : A -> Prop) i v l : Forall P l -> P v -> Forall P (set_nth i v l).
Proof. intros H Hv. revert i; induction H; intros [|i]; simpl; constructor; auto. Qed.

Lemma lt256_testbit b : (forall k, 8 <= k -> N.testbit b k = false) -> b < 256.
Proof.
  intros H. destruct (N.eq_dec b 0) as [->|Hb]; [reflexivity|].
  destruct (N.lt_ge_cases b 256) as [|Hge]; auto. exfalso.
  assert (8 <= N.log2 b).
  { change 8 with (N.log2 256). now apply N.log2_le_mono. }
  specialize (H _ H0). rewrite N.bit_log2 in H; [discriminate|auto].
Qed.

Lemma testbit_lt256 b k : b < 256 -> 8 <= k -> N.testbit b k = false.
Proof.
  intros H Hk. destruct (N.eq_dec b 0) as [->|Hb]; [apply N.bits_0|].
  apply N.bits_above_log2. assert (N.log2 b < 8); [|lia].
  apply N.log2_lt_pow2; [lia|]. exact H.
Qed.

Lemma lor_lt256 a b : a < 256 -> b < 256 -> N.lor a b < 256.
Proof.
  intros Ha Hb. apply lt256_testbit. intros k Hk.
  now rewrite N.lor_spec, !testbit_lt256.
Qed.

Lemma ldiff_lt256 a b : a < 256 -> N.ldiff a b < 256.
Proof.
  intros Ha. apply lt256_testbit. intros k Hk. now rewrite N.ldiff_spec, testbit_lt256.
Qed.

Lemma land_lt256 a b : a < 256 -> N.land a b < 256.
Proof.
  intros Ha. apply lt256_testbit. intros k Hk. now rewrite N.land_spec, testbit_lt256.
Qed.

Lemma mark_mask_lt256 a b c d i : mark_mask a b c d i < 256.
Proof.
  unfold mark_mask.
  destruct ((i =? c) && negb (a mod 8 =? 0));
    destruct ((i =? sub64 d 1) && negb (b mod 8 =? 0));
    auto using land_lt256, ldiff_lt256; try reflexivity;
    try (apply land_lt256; try apply ldiff_lt256; reflexivity); apply ldiff_lt256; reflexivity.
Qed.

Lemma or_byte_ok bm i m bm' :
  or_byte bm i m = Ok bm' ->
  (N.to_nat i < length bm)%nat /\
  exists b, nth_error bm (N.to_nat i) = Some b /\ bm' = set_nth (N.to_nat i) (N.lor b m) bm.
Proof.
  unfold or_byte. destruct (nth_error bm (N.to_nat i)) as [b|] eqn:E; [|discriminate].
  intros H; injection H as <-. split; [|eauto]. apply nth_error_Some. congruence.
Qed.

Lemma or_byte_length bm i m bm' : or_byte bm i m = Ok bm' -> length bm' = length bm.
Proof. intros H; apply or_byte_ok in H. destruct H as (_ & b & _ & ->). apply set_nth_length. Qed.

Lemma or_byte_256 bm i m bm' : m < 256 -> Forall (fun b => b < 256) bm ->
  or_byte bm i m = Ok bm' -> Forall (fun b => b < 256) bm'.
Proof.
  intros Hm Hb H; apply or_byte_ok in H. destruct H as (_ & b & E & ->).
  apply Forall_set_nth; auto. apply lor_lt256; auto.
  rewrite Forall_forall in Hb. apply Hb. eapply nth_error_In; eauto.
Qed.

Lemma or_bytes_length ops : forall bm bm', or_bytes bm ops = Ok bm' -> length bm' = length bm.
Proof.
  induction ops as [|[i m] ops IH]; intros bm bm' H; simpl in H.
  - now injection H as <-.
  - destruct (or_byte bm i m) as [b1| |] eqn:E; try discriminate.
    rewrite (IH _ _ H). eapply or_byte_length; eauto.
Qed.

Lemma or_bytes_256 ops : Forall (fun p => snd p < 256) ops -> forall bm bm',
  Forall (fun b => b < 256) bm -> or_bytes bm ops = Ok bm' -> Forall (fun b => b < 256) bm'.
Proof.
  induction 1 as [|[i m] ops Hm Hops IH]; intros bm bm' Hb H; simpl in H.
  - now injection H as <-.
  - destruct (or_byte bm i m) as [b1| |] eqn:E; try discriminate.
    eapply IH; [|eauto]. eapply or_byte_256; eauto.
Qed.

Lemma mark_ops_256 a b : Forall (fun p => snd p < 256) (mark_ops a b).
Proof.
  unfold mark_ops. apply Forall_forall. intros p Hp. apply in_map_iff in Hp.
  destruct Hp as (k & <- & _). simpl. apply mark_mask_lt256.
Qed.

Lemma mark_region_ok pg r s r' :
  mark_region pg r s = Ok r' -> same_shape r r' /\ (pg <> 0 -> bm_ok pg r -> bm_ok pg r').
Proof.
  unfold mark_region. destruct (rg_bitmap r) as [bm|] eqn:Eb; [|discriminate].
  destruct (or_bytes bm _) as [bm'| |] eqn:Eo; try discriminate.
  intros H; injection H as <-. split; [apply set_bitmap_shape|].
  intros Hpg Hb. unfold bm_ok in *. rewrite Eb in Hb. simpl.
  destruct Hb as (_ & Hfd & sz & H1 & H2 & H3). split; [auto|]. split; [auto|].
  exists sz. split; [auto|]. split.
  - rewrite (or_bytes_length _ _ _ Eo); auto.
  - eapply or_bytes_256; [|eauto|eauto]. apply mark_ops_256.
Qed.

Lemma mark_region_no_err pg r s e : mark_region pg r s <> Err e.
Proof.
  unfold mark_region. destruct (rg_bitmap r) as [bm|]; [|discriminate].
  generalize (mark_ops (pg_start (sg_off s) pg) (pg_end (sg_off s) (sg_len s) pg)).
  intros l. revert bm. induction l as [|[i m] l IH]; intros bm; simpl; [discriminate|].
  unfold or_byte. destruct (nth_error bm (N.to_nat i)); [apply IH|discriminate].
Qed.

Lemma set_nth_shape i r' rs r :
  nth_error rs i = Some r -> same_shape r r' -> Forall2 same_shape rs (set_nth i r' rs).
Proof.
  revert i; induction rs as [|x rs IH]; intros [|i] H Hs; simpl in *; try discriminate.
  - injection H as ->. constructor; auto. apply Forall2_refl, same_shape_refl.
  - constructor; auto using same_shape_refl.
Qed.

Lemma shape_trans a b c : Forall2 same_shape a b -> Forall2 same_shape b c -> Forall2 same_shape a c.
Proof.
  intros H; revert c; induction H as [|x y l l' Hxy _ IH]; intros c Hc; inversion Hc; subst; constructor.
  - destruct Hxy as (A & B & C0). destruct H1 as (A' & B' & C'). repeat split; congruence.
  - auto.
Qed.

Lemma inv_set_region d i r r' :
  inv d -> nth_error (dm_regions d) i = Some r -> same_shape r r' -> bm_ok (dm_pgsize d) r' ->
  inv (set_regions d (set_nth i r' (dm_regions d))).
Proof.
  intros Hi Hn Hs Hb. rewrite <- set_pgsize_id. apply inv_shape; auto.
  - eapply set_nth_shape; eauto.
  - apply Forall_set_nth; auto. apply (inv_bm _ Hi).
Qed.

Lemma sgl_mark_dirty_inv l : forall d d',
  inv d -> sgl_mark_dirty d l = Ok d' ->
  inv d' /\ Forall2 same_shape (dm_regions d) (dm_regions d') /\ dm_pgsize d' = dm_pgsize d.
Proof.
  induction l as [|s l IH]; intros d d' Hi H; simpl in H.
  - injection H as <-. repeat split; try apply Hi. apply Forall2_refl, same_shape_refl.
  - destruct (nth_error (dm_regions d) (sg_region s)) as [r|] eqn:En.
    + destruct (sg_writeable s && (0 <? dm_pgsize d)) eqn:Ew; [|now apply IH].
      apply andb_true_iff in Ew. destruct Ew as [_ Ew]. apply N.ltb_lt in Ew.
      destruct (mark_region (dm_pgsize d) r s) as [r'| |] eqn:Em; try discriminate.
      apply mark_region_ok in Em. destruct Em as [Hs Hb].
      assert (Hi' : inv (set_regions d (set_nth (sg_region s) r' (dm_regions d)))).
      { eapply inv_set_region; eauto. apply Hb; [lia|].
        pose proof (inv_bm _ Hi) as HB. rewrite Forall_forall in HB. apply HB.
        eapply nth_error_In; eauto. }
      apply IH in H; auto. destruct H as (H1 & H2 & H3). simpl in H2, H3. split; [auto|]. split; [|auto].
      eapply shape_trans; [|exact H2]. eapply set_nth_shape; eauto.
    + injection H as <-. repeat split; try apply Hi. apply Forall2_refl, same_shape_refl.
Qed.

(* ---- reports *)

Lemma get_same_spec n : forall bm out bm',
  get_same n bm = Ok (out, bm') ->
  (n <= length bm)%nat /\ out = firstn n bm /\ bm' = repeat 0 n ++ skipn n bm.
Proof.
  induction n as [|n IH]; intros bm out bm' H; simpl in H.
  - injection H as <- <-. simpl. repeat split; auto; lia.
  - destruct bm as [|b bm]; [discriminate|].
    destruct (get_same n bm) as [[o b']| |] eqn:E; try discriminate.
    injection H as <- <-. apply IH in E. destruct E as (H1 & -> & ->). simpl. repeat split; lia.
Qed.

Definition log_after (bm bm' : list N) : Prop :=
  exists k, (k <= length bm)%nat /\ bm' = repeat 0 k ++ skipn k bm.

Lemma log_after_refl bm : log_after bm bm.
Proof. exists 0%nat. split; [lia|reflexivity]. Qed.

Lemma log_after_cons b bm bm' : log_after bm bm' -> log_after (b :: bm) (0 :: bm').
Proof. intros (k & Hk & ->). exists (S k). simpl. split; [lia|reflexivity]. Qed.

Lemma log_after_one b bm : log_after (b :: bm) (0 :: bm).
Proof. exists 1%nat. simpl. split; [lia|reflexivity]. Qed.

Lemma log_after_length bm bm' : log_after bm bm' -> length bm' = length bm.
Proof. intros (k & Hk & ->). rewrite app_length, repeat_length, skipn_length. lia. Qed.

Lemma log_after_256 bm bm' : log_after bm bm' -> Forall (fun b => b < 256) bm -> Forall (fun b => b < 256) bm'.
Proof.
  intros (k & Hk & ->) H. apply Forall_app. split; [apply Forall_repeat; lia|].
  rewrite <- (firstn_skipn k bm) in H. now apply Forall_app in H.
Qed.

Lemma extend_bytes_log n : forall bm factor csize cidx out o2 bm',
  extend_bytes n bm factor csize cidx out = Ok (o2, bm') -> log_after bm bm'.
Proof.
  induction n as [|n IH]; intros bm factor csize cidx out o2 bm' H; simpl in H.
  - injection H as <- <-. apply log_after_refl.
  - destruct (csize <=? cidx / 8); [injection H as <- <-; apply log_after_refl|].
    destruct bm as [|b bm]; [discriminate|].
    destruct (extend_bits 8 0 b factor cidx out) as [[c1 o1]| |]; try discriminate.
    destruct (extend_bytes n bm factor csize c1 o1) as [[o3 b3]| |] eqn:E; try discriminate.
    injection H as <- <-. apply log_after_cons. eapply IH; eauto.
Qed.

Lemma combine_bytes_log n : forall bm sbit factor csize cidx out o2 bm',
  combine_bytes n bm sbit factor csize cidx out = Ok (o2, bm') -> log_after bm bm'.
Proof.
  induction n as [|n IH]; intros bm sbit factor csize cidx out o2 bm' H; simpl in H.
  - injection H as <- <-. apply log_after_refl.
  - destruct (csize <=? cidx / 8); [injection H as <- <-; apply log_after_refl|].
    destruct bm as [|b bm]; [discriminate|].
    destruct (combine_bits 8 0 b sbit factor csize cidx out) as [[[c1|] o1]| |]; try discriminate.
    + destruct (combine_bytes n bm (sbit + 8) factor csize c1 o1) as [[o3 b3]| |] eqn:E; try discriminate.
      injection H as <- <-. apply log_after_cons. eapply IH; eauto.
    + injection H as <- <-. apply log_after_one.
Qed.

Lemma report_bitmap_log sp cp ss cs bm buf out bm' :
  report_bitmap sp cp ss cs bm buf = Ok (out, bm') -> log_after bm bm'.
Proof.
  unfold report_bitmap. destruct (cp =? sp).
  - destruct (get_same (N.to_nat cs) bm) as [[o b]| |] eqn:E; try discriminate.
    intros H; injection H as <- <-. apply get_same_spec in E. destruct E as (H1 & _ & ->).
    exists (N.to_nat cs). auto.
  - destruct (cp <? sp); intros H; [eapply extend_bytes_log|eapply combine_bytes_log]; eauto.
Qed.

Lemma dirty_page_get_inv d hint addr len cp size buf o d' h' :
  inv d -> dirty_page_get d hint addr len cp size buf = (o, d', h') ->
  inv d' /\ Forall2 same_shape (dm_regions d) (dm_regions d') /\ dm_pgsize d' = dm_pgsize d.
Proof.
  intros Hi. unfold dirty_page_get.
  assert (Hsame : inv d /\ Forall2 same_shape (dm_regions d) (dm_regions d) /\ dm_pgsize d = dm_pgsize d).
  { repeat split; try apply Hi. apply Forall2_refl, same_shape_refl. }
  destruct (addr_to_sgl d hint addr len 1 0) as [res hint'].
  destruct res as [[|s l]|n|e|c]; try (intros H; injection H as <- <- <-; exact Hsame).
  destruct (negb (sg_base s =? addr) || negb (sg_len s =? len)); [intros H; injection H as <- <- <-; exact Hsame|].
  destruct (dm_pgsize d =? 0) eqn:Ep; [intros H; injection H as <- <- <-; exact Hsame|].
  destruct ((cp =? 0) || negb (pow2_or_zero cp)); [intros H; injection H as <- <- <-; exact Hsame|].
  destruct (get_bitmap_size len (dm_pgsize d)) as [ss| |];
    destruct (get_bitmap_size len cp) as [cs| |]; try (intros H; injection H as <- <- <-; exact Hsame).
  destruct (negb (size =? cs)); [intros H; injection H as <- <- <-; exact Hsame|].
  destruct (nth_error (dm_regions d) (sg_region s)) as [r|] eqn:En;
    [|intros H; injection H as <- <- <-; exact Hsame].
  destruct (rg_fd r =? -1)%Z; [intros H; injection H as <- <- <-; exact Hsame|].
  destruct (rg_bitmap r) as [bm|] eqn:Eb; [|intros H; injection H as <- <- <-; exact Hsame].
  destruct (report_bitmap (dm_pgsize d) cp ss cs bm buf) as [[out bm']| |] eqn:Er;
    try (intros H; injection H as <- <- <-; exact Hsame).
  intros H; injection H as <- <- <-. apply report_bitmap_log in Er.
  pose proof (inv_bm _ Hi) as HB. rewrite Forall_forall in HB.
  specialize (HB r (nth_error_In _ _ En)). unfold bm_ok in HB. rewrite Eb in HB.
  destruct HB as (A & B & sz & C0 & D & E).
  split; [|split; [|reflexivity]].
  - eapply inv_set_region; eauto using set_bitmap_shape. unfold bm_ok. simpl.
    split; [auto|]. split; [auto|]. exists sz. split; [auto|]. split.
    + now rewrite (log_after_length _ _ Er).
    + eapply log_after_256; eauto.
  - eapply set_nth_shape; eauto using set_bitmap_shape.
Qed.

Lemma map_request_fail cb os d addr size fd off prot e d' ev :
  dma_map_request cb os d addr size fd off prot = (Err e, d', ev) -> d' = d.
Proof.
  unfold dma_map_request. destruct (add_region os d addr size fd off prot) as [[[n|e'|c] d1] ev1] eqn:E.
  - destruct (nth_error (dm_regions d1) n); discriminate.
  - intros H; injection H as _ <- _. eapply add_region_fail; eauto.
  - discriminate.
Qed.

Lemma inv_step cb d op o d' ev : inv d -> dma_step cb d op = (o, d', ev) -> inv d'.
Proof.
  intros Hi. destruct op as [os addr size fd off prot|addr size| |calloc pg| |l|hint addr len pg size buf];
    simpl.
  - unfold dma_map_request. destruct (add_region os d addr size fd off prot) as [[r d1] ev1] eqn:E.
    apply inv_add in E; auto. destruct r as [n|e|c].
    + destruct (nth_error (dm_regions d1) n); intros H; injection H as _ <- _; auto.
    + intros H; injection H as _ <- _; auto.
    + intros H; injection H as _ <- _; auto.
  - destruct (remove_region_spec cb d addr size Hi) as [(l & r & l' & ev' & E & _ & _ & _ & ->)|[_ ->]];
      intros H; injection H as _ <- _; auto. eapply inv_sub; eauto.
  - unfold remove_all_regions. destruct (release_all_ok cb _ (inv_fd _ Hi)) as [ev' ->].
    intros H; injection H as _ <- _. destruct Hi; constructor; simpl; try constructor. lia.
  - destruct (logging_start calloc d pg) as [o' d1] eqn:E. apply logging_start_spec in E; auto.
    intros H; injection H as _ <- _. tauto.
  - intros H; injection H as _ <- _. now apply logging_stop_inv.
  - destruct (sgl_mark_dirty d l) as [d1| |] eqn:E; intros H; injection H as _ <- _; auto.
    apply sgl_mark_dirty_inv in E; tauto.
  - destruct (dirty_page_get d hint addr len pg size buf) as [[o' d1] h1] eqn:E.
    apply dirty_page_get_inv in E; auto. destruct o'; intros H; injection H as _ <- _; tauto.
Qed.

Lemma inv_run cb ops : forall d d' ev, inv d -> dma_run cb d ops = (d', ev) -> inv d'.
Proof.
  induction ops as [|op ops IH]; intros d d' ev Hi H; simpl in H.
  - now injection H as <- _.
  - destruct (dma_step cb d op) as [[o d1] ev1] eqn:E.
    destruct (dma_run cb d1 ops) as [d2 ev2] eqn:E2. injection H as <- _.
    eapply IH; [|eauto]. eapply inv_step; eauto.
Qed.
