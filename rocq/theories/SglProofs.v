(* How long a scatter/gather list stays right: the table of DMA regions along a history of a server. *)
From Coq Require Import NArith ZArith List Bool Lia ZifyBool ZifyNat ZifyN.
From Verif Require Import Base Types Bytes Spec Dma Dirty DmaOps SpecDma DmaProofs DmaDisjoint DmaSgl DmaMap DmaRemap
  Migr Irq Pci Handlers Server SpecServer SpecMsg HandlersProofs HandlersDma ServerProofs.
Import ListNotations.
Open Scope N_scope.
Ltac Zify.zify_post_hook ::= idtac.

(* ---------- the first k regions of the table *)

Definition first_infos (k : nat) (d : dma) : list dma_info := firstn k (map rg_info (dm_regions d)).

Lemma not_nil {A} (l : list A) : l <> [] -> exists x, In x l.
Proof. destruct l as [|x l]; [intros H; now elim H|]. intros _. exists x. now left. Qed.

Lemma list_eq_dec_nil {A} (l : list A) : l = [] \/ l <> [].
Proof. destruct l; [now left|right; discriminate]. Qed.

Section First.
Variables (k : nat) (is : list dma_info).
Hypothesis len_is : length is = k.
Let starts (d : dma) : Prop := first_infos k d = is.
Let spared (ev : list event) : Prop := forall i, In i is -> ~ In (EvUnregister i) ev.

Lemma starts_long d : starts d -> (k <= length (dm_regions d))%nat.
Proof. intros H. unfold starts, first_infos in H. apply (f_equal (@length _)) in H. rewrite firstn_length, map_length, len_is in H. lia. Qed.
Lemma starts_infos d d' : map rg_info (dm_regions d') = map rg_info (dm_regions d) -> starts d -> starts d'.
Proof. unfold starts, first_infos. now intros ->. Qed.
Lemma starts_in d l r l' : starts d -> dm_regions d = l ++ r :: l' -> ~ In (rg_info r) is -> (k <= length l)%nat.
Proof.
  intros H E N. destruct (Nat.le_gt_cases k (length l)) as [X|X]; [exact X|]. exfalso. apply N. unfold starts, first_infos in H. rewrite <- H, E, map_app.
  rewrite firstn_app, map_length. apply in_or_app. right. replace (k - length l)%nat with (S (k - S (length l))) by lia. now left.
Qed.
Lemma starts_app d d' l x y : starts d -> dm_regions d = l ++ x -> dm_regions d' = l ++ y -> (k <= length l)%nat -> starts d'.
Proof.
  unfold starts, first_infos. intros H E E' L. rewrite E, map_app, firstn_app, map_length in H. rewrite E', map_app, firstn_app, map_length.
  replace (k - length l)%nat with 0%nat in * by lia. exact H.
Qed.

Lemma starts_add os d addr size f off prot o d' ev : add_region os d addr size f off prot = (o, d', ev) -> starts d -> starts d'.
Proof.
  intros H S. destruct o as [n|e|c].
  - apply add_region_ok in H. destruct H as (_ & _ & [(-> & _)|(r & -> & _)]); [exact S|].
    eapply (starts_app d _ (dm_regions d) [] [r]); [exact S|now rewrite app_nil_r|reflexivity|now apply starts_long].
  - apply add_region_fail in H. now subst.
  - elim (add_region_no_crash _ _ _ _ _ _ _ _ _ _ H).
Qed.
Lemma starts_map cb os d addr size f off prot o d' ev : dma_map_request cb os d addr size f off prot = (o, d', ev) -> starts d -> starts d'.
Proof.
  unfold dma_map_request. intros H S. destruct (add_region os d addr size f off prot) as [[o1 d1] ev1] eqn:Q.
  assert (S1 : starts d1) by (eapply starts_add; eauto).
  destruct o1 as [n| |]; [destruct (nth_error (dm_regions d1) n)|..]; injection H as _ <- _; exact S1.
Qed.

(* Without a dma_unregister callback nobody is told, hence cb = true. *)
Lemma starts_step d op o d' ev : inv d -> dma_step true d op = (o, d', ev) -> spared ev -> starts d -> starts d'.
Proof.
  intros I H SP S. destruct op as [os addr size fd off prot|addr size| |calloc pg| |l|hint addr len pg size buf].
  - eapply starts_map; [exact H|exact S].
  - cbn [dma_step] in H. destruct (remove_region_spec true d addr size I) as [(l & r & l' & ev' & E & _ & _ & Hr & R)|(_ & R)]; rewrite R in H.
    + injection H as <- <- <-. apply release_events in Hr. destruct Hr as (rest & -> & _). assert (L : (k <= length l)%nat).
      { eapply starts_in; [exact S|exact E|]. intros J. apply (SP _ J). cbn [app]. now left. }
      eapply (starts_app d _ l (r :: l') l'); [exact S|exact E|reflexivity|exact L].
    + injection H as <- <- <-. exact S.
  - cbn [dma_step] in H. unfold remove_all_regions in H. destruct (release_all_ok true _ (inv_fd _ I)) as (ev' & R). rewrite R in H. injection H as <- <- <-.
    apply DmaDisjoint.release_all_spec in R. destruct R as (_ & R). unfold starts. destruct (list_eq_dec_nil is) as [E|E].
    + unfold first_infos. rewrite E in *. cbn [length] in len_is. now rewrite <- len_is.
    + exfalso. destruct (not_nil is E) as (i & J). apply (SP i J). apply R; [reflexivity|].
      rewrite <- (firstn_skipn k (map rg_info (dm_regions d))). apply in_or_app. left. unfold starts, first_infos in S. now rewrite S.
  - cbn [dma_step] in H. destruct (logging_start calloc d pg) as [o' d1] eqn:E. apply logging_start_spec in E; auto. injection H as _ <- _. destruct E as (_ & Hs & _).
    eapply starts_infos; [|exact S]. now apply shape_infos.
  - cbn [dma_step] in H. injection H as _ <- _. eapply starts_infos; [|exact S]. apply shape_infos, logging_stop_shape.
  - cbn [dma_step] in H. destruct (sgl_mark_dirty d l) as [d1| |] eqn:E; injection H as _ <- _; try exact S.
    apply sgl_mark_dirty_inv in E; auto. destruct E as (_ & Hs & _). eapply starts_infos; [|exact S]. now apply shape_infos.
  - cbn [dma_step] in H. destruct (dirty_page_get d hint addr len pg size buf) as [[o' d1] h1] eqn:E.
    apply dirty_page_get_inv in E; auto. destruct E as (_ & Hs & _). apply shape_infos in Hs.
    destruct o'; injection H as _ <- _; try exact S; (eapply starts_infos; [exact Hs|exact S]).
Qed.

Lemma spared_app a b : spared (a ++ b) -> spared a /\ spared b.
Proof. intros H. split; intros i J X; apply (H i J), in_or_app; auto. Qed.

Lemma starts_run ops : forall d d' ev, inv d -> dma_run true d ops = (d', ev) -> spared ev -> starts d -> starts d'.
Proof.
  induction ops as [|op ops IH]; intros d d' ev I H SP S; cbn [dma_run] in H; [injection H as <- <-; exact S|].
  destruct (dma_step true d op) as [[o d1] ev1] eqn:E. destruct (dma_run true d1 ops) as [d2 ev2] eqn:E2. injection H as <- <-.
  apply spared_app in SP. destruct SP as (SP1 & SP2). eapply IH; [eapply inv_step; eauto|exact E2|exact SP2|]. eapply starts_step; eauto.
Qed.

(* ---------- messages *)

Definition cstarts (c : ctx) : Prop := exists d, cx_dma c = Some d /\ starts d.

Lemma dma_events_unreg i ev : In (EvUnregister i) ev <-> In (EvUnregister i) (dma_events ev).
Proof. unfold dma_events. rewrite filter_In. cbn. tauto. Qed.

Lemma map_starts c d o body fds r c' fds' ev : handle_dma_map c d o body fds = (r, c', fds', ev) -> cx_dma c = Some d -> starts d -> cstarts c'.
Proof.
  intros H D S. unfold handle_dma_map in H.
  assert (K : forall r0 fds0, (r0, c, fds0, @nil event) = (r, c', fds', ev) -> cstarts c') by (intros r0 f0 Q; injection Q as _ <- _ _; exists d; auto).
  destruct (N.of_nat (length body) <? 32); [eapply K; exact H|]. needs H; try (eapply K; exact H).
  destruct (n <? 32); [eapply K; exact H|]. destruct (negb (N.ldiff n0 3 =? 0)); [eapply K; exact H|].
  destruct (match fds with [] => ((-1)%Z, []) | f :: fs => (f, (-1)%Z :: fs) end) as [f rest].
  destruct (negb (Nat.eqb (length fds) 0) && (f <? 0)%Z); [eapply K; exact H|].
  match type of H with context [dma_map_request ?a ?b ?x ?y ?z ?u ?v ?w] => destruct (dma_map_request a b x y z u v w) as [[res d'] ev1] eqn:Q end.
  injection H as _ <- _ _. exists d'. split; [destruct c; reflexivity|]. eapply starts_map; [exact Q|exact S].
Qed.

Lemma dispatch_starts c o cmd body fds r c' fds' ev : cinv c -> dispatch c o cmd body fds = (r, c', fds', ev) -> no_crash r -> cx_unregister c = true -> spared ev -> cstarts c -> cstarts c'.
Proof.
  intros CI H NC CU SP (d & D & S). destruct (N.eq_dec cmd 2) as [->|N2].
  - unfold dispatch in H. change (2 =? CMD_DMA_MAP) with true in H. cbv iota in H. rewrite D in H. eapply map_starts; eauto.
  - destruct (dispatch_shape _ _ _ _ _ _ _ _ _ H) as (_ & _ & B).
    destruct (B true d) as (d' & D' & ops & evd & R & E & _); [intros X; contradiction|intros _; exact CU|exact NC|exact D|].
    exists d'. split; [exact D'|]. eapply starts_run; [exact (ci_dma _ CI d D)|exact R| |exact S].
    intros i J X. apply (SP i J). apply (proj2 (dma_events_unreg i ev)). rewrite <- E. exact (proj1 (dma_events_unreg i evd) X).
Qed.

(* ---------- steps *)

Let sstarts (s : server) : Prop := cstarts (sv_ctx s).
Hypothesis some : is <> [].

Lemma lost_not_spared s : cx_unregister (sv_ctx s) = true -> sstarts s -> ~ spared (lost_events s).
Proof.
  intros CU (d & D & S) SP. destruct (not_nil is some) as (i & Ji). apply (SP i Ji). unfold lost_events. rewrite !in_app_iff. left.
  assert (J : In i (map rg_info (dm_regions d))).
  { rewrite <- (firstn_skipn k (map rg_info (dm_regions d))). apply in_or_app. left. unfold starts, first_infos in S. rewrite S. exact Ji. }
  apply in_map_iff in J. destruct J as (r & <- & J). apply in_concat. exists (gives_up s r). split; [apply in_map; unfold regions_of; now rewrite D|].
  unfold gives_up. rewrite CU. now left.
Qed.

Lemma reply_starts s en h r o s' ev : reply_case s en h r o s' ev -> cx_unregister (sv_ctx s) = true -> spared ev -> sstarts s -> sstarts s'.
Proof.
  intros [W|W S|e W S E|e e' W S E Q P Qr|e s1 W S E Q P] CU SP H; auto.
  - destruct (e' =? EBUSY); exact H.
  - apply spared_app in SP. elim (lost_not_spared s CU H). apply SP.
Qed.

Lemma handled_starts s en m o s' ev : cinv (sv_ctx s) -> handled s en m o s' ev -> cx_unregister (sv_ctx s) = true -> spared ev -> sstarts s -> sstarts s'.
Proof.
  intros CI [err body fds c1 fds' ev1 o1 s1 ev2 D K F R] CU SP H. apply spared_app in SP. destruct SP as (SP1 & SP). apply spared_app in SP. destruct SP as (SP2 & _).
  eapply reply_starts; [exact R| |exact SP2|].
  - destruct (k_setup _ _ K) as (_ & _ & _ & _ & E & _). cbn [sv_ctx set_ctx] in *. congruence.
  - change (cstarts c1). eapply dispatch_starts; [exact CI|exact D|exact Logic.I|exact CU|exact SP1|exact H].
Qed.

Lemma step_starts s st o s' ev : sinv s -> step_case s st o s' ev -> cx_unregister (sv_ctx s) = true -> spared ev -> sstarts s -> sstarts s'.
Proof.
  intros (CI & _) C CU SP H. destruct C; try exact H.
  - destruct (e' =? EBUSY); exact H.
  - apply spared_app in SP. elim (lost_not_spared s CU H). apply SP.
  - apply spared_app in SP. destruct SP as (_ & SP). apply spared_app in SP. eapply reply_starts; [eassumption|exact CU|apply SP|exact H].
  - apply spared_app in SP. destruct SP as (_ & SP). change (sstarts s'). eapply handled_starts; [|eassumption|exact CU|exact SP|exact H]. exact CI.
  - change (sstarts s'). eapply handled_starts; [|eassumption|exact CU|exact SP|exact H]. exact CI.
  - elim (lost_not_spared s CU H SP).
  - destruct H as (d0 & D0 & S). match goal with X : cx_dma (sv_ctx s) = Some d |- _ => rewrite X in D0 end. injection D0 as <-. exists d'. split; [reflexivity|].
    match goal with X : sgl_mark_dirty d l = Ok d' |- _ => apply sgl_mark_dirty_inv in X; [destruct X as (_ & Hs & _)|eapply ci_dma; eauto] end.
    eapply starts_infos; [|exact S]. now apply shape_infos.
  - destruct H as (d & D & S). exists d. split; [|exact S]. unfold dev_hint. rewrite D. cbn. reflexivity.
Qed.

Lemma history_starts s l s' arr ev : history s l s' arr ev -> sinv s -> cx_unregister (sv_ctx s) = true -> spared ev -> sstarts s -> sstarts s'.
Proof.
  induction 1 as [s|s st o s1 ev1 l s2 arr ev2 H NC T IH]; intros SI CU SP S; [exact S|]. apply spared_app in SP. destruct SP as (SP1 & SP2).
  apply step_cases in H; [|exact SI|exact NC]. destruct (step_kept _ _ _ _ _ SI H) as (K & SI'). apply IH; auto.
  - destruct (k_setup _ _ K) as (_ & _ & _ & _ & E & _). congruence.
  - exact (step_starts _ _ _ _ _ SI H CU SP1 S).
Qed.
End First.

(* ---------- translations *)

Lemma first_nth k d d' j r : first_infos k d' = first_infos k d -> (j < k)%nat -> nth_error (dm_regions d) j = Some r ->
  exists r', nth_error (dm_regions d') j = Some r' /\ rg_info r' = rg_info r.
Proof.
  intros E L N. assert (X : nth_error (first_infos k d) j = Some (rg_info r)).
  { unfold first_infos. apply map_nth_error with (f := rg_info) in N. rewrite <- N. rewrite <- (firstn_skipn k (map rg_info (dm_regions d))) at 2.
    rewrite nth_error_app1; [reflexivity|]. apply nth_error_Some_lt in N || idtac. rewrite firstn_length. 
    assert (j < length (map rg_info (dm_regions d)))%nat by (apply nth_error_Some; congruence). lia. }
  rewrite <- E in X. unfold first_infos in X.
  assert (L2 : (j < length (firstn k (map rg_info (dm_regions d'))))%nat) by (apply nth_error_Some; congruence).
  assert (Y : nth_error (map rg_info (dm_regions d')) j = Some (rg_info r)).
  { rewrite <- (firstn_skipn k (map rg_info (dm_regions d'))). rewrite nth_error_app1 by exact L2. exact X. }
  rewrite nth_error_map in Y. destruct (nth_error (dm_regions d') j) as [r'|]; [|discriminate Y]. exists r'. split; [reflexivity|]. now injection Y.
Qed.

Definition same_piece (p q : piece) : Prop := p_idx p = p_idx q /\ rg_info (p_reg p) = rg_info (p_reg q) /\ p_addr p = p_addr q /\ p_len p = p_len q.

Lemma same_feed ps qs : Forall2 same_piece ps qs -> forall cnt acc max prot, feed ps cnt acc max prot = feed qs cnt acc max prot.
Proof.
  induction 1 as [|p q ps qs (A & B & C & D) F IH]; intros cnt acc max prot; [reflexivity|]. cbn [feed].
  replace (init_sg (p_reg q) (p_idx q) (p_addr q) (p_len q) prot) with (init_sg (p_reg p) (p_idx p) (p_addr p) (p_len p) prot).
  - destruct (Nat.ltb cnt max); [|apply IH]. destruct (init_sg (p_reg p) (p_idx p) (p_addr p) (p_len p) prot); auto.
  - unfold init_sg, rg_base. now rewrite A, B, C, D.
Qed.

Lemma chain_same k d d' T e ok : first_infos k d' = first_infos k d -> regions_disjoint (dm_regions d') ->
  (ok = true -> e = T) -> (ok = false -> e < T /\ forall r, In r (dm_regions d') -> ~ covers r e) ->
  forall ps qs a, chain (dm_regions d) ps a T -> Forall (maximal T) ps -> Forall (fun p => (p_idx p < k)%nat) ps ->
  chain (dm_regions d') qs a e -> Forall (maximal T) qs -> Forall2 same_piece ps qs /\ ok = true.
Proof.
  intros E Dj K1 K2. assert (eT : e <= T) by (destruct ok; [rewrite (K1 eq_refl); lia|destruct (K2 eq_refl); lia]).
  induction ps as [|p ps IH]; intros qs a C M L C' M'.
  - cbn [chain] in C. subst a. destruct qs as [|q qs].
    + cbn [chain] in C'. subst e. split; [constructor|]. destruct ok; [reflexivity|]. destruct (K2 eq_refl). lia.
    + exfalso. cbn [chain] in C'. destruct C' as (_ & P & _ & _ & _ & C'). apply chain_le in C'. lia.
  - cbn [chain] in C. destruct C as (A1 & A2 & A3 & A4 & A5 & C). pose proof (chain_le _ _ _ _ C) as LE. inversion M as [|? ? M1 M2]; subst. inversion L as [|? ? L1 L2]; subst.
    destruct (first_nth k d d' _ _ E L1 A3) as (r' & N' & Ei).
    assert (CV : covers r' (p_addr p)) by (apply covers_iff; unfold rg_base, rg_len in *; rewrite Ei; lia).
    destruct qs as [|q qs].
    + exfalso. cbn [chain] in C'. subst e. destruct ok; [specialize (K1 eq_refl); lia|]. destruct (K2 eq_refl) as (_ & X). apply (X r'); [eapply nth_error_In; eauto|exact CV].
    + cbn [chain] in C'. destruct C' as (B1 & B2 & B3 & B4 & B5 & C'). inversion M' as [|? ? M1' M2']; subst.
      assert (I : p_idx p = p_idx q).
      { eapply Dj; [exact N'|exact B3|exact CV|]. apply covers_iff. lia. }
      rewrite <- I, N' in B3. injection B3 as Er. pose proof (chain_le _ _ _ _ C') as LE'.
      assert (LN : p_len p = p_len q).
      { clear - M1 M1' LE LE' eT B1 B5 A5 Er Ei. unfold maximal, rg_base, rg_len in *. rewrite Er in Ei. rewrite Ei in *. rewrite B1 in *. destruct M1, M1'; lia. }
      rewrite <- LN in C'. destruct (IH qs _ C M2 L2 C' M2') as (F & O). split; [|exact O]. constructor; [|exact F]. repeat split; auto; try congruence.
Qed.

Lemma sgl_same k d d' hint addr len max prot l h : inv2 d -> inv2 d' -> addr + len < two64 -> first_infos k d' = first_infos k d ->
  addr_to_sgl d hint addr len max prot = (SglOk l, h) -> Forall (fun s => (sg_region s < k)%nat) l ->
  forall hint', fst (addr_to_sgl d' hint' addr len max prot) = SglOk l.
Proof.
  intros I I' R E H L hint'. destruct (addr_to_sgl_spec d addr len I R) as (ps & ok & e & C & M & K1 & K2 & S).
  destruct (addr_to_sgl_spec d' addr len I' R) as (qs & ok' & e' & C' & M' & K1' & K2' & S').
  specialize (S hint max prot). rewrite H in S. cbn [fst] in S. rewrite S'.
  destruct (feed_spec ps 0 [] max prot) as [(F & _)|(F & _)]; [rewrite F in S; discriminate S|].
  assert (O : ok = true) by (destruct ok; [reflexivity|rewrite F in S; discriminate S]). rewrite O, F in S. unfold split_out in S.
  destruct (Nat.ltb_spec max (0 + length ps)) as [X|X]; [discriminate S|]. rewrite Nat.sub_0_r in S. cbn [app] in S. rewrite firstn_all2 in S by lia. injection S as S.
  specialize (K1 O). subst e.
  destruct (chain_same k d d' (addr + len) e' ok' E (proj2 I') K1' K2' ps qs addr C M) as (F2 & O'); [|exact C'|exact M'|].
  - rewrite S in L. clear - L. induction ps as [|p ps IH]; [constructor|]. inversion L; subst. constructor; [assumption|auto].
  - rewrite <- (same_feed _ _ F2), F, O'. unfold split_out. replace (Nat.ltb max (0 + length ps)) with false by (symmetry; apply Nat.ltb_ge; lia).
    rewrite Nat.sub_0_r, firstn_all2 by lia. now rewrite S.
Qed.

Lemma get_same k d d' l : first_infos k d' = first_infos k d -> Forall (fun s => (sg_region s < k)%nat /\ (sg_region s < length (dm_regions d))%nat) l -> sgl_get d' l = sgl_get d l.
Proof.
  intros E. induction 1 as [|s l (L1 & L2) F IH]; [reflexivity|]. cbn [sgl_get].
  destruct (nth_error (dm_regions d) (sg_region s)) as [r|] eqn:N; [|apply nth_error_None in N; lia].
  destruct (first_nth k d d' _ _ E L1 N) as (r' & N' & Ei). now rewrite N', Ei, IH.
Qed.
