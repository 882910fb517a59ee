(* Proofs about the memory of messages (C75). *)
From Coq Require Import NArith ZArith List Bool Lia Permutation.
From Verif Require Import Base Handlers Heap SpecHeap HeapProofs Mem SpecMem.
Import ListNotations.
Open Scope N_scope.
Ltac Zify.zify_post_hook ::= idtac.

(* A list of buffers, all numbered below n and all different. *)
Definition below (live : list nat) (n : nat) : Prop := NoDup live /\ Forall (fun x => (x < n)%nat) live.

Lemma below_new live n : below live n -> ~ In n live.
Proof. intros (_ & F) X. rewrite Forall_forall in F. specialize (F _ X). lia. Qed.
Lemma below_add live n : below live n -> below (live ++ [n]) (S n).
Proof.
  intros B. pose proof (below_new _ _ B) as X. destruct B as (N & F). split; [now apply NoDup_app_one|].
  apply Forall_app. split; [eapply Forall_impl; [|exact F]; cbn; lia|repeat constructor].
Qed.
Lemma below_up live n n' : below live n -> (n <= n')%nat -> below live n'.
Proof. intros (N & F) L. split; [exact N|]. eapply Forall_impl; [|exact F]. cbn. lia. Qed.
Lemma below_del A b B n : below (A ++ b :: B) n -> below (A ++ B) n.
Proof.
  intros (N & F). split; [now apply NoDup_remove_1 in N|]. apply Forall_app in F. destruct F as (F1 & F2). inversion F2; subst. now apply Forall_app.
Qed.

Lemma replay_alloc live n ev : below live n -> replay live (HAlloc n :: ev) = replay (live ++ [n]) ev.
Proof. intros B. cbn [replay]. now rewrite not_allocated by now apply below_new. Qed.
Lemma replay_use live b ev : In b live -> replay live (HUse b :: ev) = replay live ev.
Proof. intros I. cbn [replay]. now rewrite (proj2 (allocated_in _ _) I). Qed.
Lemma replay_free A b B n ev : below (A ++ b :: B) n -> replay (A ++ b :: B) (HFree b :: ev) = replay (A ++ B) ev.
Proof.
  intros (N & _). cbn [replay]. rewrite (proj2 (allocated_in _ _)) by (apply in_or_app; right; now left).
  f_equal. apply NoDup_remove_2 in N. rewrite filter_app. cbn [filter]. rewrite Nat.eqb_refl. cbn [negb].
  rewrite !filter_out; [reflexivity|intros X; apply N, in_or_app; auto..].
Qed.
Lemma replay_opt_use live p ev : incl (opt p) live -> replay live (use p ++ ev) = replay live ev.
Proof. destruct p as [b|]; intros I; [|reflexivity]. cbn [use app]. apply replay_use, I. now left. Qed.
Lemma replay_opt_free A p B n ev : below (A ++ opt p ++ B) n -> replay (A ++ opt p ++ B) (free_ev p ++ ev) = replay (A ++ B) ev /\ below (A ++ B) n.
Proof. destruct p as [b|]; intros I; [|split; [reflexivity|exact I]]. cbn [free_ev opt app] in *. split; [eapply replay_free; exact I|eapply below_del; exact I]. Qed.
Lemma incl_mid {T} (A x B : list T) : incl x (A ++ x ++ B).
Proof. apply incl_appr, incl_appl, incl_refl. Qed.

Ltac lists := cbn [app opt]; do 3 (rewrite ?app_nil_r; rewrite <- ?app_assoc; cbn [app]); rewrite ?app_nil_r; reflexivity.
Lemma free_msg_ok L m n ev : below (L ++ buffers m) n -> replay (L ++ buffers m) (mem_free_msg (Some m) ++ ev) = replay L ev.
Proof.
  destruct m as [self i f o g]. unfold buffers, mem_free_msg. cbn [mm_self mm_in mm_infds mm_out mm_outfds]. intros H.
  rewrite <- !app_assoc. cbn [app].
  rewrite replay_use by (apply in_or_app; right; now left).
  replace (L ++ self :: opt f ++ opt i ++ opt o ++ opt g) with ((L ++ self :: opt f) ++ opt i ++ opt o ++ opt g) in * by lists.
  destruct (replay_opt_free _ _ _ _ (use f ++ free_ev f ++ free_ev g ++ free_ev o ++ free_ev (Some self) ++ ev) H) as (-> & H1). clear H.
  replace ((L ++ self :: opt f) ++ opt o ++ opt g) with ((L ++ [self]) ++ opt f ++ opt o ++ opt g) in * by lists.
  rewrite replay_opt_use by (apply incl_mid).
  destruct (replay_opt_free _ _ _ _ (free_ev g ++ free_ev o ++ free_ev (Some self) ++ ev) H1) as (-> & H2). clear H1.
  replace ((L ++ [self]) ++ opt o ++ opt g) with (((L ++ [self]) ++ opt o) ++ opt g ++ []) in * by lists.
  destruct (replay_opt_free _ _ _ _ (free_ev o ++ free_ev (Some self) ++ ev) H2) as (-> & H3). clear H2.
  replace (((L ++ [self]) ++ opt o) ++ []) with ((L ++ [self]) ++ opt o ++ []) in * by lists.
  destruct (replay_opt_free _ _ _ _ (free_ev (Some self) ++ ev) H3) as (-> & H4). clear H3.
  replace ((L ++ [self]) ++ []) with (L ++ opt (Some self) ++ []) in * by lists.
  destruct (replay_opt_free _ _ _ _ ev H4) as (-> & _). now rewrite app_nil_r.
Qed.

(* A message as it is before a handler sees it. *)
Definition fresh_msg (m : mmsg) : Prop := mm_out m = None /\ mm_outfds m = None.

Lemma alloc_msg_ok L n ok hf fo om n1 ev rest : below L n -> mem_alloc_msg ok hf fo n = (om, n1, ev) ->
  (n <= n1)%nat /\
  match om with
  | None => replay L (ev ++ rest) = replay L rest
  | Some m => replay L (ev ++ rest) = replay (L ++ buffers m) rest /\ below (L ++ buffers m) n1 /\ fresh_msg m /\ mm_in m = None
  end.
Proof.
  intros B H. unfold mem_alloc_msg, new in H. pose proof (below_add _ _ B) as B1. destruct ok.
  - destruct hf.
    + destruct fo; injection H as <- <- <-; split; [lia| |lia|].
      * cbn [app]. rewrite replay_alloc by exact B. rewrite replay_alloc by exact B1. unfold buffers, fresh_msg. cbn [opt app mm_self mm_in mm_infds mm_out mm_outfds].
        split; [now rewrite <- app_assoc|]. split; [apply below_add in B1; rewrite <- app_assoc in B1; exact B1|auto].
      * cbn [app free_ev]. rewrite replay_alloc by exact B. rewrite (replay_free L n [] (S n)) by exact B1. now rewrite app_nil_r.
    + injection H as <- <- <-. split; [lia|]. cbn [app]. rewrite replay_alloc by exact B. unfold buffers, fresh_msg. cbn [opt app mm_self mm_in mm_infds mm_out mm_outfds]. auto.
  - injection H as <- <- <-. split; [lia|]. reflexivity.
Qed.

Lemma recv_body_ok L n b m ok m1 n1 ev rest : below (L ++ buffers m) n -> fresh_msg m -> mm_in m = None -> mem_recv_body b m n = (ok, m1, n1, ev) ->
  (n <= n1)%nat /\ replay (L ++ buffers m) (ev ++ rest) = replay (L ++ buffers m1) rest /\ below (L ++ buffers m1) n1 /\ fresh_msg m1.
Proof.
  destruct m as [self i f o g]. unfold fresh_msg, buffers. cbn [mm_self mm_in mm_infds mm_out mm_outfds]. intros B (-> & ->) -> H. pose proof (below_add _ _ B) as B1.
  destruct b; unfold mem_recv_body, new, set_in in H; cbn [mm_self mm_in mm_infds mm_out mm_outfds] in H; injection H as <- <- <- <-; cbn [mm_self mm_in mm_infds mm_out mm_outfds].
  1,2: repeat split; auto; apply B.
  - split; [lia|]. cbn [app use free_ev]. rewrite replay_alloc by exact B. rewrite replay_use by (apply in_or_app; right; now left).
    rewrite (replay_free _ n [] (S n)) by exact B1. rewrite app_nil_r. repeat split; auto; eapply below_up; eauto.
  - split; [lia|]. cbn [app use opt] in *. rewrite replay_alloc by exact B. rewrite replay_use by (apply in_or_app; right; now left).
    replace (L ++ self :: opt f ++ [n]) with ((L ++ self :: opt f ++ []) ++ [n]) by (rewrite app_nil_r; lists). auto.
Qed.

Lemma incl_in L m : incl (opt (mm_in m)) (L ++ buffers m).
Proof. unfold buffers. intros x X. apply in_or_app. right. right. apply in_or_app. right. apply in_or_app. now left. Qed.
Lemma incl_infds L m : incl (opt (mm_infds m)) (L ++ buffers m).
Proof. unfold buffers. intros x X. apply in_or_app. right. right. apply in_or_app. now left. Qed.
Lemma incl_out L m : incl (opt (mm_out m)) (L ++ buffers m).
Proof. unfold buffers. intros x X. apply in_or_app. right. right. apply in_or_app. right. apply in_or_app. right. apply in_or_app. now left. Qed.
Lemma incl_outfds L m : incl (opt (mm_outfds m)) (L ++ buffers m).
Proof. unfold buffers. intros x X. apply in_or_app. right. right. apply in_or_app. right. apply in_or_app. right. apply in_or_app. now right. Qed.
Lemma in_self L m : In (mm_self m) (L ++ buffers m).
Proof. apply in_or_app. right. now left. Qed.

Lemma out_ok L n ok m r m1 n1 ev rest : below (L ++ buffers m) n -> fresh_msg m -> mem_out ok m n = (r, m1, n1, ev) ->
  (n <= n1)%nat /\ replay (L ++ buffers m) (ev ++ rest) = replay (L ++ buffers m1) rest /\ below (L ++ buffers m1) n1 /\ mm_outfds m1 = None /\
  mm_self m1 = mm_self m /\ mm_in m1 = mm_in m /\ mm_infds m1 = mm_infds m.
Proof.
  intros B F H. unfold mem_out, new in H. pose proof (below_add _ _ B) as B1. pose proof (incl_in L m) as II. destruct m as [self i f o g]. destruct F as (F1 & F2). cbn in F1, F2. subst o g.
  unfold buffers, set_out in *. cbn [mm_self mm_in mm_infds mm_out mm_outfds opt] in *.
  destruct ok; injection H as <- <- <- <-; cbn [mm_self mm_in mm_infds mm_out mm_outfds opt].
  - split; [lia|]. assert (E : L ++ self :: opt f ++ opt i ++ [n] ++ [] = (L ++ self :: opt f ++ opt i ++ [] ++ []) ++ [n]) by lists.
    rewrite E. split; [|auto]. cbn [app]. rewrite replay_alloc by exact B. rewrite <- (app_assoc (use i)). rewrite replay_opt_use by (intros x X; apply in_or_app; left; apply II, X).
    cbn [use app]. rewrite replay_use by (apply in_or_app; right; now left). reflexivity.
  - repeat split; auto; apply B.
Qed.

Lemma outfds_ok L n ok m m1 n1 ev rest : below (L ++ buffers m) n -> mm_outfds m = None -> mem_outfds ok m n = (m1, n1, ev) ->
  (n <= n1)%nat /\ replay (L ++ buffers m) (ev ++ rest) = replay (L ++ buffers m1) rest /\ below (L ++ buffers m1) n1 /\ mm_self m1 = mm_self m.
Proof.
  intros B F H. unfold mem_outfds, new in H. pose proof (below_add _ _ B) as B1. destruct m as [self i f o g]. cbn in F. subst g.
  unfold buffers, set_outfds in *. cbn [mm_self mm_in mm_infds mm_out mm_outfds opt] in *.
  destruct ok; injection H as <- <- <-; cbn [mm_self mm_in mm_infds mm_out mm_outfds opt].
  - split; [lia|]. assert (E : L ++ self :: opt f ++ opt i ++ opt o ++ [n] = (L ++ self :: opt f ++ opt i ++ opt o ++ []) ++ [n]) by (rewrite app_nil_r; lists).
    rewrite E. split; [|auto]. cbn [app use]. rewrite replay_alloc by exact B. rewrite replay_use by (apply in_or_app; right; now left). reflexivity.
  - repeat split; auto; apply B.
Qed.

Lemma iov_free_ok L n m m1 ev rest : below (L ++ buffers m) n -> mem_iov_free m = (m1, ev) ->
  replay (L ++ buffers m) (ev ++ rest) = replay (L ++ buffers m1) rest /\ below (L ++ buffers m1) n /\ mm_self m1 = mm_self m.
Proof.
  intros B H. unfold mem_iov_free in H. injection H as <- <-. destruct m as [self i f o g]. unfold buffers, set_out in *. cbn [mm_self mm_in mm_infds mm_out mm_outfds opt] in *.
  replace (L ++ self :: opt f ++ opt i ++ opt o ++ opt g) with ((L ++ self :: opt f ++ opt i) ++ opt o ++ opt g) in * by lists.
  destruct (replay_opt_free _ _ _ _ rest B) as (-> & B'). replace (L ++ self :: opt f ++ opt i ++ [] ++ opt g) with ((L ++ self :: opt f ++ opt i) ++ opt g) by lists. auto.
Qed.

Lemma simple_ok L n c m m1 n1 ev rest : below (L ++ buffers m) n -> fresh_msg m -> mem_simple c m n = (m1, n1, ev) ->
  (n <= n1)%nat /\ replay (L ++ buffers m) (ev ++ rest) = replay (L ++ buffers m1) rest /\ below (L ++ buffers m1) n1 /\ mm_self m1 = mm_self m.
Proof.
  intros B F H. unfold mem_simple in H. destruct (negb (ch_checks c)).
  - injection H as <- <- <-. rewrite replay_opt_use by apply incl_in. repeat split; auto; apply B.
  - destruct (mem_out (ch_out c) m n) as [[[r m2] n2] ev2] eqn:O. injection H as <- <- <-. rewrite <- app_assoc, replay_opt_use by apply incl_in.
    destruct (out_ok _ _ _ _ _ _ _ _ rest B F O) as (Q1 & Q2 & Q3 & Q4 & Q5 & _). auto.
Qed.
Lemma with_fds_ok L n c m m1 n1 ev rest : below (L ++ buffers m) n -> fresh_msg m -> mem_with_fds c m n = (m1, n1, ev) ->
  (n <= n1)%nat /\ replay (L ++ buffers m) (ev ++ rest) = replay (L ++ buffers m1) rest /\ below (L ++ buffers m1) n1 /\ mm_self m1 = mm_self m.
Proof.
  intros B F H. unfold mem_with_fds in H. destruct (negb (ch_checks c)).
  - injection H as <- <- <-. rewrite replay_opt_use by apply incl_in. repeat split; auto; apply B.
  - destruct (mem_out (ch_out c) m n) as [[[r m2] n2] ev2] eqn:O. destruct r; [destruct (ch_fds c)|].
    + destruct (mem_outfds (ch_fds_ok c) m2 n2) as [[m3 n3] ev3] eqn:P. injection H as <- <- <-. rewrite <- !app_assoc, replay_opt_use by apply incl_in.
      destruct (out_ok _ _ _ _ _ _ _ _ (ev3 ++ rest) B F O) as (Q1 & -> & Q3 & Q4 & Q5 & _). destruct (outfds_ok _ _ _ _ _ _ _ rest Q3 Q4 P) as (R1 & -> & R3 & R4).
      repeat split; [lia|apply R3|apply R3|congruence].
    + injection H as <- <- <-. rewrite <- app_assoc, replay_opt_use by apply incl_in. destruct (out_ok _ _ _ _ _ _ _ _ rest B F O) as (Q1 & Q2 & Q3 & Q4 & Q5 & _). auto.
    + injection H as <- <- <-. rewrite <- app_assoc, replay_opt_use by apply incl_in. destruct (out_ok _ _ _ _ _ _ _ _ rest B F O) as (Q1 & Q2 & Q3 & Q4 & Q5 & _). auto.
Qed.
Lemma feature_ok L n rp c m m1 n1 ev rest : below (L ++ buffers m) n -> fresh_msg m -> mem_feature rp c m n = (m1, n1, ev) ->
  (n <= n1)%nat /\ replay (L ++ buffers m) (ev ++ rest) = replay (L ++ buffers m1) rest /\ below (L ++ buffers m1) n1 /\ mm_self m1 = mm_self m.
Proof.
  intros B F H. unfold mem_feature in H. destruct (negb (ch_checks c)).
  - injection H as <- <- <-. rewrite replay_opt_use by apply incl_in. repeat split; auto; apply B.
  - destruct (negb (ch_argsz c)).
    + destruct (mem_iov_free m) as [m2 ev2] eqn:O. injection H as <- <- <-. rewrite <- app_assoc, replay_opt_use by apply incl_in.
      destruct (iov_free_ok _ _ _ _ _ rest B O) as (Q1 & Q2 & Q3). auto.
    + destruct (mem_out (ch_out c) m n) as [[[r m2] n2] ev2] eqn:O. destruct r; [destruct (rp && negb (ch_then c))|].
      * destruct (mem_iov_free m2) as [m3 ev3] eqn:P. injection H as <- <- <-. rewrite <- !app_assoc, replay_opt_use by apply incl_in.
        destruct (out_ok _ _ _ _ _ _ _ _ (ev3 ++ rest) B F O) as (Q1 & -> & Q3 & Q4 & Q5 & _). destruct (iov_free_ok _ _ _ _ _ rest Q3 P) as (-> & R2 & R3).
        repeat split; [lia|apply R2|apply R2|congruence].
      * injection H as <- <- <-. rewrite <- app_assoc, replay_opt_use by apply incl_in. destruct (out_ok _ _ _ _ _ _ _ _ rest B F O) as (Q1 & Q2 & Q3 & Q4 & Q5 & _). auto.
      * injection H as <- <- <-. rewrite <- app_assoc, replay_opt_use by apply incl_in. destruct (out_ok _ _ _ _ _ _ _ _ rest B F O) as (Q1 & Q2 & Q3 & Q4 & Q5 & _). auto.
Qed.
Lemma dispatch_ok L n cmd rp c m m1 n1 ev rest : below (L ++ buffers m) n -> fresh_msg m -> mem_dispatch cmd rp c m n = (m1, n1, ev) ->
  (n <= n1)%nat /\ replay (L ++ buffers m) (ev ++ rest) = replay (L ++ buffers m1) rest /\ below (L ++ buffers m1) n1 /\ mm_self m1 = mm_self m.
Proof.
  intros B F H. unfold mem_dispatch in H.
  destruct (_ || _ || _ || _ || _); [eapply simple_ok; eauto|]. destruct (_ || _); [eapply with_fds_ok; eauto|]. destruct (_ =? _); [eapply feature_ok; eauto|].
  destruct (_ =? _); [eapply feature_ok; eauto|]. destruct (_ || _ || _); injection H as <- <- <-.
  - rewrite <- app_assoc, replay_opt_use by apply incl_in. rewrite replay_opt_use by apply incl_infds. repeat split; auto; apply B.
  - repeat split; auto; apply B.
Qed.

Lemma reply_ok L n r m n1 ev rest : below (L ++ buffers m) n -> mem_reply r m n = (n1, ev) ->
  (n <= n1)%nat /\ replay (L ++ buffers m) (ev ++ rest) = replay (L ++ buffers m) rest.
Proof.
  intros B H. pose proof (below_add _ _ B) as B1.
  assert (S : forall n1 ev, (let '(p, n1, ev) := new true n in (n1, [HUse (mm_self m)] ++ ev ++ use p ++ use (mm_out m) ++ use (mm_outfds m) ++ free_ev p)) = (n1, ev) ->
    (n <= n1)%nat /\ replay (L ++ buffers m) (ev ++ rest) = replay (L ++ buffers m) rest).
  { clear H. intros n2 ev2 H. cbn [new app] in H. injection H as <- <-. split; [lia|]. cbn [app]. rewrite replay_use by apply in_self. rewrite replay_alloc by exact B.
    cbn [use app]. rewrite replay_use by (apply in_or_app; right; now left). rewrite <- (app_assoc (use (mm_out m))), <- (app_assoc (use (mm_outfds m))).
    rewrite replay_opt_use by (intros x X; apply in_or_app; left; now apply incl_out). rewrite replay_opt_use by (intros x X; apply in_or_app; left; now apply incl_outfds).
    cbn [free_ev app]. rewrite (replay_free _ n [] (S n)) by exact B1. now rewrite app_nil_r. }
  destruct r; cbn [mem_reply] in H; auto; injection H as <- <-; (split; [lia|]; cbn [app]; now rewrite replay_use by apply in_self).
Qed.

Lemma handle_ok L n cmd rp c r m m1 n1 ev rest : below (L ++ buffers m) n -> fresh_msg m -> mem_handle cmd rp c r m n = (m1, n1, ev) ->
  (n <= n1)%nat /\ replay (L ++ buffers m) (ev ++ mem_free_msg (Some m1) ++ rest) = replay L rest.
Proof.
  intros B F H. unfold mem_handle in H. destruct (mem_dispatch cmd rp c m n) as [[m2 n2] ev2] eqn:D. destruct (mem_reply r m2 n2) as [n3 ev3] eqn:R. injection H as <- <- <-.
  cbn [app]. rewrite replay_use by apply in_self. rewrite <- (app_assoc ev2).
  destruct (dispatch_ok _ _ _ _ _ _ _ _ _ (ev3 ++ mem_free_msg (Some m2) ++ rest) B F D) as (Q1 & -> & Q3 & Q4).
  destruct (reply_ok _ _ _ _ _ _ (mem_free_msg (Some m2) ++ rest) Q3 R) as (R1 & ->). rewrite (free_msg_ok _ _ _ _ Q3). split; [lia|reflexivity].
Qed.

Lemma refuse_ok L n q e m e1 ev rest : below (L ++ buffers m) n -> mem_refuse q e m n = (e1, ev) ->
  (n <= me_next e1)%nat /\ me_msg e1 = me_msg e /\ (me_pending e1 = MpMsg -> me_pending e = MpMsg) /\ replay (L ++ buffers m) (ev ++ rest) = replay L rest.
Proof.
  intros B H. unfold mem_refuse in H. destruct (mem_reply (rq_reply q) m n) as [n1 ev1] eqn:R. apply pair_equal_spec in H. destruct H as (<- & <-). cbn [me_next me_msg me_pending]. rewrite <- app_assoc.
  destruct (reply_ok _ _ _ _ _ _ (mem_free_msg (Some m) ++ rest) B R) as (R1 & ->). rewrite (free_msg_ok _ _ _ _ B). repeat split; auto.
  unfold mem_lost. destruct (rq_reply q) as [| | |[]], (me_pending e); auto; discriminate.
Qed.

(* The message of a context is there exactly while a request is held, and untouched. *)
Definition mem_ok (e : mem) : Prop :=
  (me_pending e = MpMsg <-> me_msg e <> None) /\ (forall m, me_msg e = Some m -> fresh_msg m).

Lemma run_ok L q e e1 ev : mem_ok e -> below (L ++ held e) (me_next e) -> mem_run q e = (e1, ev) ->
  mem_ok e1 /\ below (L ++ held e1) (me_next e1) /\ replay (L ++ held e) ev = Some (L ++ held e1).
Proof.
  intros (OK & FR) B H. unfold mem_run in H. destruct (me_pending e) eqn:P; [|injection H as <- <-; unfold mem_ok; rewrite P; auto..].
  assert (M : me_msg e = None) by (destruct (me_msg e); [|reflexivity]; destruct OK as (_ & OK); specialize (OK ltac:(discriminate)); discriminate OK).
  unfold held in *. rewrite M in *. rewrite app_nil_r in *.
  assert (Z : forall e', me_msg e' = None -> me_pending e' <> MpMsg -> (me_next e <= me_next e')%nat -> mem_ok e' /\ below (L ++ match me_msg e' with Some m => buffers m | None => [] end) (me_next e') /\ L ++ match me_msg e' with Some m => buffers m | None => [] end = L).
  { intros e' M' P' N'. unfold mem_ok. rewrite M'. rewrite app_nil_r. repeat split; try tauto; try discriminate; [apply B|eapply below_up; eauto]. }
  destruct (negb (rq_header q)).
  { injection H as <- <-. destruct (Z (mk_mem (if rq_lost q then MpReset else MpNone) None (me_next e))) as (Z1 & Z2 & Z3); [reflexivity|cbn; destruct (rq_lost q); discriminate|cbn; lia|].
    split; [exact Z1|]. split; [exact Z2|]. cbn [me_msg] in Z3 |- *. now rewrite Z3. }
  destruct (mem_alloc_msg (rq_msg_ok q) (rq_has_fds q) (rq_fds_ok q) (me_next e)) as [[om n1] ev1] eqn:A.
  destruct om as [m0|].
  2:{ injection H as <- <-. destruct (alloc_msg_ok L _ _ _ _ _ _ _ [] B A) as (N1 & R). destruct (Z (mk_mem MpNone None n1)) as (Z1 & Z2 & Z3); [reflexivity|discriminate|exact N1|].
      split; [exact Z1|]. split; [exact Z2|]. cbn [me_msg] in Z3 |- *. rewrite Z3. rewrite app_nil_r in R. exact R. }
  assert (RF : forall m n ev0 e' ev', below (L ++ buffers m) n -> (me_next e <= n)%nat -> mem_refuse q e m n = (e', ev') -> (forall rest, replay L (ev0 ++ rest) = replay (L ++ buffers m) rest) ->
    mem_ok e' /\ below (L ++ match me_msg e' with Some m => buffers m | None => [] end) (me_next e') /\ replay L (ev0 ++ ev') = Some (L ++ match me_msg e' with Some m => buffers m | None => [] end)).
  { intros m n ev0 e' ev' B' N' R' E'. destruct (refuse_ok _ _ _ _ _ _ _ [] B' R') as (Q1 & Q2 & Q3 & Q4). rewrite M in Q2.
    destruct (Z e' Q2) as (Z1 & Z2 & Z3); [rewrite P in Q3; intros X; discriminate (Q3 X)|lia|]. split; [exact Z1|]. split; [exact Z2|]. rewrite Z3, E'. rewrite app_nil_r in Q4. exact Q4. }
  pose proof (fun rest => alloc_msg_ok L _ _ _ _ _ _ _ rest B A) as AL. cbn beta in AL. destruct (AL []) as (N1 & _ & B1 & F1 & I1).
  assert (E1 : forall rest, replay L (ev1 ++ rest) = replay (L ++ buffers m0) rest) by (intros rest; apply AL). clear AL.
  destruct (negb (rq_valid q)).
  { destruct (mem_refuse q e m0 n1) as [e' ev2] eqn:R. injection H as <- <-. eapply RF; eauto. }
  destruct (match rq_body q with Some b => mem_recv_body b m0 n1 | None => (true, m0, n1, []) end) as [[[ok m] n2] ev2] eqn:RB.
  assert (BD : (n1 <= n2)%nat /\ (forall rest, replay (L ++ buffers m0) (ev2 ++ rest) = replay (L ++ buffers m) rest) /\ below (L ++ buffers m) n2 /\ fresh_msg m).
  { destruct (rq_body q) as [b|].
    - destruct (recv_body_ok _ _ _ _ _ _ _ _ [] B1 F1 I1 RB) as (Q1 & _ & Q3 & Q4). repeat split; try apply Q4; auto; [|apply Q3..]. intros rest. now destruct (recv_body_ok _ _ _ _ _ _ _ _ rest B1 F1 I1 RB) as (_ & Q & _).
    - injection RB as <- <- <- <-. repeat split; try apply F1; auto; apply B1. }
  destruct BD as (N2 & E2 & B2 & F2).
  destruct (negb (ok && rq_exec q)).
  { destruct (mem_refuse q e m n2) as [e' ev3] eqn:R. injection H as <- <-. rewrite app_assoc. eapply RF; [exact B2|lia|exact R|]. intros rest. now rewrite <- app_assoc, E1, E2. }
  destruct (rq_quiesce q).
  - destruct (mem_handle (rq_cmd q) (rq_report q) (rq_choice q) (rq_reply q) m n2) as [[m1 n3] ev3] eqn:HD. injection H as <- <-.
    destruct (handle_ok _ _ _ _ _ _ _ _ _ _ [] B2 F2 HD) as (Q1 & Q2). rewrite app_nil_r in Q2.
    destruct (Z (mk_mem (mem_lost (rq_reply q) MpNone) None n3)) as (Z1 & Z2 & Z3); [reflexivity|unfold mem_lost; cbn; destruct (rq_reply q) as [| | |[]]; discriminate|cbn [me_next]; lia|].
    split; [exact Z1|]. split; [exact Z2|]. cbn [me_msg] in Z3 |- *. rewrite Z3, E1, E2, replay_opt_use by apply incl_in. exact Q2.
  - injection H as <- <-. unfold mem_ok. cbn [me_pending me_msg me_next]. split; [split; [split; [discriminate|reflexivity]|intros m' X; now injection X as <-]|]. split; [exact B2|].
    rewrite E1, E2. rewrite <- (app_nil_r (use (mm_in m))), replay_opt_use by apply incl_in. reflexivity.
  - destruct (mem_refuse q e m n2) as [e' ev3] eqn:R. injection H as <- <-. replace (ev1 ++ ev2 ++ use (mm_in m) ++ ev3) with ((ev1 ++ ev2 ++ use (mm_in m)) ++ ev3) by (rewrite <- !app_assoc; reflexivity).
    eapply RF; [exact B2|lia|exact R|]. intros rest. rewrite <- !app_assoc, E1, E2. apply replay_opt_use, incl_in.
Qed.

Lemma quiesced_ok L ok q e e1 ev : mem_ok e -> below (L ++ held e) (me_next e) -> mem_quiesced ok q e = (e1, ev) ->
  mem_ok e1 /\ below (L ++ held e1) (me_next e1) /\ replay (L ++ held e) ev = Some (L ++ held e1).
Proof.
  intros (OK & FR) B H. unfold mem_quiesced in H.
  assert (BL : forall n, (me_next e <= n)%nat -> below (L ++ []) n).
  { intros n N. rewrite app_nil_r. destruct B as (ND & F). apply Forall_app in F. split; [|eapply Forall_impl; [|apply F]; cbn; lia].
    clear - ND. induction L as [|x l IH]; [constructor|]. inversion ND; subst. constructor; [intros X; auto using in_or_app|auto]. }
  assert (Z : forall n, (me_next e <= n)%nat -> mem_ok (mk_mem MpNone None n) /\ below (L ++ held (mk_mem MpNone None n)) n)
    by (intros n N; split; [split; [split; [discriminate|intros X; now destruct X]|discriminate]|apply BL, N]).
  destruct (me_pending e) eqn:P.
  - injection H as <- <-. unfold mem_ok. rewrite P. auto.
  - destruct (me_msg e) as [m|] eqn:M; [|destruct OK as (OK & _); now destruct (OK eq_refl)]. unfold held in B |- *. rewrite M in *. destruct ok.
    + destruct (mem_handle (rq_cmd q) (rq_report q) (rq_choice q) (rq_reply q) m (me_next e)) as [[m1 n3] ev3] eqn:HD. injection H as <- <-.
      destruct (handle_ok _ _ _ _ _ _ _ _ _ _ [] B (FR _ eq_refl) HD) as (Q1 & Q2). rewrite app_nil_r in Q2. destruct (Z n3 Q1). cbn [me_msg me_next] in *. rewrite app_nil_r. auto.
      split; [assumption|]. split; [rewrite <- (app_nil_r L); apply BL, Q1|exact Q2].
    + apply pair_equal_spec in H. destruct H as (<- & <-). destruct (Z (me_next e) (le_n _)). cbn [me_msg me_next]. split; [assumption|]. split; [apply BL; lia|].
      pose proof (free_msg_ok L m _ [] B) as X. rewrite app_nil_r in X. rewrite X. now rewrite app_nil_r.
  - assert (M : me_msg e = None) by (destruct (me_msg e); [|reflexivity]; destruct OK as (_ & OK); specialize (OK ltac:(discriminate)); discriminate OK).
    injection H as <- <-. rewrite M. destruct (Z (me_next e) (le_n _)). split; [assumption|]. split; [assumption|]. unfold held. rewrite M. destruct ok; reflexivity.
Qed.

Lemma transfer_ok live n refused ok l n1 ev : below live n -> mem_transfer refused ok l n = (n1, ev) -> (n <= n1)%nat /\ replay live ev = Some live.
Proof.
  intros B H. pose proof (below_add _ _ B) as B1. unfold mem_transfer, new in H. destruct refused; [injection H as <- <-; auto|]. destruct ok; [|injection H as <- <-; auto].
  injection H as <- <-. split; [lia|]. cbn [app]. rewrite replay_alloc by exact B.
  assert (F : replay (live ++ [n]) [HFree n] = Some live) by (rewrite (replay_free live n [] (S n)) by exact B1; now rewrite app_nil_r).
  assert (I : In n (live ++ [n])) by (apply in_or_app; right; now left).
  induction l as [|[sent good] l IH]; [exact F|]. rewrite replay_use by exact I. destruct sent; cbn [negb]; [|exact F]. destruct good; cbn [negb]; [|exact F]. rewrite replay_use by exact I. exact IH.
Qed.

Lemma negotiate_ok live n g n1 ev : below live n -> mem_negotiate g n = (n1, ev) ->
  (n <= n1)%nat /\ replay live ev = Some (live ++ if no_pair (MoNegotiate g) then [n] else []).
Proof.
  intros B H. pose proof (below_add _ _ B) as B1. pose proof (below_add _ _ B1) as B2.
  assert (F : forall l m rest, below l m -> replay (l ++ [m]) (HFree m :: rest) = replay l rest)
    by (intros l m rest X; rewrite (replay_free l m [] (S m)) by (now apply below_add); now rewrite app_nil_r).
  assert (I : forall (l : list nat) m, In m (l ++ [m])) by (intros; apply in_or_app; right; now left).
  assert (I2 : forall (l : list nat) m k, In m ((l ++ [m]) ++ [k])) by (intros; apply in_or_app; left; apply I).
  unfold mem_negotiate in H. cbn [no_pair]. destruct g as [body acc twin caps iov]. cbn [ng_body ng_accept ng_twin ng_caps ng_iovecs] in *.
  destruct body as [[]|]; cbv iota.
  1,2: injection H as <- <-; rewrite app_nil_r; auto.
  - cbn [new use free_ev app] in H. injection H as <- <-. split; [lia|]. rewrite replay_alloc by exact B. rewrite replay_use by apply I. rewrite F by exact B. now rewrite app_nil_r.
  - destruct acc; cbn [negb] in H.
    + destruct twin as [[]|]; cbv iota.
      2:{ cbn [new use app] in H. injection H as <- <-. split; [lia|]. rewrite replay_alloc by exact B. rewrite replay_use by apply I. reflexivity. }
      all: rewrite app_nil_r; destruct caps; [destruct iov|]; cbn [new use free_ev app] in H; injection H as <- <-; (split; [lia|]);
        rewrite replay_alloc by exact B; rewrite replay_use by apply I.
      1,4: rewrite replay_alloc by exact B1; rewrite replay_use by apply I2; rewrite replay_alloc by exact B2; rewrite replay_use by apply I; rewrite replay_use by apply I2; rewrite F by exact B2; rewrite F by exact B1; now rewrite F by exact B.
      1,3: rewrite replay_alloc by exact B1; rewrite replay_use by apply I2; rewrite replay_use by apply I; rewrite F by exact B1; now rewrite F by exact B.
      all: now rewrite F by exact B.
    + replace (match twin with Some false => false | _ => false end) with false by (destruct twin as [[]|]; reflexivity). rewrite app_nil_r.
      destruct iov; cbn [new use free_ev app] in H; injection H as <- <-; (split; [lia|]); rewrite replay_alloc by exact B; rewrite replay_use by apply I.
      * rewrite replay_alloc by exact B1. rewrite replay_use by apply I. rewrite F by exact B1. now rewrite F by exact B.
      * now rewrite F by exact B.
  - rewrite app_nil_r. destruct iov; cbn [new use free_ev app] in H; injection H as <- <-; (split; [lia|]); [|reflexivity].
    rewrite replay_alloc by exact B. rewrite replay_use by apply I. now rewrite F by exact B.
Qed.

(* The order in which buffers are listed does not matter. *)
Lemma allocated_perm l l' b : Permutation l l' -> allocated l b = allocated l' b.
Proof.
  intros P. destruct (allocated l' b) eqn:A.
  - apply allocated_in in A. apply allocated_in. eapply Permutation_in; [apply Permutation_sym; exact P|exact A].
  - destruct (allocated l b) eqn:A'; [|reflexivity]. apply allocated_in in A'. apply (Permutation_in _ P) in A'. apply allocated_in in A'. congruence.
Qed.
Lemma filter_perm {T} (f : T -> bool) l l' : Permutation l l' -> Permutation (filter f l) (filter f l').
Proof.
  induction 1 as [|x l l' P IH|x y l|l l' l'' P1 IH1 P2 IH2]; cbn [filter]; auto.
  - destruct (f x); auto.
  - destruct (f x), (f y); auto. constructor.
  - eapply Permutation_trans; eauto.
Qed.
Lemma replay_perm : forall ev l l' r, Permutation l l' -> replay l ev = Some r -> exists r', replay l' ev = Some r' /\ Permutation r r'.
Proof.
  induction ev as [|e ev IH]; intros l l' r P H; [injection H as <-; now exists l'|]. destruct e as [b|b|b]; cbn [replay] in *; rewrite <- (allocated_perm _ _ b P); destruct (allocated l b); try discriminate H; (eapply IH; [|exact H]); [now apply Permutation_app_tail|now apply filter_perm|exact P].
Qed.

Lemma below_perm l l' n : Permutation l l' -> below l n -> below l' n.
Proof. intros P (N & F). split; [eapply Permutation_NoDup; eauto|]. eapply Permutation_Forall; eauto. Qed.

Lemma steps_ok : forall l e e1 ev live L, mem_ok e -> Permutation live (L ++ held e) -> below live (me_next e) -> mem_steps e l = (e1, ev) ->
  exists live1 L1, replay live ev = Some live1 /\ Permutation live1 (L1 ++ held e1) /\ below live1 (me_next e1) /\ mem_ok e1 /\ length L1 = (length L + no_pairs l)%nat.
Proof.
  induction l as [|o l IH]; intros e e1 ev live L OK P B H; cbn [mem_steps] in H.
  - injection H as <- <-. exists live, L. cbn. rewrite Nat.add_0_r. auto.
  - destruct (mem_step e o) as [e2 ev2] eqn:S. destruct (mem_steps e2 l) as [e3 ev3] eqn:R. injection H as <- <-.
    assert (B' : below (L ++ held e) (me_next e)) by (eapply below_perm; eauto).
    assert (X : exists live2 L2, replay live ev2 = Some live2 /\ Permutation live2 (L2 ++ held e2) /\ below live2 (me_next e2) /\ mem_ok e2 /\ length L2 = (length L + if no_pair o then 1 else 0)%nat).
    { assert (K : forall live2', mem_ok e2 -> below (L ++ held e2) (me_next e2) -> replay (L ++ held e) ev2 = Some live2' -> live2' = L ++ held e2 -> no_pair o = false ->
        exists live2 L2, replay live ev2 = Some live2 /\ Permutation live2 (L2 ++ held e2) /\ below live2 (me_next e2) /\ mem_ok e2 /\ length L2 = (length L + if no_pair o then 1 else 0)%nat).
      { intros live2' K1 K2 K3 -> K5. destruct (replay_perm _ _ _ _ (Permutation_sym P) K3) as (r & K6 & K7). exists r, L. rewrite K5, Nat.add_0_r.
        split; [exact K6|]. split; [now apply Permutation_sym|]. split; [eapply below_perm; eauto|auto]. }
      destruct o as [q|ok q|refused ok ch|g]; cbn [mem_step] in S.
      - destruct (run_ok _ _ _ _ _ OK B' S) as (K1 & K2 & K3). eapply K; eauto.
      - destruct (quiesced_ok _ _ _ _ _ _ OK B' S) as (K1 & K2 & K3). eapply K; eauto.
      - destruct (mem_transfer refused ok ch (me_next e)) as [n1 ev1] eqn:T. injection S as <- <-. destruct (transfer_ok _ _ _ _ _ _ _ B T) as (N & E). exists live, L.
        cbn [no_pair]. rewrite Nat.add_0_r. unfold held in *. cbn [me_msg me_next]. split; [exact E|]. split; [exact P|]. split; [eapply below_up; eauto|]. split; [exact OK|reflexivity].
      - destruct (mem_negotiate g (me_next e)) as [n1 ev1] eqn:T. injection S as <- <-. destruct (negotiate_ok _ _ _ _ _ B T) as (N & E).
        exists (live ++ if no_pair (MoNegotiate g) then [me_next e] else []), (L ++ if no_pair (MoNegotiate g) then [me_next e] else []). split; [exact E|].
        assert (Q : (no_pair (MoNegotiate g) = true -> S (me_next e) <= n1)%nat).
        { intros Q. unfold no_pair in Q. unfold mem_negotiate in T. destruct (ng_body g) as [[]|]; try discriminate Q. destruct (ng_twin g) as [[]|]; try discriminate Q. rewrite Q in T. injection T as <- <-. lia. }
        unfold held in *. cbn [me_msg me_next]. destruct (no_pair (MoNegotiate g)).
        + split; [|split; [eapply below_up; [apply below_add, B|auto]|split; [exact OK|rewrite app_length; cbn; lia]]].
          rewrite <- app_assoc. eapply Permutation_trans; [apply Permutation_app_tail; exact P|]. rewrite <- app_assoc. apply Permutation_app_head, Permutation_app_comm.
        + rewrite !app_nil_r. split; [exact P|]. split; [eapply below_up; eauto|]. split; [exact OK|lia]. }
    destruct X as (live2 & L2 & X1 & X2 & X3 & X4 & X5). destruct (IH _ _ _ _ _ X4 X2 X3 R) as (live3 & L3 & Y1 & Y2 & Y3 & Y4 & Y5).
    exists live3, L3. rewrite replay_app, X1. split; [exact Y1|]. split; [exact Y2|]. split; [exact Y3|]. split; [exact Y4|]. rewrite Y5, X5. unfold no_pairs. cbn [filter]. destruct (no_pair o); cbn [length]; lia.
Qed.
