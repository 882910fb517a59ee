(* C22 and C23, exactly: which requests are answered, in every history. *)
From Coq Require Import NArith ZArith List Bool Lia Permutation.
From Verif Require Import Base Types Dma Dirty DmaOps Migr Irq Pci Handlers Server SpecServer ServerProofs PropServer SpecExact.
Import ListNotations.
Open Scope N_scope.
Ltac Zify.zify_post_hook ::= idtac.

Lemma fails_answered st : fails st = false -> answered st.
Proof.
  destruct st as [en|errno en| | | | |]; cbn [fails answered]; auto.
  - destruct (en_send en); [discriminate|reflexivity].
  - intros H. apply orb_false_elim in H. destruct H as (A & B). apply negb_false_iff, N.eqb_eq in A. split; [destruct (en_send en); [discriminate|reflexivity]|exact A].
Qed.

Lemma fails_no_reply s st o s' ev : step_case s st o s' ev -> fails st = true -> replies ev = [].
Proof.
  intros H F. destruct H; cbn [fails] in F; try reflexivity; try discriminate F.
  - rewrite replies_app, replies_lost, quiesce_call_replies. reflexivity.
  - destruct (reply_replies _ _ _ _ _ _ _ H2 eq_refl eq_refl) as (Rp & _).
    rewrite !replies_app, replies_closes, (refused_replies _ _ _ _ _ _ H1), Rp, app_nil_r. destruct (en_send en); [now rewrite andb_false_r|discriminate F].
  - rewrite replies_app, (handled_replies _ _ _ _ _ _ H3). assert (Rq : replies (if q then [EvQuiesce None] else []) = []) by (destruct q; reflexivity). rewrite Rq.
    destruct (en_send en); [now rewrite andb_false_r|discriminate F].
  - rewrite (handled_replies _ _ _ _ _ _ H1). cbn [N.eqb negb orb] in F. destruct (en_send en); [now rewrite andb_false_r|discriminate F].
  - now rewrite replies_lost.
  - destruct (sv_pending s); rewrite ?replies_closes; reflexivity.
Qed.

Lemma subseq_short {A} (a b : list A) : subseq a b -> (length b <= 1)%nat -> a = [] \/ a = b.
Proof.
  intros H L. destruct b as [|x [|y b]]; [inversion H; auto| |cbn in L; lia].
  inversion H as [|? ? ? H1|? ? ? H1]; subst; inversion H1; subst; auto.
Qed.
Lemma one_request s st : (length (owed s ++ arrived s st) <= 1)%nat.
Proof.
  unfold owed, arrived. destruct st as [en|errno en| | | | |]; try (destruct (sv_pending s) as [|m|]; [|destruct (wants_reply (mg_hdr m))|]; cbn; lia).
  destruct (sv_realized s), (sv_pending s) as [|m|], (sv_conn s), (en_rx en) as [e|h fds rb]; try (destruct (wants_reply (mg_hdr m))); try (destruct (wants_reply h)); cbn; lia.
Qed.

Lemma step_exact s st o s' ev : sinv s -> step_case s st o s' ev ->
  Permutation (replies ev ++ owed s' ++ (if fails st then match owed s' with [] => owed s ++ arrived s st | _ => [] end else [])) (owed s ++ arrived s st).
Proof.
  intros SI H. destruct (step_owed _ _ _ _ _ SI H) as (S & A). destruct (fails st) eqn:F.
  - rewrite (fails_no_reply _ _ _ _ _ H F) in *. cbn [app] in *. destruct (subseq_short _ _ S (one_request s st)) as [E|E].
    + rewrite E. apply Permutation_refl.
    + destruct (owed s') as [|x l] eqn:O; [apply Permutation_refl|]. rewrite app_nil_r, E. apply Permutation_refl.
  - rewrite app_nil_r, (A (fails_answered _ F)). apply Permutation_refl.
Qed.

(* In every history each request that asks for a reply is answered, or still held, or was dropped by a step whose reply could not
   be sent or whose asynchronous quiesce failed: each exactly one of the three, and exactly once. *)
Theorem C22_exact : forall s l s' arr ev, reachable s -> history s l s' arr ev ->
  Permutation (replies ev ++ owed s' ++ dropped s l) (owed s ++ arr).
Proof.
  intros s l s' arr ev Rc H. pose proof (reachable_sinv _ Rc) as SI. clear Rc.
  induction H as [s|s st o s1 ev1 l s2 arr ev2 H NC T IH]; [cbn; rewrite !app_nil_r; apply Permutation_refl|].
  pose proof (step_cases _ _ _ _ _ SI H NC) as SC. destruct (step_kept _ _ _ _ _ SI SC) as [_ SI1]. specialize (IH SI1).
  pose proof (step_exact _ _ _ _ _ SI SC) as E. cbn [dropped]. rewrite H. cbn [fst snd].
  set (D := if fails st then match owed s1 with [] => owed s ++ arrived s st | _ => [] end else []) in *.
  rewrite replies_app, (app_assoc (owed s)), <- E.
  transitivity (replies ev1 ++ D ++ (replies ev2 ++ owed s2 ++ dropped s1 l)).
  - rewrite <- !app_assoc. apply Permutation_app_head.
    rewrite (Permutation_app_comm D (replies ev2 ++ owed s2 ++ dropped s1 l)). rewrite <- !app_assoc. do 2 apply Permutation_app_head. apply Permutation_app_comm.
  - rewrite IH. rewrite <- !app_assoc. apply Permutation_app_head. rewrite !app_assoc. apply Permutation_app_tail. apply Permutation_app_comm.
Qed.
Print Assumptions C22_exact.

(* Requests 3 and 5 are held and then given up, 4 is refused while 3 is held, and the reply to 7 cannot be sent. *)
Definition exact_steps : list step :=
  [SRun (ex_unmap 3 (Some EBUSY)); SRun (PropServer.ex_map 4); SQuiesced 5 (ex_unmap 3 None); SRun (PropServer.ex_map 6);
   SRun (mk_senv (en_rx (PropServer.ex_map 7)) (en_or (PropServer.ex_map 7)) None (Some 11) None None)].
Example C22_exact_case : exists s' arr ev, history (ex_busy true) exact_steps s' arr ev /\
  replies ev = [(6, 2)] /\ dropped (ex_busy true) exact_steps = [(3, 3); (7, 2)] /\ arr = [(3, 3); (6, 2); (7, 2)].
Proof.
  do 3 eexists. split; [repeat (eapply h_cons; [vm_compute; reflexivity|discriminate|]); apply h_nil|].
  split; [|split]; vm_compute; reflexivity.
Qed.

(* None is dropped exactly if each is answered or still held. *)
Theorem C23_exact : forall s l s' arr ev, reachable s -> history s l s' arr ev ->
  (dropped s l = [] <-> replies ev ++ owed s' = owed s ++ arr).
Proof.
  intros s l s' arr ev Rc H. pose proof (C22_exact _ _ _ _ _ Rc H) as P. pose proof (C22_at_most_once _ _ _ _ _ Rc H) as S.
  pose proof (Permutation_length P) as L. rewrite !app_length in L. split.
  - intros D. rewrite D in L. cbn [length] in L. clear - S L.
    assert (G : (length (owed s ++ arr) <= length (replies ev ++ owed s'))%nat) by (rewrite !app_length; lia). clear L.
    induction S as [|x a b S IH|x a b S IH]; [reflexivity| |cbn [length] in G; f_equal; apply IH; lia].
    exfalso. assert (K : (length a <= length b)%nat) by (clear - S; induction S; cbn [length]; lia). cbn [length] in G. lia.
  - intros E. apply (f_equal (@length _)) in E. rewrite !app_length in E. destruct (dropped s l); [reflexivity|cbn [length] in L; lia].
Qed.
Print Assumptions C23_exact.
