(* Proofs about the memory of a context (C76). *)
From Coq Require Import NArith ZArith List Bool Lia Permutation.
From Verif Require Import Base Handlers Heap SpecHeap HeapProofs Mem SpecMem MemProofs Life SpecLife.
Import ListNotations.
Open Scope nat_scope.
Ltac Zify.zify_post_hook ::= idtac.

Notation cnt x l := (count_occ Nat.eq_dec l x).

(* The buffers in use are those of S, in any order. *)
Definition holds (live S : list nat) (n : nat) : Prop := below live n /\ forall x, cnt x live = cnt x S.
Definition runs (S : list nat) (n : nat) (ev : list hev) (S' : list nat) (n' : nat) : Prop :=
  forall live rest, holds live S n -> exists live', replay live (ev ++ rest) = replay live' rest /\ holds live' S' n'.

Lemma holds_in live S n b : holds live S n -> In b S -> In b live.
Proof. intros (_ & E) I. rewrite (count_occ_In Nat.eq_dec) in *. now rewrite E. Qed.
Lemma runs_nil S n : runs S n [] S n.
Proof. intros live rest H. now exists live. Qed.
Lemma runs_app S n ev1 S1 n1 ev2 S2 n2 : runs S n ev1 S1 n1 -> runs S1 n1 ev2 S2 n2 -> runs S n (ev1 ++ ev2) S2 n2.
Proof.
  intros R1 R2 live rest H. destruct (R1 live (ev2 ++ rest) H) as (l1 & E1 & H1). destruct (R2 l1 rest H1) as (l2 & E2 & H2).
  exists l2. rewrite <- app_assoc, E1. auto.
Qed.
Lemma runs_same S n ev S1 n1 S2 : runs S n ev S1 n1 -> (forall x, cnt x S1 = cnt x S2) -> runs S n ev S2 n1.
Proof. intros R P live rest H. destruct (R live rest H) as (l1 & E & B & C). exists l1. split; [exact E|]. split; [exact B|]. intros x. now rewrite C. Qed.
Lemma runs_from S0 S n ev S1 n1 : runs S n ev S1 n1 -> (forall x, cnt x S0 = cnt x S) -> runs S0 n ev S1 n1.
Proof. intros R P live rest (B & C). apply (R live rest). split; [exact B|]. intros x. now rewrite C. Qed.
Lemma runs_use S n b : In b S -> runs S n [HUse b] S n.
Proof. intros I live rest H. exists live. split; [|exact H]. cbn [app]. apply replay_use. now apply (holds_in live S n). Qed.
Lemma runs_opt_use S n p : incl (opt p) S -> runs S n (use p) S n.
Proof. destruct p as [b|]; intros I; [|apply runs_nil]. apply runs_use, I. now left. Qed.
Lemma runs_alloc S n : runs S n [HAlloc n] (n :: S) (Datatypes.S n).
Proof.
  intros live rest (B & C). exists (live ++ [n]). cbn [app]. rewrite replay_alloc by exact B. split; [reflexivity|]. split; [now apply below_add|].
  intros x. rewrite count_occ_app, C. cbn [count_occ]. destruct (Nat.eq_dec n x); lia.
Qed.
Lemma runs_free S n b : runs (b :: S) n [HFree b] S n.
Proof.
  intros live rest H. assert (I : In b live) by (apply (holds_in _ _ _ _ H); now left). destruct H as (B & C).
  apply in_split in I. destruct I as (A & D & ->). exists (A ++ D). cbn [app]. rewrite (replay_free A b D n) by exact B. split; [reflexivity|].
  split; [now apply below_del in B|]. intros x. specialize (C x). rewrite count_occ_app in *. cbn [count_occ] in C. destruct (Nat.eq_dec b x); lia.
Qed.
Lemma runs_opt_free S n p : runs (opt p ++ S) n (free_ev p) S n.
Proof. destruct p as [b|]; [apply runs_free|apply runs_nil]. Qed.
Lemma runs_free_all S n l : runs (flat_map opt l ++ S) n (flat_map free_ev l) S n.
Proof.
  induction l as [|p l IH]; [apply runs_nil|]. cbn [flat_map]. rewrite <- app_assoc. eapply runs_app; [apply runs_opt_free|exact IH].
Qed.
Lemma runs_iofds S n l : runs (l ++ S) n (life_free_iofds l) S n.
Proof.
  induction l as [|b l IH]; [apply runs_nil|]. cbn [life_free_iofds].
  eapply runs_app; [apply runs_use; now left|]. eapply runs_app; [apply runs_opt_use|]. 2: eapply runs_app; [apply runs_free|exact IH].
  destruct l as [|b' l]; intros x X; [now apply False_ind|]. destruct X as [<-|X]; [right; now left|destruct X].
Qed.

(* The buffers of a context, in the order in which they are freed. *)
Definition areas_of (l : list lregion) : list nat := flat_map (fun r => opt (lr_areas r)) l.
Definition iofds_of (l : list lregion) : list nat := flat_map lr_iofds l.
Definition owned (c : life) : list nat :=
  opt (lf_cfg c) ++ opt (lf_tran c) ++ opt (lf_dma c) ++ areas_of (lf_regions c) ++ iofds_of (lf_regions c) ++
  [lf_reg_info c] ++ opt (lf_mig c) ++ opt (lf_irqs c) ++ [lf_uuid c] ++ [lf_self c].

Lemma runs_areas S n l : runs (areas_of l ++ S) n (flat_map (fun r => free_ev (lr_areas r)) l) S n.
Proof. induction l as [|r l IH]; [apply runs_nil|]. unfold areas_of. cbn [flat_map]. rewrite <- app_assoc. eapply runs_app; [apply runs_opt_free|exact IH]. Qed.
Lemma runs_all_iofds S n l : runs (iofds_of l ++ S) n (flat_map (fun r => life_free_iofds (lr_iofds r)) l) S n.
Proof. induction l as [|r l IH]; [apply runs_nil|]. unfold iofds_of. cbn [flat_map]. rewrite <- app_assoc. eapply runs_app; [apply runs_iofds|exact IH]. Qed.

Lemma in_right {T} (a : T) x y : In a y -> In a (x ++ y).
Proof. intros. apply in_or_app. auto. Qed.
Lemma incl_right {T} (a x y : list T) : incl a y -> incl a (x ++ y).
Proof. intros. now apply incl_appr. Qed.
Ltac fnd := first [ solve [apply incl_appl, incl_refl] | apply incl_right; fnd ].
Ltac fin := first [ solve [apply in_or_app; left; now left] | now left | apply in_right; fin | right; fin ].

Lemma runs_reset c L n : runs (owned c ++ L) n (life_reset c) (owned c ++ L) n.
Proof.
  unfold life_reset. unfold owned. rewrite <- !app_assoc.
  eapply runs_app; [apply runs_use; fin|]. eapply runs_app; [apply runs_opt_use; fnd|]. eapply runs_app; [apply runs_opt_use; fnd|]. apply runs_opt_use; fnd.
Qed.

Lemma runs_destroy c L n : runs (owned c ++ L) n (life_destroy c) L n.
Proof.
  unfold life_destroy. eapply runs_app; [apply runs_reset|]. unfold owned. rewrite <- !app_assoc.
  eapply runs_app; [apply runs_opt_free|]. eapply runs_app; [apply runs_opt_use; fnd|]. eapply runs_app; [apply runs_opt_free|]. eapply runs_app; [apply runs_opt_free|].
  eapply runs_app; [apply runs_use; fin|]. eapply runs_app; [apply runs_areas|].
  eapply runs_app; [apply runs_use; fin|]. eapply runs_app; [apply runs_all_iofds|].
  eapply runs_app; [apply (runs_opt_free _ _ (Some _))|]. eapply runs_app; [apply runs_opt_free|]. eapply runs_app; [apply runs_opt_free|].
  eapply runs_app; [apply runs_use; fin|]. eapply runs_app; [apply (runs_opt_free _ _ (Some _))|]. apply (runs_opt_free _ _ (Some _)).
Qed.

(* Writing a region. *)
Lemma areas_set l i r r' x : nth_error l i = Some r -> cnt x (areas_of (set_nth_lr l i r')) + cnt x (opt (lr_areas r)) = cnt x (areas_of l) + cnt x (opt (lr_areas r')).
Proof.
  revert i. induction l as [|y l IH]; intros [|i] H; try discriminate; cbn [nth_error set_nth_lr areas_of flat_map] in *; rewrite !count_occ_app.
  - injection H as ->. lia.
  - specialize (IH i H). unfold areas_of in IH. lia.
Qed.
Lemma iofds_set l i r r' x : nth_error l i = Some r -> cnt x (iofds_of (set_nth_lr l i r')) + cnt x (lr_iofds r) = cnt x (iofds_of l) + cnt x (lr_iofds r').
Proof.
  revert i. induction l as [|y l IH]; intros [|i] H; try discriminate; cbn [nth_error set_nth_lr iofds_of flat_map] in *; rewrite !count_occ_app.
  - injection H as ->. lia.
  - specialize (IH i H). unfold iofds_of in IH. lia.
Qed.
Lemma length_opt p : length (opt p) = held p.
Proof. now destruct p. Qed.

Lemma self_in c L : In (lf_self c) (owned c ++ L).
Proof. unfold owned. rewrite <- !app_assoc. fin. Qed.
Lemma regs_in c L : In (lf_reg_info c) (owned c ++ L).
Proof. unfold owned. rewrite <- !app_assoc. fin. Qed.
Lemma iofds_in l i r : nth_error l i = Some r -> incl (lr_iofds r) (iofds_of l).
Proof.
  revert i. induction l as [|y l IH]; intros [|i] H; try discriminate; cbn [nth_error iofds_of flat_map] in *.
  - injection H as ->. apply incl_appl, incl_refl.
  - apply incl_appr. eapply IH; eauto.
Qed.

Definition after (c c' : life) (L : list nat) (lost : nat) (ev : list hev) : Prop :=
  exists L', length L' = lost + length L /\ runs (owned c ++ L) (lf_next c) ev (owned c' ++ L') (lf_next c').

Ltac same := intros x; unfold owned; cbn [lf_self lf_uuid lf_reg_info lf_tran lf_cfg lf_irqs lf_mig lf_dma lf_regions lf_realized lf_next lset_next lset_cfg lset_irqs lset_mig lset_dma lset_regions lset_realized opt];
  repeat (progress (rewrite ?count_occ_app; cbn [count_occ app])); repeat match goal with |- context [Nat.eq_dec ?a ?b] => destruct (Nat.eq_dec a b) end; try lia.
Ltac fin_cnt := cbn [opt count_occ]; repeat match goal with |- context [Nat.eq_dec ?a ?b] => destruct (Nat.eq_dec a b) end; lia.

Lemma runs_self c L : runs (owned c ++ L) (lf_next c) [HUse (lf_self c)] (owned c ++ L) (lf_next c).
Proof. apply runs_use, self_in. Qed.
Lemma runs_self_regs c L : runs (owned c ++ L) (lf_next c) [HUse (lf_self c); HUse (lf_reg_info c)] (owned c ++ L) (lf_next c).
Proof. change [HUse (lf_self c); HUse (lf_reg_info c)] with ([HUse (lf_self c)] ++ [HUse (lf_reg_info c)]). eapply runs_app; apply runs_use; [apply self_in|apply regs_in]. Qed.
Lemma after_nothing c L ev : runs (owned c ++ L) (lf_next c) ev (owned c ++ L) (lf_next c) -> after c c L 0 ev.
Proof. intros R. exists L. auto. Qed.

Lemma region_ok idx checks copies malloc c L : let '(c', ev) := life_region idx checks copies malloc c in after c c' L (forgotten c (LoRegion idx checks copies malloc)) ev.
Proof.
  unfold life_region, forgotten. destruct (nth_error (lf_regions c) idx) as [r|] eqn:E.
  - destruct checks; cbn [negb]; [|apply after_nothing, runs_self].
    destruct copies; [|apply after_nothing, runs_self_regs]. destruct malloc; unfold new.
    + exists (opt (lr_areas r) ++ L). rewrite app_length, length_opt. split; [lia|].
      eapply runs_app; [apply runs_self_regs|]. eapply runs_app; [apply runs_alloc|]. cbn [lf_next lset_next].
      eapply runs_same; [apply runs_opt_use; intros x [<-|[]]; now left|]. same; specialize (areas_set (lf_regions c) idx r (mk_lregion (Some (lf_next c)) (lr_iofds r)) x E); specialize (iofds_set (lf_regions c) idx r (mk_lregion (Some (lf_next c)) (lr_iofds r)) x E); cbn [lr_areas lr_iofds opt count_occ]; repeat match goal with |- context [Nat.eq_dec ?a ?b] => destruct (Nat.eq_dec a b) end; lia.
    + exists (opt (lr_areas r) ++ lr_iofds r ++ L). rewrite !app_length, length_opt. split; [lia|].
      eapply runs_app; [apply runs_self_regs|]. cbn [app free_ev lf_next lset_next].
      eapply runs_same; [apply runs_nil|]. same; specialize (areas_set (lf_regions c) idx r (mk_lregion None []) x E); specialize (iofds_set (lf_regions c) idx r (mk_lregion None []) x E); cbn [lr_areas lr_iofds opt count_occ]; lia.
  - replace (match checks with true => _ | false => 0 end) with 0 by (now destruct checks, copies). apply after_nothing, runs_self.
Qed.

Lemma ioeventfd_ok idx checks malloc c L : let '(c', ev) := life_ioeventfd idx checks malloc c in after c c' L 0 ev.
Proof.
  unfold life_ioeventfd. destruct (nth_error (lf_regions c) idx) as [r|] eqn:E; [|apply after_nothing, runs_self].
  destruct checks; cbn [negb]; [|apply after_nothing, runs_self_regs]. destruct malloc; unfold new.
  - exists L. split; [lia|]. eapply runs_app; [apply runs_self_regs|]. eapply runs_app; [apply runs_alloc|].
    eapply runs_app; [apply runs_opt_use; intros x [<-|[]]; now left|]. cbn [lf_next lset_next].
    eapply runs_same; [apply runs_opt_use|].
    + intros x X. right. apply in_or_app. left. unfold owned. do 4 (apply in_or_app; right). apply in_or_app; left. apply (iofds_in _ _ _ E).
      destruct (lr_iofds r) as [|b t]; [destruct X|]. destruct X as [<-|[]]. now left.
    + same; specialize (areas_set (lf_regions c) idx r (mk_lregion (lr_areas r) (lf_next c :: lr_iofds r)) x E); specialize (iofds_set (lf_regions c) idx r (mk_lregion (lr_areas r) (lf_next c :: lr_iofds r)) x E); cbn [lr_areas lr_iofds count_occ]; repeat match goal with |- context [Nat.eq_dec ?a ?b] => destruct (Nat.eq_dec a b) end; lia.
  - exists L. split; [lia|]. eapply runs_app; [apply runs_self_regs|]. cbn [lf_next lset_next]. eapply runs_same; [apply runs_nil|same].
Qed.

Lemma pci_ok checks malloc c L : let '(c', ev) := life_pci checks malloc c in after c c' L 0 ev.
Proof.
  unfold life_pci. destruct checks; cbn [negb]; [|apply after_nothing, runs_self]. destruct (lf_cfg c) as [p|] eqn:E; [apply after_nothing, runs_self|].
  destruct malloc; unfold new; exists L; (split; [lia|]).
  - eapply runs_app; [apply runs_self|]. eapply runs_app; [apply runs_alloc|]. eapply runs_same; [apply runs_use; right; apply regs_in|]. same; rewrite ?E; fin_cnt.
  - eapply runs_app; [apply runs_self|]. eapply runs_same; [apply runs_nil|same].
Qed.

Lemma realize_ok cfg_ok irqs_ok c L : let '(c', ev) := life_realize cfg_ok irqs_ok c in after c c' L 0 ev.
Proof.
  unfold life_realize. destruct (lf_realized c); [apply after_nothing, runs_self|].
  assert (CFG : forall p, lf_cfg c = Some p -> In p (owned c ++ L)) by (intros p E; unfold owned; rewrite E; now left).
  assert (IRQ : forall p, lf_irqs c = Some p -> In p (owned c ++ L)) by (intros p E; unfold owned; rewrite E; rewrite <- !app_assoc; fin).
  destruct (lf_cfg c) as [p|] eqn:EC.
  - destruct (lf_irqs c) as [q|] eqn:EI; [|destruct irqs_ok]; unfold new; exists L; (split; [lia|]); (eapply runs_app; [apply runs_self_regs|]); cbn [app].
    + eapply runs_same; [change [HUse p; HUse q; HUse p] with ([HUse p] ++ [HUse q] ++ [HUse p]); eapply runs_app; [|eapply runs_app]; apply runs_use; auto|]. same; rewrite ?EC, ?EI; fin_cnt.
    + change [HUse p; HAlloc (lf_next c); HUse (lf_next c); HUse p] with ([HUse p] ++ [HAlloc (lf_next c)] ++ [HUse (lf_next c)] ++ [HUse p]).
      eapply runs_app; [apply runs_use; auto|]. eapply runs_app; [apply runs_alloc|]. eapply runs_app; [apply runs_use; now left|].
      eapply runs_same; [apply runs_use; right; auto|]. same; rewrite ?EC, ?EI; fin_cnt.
    + eapply runs_same; [apply runs_use; auto|]. same; rewrite ?EC; fin_cnt.
  - destruct cfg_ok; unfold new.
    + destruct (lf_irqs c) as [q|] eqn:EI; [|destruct irqs_ok]; exists L; (split; [lia|]); (eapply runs_app; [apply runs_self_regs|]); (eapply runs_app; [apply runs_alloc|]); cbn [app].
      * change [HUse (lf_next c); HUse q; HUse (lf_next c)] with ([HUse (lf_next c)] ++ [HUse q] ++ [HUse (lf_next c)]).
        eapply runs_same; [eapply runs_app; [apply runs_use; now left|eapply runs_app; apply runs_use; [right; auto|now left]]|]. same; rewrite ?EC, ?EI; fin_cnt.
      * change [HUse (lf_next c); HAlloc (S (lf_next c)); HUse (S (lf_next c)); HUse (lf_next c)] with ([HUse (lf_next c)] ++ [HAlloc (S (lf_next c))] ++ [HUse (S (lf_next c))] ++ [HUse (lf_next c)]).
        eapply runs_app; [apply runs_use; now left|]. eapply runs_app; [apply runs_alloc|]. eapply runs_app; [apply runs_use; now left|].
        eapply runs_same; [apply runs_use; right; now left|]. same; rewrite ?EC, ?EI; fin_cnt.
      * eapply runs_same; [apply runs_use; now left|]. same; rewrite ?EC; fin_cnt.
    + exists L. split; [lia|]. eapply runs_app; [apply runs_self_regs|]. eapply runs_same; [apply runs_nil|same].
Qed.

Lemma dma_ok malloc c L : let '(c', ev) := life_dma malloc c in after c c' L (held (lf_dma c)) ev.
Proof.
  unfold life_dma. destruct malloc; unfold new; exists (opt (lf_dma c) ++ L); rewrite app_length, length_opt; (split; [lia|]); (eapply runs_app; [apply runs_self|]).
  - eapply runs_app; [apply runs_alloc|]. eapply runs_same; [apply runs_opt_use; intros x [<-|[]]; now left|]. same.
  - eapply runs_same; [apply runs_nil|]. same.
Qed.
Lemma migration_ok version malloc callbacks c L : let '(c', ev) := life_migration version malloc callbacks c in after c c' L (forgotten c (LoMigration version malloc callbacks)) ev.
Proof.
  unfold life_migration, forgotten. destruct version; cbn [negb]; [|apply after_nothing, runs_self].
  destruct malloc; unfold new; [destruct callbacks|]; exists (opt (lf_mig c) ++ L); rewrite app_length, length_opt; (split; [lia|]); (eapply runs_app; [apply runs_self|]).
  - eapply runs_app; [apply runs_alloc|]. eapply runs_same; [apply runs_use; now left|]. same.
  - eapply runs_app; [apply runs_alloc|]. eapply runs_app; [apply runs_use; now left|]. eapply runs_same; [apply (runs_opt_free _ _ (Some _))|]. same.
  - eapply runs_same; [apply runs_nil|]. same.
Qed.

Lemma step_ok c o L : let '(c', ev) := life_step c o in after c c' L (forgotten c o) ev.
Proof.
  destruct o as [idx k cp m|idx k m| |k m|a b|m|v m k]; cbn [life_step].
  - apply region_ok.
  - apply ioeventfd_ok.
  - apply after_nothing, runs_reset.
  - apply pci_ok.
  - apply realize_ok.
  - apply dma_ok.
  - apply migration_ok.
Qed.
Lemma steps_life_ok l : forall c L, let '(c', ev) := life_steps c l in after c c' L (forgotten_in c l) ev.
Proof.
  induction l as [|o l IH]; intros c L; cbn [life_steps forgotten_in]; [apply after_nothing, runs_nil|].
  pose proof (step_ok c o L) as S1. destruct (life_step c o) as [c1 ev1]. cbn [fst]. destruct S1 as (L1 & N1 & R1).
  specialize (IH c1 L1). destruct (life_steps c1 l) as [c2 ev2]. destruct IH as (L2 & N2 & R2). exists L2. split; [lia|]. eapply runs_app; eauto.
Qed.

Lemma owned_has c : length (owned c) = has c.
Proof.
  unfold owned, has. rewrite !app_length, !length_opt. cbn [length].
  assert (E : length (areas_of (lf_regions c)) + length (iofds_of (lf_regions c)) = fold_right (fun r n => held (lr_areas r) + length (lr_iofds r) + n) 0 (lf_regions c)).
  { induction (lf_regions c) as [|r l IH]; [reflexivity|]. unfold areas_of, iofds_of in *. cbn [flat_map fold_right]. rewrite !app_length, length_opt. lia. }
  lia.
Qed.
Lemma holds_length live S n : holds live S n -> length live = length S.
Proof. intros (_ & C). apply Permutation_length, (Permutation_count_occ Nat.eq_dec), C. Qed.
Lemma below_nil n : below [] n.
Proof. split; constructor. Qed.

Lemma create_ok n checks ctx_ok uuid_ok regs_ok tran_ok init_ok : let '(r, n', ev) := life_create checks ctx_ok uuid_ok regs_ok tran_ok init_ok n in
  match r with
  | CreatedNull => runs [] n ev [] n'
  | CreatedNullRead => True
  | Created c => runs [] n ev (owned c ++ []) (lf_next c) /\ lf_dma c = None /\ lf_mig c = None /\ lf_regions c = repeat (mk_lregion None []) NUM_REGIONS
  end.
Proof.
  unfold life_create, new. destruct checks; cbn [negb]; [|apply runs_nil]. destruct ctx_ok; [|apply runs_nil]. destruct uuid_ok; [|exact I]. destruct regs_ok; [|exact I].
  destruct tran_ok; [destruct init_ok; cbn [negb]|].
  - split; [|repeat split]. eapply runs_app; [apply runs_alloc|]. eapply runs_app; [apply runs_alloc|]. eapply runs_app; [apply runs_alloc|]. eapply runs_same; [apply runs_alloc|]. same; reflexivity.
  - eapply runs_app; [apply runs_alloc|]. eapply runs_app; [apply runs_alloc|]. eapply runs_app; [apply runs_alloc|]. eapply runs_app; [apply runs_alloc|].
    eapply runs_app; [apply (runs_opt_free _ _ (Some _))|]. eapply runs_from; [apply (runs_destroy _ [])|]. same; reflexivity.
  - eapply runs_app; [apply runs_alloc|]. eapply runs_app; [apply runs_alloc|]. eapply runs_app; [apply runs_alloc|]. cbn [app].
    eapply runs_from; [apply (runs_destroy _ [])|]. same; reflexivity.
Qed.

(* Nothing is forgotten when nothing is set up twice. *)
Definition fresh_for (c : life) (l : list life_op) : Prop :=
  forall t, In t (flat_map sets_up l) ->
  match t with
  | TAreas idx => forall r, nth_error (lf_regions c) idx = Some r -> lr_areas r = None
  | TDma => lf_dma c = None
  | TMigration => lf_mig c = None
  end.
Lemma nth_set_lr l i r j : nth_error (set_nth_lr l i r) j = if (i =? j) then match nth_error l j with Some _ => Some r | None => None end else nth_error l j.
Proof.
  revert i j. induction l as [|y l IH]; intros [|i] [|j]; cbn [set_nth_lr nth_error Nat.eqb]; try reflexivity.
  - now destruct (i =? j).
  - apply IH.
Qed.
Lemma realize_rest a b c : let c1 := fst (life_realize a b c) in lf_regions c1 = lf_regions c /\ lf_dma c1 = lf_dma c /\ lf_mig c1 = lf_mig c.
Proof.
  unfold life_realize, new. destruct (lf_realized c); [now cbn|]. destruct (lf_cfg c); [|destruct a]; cbn [fst]; try now cbn.
  1,2: destruct (lf_irqs c); [|destruct b]; now cbn.
Qed.
Lemma fresh_step c o l : NoDup (flat_map sets_up (o :: l)) -> fresh_for c (o :: l) -> fresh_for (fst (life_step c o)) l.
Proof.
  cbn [flat_map]. intros N F t I. assert (D : ~ In t (sets_up o)).
  { intros X. clear F. induction (sets_up o) as [|y s IH]; [destruct X|]. cbn in N. inversion N as [|? ? N1 N2]; subst. destruct X as [<-|X]; [apply N1, in_or_app; auto|auto]. }
  assert (F1 := F t (in_or_app _ _ _ (or_intror I))). clear F N I. destruct o as [idx k cp m|idx k m| |k m|a b|m|v m k]; cbn [life_step].
  - unfold life_region. destruct (nth_error (lf_regions c) idx) as [r|] eqn:E; [|exact F1]. destruct k; cbn [negb]; [|exact F1]. destruct cp; [|exact F1].
    cbn [sets_up] in D. destruct t as [i| |]; (destruct m; unfold new; cbn [fst lf_regions lf_dma lf_mig lset_next lset_regions]); try exact F1;
    intros r1; rewrite nth_set_lr; destruct (Nat.eqb_spec idx i) as [->|NE]; try (now destruct D; left); apply F1.
  - unfold life_ioeventfd. destruct (nth_error (lf_regions c) idx) as [r|] eqn:E; [|exact F1]. destruct k; cbn [negb]; [|exact F1].
    destruct m; unfold new; cbn [fst]; [|exact F1]. destruct t as [i| |]; cbn [lf_regions lf_dma lf_mig lset_next lset_regions]; try exact F1.
    intros r1; rewrite nth_set_lr; destruct (Nat.eqb_spec idx i) as [->|NE]; [|apply F1]. rewrite E. intros X. injection X as <-. cbn [lr_areas]. now apply F1.
  - exact F1.
  - unfold life_pci. destruct k; cbn [negb]; [|exact F1]. destruct (lf_cfg c); [exact F1|]. destruct m; unfold new; cbn [fst]; exact F1.
  - destruct (realize_rest a b c) as (E1 & E2 & E3). destruct t; rewrite ?E1, ?E2, ?E3; exact F1.
  - unfold life_dma. cbn [sets_up] in D. destruct t as [i| |]; destruct m; unfold new; cbn [fst]; try exact F1; now destruct D; left.
  - unfold life_migration. destruct v; cbn [negb]; [|exact F1]. cbn [sets_up] in D. destruct t as [i| |]; destruct m; unfold new; [destruct k| |destruct k| |destruct k|]; cbn [fst]; try exact F1; now destruct D; left.
Qed.
Lemma fresh_nothing l : forall c, NoDup (flat_map sets_up l) -> forallb areas_ok l = true -> fresh_for c l -> forgotten_in c l = 0.
Proof.
  induction l as [|o l IH]; intros c N A F; [reflexivity|]. cbn [forgotten_in]. cbn [forallb] in A. apply andb_prop in A. destruct A as (A1 & A2).
  rewrite IH; [|cbn [flat_map] in N; clear - N; induction (sets_up o) as [|y s IH]; [exact N|inversion N; auto]|exact A2|now apply fresh_step].
  assert (G : forgotten c o = 0); [|lia]. specialize (fun t I => F t (in_or_app _ _ _ (or_introl I))) as F1. clear F N A2 IH.
  destruct o as [idx k cp m|idx k m| |k m|a b|m|v m k]; try reflexivity; cbn [forgotten sets_up areas_ok] in *.
  - destruct k; [|reflexivity]. destruct cp; [|reflexivity]. subst m. destruct (nth_error (lf_regions c) idx) as [r|] eqn:E; [|reflexivity]. now rewrite (F1 (TAreas idx) (or_introl eq_refl) r E).
  - now rewrite (F1 TDma (or_introl eq_refl)).
  - destruct v; [|reflexivity]. now rewrite (F1 TMigration (or_introl eq_refl)).
Qed.
