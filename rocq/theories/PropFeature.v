(* Properties of region io fds (C39) and device features (C54). *)
From Coq Require Import NArith ZArith List Bool Lia ZifyBool ZifyNat ZifyN.
From Verif Require Import Base Types Bytes BytesProofs BufProofs Dma Dirty Migr Irq Pci Handlers SpecHandlers HandlersProofs PropHandlers.
Import ListNotations.
Open Scope N_scope.
Ltac Zify.zify_post_hook ::= idtac.

(* ---------- C39 *)
Lemma fd_index_spec l fd : forall k, match fd_index l fd k with
  | Some i => k <= i /\ nth_error l (N.to_nat (i - k)) = Some fd
  | None => ~ In fd l
  end.
Proof.
  induction l as [|x l IH]; intros k; cbn [fd_index]; [intros []|].
  destruct (x =? fd)%Z eqn:E.
  - apply Z.eqb_eq in E. subst x. rewrite N.sub_diag. split; [lia|reflexivity].
  - specialize (IH (k + 1)). destruct (fd_index l fd (k + 1)) as [i|].
    + destruct IH as [L H]. split; [lia|]. replace (N.to_nat (i - k)) with (S (N.to_nat (i - (k + 1)))) by lia. exact H.
    + intros [H|H]; [lia|contradiction].
Qed.

Lemma names_fd_app l m fd i : names_fd l fd i -> names_fd (l ++ m) fd i.
Proof.
  unfold names_fd. destruct (fd =? -1)%Z; [auto|]. intros [H L]. split; [|exact L].
  rewrite nth_error_app1; [exact H|]. apply nth_error_Some. now rewrite H.
Qed.

Lemma NoDup_snoc (l : list Z) x : NoDup l -> ~ In x l -> NoDup (l ++ [x]).
Proof.
  induction l as [|y l IH]; intros H N; cbn [app]; [now constructor|]. inversion_clear H as [|? ? H1 H2]. constructor.
  - rewrite in_app_iff. intros [K|[K|[]]]; [contradiction|]. apply N. left. now symmetry.
  - apply IH; [exact H2|]. intros K. apply N. now right.
Qed.

Lemma add_fd_spec cap out fd :
  (-1 <= fd)%Z -> NoDup out -> ((fd =? -1)%Z = false -> (length out < cap)%nat) -> N.of_nat cap < 2 ^ 32 - 1 -> (length out <= cap)%nat ->
  exists i sfx, add_fd cap out fd = Ok (i, out ++ sfx) /\ NoDup (out ++ sfx) /\
    (length sfx <= if (fd =? -1)%Z then 0 else 1)%nat /\ names_fd (out ++ sfx) fd i /\
    (forall x, In x (out ++ sfx) <-> In x out \/ (x = fd /\ fd <> (-1)%Z)).
Proof.
  intros F ND Lt Cap Le. unfold add_fd. replace (fd <? -1)%Z with false by lia.
  destruct (fd =? -1)%Z eqn:E.
  - exists (two32 - 1), []. rewrite app_nil_r. split; [reflexivity|]. split; [exact ND|]. split; [cbn; lia|].
    split; [unfold names_fd; rewrite E; reflexivity|]. intros x. split; [auto|]. intros [H|[-> H]]; [exact H|lia].
  - pose proof (fd_index_spec out fd 0) as FI. destruct (fd_index out fd 0) as [i|].
    + destruct FI as [_ FI]. rewrite N.sub_0_r in FI. exists i, []. rewrite app_nil_r. split; [reflexivity|]. split; [exact ND|].
      split; [cbn; lia|]. assert (N.to_nat i < length out)%nat by (apply nth_error_Some; now rewrite FI).
      split; [unfold names_fd; rewrite E; split; [exact FI|lia]|]. intros x. split; [auto|]. intros [H1|[-> _]]; [exact H1|].
      eapply nth_error_In; eauto.
    + specialize (Lt eq_refl). replace (Nat.leb cap (length out)) with false by (symmetry; apply Nat.leb_gt; exact Lt).
      exists (N.of_nat (length out)), [fd]. split; [reflexivity|]. split; [now apply NoDup_snoc|]. split; [cbn; lia|].
      split; [unfold names_fd; rewrite E; split; [|lia]|].
      * rewrite nth_error_app2 by lia. replace (N.to_nat (N.of_nat (length out)) - length out)%nat with 0%nat by lia. reflexivity.
      * intros x. rewrite in_app_iff. split; [intros [H|[<-|[]]]; [auto|right; split; [reflexivity|lia]]|].
        intros [H|[-> _]]; [auto|right; now left].
Qed.

Definition subs_wf (l : list ioeventfd) : Prop := Forall (fun s => (-1 <= ie_fd s)%Z /\ (-1 <= ie_shadow_fd s)%Z) l.

Lemma io_sub_spec cap out s :
  (-1 <= ie_fd s)%Z -> (-1 <= ie_shadow_fd s)%Z -> NoDup out -> N.of_nat cap < 2 ^ 32 - 1 ->
  (length out + 1 + (if (ie_shadow_fd s =? -1)%Z then 0 else 1) <= cap)%nat ->
  exists b sfx, io_sub cap out s = Ok (b, out ++ sfx) /\ NoDup (out ++ sfx) /\ describes (out ++ sfx) s b /\
    (length sfx <= 1 + (if (ie_shadow_fd s =? -1)%Z then 0 else 1))%nat /\
    (forall x, In x (out ++ sfx) <-> In x out \/ In x (sub_fds [s])).
Proof.
  intros F1 F2 ND Cap L. unfold io_sub.
  destruct (add_fd_spec cap out (ie_fd s) F1 ND) as (i & s1 & -> & N1 & L1 & A1 & I1);
    [intros; destruct (ie_shadow_fd s =? -1)%Z; lia|exact Cap|destruct (ie_shadow_fd s =? -1)%Z; lia|].
  assert (L1' : (length s1 <= 1)%nat) by (destruct (ie_fd s =? -1)%Z; lia).
  assert (SF : forall x, In x (sub_fds [s]) <-> (x = ie_fd s /\ ie_fd s <> (-1)%Z) \/ (x = ie_shadow_fd s /\ ie_shadow_fd s <> (-1)%Z)).
  { intros x. unfold sub_fds. rewrite filter_In. cbn [flat_map app In]. rewrite negb_true_iff, Z.eqb_neq. intuition (subst; auto). }
  destruct (ie_shadow_fd s =? -1)%Z eqn:E.
  - do 2 eexists. split; [reflexivity|]. split; [exact N1|]. split.
    + exists i, 0. rewrite E. split; [unfold sub_region; rewrite E; reflexivity|]. split; [exact A1|reflexivity].
    + split; [lia|]. intros x. rewrite SF, I1. assert (ie_shadow_fd s = -1)%Z by lia. tauto.
  - destruct (add_fd_spec cap (out ++ s1) (ie_shadow_fd s) F2 N1) as (j & s2 & -> & N2 & L2 & A2 & I2);
      [rewrite app_length; intros; lia|exact Cap|rewrite app_length; lia|].
    rewrite E in L2. exists (sub_region s i j), (s1 ++ s2). rewrite (app_assoc out). split; [unfold sub_region; rewrite E; reflexivity|].
    split; [exact N2|]. split.
    + exists i, j. rewrite E. split; [reflexivity|]. split; [now apply names_fd_app|exact A2].
    + split; [rewrite app_length; lia|]. intros x. rewrite SF, I2, I1. tauto.
Qed.

Definition shadows (l : list ioeventfd) : nat := length (filter (fun s => negb (ie_shadow_fd s =? -1)%Z) l).

Lemma io_subs_spec cap : forall l out, subs_wf l -> NoDup out -> N.of_nat cap < 2 ^ 32 - 1 ->
  (length out + length l + shadows l <= cap)%nat ->
  exists bs sfx, io_subs cap out l = Ok (concat bs, out ++ sfx) /\ NoDup (out ++ sfx) /\ Forall2 (describes (out ++ sfx)) l bs /\
    (forall x, In x (out ++ sfx) <-> In x out \/ In x (sub_fds l)).
Proof.
  induction l as [|s l IH]; intros out W ND Cap L; cbn [io_subs].
  - exists [], []. rewrite app_nil_r. split; [reflexivity|]. split; [exact ND|]. split; [constructor|]. cbn. tauto.
  - inversion_clear W as [|? ? W1 W2]. destruct W1 as [F1 F2].
    assert (SH : shadows (s :: l) = ((if (ie_shadow_fd s =? -1)%Z then 0 else 1) + shadows l)%nat)
      by (unfold shadows; cbn [filter]; destruct (ie_shadow_fd s =? -1)%Z; reflexivity).
    cbn [length] in L. rewrite SH in L.
    destruct (io_sub_spec cap out s F1 F2 ND Cap) as (b & s1 & -> & N1 & D1 & L1 & I1); [destruct (ie_shadow_fd s =? -1)%Z; lia|].
    destruct (IH (out ++ s1) W2 N1 Cap) as (bs & s2 & -> & N2 & D2 & I2); [rewrite app_length; destruct (ie_shadow_fd s =? -1)%Z; lia|].
    exists (b :: bs), (s1 ++ s2). rewrite (app_assoc out). split; [reflexivity|]. split; [exact N2|]. split.
    + constructor; [|exact D2]. destruct D1 as (i & j & -> & A & B). exists i, j. split; [reflexivity|]. split; [now apply names_fd_app|].
      destruct (ie_shadow_fd s =? -1)%Z; [exact B|now apply names_fd_app].
    + intros x. rewrite I2, I1. unfold sub_fds. cbn [flat_map app].
      change (ie_fd s :: ie_shadow_fd s :: flat_map (fun s0 : ioeventfd => [ie_fd s0; ie_shadow_fd s0]) l) with
             ([ie_fd s; ie_shadow_fd s] ++ flat_map (fun s0 : ioeventfd => [ie_fd s0; ie_shadow_fd s0]) l).
      rewrite filter_app, !in_app_iff. tauto.
Qed.

(* A configured region's reply: all sub-regions, each with the positions of its descriptors among those sent, each
   descriptor sent once; or only the size if the list is empty or does not fit. *)
Theorem C39_io_fds : forall c o argsz index rest fds ri,
  argsz < 2 ^ 32 -> index < 2 ^ 32 -> 16 <= argsz <= 1024 * 1024 ->
  nth_error (cx_regs c) (N.to_nat index) = Some ri -> N.land (ri_flags ri) 63 <> 0 ->
  subs_wf (ri_subs ri) -> 16 + 48 * N.of_nat (length (ri_subs ri)) < 2 ^ 32 ->
  let nr := N.of_nat (length (ri_subs ri)) in
  let need := 16 + 48 * nr in
  exists bs rfds,
    dispatch c o 6 (io_fds_req argsz 0 index 0 rest) fds = (HReply 0 (io_fds_req need 0 index nr (concat bs)) rfds, c, fds, []) /\
    (need <= argsz ->
       Forall2 (describes rfds) (ri_subs ri) bs /\ NoDup rfds /\ (forall fd, In fd rfds <-> In fd (sub_fds (ri_subs ri)))) /\
    (argsz < need -> bs = [] /\ rfds = []).
Proof.
  intros c o argsz index rest fds ri A I AL En Fl W Sz nr nd.
  change (dispatch c o 6 ?b fds) with (get_region_io_fds c b, c, fds, @nil event). unfold get_region_io_fds.
  unfold io_fds_req at 1. layout.
  match goal with |- context [N.of_nat ?x <? 16] => replace (N.of_nat x <? 16) with false by lia end.
  assert (Q : forall k : N -> N -> N -> N -> hres,
    need (rd (io_fds_req argsz 0 index 0 rest) 0 4) (HCrash OutOfBounds) (fun a =>
    need (rd (io_fds_req argsz 0 index 0 rest) 4 4) (HCrash OutOfBounds) (fun f =>
    need (rd (io_fds_req argsz 0 index 0 rest) 8 4) (HCrash OutOfBounds) (fun i =>
    need (rd (io_fds_req argsz 0 index 0 rest) 12 4) (HCrash OutOfBounds) (fun n => k a f i n)))) = k argsz 0 index 0).
  { intros k. unfold io_fds_req. rewrite rd_front by exact A. cbn [need]. rdsk. rewrite rd_front by lia. cbn [need].
    rdsk. rewrite rd_front by exact I. cbn [need]. rdsk. rewrite rd_front by lia. reflexivity. }
  rewrite Q. clear Q. change (negb (0 =? 0) || negb (0 =? 0)) with false. cbn iota. rewrite En.
  assert (HM : has (ri_flags ri) REGION_FLAG_MASK = true) by (unfold has, REGION_FLAG_MASK; apply negb_true_iff, N.eqb_neq, Fl).
  rewrite HM. cbn [negb]. unfold MAX_XFER. replace ((argsz <? 16) || (1048576 <? argsz)) with false by lia.
  fold nr. change (length (filter (fun s => negb (ie_shadow_fd s =? -1)%Z) (ri_subs ri))) with (shadows (ri_subs ri)).
  assert (SL : (shadows (ri_subs ri) <= length (ri_subs ri))%nat).
  { unfold shadows. clear. induction (ri_subs ri) as [|s l IH]; [cbn; lia|]. cbn [filter]. destruct (negb _); cbn [length]; lia. }
  assert (W1 : w32 (16 + nr * 48) = nd) by (unfold w32, two32, nd; rewrite N.mod_small; lia).
  assert (W2 : w32 (nr * 48) = 48 * nr) by (unfold w32, two32; rewrite N.mod_small; lia).
  rewrite W1, W2.
  assert (MS : (nd <= argsz /\ N.min ((argsz - 16) / 48) nr = nr) \/ (argsz < nd /\ N.min ((argsz - 16) / 48) nr < nr)).
  { pose proof (N.div_mod (argsz - 16) 48 ltac:(lia)) as D. pose proof (N.mod_lt (argsz - 16) 48 ltac:(lia)) as M.
    set (q := (argsz - 16) / 48) in *. unfold nd. destruct (N.le_gt_cases (16 + 48 * nr) argsz); [left|right]; split; lia. }
  destruct MS as [[L MS]|[L MS]].
  - rewrite MS. destruct (0 <? nr) eqn:P; cbn [andb].
    + replace (nd <=? argsz) with true by lia. replace (nr <=? nr) with true by lia.
      replace (16 + 48 * nr <? 16 + nr * 48) with false by lia.
      assert (Lr : N.to_nat nr = length (ri_subs ri)) by (unfold nr; lia). rewrite Lr, firstn_all.
      destruct (io_subs_spec (length (ri_subs ri) + shadows (ri_subs ri)) (ri_subs ri) [] W (NoDup_nil _)) as (bs & out & -> & ND & F & Inn);
        [lia|cbn; lia|].
      cbn [app] in *. exists bs, out. split; [unfold io_fds_req; rewrite <- !app_assoc; reflexivity|]. split; [|lia].
      intros _. split; [exact F|]. split; [exact ND|]. intros fd. rewrite Inn. cbn [In]. tauto.
    + assert (E0 : ri_subs ri = []) by (unfold nr in P; destruct (ri_subs ri); [reflexivity|cbn [length] in P; lia]).
      assert (nr = 0) by lia. exists [], []. rewrite H. change (0 <=? 0) with true. cbn iota. change (16 + 48 * 0 - 16) with 0.
      cbn [N.to_nat zeros repeat concat]. split; [unfold io_fds_req; rewrite <- !app_assoc; reflexivity|]. split; [|auto].
      intros _. rewrite E0. split; [constructor|]. split; [constructor|]. cbn. tauto.
  - replace (nd <=? argsz) with false by lia. rewrite andb_false_r.
    replace (nr <=? N.min ((argsz - 16) / 48) nr) with false by lia. exists [], []. change (16 + 0 - 16) with 0.
    cbn [N.to_nat zeros repeat concat]. split; [unfold io_fds_req; rewrite <- !app_assoc; reflexivity|]. split; [lia|auto].
Qed.
Print Assumptions C39_io_fds.

(* Refused requests: short payload, flags or count not zero, no such region, region not set up, argsz. *)
Theorem C39_refused : forall c o body fds,
  (length body < 16)%nat \/
  (exists argsz flags index count rest, body = io_fds_req argsz flags index count rest /\
     argsz < 2 ^ 32 /\ flags < 2 ^ 32 /\ index < 2 ^ 32 /\ count < 2 ^ 32 /\
     (flags <> 0 \/ count <> 0 \/ argsz < 16 \/ 1024 * 1024 < argsz \/
      match nth_error (cx_regs c) (N.to_nat index) with Some ri => N.land (ri_flags ri) 63 = 0 | None => True end)) ->
  dispatch c o 6 body fds = (HReply EINVAL [] [], c, fds, []).
Proof.
  intros c o body fds H. change (dispatch c o 6 ?b fds) with (get_region_io_fds c b, c, fds, @nil event). unfold get_region_io_fds.
  destruct H as [H|(argsz & flags & index & count & rest & -> & A & F & I & C & H)].
  - replace (N.of_nat (length body) <? 16) with true by lia. reflexivity.
  - destruct (N.of_nat _ <? 16); [reflexivity|].
    unfold io_fds_req. rewrite rd_front by exact A. cbn [need]. rdsk. rewrite rd_front by exact F. cbn [need].
    rdsk. rewrite rd_front by exact I. cbn [need]. rdsk. rewrite rd_front by exact C. cbn [need].
    destruct (negb (flags =? 0) || negb (count =? 0)) eqn:E1; [reflexivity|].
    destruct (nth_error (cx_regs c) (N.to_nat index)) as [ri|]; [|reflexivity].
    destruct (negb (has (ri_flags ri) REGION_FLAG_MASK)) eqn:E2; [reflexivity|].
    unfold MAX_XFER. destruct ((argsz <? 16) || (1048576 <? argsz)) eqn:E3; [reflexivity|].
    exfalso. unfold has, REGION_FLAG_MASK in E2. rewrite negb_involutive in E2. apply N.eqb_neq in E2.
    destruct H as [H|[H|[H|[H|H]]]]; try contradiction; lia.
Qed.
Print Assumptions C39_refused.

(* Three ioeventfds sharing a descriptor, one with shadow memory, one without descriptor. *)
Definition ex_subs : list ioeventfd := [mk_ioefd 0 4 7 0 0 (-1) 0; mk_ioefd 8 4 9 1 5 7 64; mk_ioefd 16 8 (-1) 0 0 (-1) 0].
Example C39_nonvacuous :
  let c := mk_ctx None 0 [mk_reg 3 64 false [] (-1)%Z 0 ex_subs] (mk_pci [] [] [] None) false false false false None (mk_irq_cfg [] []) None 0 in
  let o := ex_oracle (fun _ _ n => AccOk n []) in
  subs_wf ex_subs /\
  fst (fst (fst (dispatch c o 6 (io_fds_req 160 0 0 0 []) []))) =
    HReply 0 (io_fds_req 160 0 0 3 (sub_region (mk_ioefd 0 4 7 0 0 (-1) 0) 0 0 ++ sub_region (mk_ioefd 8 4 9 1 5 7 64) 1 0 ++ sub_region (mk_ioefd 16 8 (-1) 0 0 (-1) 0) (2 ^ 32 - 1) 0)) [7; 9]%Z /\
  fst (fst (fst (dispatch c o 6 (io_fds_req 159 0 0 0 []) []))) = HReply 0 (io_fds_req 160 0 0 3 []) [].
Proof. split; [repeat constructor; cbn; lia|]. split; vm_compute; reflexivity. Qed.

(* ---------- C54 *)
Lemma supported_bits s f b : N.testbit (feature_supported (Some s) f) b = true <-> feature_ops f b.
Proof.
  unfold feature_supported, feature_ops, FEATURE_MIGRATION, FEATURE_DMA_LOGGING_REPORT, FEATURE_MIG_DEVICE_STATE, FEATURE_DMA_LOGGING_START, FEATURE_DMA_LOGGING_STOP, FEATURE_GET, FEATURE_SET, FEATURE_PROBE.
  change 65536 with (2 ^ 16). change 131072 with (2 ^ 17). change 262144 with (2 ^ 18).
  destruct ((f =? 1) || (f =? 8)) eqn:E1; [|destruct (f =? 2) eqn:E2; [|destruct ((f =? 6) || (f =? 7)) eqn:E3]];
    rewrite ?N.lor_spec, ?N.pow2_bits_eqb, ?N.bits_0, ?orb_true_iff, ?N.eqb_eq; split; intros H; try discriminate H; try lia.
Qed.

Lemma ops_subset flags sup : (forall b, N.testbit sup b = true -> 16 <= b) ->
  (N.land flags sup = N.ldiff flags FEATURE_MASK <-> forall b, 16 <= b -> N.testbit flags b = true -> N.testbit sup b = true).
Proof.
  intros S. unfold FEATURE_MASK. change 65535 with (N.ones 16). split.
  - intros H b L T. apply (f_equal (fun x => N.testbit x b)) in H. rewrite N.land_spec, N.ldiff_spec, T, N.ones_spec_high in H by exact L.
    now rewrite !andb_true_l in H.
  - intros H. apply N.bits_inj. intros b. rewrite N.land_spec, N.ldiff_spec. destruct (N.lt_ge_cases b 16) as [L|L].
    + rewrite N.ones_spec_low by exact L. cbn [negb]. rewrite andb_false_r.
      destruct (N.testbit sup b) eqn:E; [apply S in E; lia|]. apply andb_false_r.
    + rewrite N.ones_spec_high by exact L. cbn [negb]. rewrite andb_true_r.
      destruct (N.testbit flags b) eqn:E; [|reflexivity]. now rewrite (H b L E).
Qed.

Definition feature_check (m : option N) (flags : N) : bool :=
  let sup := feature_supported m (N.land flags FEATURE_MASK) in
  negb (negb (N.land flags sup =? N.ldiff flags FEATURE_MASK) || (sup =? 0)).

Lemma feature_check_spec m flags : feature_check m flags = true -> m <> None /\ forall b, 16 <= b -> N.testbit flags b = true -> feature_ops (flags mod 2 ^ 16) b.
Proof.
  unfold feature_check. rewrite negb_true_iff, orb_false_iff, negb_false_iff, N.eqb_eq, N.eqb_neq. intros [H NZ].
  destruct m as [s|]; [|now exfalso; apply NZ]. split; [discriminate|]. intros b L T.
  rewrite <- N.land_ones. apply (supported_bits s). rewrite ops_subset in H; [now apply H|].
  intros b' T'. apply supported_bits in T'. unfold feature_ops in T'. lia.
Qed.

Lemma feature_check_ok s flags : ops_supported flags -> feature_check (Some s) flags = true.
Proof.
  intros [[b (L & T)] A]. unfold feature_check. rewrite negb_true_iff, orb_false_iff, negb_false_iff, N.eqb_eq, N.eqb_neq.
  rewrite <- N.land_ones in A. change (N.land flags (N.ones 16)) with (N.land flags FEATURE_MASK) in A. split.
  - apply ops_subset; [intros b' T'; apply supported_bits in T'; unfold feature_ops in T'; lia|].
    intros b' L' T'. apply supported_bits. now apply A.
  - intros Z. specialize (A b L T). apply (supported_bits s) in A. rewrite Z, N.bits_0 in A. discriminate A.
Qed.

Lemma feature_dispatch c o argsz flags data fds : argsz < 2 ^ 32 -> flags < 2 ^ 32 ->
  dispatch c o 16 (feature_req argsz flags data) fds =
  let body := feature_req argsz flags data in
  let ops := N.ldiff flags FEATURE_MASK in
  let feature := N.land flags FEATURE_MASK in
  let '(r, c', ev) :=
    if negb (feature_check (cx_mig c) flags) then (herr EINVAL, c, [])
    else if ops =? FEATURE_GET then
      if is_migration_feature feature then (migration_feature_get c argsz flags feature, c, [])
      else if is_dma_feature feature then let '(r, c') := dma_feature_get c argsz flags body in (r, c', [])
      else (herr EINVAL, c, [])
    else if ops =? FEATURE_SET then
      if argsz <? 8 + N.of_nat (length data) then (herr EINVAL, c, [])
      else if is_migration_feature feature then migration_feature_set c o feature body
      else if is_dma_feature feature then let '(r, c') := dma_feature_set c o feature body in (r, c', [])
      else (HReply EINVAL body [], c, [])
    else if negb (has ops FEATURE_PROBE) then (herr EINVAL, c, [])
    else if argsz <? 8 + N.of_nat (length data) then (herr EINVAL, c, [])
    else (HReply 0 body [], c, []) in (r, c', fds, ev).
Proof.
  intros A F. change (dispatch c o 16 ?b fds) with (let '(r, c', ev) := handle_device_feature c o b in (r, c', fds, ev)).
  unfold handle_device_feature, feature_check.
  assert (L : N.of_nat (length (feature_req argsz flags data)) = 8 + N.of_nat (length data)).
  { unfold feature_req. layout. lia. }
  rewrite L. replace (8 + N.of_nat (length data) <? 8) with false by lia.
  assert (R0 : rd (feature_req argsz flags data) 0 4 = Some argsz) by (unfold feature_req; now rewrite rd_front).
  assert (R1 : rd (feature_req argsz flags data) 4 4 = Some flags) by (unfold feature_req; rdsk; now rewrite rd_front).
  rewrite R0, R1. cbn [need]. cbv zeta. rewrite negb_involutive. reflexivity.
Qed.

(* Unsupported operations, and any operation without migration support, are refused and change nothing. *)
Theorem C54_unsupported : forall c o argsz flags data fds, argsz < 2 ^ 32 -> flags < 2 ^ 32 ->
  ~ (ops_supported flags /\ cx_mig c <> None) ->
  dispatch c o 16 (feature_req argsz flags data) fds = (HReply EINVAL [] [], c, fds, []).
Proof.
  intros c o argsz flags data fds A F N. rewrite feature_dispatch by assumption. cbv zeta.
  destruct (feature_check (cx_mig c) flags) eqn:E; cbn [negb]; [|reflexivity].
  apply feature_check_spec in E. destruct E as [M S].
  assert (Z : N.ldiff flags FEATURE_MASK = 0).
  { apply N.bits_inj. intros b. rewrite N.bits_0, N.ldiff_spec. unfold FEATURE_MASK. change 65535 with (N.ones 16).
    destruct (N.lt_ge_cases b 16) as [L|L].
    - rewrite N.ones_spec_low by exact L. apply andb_false_r.
    - rewrite N.ones_spec_high by exact L. cbn [negb]. rewrite andb_true_r.
      destruct (N.testbit flags b) eqn:T; [|reflexivity]. exfalso. apply N. split; [|exact M]. split; [now exists b|exact S]. }
  rewrite Z. reflexivity.
Qed.
Print Assumptions C54_unsupported.

Theorem C54_short : forall c o body fds, (length body < 8)%nat -> dispatch c o 16 body fds = (HReply EINVAL [] [], c, fds, []).
Proof.
  intros c o body fds L. change (dispatch c o 16 ?b fds) with (let '(r, c', ev) := handle_device_feature c o b in (r, c', fds, ev)).
  unfold handle_device_feature. replace (N.of_nat (length body) <? 8) with true by lia. reflexivity.
Qed.
Print Assumptions C54_short.

(* A supported probe changes nothing and echoes the request. *)
Theorem C54_probe : forall c o argsz flags data fds s, argsz < 2 ^ 32 -> flags < 2 ^ 32 ->
  cx_mig c = Some s -> ops_supported flags -> N.testbit flags 18 = true -> 8 + N.of_nat (length data) <= argsz ->
  dispatch c o 16 (feature_req argsz flags data) fds = (HReply 0 (feature_req argsz flags data) [], c, fds, []).
Proof.
  intros c o argsz flags data fds s A F M S T L. rewrite feature_dispatch by assumption. cbv zeta. rewrite M, (feature_check_ok s _ S). cbn [negb].
  assert (T' : N.testbit (N.ldiff flags FEATURE_MASK) 18 = true) by (rewrite N.ldiff_spec, T; reflexivity).
  destruct (N.ldiff flags FEATURE_MASK =? FEATURE_GET) eqn:E1; [apply N.eqb_eq in E1; rewrite E1 in T'; discriminate T'|].
  destruct (N.ldiff flags FEATURE_MASK =? FEATURE_SET) eqn:E2; [apply N.eqb_eq in E2; rewrite E2 in T'; discriminate T'|].
  unfold FEATURE_PROBE. change 262144 with (2 ^ 18). rewrite has_pow2, T'. cbn [negb]. replace (argsz <? _) with false by lia. reflexivity.
Qed.
Print Assumptions C54_probe.

(* Only get, only set and combinations with probe are accepted. *)
Theorem C54_get_and_set : forall c o argsz flags data fds, argsz < 2 ^ 32 -> flags < 2 ^ 32 ->
  N.testbit flags 16 = true -> N.testbit flags 17 = true -> N.testbit flags 18 = false ->
  dispatch c o 16 (feature_req argsz flags data) fds = (HReply EINVAL [] [], c, fds, []).
Proof.
  intros c o argsz flags data fds A F T0 T1 T2. rewrite feature_dispatch by assumption. cbv zeta.
  destruct (negb (feature_check (cx_mig c) flags)); [reflexivity|].
  assert (U0 : N.testbit (N.ldiff flags FEATURE_MASK) 16 = true) by (rewrite N.ldiff_spec, T0; reflexivity).
  assert (U1 : N.testbit (N.ldiff flags FEATURE_MASK) 17 = true) by (rewrite N.ldiff_spec, T1; reflexivity).
  assert (U2 : N.testbit (N.ldiff flags FEATURE_MASK) 18 = false) by (rewrite N.ldiff_spec, T2; reflexivity).
  destruct (N.ldiff flags FEATURE_MASK =? FEATURE_GET) eqn:E1; [apply N.eqb_eq in E1; rewrite E1 in U1; discriminate U1|].
  destruct (N.ldiff flags FEATURE_MASK =? FEATURE_SET) eqn:E2; [apply N.eqb_eq in E2; rewrite E2 in U0; discriminate U0|].
  unfold FEATURE_PROBE. change 262144 with (2 ^ 18). rewrite has_pow2, U2. reflexivity.
Qed.
Print Assumptions C54_get_and_set.

(* Reading the supported migration modes (stop-copy and pre-copy) and the device state. *)
Theorem C54_get : forall c o argsz data fds s feature, argsz < 2 ^ 32 -> cx_mig c = Some s -> feature = 1 \/ feature = 2 ->
  dispatch c o 16 (feature_req argsz (2 ^ 16 + feature) data) fds =
    (if argsz <? 16 then HReply EINVAL [] []
     else HReply 0 (feature_req 16 (2 ^ 16 + feature) (if feature =? 1 then le_bytes 8 5 else le_bytes 4 s ++ le_bytes 4 0)) [], c, fds, []).
Proof.
  intros c o argsz data fds s feature A M [->| ->]; (rewrite feature_dispatch by (assumption || lia)); rewrite M;
    (rewrite (feature_check_ok s) by (split; [exists 16; split; [lia|reflexivity]|];
      intros b L T; assert (b = 16) as -> by
        (destruct (N.lt_ge_cases b 17); [lia|];
         rewrite N.bits_above_log2 in T by (change (N.log2 _) with 16; lia); discriminate T); vm_compute; tauto));
    cbn [negb]; change (N.land _ _) with (2 ^ 0) || change (N.land _ _) with 2;
    cbv zeta; cbn - [dispatch le_bytes N.ltb]; unfold migration_feature_get; destruct (argsz <? 16); try reflexivity;
    cbn - [le_bytes]; rewrite ?M; reflexivity.
Qed.
Print Assumptions C54_get.

(* Requests to change the device state: the migration state machine decides (C30 - C32), and nothing else changes. *)
Theorem C54_set_state : forall c o argsz st reserved fds s, argsz < 2 ^ 32 -> st < 2 ^ 32 -> 12 + N.of_nat (length reserved) <= argsz ->
  cx_mig c = Some s ->
  forall res s' ev, migration_set_state (or_trans o) s st = (res, s', ev) ->
  dispatch c o 16 (feature_req argsz (2 ^ 17 + 2) (le_bytes 4 st ++ reserved)) fds =
    (match res with
     | Ok _ => HReply 0 (feature_req argsz (2 ^ 17 + 2) (le_bytes 4 st ++ reserved)) []
     | Err e => HReply e (feature_req argsz (2 ^ 17 + 2) (le_bytes 4 st ++ reserved)) []
     | Crash cr => HCrash cr
     end, set_mig c (Some s'), fds, ev).
Proof.
  intros c o argsz st reserved fds s A S L M res s' ev H. rewrite feature_dispatch by (assumption || lia). rewrite M.
  rewrite (feature_check_ok s) by (split; [exists 17; split; [lia|reflexivity]|];
      intros b Lb T; assert (b = 17) as -> by
        (destruct (N.lt_ge_cases b 18) as [K|K]; [destruct (N.eq_dec b 16) as [->|]; [discriminate T|lia]|];
         rewrite N.bits_above_log2 in T by (change (N.log2 _) with 17; lia); discriminate T); vm_compute; tauto).
  cbn [negb]. cbv zeta. change (N.ldiff (2 ^ 17 + 2) FEATURE_MASK) with FEATURE_SET. change (N.land (2 ^ 17 + 2) FEATURE_MASK) with 2.
  change (FEATURE_SET =? FEATURE_GET) with false. rewrite N.eqb_refl. cbn iota.
  rewrite app_length, le_bytes_length. replace (argsz <? 8 + N.of_nat (4 + length reserved)) with false by lia.
  change (is_migration_feature 2) with true. cbn iota. unfold migration_feature_set. change (negb (2 =? FEATURE_MIG_DEVICE_STATE)) with false. cbn iota.
  assert (R : rd (feature_req argsz (2 ^ 17 + 2) (le_bytes 4 st ++ reserved)) 8 4 = Some st)
    by (unfold feature_req; rdsk; now rewrite rd_front).
  rewrite R. cbn [need]. rewrite M, H. reflexivity.
Qed.
Print Assumptions C54_set_state.

Example C54_nonvacuous :
  let o := ex_oracle (fun _ _ n => AccOk n []) in
  let d m flags := fst (fst (fst (dispatch (ex_ctx m) o 16 (feature_req 16 flags (zeros 8)) []))) in
  ops_supported (2 ^ 18 + 2 ^ 16 + 2) /\ ~ ops_supported (2 ^ 17 + 1) /\
  d (Some 2) (2 ^ 18 + 2 ^ 16 + 2) = HReply 0 (feature_req 16 (2 ^ 18 + 2 ^ 16 + 2) (zeros 8)) [] /\
  d (Some 2) (2 ^ 16 + 2) = HReply 0 (feature_req 16 (2 ^ 16 + 2) [2; 0; 0; 0; 0; 0; 0; 0]) [] /\
  d (Some 2) (2 ^ 17 + 1) = HReply EINVAL [] [] /\ d None (2 ^ 16 + 2) = HReply EINVAL [] [].
Proof.
  split; [split; [exists 16; split; [lia|reflexivity]|]|].
  { intros b L T. assert (b = 16 \/ b = 17 \/ b = 18) as [->|[->| ->]] by
      (destruct (N.lt_ge_cases b 19) as [K|K]; [lia|]; rewrite N.bits_above_log2 in T by (change (N.log2 _) with 18; lia); discriminate T);
    [vm_compute; tauto|discriminate T|vm_compute; tauto]. }
  split; [|split; [|split; [|split]]; vm_compute; reflexivity].
  intros [_ H]. specialize (H 17 ltac:(lia) eq_refl). unfold feature_ops in H. change ((2 ^ 17 + 1) mod 2 ^ 16) with 1 in H. lia.
Qed.
