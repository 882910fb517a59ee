(* Lemmas about the interrupt model. *)
From Coq Require Import NArith ZArith List Bool Lia ZifyBool ZifyNat ZifyN.
From Verif Require Import Base Types Bytes BytesProofs Dma Migr Irq SpecIrq.
Import ListNotations.
Open Scope N_scope.
Ltac Zify.zify_post_hook ::= idtac.

(* Masking a flags word with a constant below 64 only looks at bits 0..5. *)
Lemma land_const flags c : c < 64 -> N.land flags c =
  N.land ((if N.testbit flags 0 then 1 else 0) + (if N.testbit flags 1 then 2 else 0) + (if N.testbit flags 2 then 4 else 0) +
          (if N.testbit flags 3 then 8 else 0) + (if N.testbit flags 4 then 16 else 0) + (if N.testbit flags 5 then 32 else 0)) c.
Proof.
  intros Hc. apply N.bits_inj. intros n. rewrite !N.land_spec.
  destruct (N.lt_ge_cases n 6) as [L|L].
  - f_equal.
    assert (C : n = 0 \/ n = 1 \/ n = 2 \/ n = 3 \/ n = 4 \/ n = 5) by lia.
    destruct C as [->|[->|[->|[->|[->| ->]]]]];
      destruct (N.testbit flags 0), (N.testbit flags 1), (N.testbit flags 2), (N.testbit flags 3), (N.testbit flags 4),
        (N.testbit flags 5); reflexivity.
  - assert (Z : N.testbit c n = false).
    { destruct (N.eq_dec c 0) as [->|NZ]; [apply N.bits_0|]. apply N.bits_above_log2.
      assert (N.log2 c < 6); [|lia]. apply N.log2_lt_pow2; [lia|]. change (2 ^ 6) with 64. exact Hc. }
    rewrite Z, !andb_false_r. reflexivity.
Qed.

Ltac flag_bits flags :=
  rewrite (land_const flags) by reflexivity; unfold action_bits, data_bits; cbn [filter];
  destruct (N.testbit flags 0), (N.testbit flags 1), (N.testbit flags 2), (N.testbit flags 3), (N.testbit flags 4),
    (N.testbit flags 5); vm_compute; split; intros H; (reflexivity || discriminate H).

Lemma act_mask flags : N.land flags 56 = 8 <-> is_mask flags.
Proof. unfold is_mask. flag_bits flags. Qed.
Lemma act_unmask flags : N.land flags 56 = 16 <-> is_unmask flags.
Proof. unfold is_unmask. flag_bits flags. Qed.
Lemma act_trigger flags : N.land flags 56 = 32 <-> is_trigger flags.
Proof. unfold is_trigger. flag_bits flags. Qed.
Lemma dat_none flags : N.land flags 7 = 1 <-> data_none flags.
Proof. unfold data_none. flag_bits flags. Qed.
Lemma dat_bool flags : N.land flags 7 = 2 <-> data_bool flags.
Proof. unfold data_bool. flag_bits flags. Qed.
Lemma dat_eventfd flags : N.land flags 7 = 4 <-> data_eventfd flags.
Proof. unfold data_eventfd. flag_bits flags. Qed.

Lemma satadd32_le a b c : a < two32 -> b < two32 -> c < two32 -> a <= c -> (satadd_u32 a b <= c <-> a + b <= c \/ (c = two32 - 1 /\ c < a + b)).
Proof.
  intros Ha Hb Hc Hac. unfold satadd_u32, w32, two32 in *.
  destruct (N.lt_ge_cases (a + b) 4294967296) as [L|L].
  - rewrite N.mod_small by exact L. destruct (a + b <? a) eqn:E; lia.
  - assert (M : (a + b) mod 4294967296 = a + b - 4294967296).
    { symmetry. apply N.mod_unique with (q := 1); lia. }
    rewrite M. destruct (a + b - 4294967296 <? a) eqn:E; lia.
Qed.

(* With fewer than 2^32-1 vectors the saturating test is the exact one. *)
Lemma satadd32_exact a b c : a < two32 -> b < two32 -> c < two32 - 1 -> (c <? satadd_u32 a b) = negb (a + b <=? c).
Proof.
  intros Ha Hb Hc. unfold satadd_u32, w32, two32 in *.
  destruct (N.lt_ge_cases (a + b) 4294967296) as [L|L].
  - rewrite N.mod_small by exact L. destruct (a + b <? a) eqn:E; lia.
  - assert (M : (a + b) mod 4294967296 = a + b - 4294967296) by (symmetry; apply N.mod_unique with (q := 1); lia).
    rewrite M. destruct (a + b - 4294967296 <? a) eqn:E; lia.
Qed.

(* ---- decoding *)
Lemma isb_fields argsz flags index start count data :
  argsz < two32 -> flags < two32 -> index < two32 -> start < two32 -> count < two32 ->
  let b := irq_set_body argsz flags index start count data in
  length b = (20 + length data)%nat /\ rd b 0 4 = Some argsz /\ rd b 4 4 = Some flags /\ rd b 8 4 = Some index /\
  rd b 12 4 = Some start /\ rd b 16 4 = Some count /\ skipn 20 b = data.
Proof.
  intros H1 H2 H3 H4 H5. cbn zeta. unfold irq_set_body.
  assert (L : length (le_bytes 4 argsz ++ le_bytes 4 flags ++ le_bytes 4 index ++ le_bytes 4 start ++ le_bytes 4 count ++ data) =
              (20 + length data)%nat) by (rewrite !app_length, !le_bytes_length; lia).
  split; [exact L|].
  repeat match goal with |- _ /\ _ => split end.
  - now apply rd_front.
  - rewrite rd_skip by (rewrite le_bytes_length; lia). rewrite le_bytes_length. cbn [Nat.sub]. now apply rd_front.
  - do 2 (rewrite rd_skip by (rewrite le_bytes_length; lia); rewrite le_bytes_length; cbn [Nat.sub]). now apply rd_front.
  - do 3 (rewrite rd_skip by (rewrite le_bytes_length; lia); rewrite le_bytes_length; cbn [Nat.sub]). now apply rd_front.
  - do 4 (rewrite rd_skip by (rewrite le_bytes_length; lia); rewrite le_bytes_length; cbn [Nat.sub]). now apply rd_front.
  - reflexivity.
Qed.

Lemma isb_complete body : bytes body -> (20 <= length body)%nat ->
  exists argsz flags index start count data, argsz < two32 /\ flags < two32 /\ index < two32 /\ start < two32 /\ count < two32 /\
    body = irq_set_body argsz flags index start count data.
Proof.
  intros B H.
  destruct (split_field 4 body B) as (f1 & r1 & -> & H1 & B1); [lia|]. rewrite app_length, le_bytes_length in H.
  destruct (split_field 4 r1 B1) as (f2 & r2 & -> & H2 & B2); [lia|]. rewrite app_length, le_bytes_length in H.
  destruct (split_field 4 r2 B2) as (f3 & r3 & -> & H3 & B3); [lia|]. rewrite app_length, le_bytes_length in H.
  destruct (split_field 4 r3 B3) as (f4 & r4 & -> & H4 & B4); [lia|]. rewrite app_length, le_bytes_length in H.
  destruct (split_field 4 r4 B4) as (f5 & r5 & -> & H5 & B5); [lia|].
  exists f1, f2, f3, f4, f5, r5. repeat split; auto.
Qed.

(* ---- validation *)
Lemma valid_iff c argsz flags index start count data fds :
  start < two32 -> count < two32 -> Forall (fun n => n < two32 - 1) (ic_count c) ->
  set_irqs_valid c (N.of_nat (20 + length data)) argsz flags index start count (N.of_nat (length fds)) = true <->
  irq_request_ok c argsz flags index start count data fds.
Proof.
  intros Hs Hc Hn.
  assert (Hcnt : irq_count c index < two32 - 1).
  { unfold irq_count. destruct (Nat.lt_ge_cases (N.to_nat index) (length (ic_count c))) as [L|L].
    - rewrite Forall_forall in Hn. apply Hn. now apply nth_In.
    - rewrite nth_overflow by exact L. reflexivity. }
  unfold set_irqs_valid, IRQ_ACTION_TYPE_MASK, IRQ_DATA_TYPE_MASK, IRQ_DATA_BOOL, IRQ_DATA_NONE, IRQ_DATA_EVENTFD,
    IRQ_ACTION_MASK, IRQ_ACTION_UNMASK, IRQ_ACTION_TRIGGER, NUM_IRQS, IRQ_ERR, IRQ_REQ.
  rewrite (satadd32_exact start count _ Hs Hc Hcnt).
  set (a := N.land flags 56) in *. set (d := N.land flags 7) in *.
  assert (A8 := act_mask flags). assert (A16 := act_unmask flags). assert (A32 := act_trigger flags).
  assert (D1 := dat_none flags). assert (D2 := dat_bool flags). assert (D4 := dat_eventfd flags).
  fold a in A8, A16, A32. fold d in D1, D2, D4.
  assert (Hl : N.of_nat (20 + length data) = 20 + N.of_nat (length data)) by lia. rewrite Hl.
  assert (Hf : fds = [] <-> N.of_nat (length fds) = 0).
  { split; [intros ->; reflexivity|]. destruct fds; [reflexivity|]. cbn [length]. lia. }
  unfold irq_count in *. set (n := nth (N.to_nat index) (ic_count c) 0) in *.
  split.
  - intros H.
    repeat match type of H with
    | (if ?b then false else _) = true => destruct b eqn:?; [discriminate H|]
    end.
    constructor.
    + lia.
    + lia.
    + rewrite <- A8, <- A16, <- A32. lia.
    + rewrite <- D1, <- D2, <- D4. lia.
    + unfold n in *. lia.
    + unfold n in *. lia.
    + rewrite <- A32. intros. lia.
    + rewrite <- A32, <- D1. intros. lia.
    + rewrite <- D2. intros. lia.
    + rewrite Hf, <- D4. intros. lia.
  - intros [R1 R2 R3 R4 R5 R6 R7 R8 R9 R10].
    rewrite <- A8, <- A16, <- A32 in R3. rewrite <- D1, <- D2, <- D4 in R4.
    rewrite <- A32 in R7. rewrite <- A32, <- D1 in R8. rewrite <- D2 in R9. rewrite Hf, <- D4 in R10.
    fold n in R5, R6.
    clear A8 A16 A32 D1 D2 D4 Hl Hcnt Hn.
    assert (X : forall b (k : bool), b = false -> k = true -> (if b then false else k) = true) by (intros b k -> ->; reflexivity).
    apply X; [clear - R1; lia|].
    apply X; [clear - R9; lia|].
    apply X; [clear - R2; lia|].
    apply X; [clear - R3; lia|].
    apply X; [clear - R4; lia|].
    apply X; [clear - R5; lia|].
    apply X; [clear - R6; lia|].
    apply X; [clear - R7; lia|].
    apply X; [clear - R7; lia|].
    apply X; [clear - R8; lia|].
    apply X; [clear - R8; lia|].
    apply X; [clear - R10; lia|].
    apply X; [clear - R10; lia|].
    reflexivity.
Qed.

(* ---- vectors *)
Definition vectors (start : N) (n : nat) : list N := map (fun k => start + N.of_nat k) (seq 0 n).

Lemma vectors_S start n : vectors start (S n) = start :: vectors (start + 1) n.
Proof.
  unfold vectors. cbn [seq map]. f_equal; [lia|]. rewrite <- seq_shift, map_map.
  apply map_ext. intros k. lia.
Qed.

Lemma in_vectors v start n : In v (vectors start n) <-> start <= v < start + N.of_nat n.
Proof.
  unfold vectors. rewrite in_map_iff. split.
  - intros (k & <- & H). apply in_seq in H. lia.
  - intros H. exists (N.to_nat (v - start)). split; [lia|]. apply in_seq. lia.
Qed.

(* Slot of a vector exists. *)
Definition slots (t : irqs) (index start : N) (n : nat) : Prop :=
  n = O \/ ((index = 3 \/ index = 4) /\ n = 1%nat) \/ (index < 3 /\ start + N.of_nat n <= N.of_nat (length (iq_efds t))).

Lemma get_efd_binding t index i : index = 3 \/ index = 4 \/ i < N.of_nat (length (iq_efds t)) ->
  get_efd t index i = Some (binding t index i).
Proof.
  intros H. unfold get_efd, binding, IRQ_ERR, IRQ_REQ. destruct (index =? 3) eqn:E3; [reflexivity|].
  destruct (index =? 4) eqn:E4; [reflexivity|].
  apply nth_error_nth'. lia.
Qed.

Lemma nth_set_nth {A} (l : list A) i j v d : nth j (set_nth i v l) d = if Nat.eqb i j && Nat.ltb i (length l) then v else nth j l d.
Proof.
  revert i j. induction l as [|x l IH]; intros i j.
  - destruct i, j; cbn [set_nth nth length]; destruct (Nat.eqb _ _); reflexivity.
  - destruct i as [|i], j as [|j]; cbn [set_nth nth length]; try reflexivity.
    rewrite IH. reflexivity.
Qed.

Lemma set_nth_length {A} (l : list A) i v : length (set_nth i v l) = length l.
Proof. revert i. induction l as [|x l IH]; intros [|i]; cbn [set_nth length]; auto. Qed.

Lemma set_efd_len t index i fd : length (iq_efds (set_efd t index i fd)) = length (iq_efds t).
Proof.
  unfold set_efd. destruct (index =? IRQ_ERR); [reflexivity|]. destruct (index =? IRQ_REQ); [reflexivity|].
  cbn [iq_efds]. apply set_nth_length.
Qed.

Lemma set_efd_same t index i fd : index = 3 \/ index = 4 \/ i < N.of_nat (length (iq_efds t)) ->
  binding (set_efd t index i fd) index i = fd.
Proof.
  intros H. unfold set_efd, binding, IRQ_ERR, IRQ_REQ. destruct (index =? 3) eqn:E3; [reflexivity|].
  destruct (index =? 4) eqn:E4; [reflexivity|]. cbn [iq_efds]. rewrite nth_set_nth, Nat.eqb_refl.
  assert (L : Nat.ltb (N.to_nat i) (length (iq_efds t)) = true) by (apply Nat.ltb_lt; lia). now rewrite L.
Qed.

(* Other vectors and other interrupt types are not touched. *)
Lemma set_efd_other t index i fd j v : ~ (same_vectors index j /\ (index < 3 -> v = i)) -> index < 5 -> j < 5 ->
  binding (set_efd t index i fd) j v = binding t j v.
Proof.
  intros H Hi Hj. unfold set_efd, binding, same_vectors, IRQ_ERR, IRQ_REQ in *.
  destruct (index =? 3) eqn:E3.
  - cbn [iq_efds iq_err iq_req]. destruct (j =? 3) eqn:J3; [exfalso; lia|reflexivity].
  - destruct (index =? 4) eqn:E4.
    + cbn [iq_efds iq_err iq_req]. destruct (j =? 3) eqn:J3; [reflexivity|].
      destruct (j =? 4) eqn:J4; [exfalso; lia|reflexivity].
    + cbn [iq_efds iq_err iq_req]. destruct (j =? 3) eqn:J3; [reflexivity|]. destruct (j =? 4) eqn:J4; [reflexivity|].
      rewrite nth_set_nth. destruct (Nat.eqb (N.to_nat i) (N.to_nat v) && Nat.ltb (N.to_nat i) (length (iq_efds t))) eqn:Q; [|reflexivity].
      exfalso. apply H. lia.
Qed.

Lemma slots_step t index i n fd : slots t index i (S n) -> slots (set_efd t index i fd) index (i + 1) n.
Proof.
  unfold slots. rewrite set_efd_len. intros [H|[H|H]]; [discriminate| |].
  - left. lia.
  - right. right. lia.
Qed.

Lemma slots_first t index i n : slots t index i (S n) -> index = 3 \/ index = 4 \/ i < N.of_nat (length (iq_efds t)).
Proof. unfold slots. lia. Qed.

(* The descriptors closed when vectors are released. *)
Definition closes (l : list Z) : list event := map EvClose (filter (fun fd => negb (fd =? -1)%Z) l).

Lemma closes_cons x l : closes (x :: l) = close_ev x ++ closes l.
Proof. unfold closes, close_ev. cbn [filter]. destruct (x =? -1)%Z; reflexivity. Qed.

Lemma closes_app l1 l2 : closes (l1 ++ l2) = closes l1 ++ closes l2.
Proof. unfold closes. now rewrite filter_app, map_app. Qed.

(* Touching only vectors after i leaves the bindings at and before i alone. *)
Lemma bind_loop_spec : forall n t index i fs rest, index < 5 -> slots t index i n -> length fs = n ->
  Forall (fun fd => (0 <= fd)%Z) fs ->
  exists t', bind_loop t index i n (fs ++ rest) =
      (Ok tt, t', repeat (-1)%Z n ++ rest, closes (map (binding t index) (vectors i n))) /\
    length (iq_efds t') = length (iq_efds t) /\
    (forall k fd, nth_error fs k = Some fd -> binding t' index (i + N.of_nat k) = fd) /\
    (forall j v, j < 5 -> ~ (same_vectors index j /\ n <> O /\ (index < 3 -> i <= v < i + N.of_nat n)) -> binding t' j v = binding t j v).
Proof.
  induction n as [|n IH]; intros t index i fs rest Hi Sl Lf Pos.
  - destruct fs; [|discriminate Lf]. exists t. cbn [bind_loop vectors map seq repeat app].
    split; [reflexivity|]. split; [reflexivity|]. split.
    + intros k fd H. destruct k; discriminate H.
    + reflexivity.
  - destruct fs as [|fd fs]; [discriminate Lf|]. injection Lf as Lf. inversion Pos as [|? ? P0 P1]; subst.
    cbn [bind_loop app]. pose proof (slots_first _ _ _ _ Sl) as Sf.
    rewrite (get_efd_binding _ _ _ Sf).
    destruct (fd <? 0)%Z eqn:En; [exfalso; lia|].
    destruct (IH (set_efd t index i fd) index (i + 1) fs rest Hi (slots_step _ _ _ _ fd Sl) eq_refl P1)
      as (t' & E & L & B & O). rewrite E.
    exists t'. split.
    { f_equal. rewrite vectors_S. cbn [map]. rewrite closes_cons. f_equal. f_equal.
      apply map_ext_in. intros v Hv. apply in_vectors in Hv.
      apply set_efd_other; auto. intros [_ Q]. destruct Sl as [S|[S|S]]; try discriminate S; [|lia].
      destruct S as [S1 S2]. injection S2 as S2. rewrite S2 in Hv. lia. }
    split; [rewrite L; apply set_efd_len|]. split.
    + intros k fd' H. destruct k as [|k]; cbn [nth_error] in H.
      * injection H as <-. rewrite N.add_0_r.
        rewrite O; [now apply set_efd_same|exact Hi|].
        intros (_ & NZ & Q). destruct Sl as [S|[S|S]]; try discriminate S; lia.
      * replace (i + N.of_nat (S k)) with (i + 1 + N.of_nat k) by lia. now apply B.
    + intros j v Hj H. rewrite O; auto.
      * apply set_efd_other; auto. intros [SV Q]. apply H. split; [exact SV|]. split; [discriminate|]. intros; lia.
      * intros (SV & NZ & Q). apply H. split; [exact SV|]. split; [discriminate|]. intros; lia.
Qed.

(* Signalling. *)
Definition signalled (t : irqs) (index : N) (vs : list N) : list Z :=
  filter (fun fd => (fd >=? 0)%Z) (map (binding t index) vs).

(* Vectors selected by the flag bytes. *)
Fixpoint selected (vs : list N) (flags : list N) : list N :=
  match vs, flags with
  | v :: vs', b :: flags' => if b =? 1 then v :: selected vs' flags' else selected vs' flags'
  | _, _ => []
  end.

Definition chosen (vs : list N) (sel : option (list N)) : list N :=
  match sel with None => vs | Some fl => selected vs fl end.

Lemma signal_loop_spec : forall n t index i sel answers k, slots t index i n ->
  (forall fl, sel = Some fl -> length fl = n) ->
  exists o ev, signal_loop t index i n sel answers k = (o, ev) /\
    writes answers k (signalled t index (chosen (vectors i n) sel)) o ev.
Proof.
  induction n as [|n IH]; intros t index i sel answers k Sl Hf.
  - exists (Ok tt), []. cbn [signal_loop]. split; [reflexivity|].
    destruct sel as [fl|]; cbn [chosen vectors seq map selected]; constructor.
  - cbn [signal_loop]. pose proof (slots_first _ _ _ _ Sl) as Sf. rewrite (get_efd_binding _ _ _ Sf).
    rewrite vectors_S.
    assert (Sl' : slots t index (i + 1) n).
    { unfold slots in *. destruct Sl as [S|[S|S]]; [discriminate|left; lia|right; right; lia]. }
    destruct sel as [fl|]; cbn [option_map].
    + specialize (Hf fl eq_refl). destruct fl as [|b fl]; [discriminate Hf|]. injection Hf as Hf.
      cbn [chosen selected tl].
      assert (IH' := fun k => IH t index (i + 1) (Some fl) answers k Sl' ltac:(intros fl' Q; injection Q as <-; exact Hf)).
      cbn [chosen] in IH'.
      destruct (b =? 1) eqn:Eb.
      * destruct (binding t index i >=? 0)%Z eqn:Ef; cbn [andb].
        -- destruct (answers k) as [e|] eqn:A.
           ++ eexists _, _. split; [reflexivity|]. unfold signalled. cbn [map filter]. rewrite Ef. now constructor.
           ++ destruct (IH' (S k)) as (o & ev & E & W). rewrite E. exists o, (EvSignal (binding t index i) :: ev).
              split; [reflexivity|]. unfold signalled. cbn [map filter]. rewrite Ef. now constructor.
        -- destruct (IH' k) as (o & ev & E & W). exists o, ev. split; [exact E|].
           unfold signalled. cbn [map filter]. rewrite Ef. exact W.
      * rewrite andb_false_r. destruct (IH' k) as (o & ev & E & W). exists o, ev. split; [exact E|exact W].
    + assert (IH' := fun k => IH t index (i + 1) None answers k Sl' ltac:(discriminate)).
      cbn [chosen] in IH' |- *. rewrite andb_true_r.
      destruct (binding t index i >=? 0)%Z eqn:Ef.
      * destruct (answers k) as [e|] eqn:A.
        -- eexists _, _. split; [reflexivity|]. unfold signalled. cbn [map filter]. rewrite Ef. now constructor.
        -- destruct (IH' (S k)) as (o & ev & E & W). rewrite E. exists o, (EvSignal (binding t index i) :: ev).
           split; [reflexivity|]. unfold signalled. cbn [map filter]. rewrite Ef. now constructor.
      * destruct (IH' k) as (o & ev & E & W). exists o, ev. split; [exact E|].
        unfold signalled. cbn [map filter]. rewrite Ef. exact W.
Qed.

(* Disabling. *)
Lemma disable_loop_spec : forall n t index i, index < 5 -> slots t index i n -> (index = 3 \/ index = 4 -> i = 0) ->
  exists t', disable_loop t index i n = (Ok tt, t', closes (map (binding t index) (vectors i n))) /\
    length (iq_efds t') = length (iq_efds t) /\
    (forall v, (index < 3 -> i <= v < i + N.of_nat n) -> n <> O -> binding t' index v = (-1)%Z) /\
    (forall j v, j < 5 -> ~ (same_vectors index j /\ n <> O /\ (index < 3 -> i <= v < i + N.of_nat n)) -> binding t' j v = binding t j v).
Proof.
  induction n as [|n IH]; intros t index i Hi Sl H0.
  - exists t. cbn [disable_loop vectors map seq]. split; [reflexivity|]. split; [reflexivity|]. split; [intros; contradiction|reflexivity].
  - cbn [disable_loop]. pose proof (slots_first _ _ _ _ Sl) as Sf.
    assert (G : ((index =? IRQ_ERR) || (index =? IRQ_REQ)) && negb (i =? 0) = false).
    { unfold IRQ_ERR, IRQ_REQ. destruct (index =? 3) eqn:E3; [rewrite (H0 ltac:(lia)); reflexivity|].
      destruct (index =? 4) eqn:E4; [rewrite (H0 ltac:(lia)); reflexivity|reflexivity]. }
    rewrite G, (get_efd_binding _ _ _ Sf).
    assert (IH' := IH (set_efd t index i (-1)) index (i + 1) Hi (slots_step _ _ _ _ (-1)%Z Sl)).
    destruct n as [|n].
    + exists (set_efd t index i (-1)). cbn [disable_loop]. rewrite vectors_S. cbn [map]. rewrite closes_cons.
      split; [reflexivity|]. split; [apply set_efd_len|]. split.
      * intros v Hv _. destruct (N.lt_ge_cases index 3) as [L3|L3].
        -- assert (v = i) by (specialize (Hv L3); lia). subst v. now apply set_efd_same.
        -- unfold set_efd, binding, IRQ_ERR, IRQ_REQ. destruct (index =? 3) eqn:E3; [reflexivity|].
           destruct (index =? 4) eqn:E4; [reflexivity|]. exfalso; lia.
      * intros j v Hj H. apply set_efd_other; auto. intros [SV Q]. apply H. split; [exact SV|]. split; [discriminate|]. intros; lia.
    + assert (L3 : index < 3) by (unfold slots in Sl; lia).
      destruct (IH' ltac:(lia)) as (t' & E & L & B & O). rewrite E. exists t'.
      split.
      { f_equal. rewrite (vectors_S i). cbn [map]. rewrite closes_cons. f_equal. f_equal. apply map_ext_in.
        intros v Hv. apply in_vectors in Hv. apply set_efd_other; auto. intros [_ Q]. lia. }
      split; [rewrite L; apply set_efd_len|]. split.
      * intros v Hv _. specialize (Hv L3). destruct (N.eq_dec v i) as [->|Nv].
        -- rewrite O; [now apply set_efd_same|exact Hi|]. intros (_ & _ & Q). lia.
        -- apply B; [lia|discriminate].
      * intros j v Hj H. rewrite O; auto.
        -- apply set_efd_other; auto. intros [SV Q]. apply H. split; [exact SV|]. split; [discriminate|]. intros; lia.
        -- intros (SV & NZ & Q). apply H. split; [exact SV|]. split; [discriminate|]. intros; lia.
Qed.
