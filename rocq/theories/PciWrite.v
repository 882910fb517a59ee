(* Lemmas about config space writes. *)
From Coq Require Import NArith ZArith List Bool Lia ZifyBool ZifyNat ZifyN.
From Verif Require Import Base Types Bytes BytesProofs Migr Pci SpecPci BufProofs PciProofs.
Import ListNotations.
Open Scope N_scope.
Ltac Zify.zify_post_hook ::= idtac.

Lemma land_pow2 x k : N.land x (2 ^ k) = if N.testbit x k then 2 ^ k else 0.
Proof.
  apply N.bits_inj. intros i. rewrite N.land_spec. destruct (N.eq_dec i k) as [->|D].
  - rewrite N.pow2_bits_true, andb_true_r. destruct (N.testbit x k); [now rewrite N.pow2_bits_true|now rewrite N.bits_0].
  - rewrite N.pow2_bits_false by congruence. rewrite andb_false_r.
    destruct (N.testbit x k); [now rewrite N.pow2_bits_false by congruence|now rewrite N.bits_0].
Qed.

Lemma has_bit fl k : has fl (2 ^ k) = N.testbit fl k.
Proof.
  unfold has. rewrite land_pow2. destruct (N.testbit fl k); [|reflexivity].
  assert (2 ^ k <> 0) by (apply N.pow_nonzero; lia). lia.
Qed.
Lemma has_readonly fl : has fl CAP_FLAG_READONLY = N.testbit fl 2.
Proof. exact (has_bit fl 2). Qed.
Lemma has_callback fl : has fl CAP_FLAG_CALLBACK = N.testbit fl 1.
Proof. exact (has_bit fl 1). Qed.

(* ---- the command register *)
Lemma cmd_step_pow c v k : cmd_step (c, v) (2 ^ k) = ((if N.testbit v k then N.lor c (2 ^ k) else N.ldiff c (2 ^ k)), N.ldiff v (2 ^ k)).
Proof.
  unfold cmd_step. rewrite land_pow2. assert (2 ^ k <> 0) by (apply N.pow_nonzero; lia).
  destruct (N.testbit v k) eqn:E.
  - now rewrite N.eqb_refl.
  - destruct (0 =? 2 ^ k) eqn:Z; [lia|]. f_equal. apply N.bits_inj. intros i. rewrite N.ldiff_spec.
    destruct (N.eq_dec i k) as [->|D].
    + now rewrite E.
    + rewrite N.pow2_bits_false by congruence. now rewrite andb_true_r.
Qed.

Definition bit_to (c v k i : N) : bool := if i =? k then N.testbit v k else N.testbit c i.
Lemma cmd_step_bit c v k i : N.testbit (fst (cmd_step (c, v) (2 ^ k))) i = if i =? k then N.testbit v k else N.testbit c i.
Proof.
  rewrite cmd_step_pow. cbn [fst]. destruct (i =? k) eqn:E.
  - assert (i = k) by lia. subst. destruct (N.testbit v k); rewrite ?N.lor_spec, ?N.ldiff_spec, N.pow2_bits_true; [apply orb_true_r|apply andb_false_r].
  - assert (k <> i) by lia. destruct (N.testbit v k); rewrite ?N.lor_spec, ?N.ldiff_spec, N.pow2_bits_false by assumption;
      [apply orb_false_r|apply andb_true_r].
Qed.

Lemma command_write_spec cmd v : command_write cmd v = (N.lor (N.ldiff cmd 1303) (N.land v 1303), N.ldiff v 1335 =? 0).
Proof.
  unfold command_write, cmd_bits. cbn [fold_left].
  change (cmd_step (cmd, v) 1) with (cmd_step (cmd, v) (2 ^ 0)).
  change 2 with (2 ^ 1). change 4 with (2 ^ 2). change 256 with (2 ^ 8). change 1024 with (2 ^ 10). change 16 with (2 ^ 4).
  repeat (rewrite (cmd_step_pow _ _ _)). 
  rewrite !N.ldiff_spec. rewrite !N.pow2_bits_false by discriminate. rewrite !andb_true_r.
  f_equal.
  - apply N.bits_inj. intros i. rewrite N.lor_spec, N.ldiff_spec, N.land_spec.
    change 1303 with (N.lor (2 ^ 0) (N.lor (2 ^ 1) (N.lor (2 ^ 2) (N.lor (2 ^ 8) (N.lor (2 ^ 10) (2 ^ 4)))))).
    rewrite !N.lor_spec, !N.pow2_bits_eqb.
    destruct (N.testbit v 0) eqn:V0, (N.testbit v 1) eqn:V1, (N.testbit v 2) eqn:V2, (N.testbit v 8) eqn:V8, (N.testbit v 10) eqn:V10, (N.testbit v 4) eqn:V4;
    rewrite ?N.lor_spec, ?N.ldiff_spec, ?N.lor_spec, ?N.ldiff_spec, ?N.lor_spec, ?N.ldiff_spec, ?N.lor_spec, ?N.ldiff_spec, ?N.lor_spec, ?N.ldiff_spec, ?N.lor_spec, ?N.ldiff_spec, !N.pow2_bits_eqb;
    (destruct (0 =? i) eqn:E0; [replace i with 0 in * by lia; rewrite V0; now destruct (N.testbit cmd 0)|];
     destruct (1 =? i) eqn:E1; [replace i with 1 in * by lia; rewrite V1; now destruct (N.testbit cmd 1)|];
     destruct (2 =? i) eqn:E2; [replace i with 2 in * by lia; rewrite V2; now destruct (N.testbit cmd 2)|];
     destruct (8 =? i) eqn:E8; [replace i with 8 in * by lia; rewrite V8; now destruct (N.testbit cmd 8)|];
     destruct (10 =? i) eqn:E10; [replace i with 10 in * by lia; rewrite V10; now destruct (N.testbit cmd 10)|];
     destruct (4 =? i) eqn:E4; [replace i with 4 in * by lia; rewrite V4; now destruct (N.testbit cmd 4)|];
     destruct (N.testbit cmd i), (N.testbit v i); reflexivity).
  - f_equal. apply N.bits_inj. intros i.
    change 1335 with (N.lor (2 ^ 0) (N.lor (2 ^ 1) (N.lor (2 ^ 2) (N.lor (2 ^ 8) (N.lor (2 ^ 10) (N.lor (2 ^ 4) 32)))))).
    rewrite !N.ldiff_spec, !N.lor_spec.
    destruct (N.testbit v i), (N.testbit (2 ^ 0) i), (N.testbit (2 ^ 1) i), (N.testbit (2 ^ 2) i), (N.testbit (2 ^ 8) i), (N.testbit (2 ^ 10) i), (N.testbit (2 ^ 4) i); reflexivity.
Qed.

(* ---- bits that writes leave alone *)
Definition bits_same (cfg cfg' : list N) (may : N -> N -> Prop) : Prop :=
  length cfg' = length cfg /\ (bytes cfg -> bytes cfg') /\
  forall o b, ~ may o b -> N.testbit (nth (N.to_nat o) cfg' 0) b = N.testbit (nth (N.to_nat o) cfg 0) b.

Lemma bits_refl cfg P : bits_same cfg cfg P.
Proof. repeat split; auto. Qed.
Lemma bits_trans a b c P : bits_same a b P -> bits_same b c P -> bits_same a c P.
Proof.
  intros (L1 & B1 & S1) (L2 & B2 & S2). split; [congruence|]. split; [auto|]. intros o i H. rewrite S2, S1; auto.
Qed.
Lemma bits_weaken a b (P Q : N -> N -> Prop) : (forall o i, P o i -> Q o i) -> bits_same a b P -> bits_same a b Q.
Proof. intros W (L & B & S). repeat split; auto. Qed.
Lemma same_bits a b (P : N -> Prop) (Q : N -> N -> Prop) : (forall o i, P o -> Q o i) -> same_outside a b P -> bits_same a b Q.
Proof.
  intros W (L & B & S). split; [exact L|]. split; [exact B|]. intros o i H. f_equal. apply S. intros C. apply H. auto.
Qed.

Lemma rd_bit l off n v k b : bytes l -> rd l off n = Some v -> (k < n)%nat -> b < 8 -> N.testbit v (8 * N.of_nat k + b) = N.testbit (nth (off + k) l 0) b.
Proof.
  intros B H Hk Hb. unfold rd in H. destruct (slice l off n) as [s|] eqn:S; [|discriminate]. injection H as <-.
  rewrite (le_val_bit s (slice_bytes _ _ _ _ B S) k b Hb). now rewrite (slice_nth _ _ _ _ _ S Hk).
Qed.

Lemma wr_bit l off n v l' k b : wr l off n v = Some l' -> (k < n)%nat -> b < 8 -> N.testbit (nth (off + k) l' 0) b = N.testbit v (8 * N.of_nat k + b).
Proof.
  intros H Hk Hb. rewrite (wr_nth _ _ _ _ _ _ H).
  replace (Nat.leb off (off + k) && Nat.ltb (off + k) (off + n)) with true by lia.
  replace (off + k - off)%nat with k by lia. now apply le_bytes_bit.
Qed.

Lemma wr_other l off n v l' j : wr l off n v = Some l' -> (j < off \/ off + n <= j)%nat -> nth j l' 0 = nth j l 0.
Proof.
  intros H Hj. rewrite (wr_nth _ _ _ _ _ _ H). now replace (Nat.leb off j && Nat.ltb j (off + n)) with false by lia.
Qed.

Lemma hdr_write_bits e cfg off buf o cfg' : off < 64 -> bytes cfg -> bytes buf -> hdr_write e cfg off buf = (o, cfg') ->
  bits_same cfg cfg' header_may.
Proof.
  intros Ho Bc Bb H. destruct (N.eq_dec off 4) as [->|D].
  - unfold hdr_write in H. change (4 =? 4) with true in H. cbv iota in H. unfold need in H.
    destruct (rd buf 0 2) as [v|] eqn:Rv; [|injection H as <- <-; apply bits_refl].
    destruct (rd cfg 4 2) as [old|] eqn:Ro; [|injection H as <- <-; apply bits_refl].
    rewrite command_write_spec in H.
    destruct (wr cfg 4 2 (N.lor (N.ldiff old 1303) (N.land v 1303))) as [c|] eqn:W; injection H as <- <-; [|apply bits_refl].
    split; [eapply wr_length; exact W|]. split; [intros _; eapply wr_bytes; [exact Bc|exact W]|].
    intros x i Hx. destruct (N.le_gt_cases 8 i) as [G|L].
    { rewrite !byte_bit; auto; apply bytes_nth; auto. eapply wr_bytes; [exact Bc|exact W]. }
    assert (ND : N.testbit 1303 i = true -> i < 11 -> command_supported i).
    { intros T Hi. unfold command_supported. assert (C : i = 0 \/ i = 1 \/ i = 2 \/ i = 3 \/ i = 4 \/ i = 5 \/ i = 6 \/ i = 7 \/ i = 8 \/ i = 9 \/ i = 10) by lia.
      decompose [or] C; subst i; try discriminate T; tauto. }
    assert (ND2 : N.testbit 1303 (8 + i) = true -> command_supported (8 + i)).
    { intros T. unfold command_supported. assert (C : i = 0 \/ i = 1 \/ i = 2 \/ i = 3 \/ i = 4 \/ i = 5 \/ i = 6 \/ i = 7) by lia.
      decompose [or] C; subst i; try discriminate T; tauto. }
    assert (C : x = 4 \/ x = 5 \/ (x < 4 \/ 6 <= x)) by lia. destruct C as [->|[->|C]].
    + change (N.to_nat 4) with (4 + 0)%nat. rewrite (wr_bit _ _ _ _ _ 0 i W) by lia.
      rewrite <- (rd_bit _ _ _ _ 0 i Bc Ro) by lia. rewrite N.lor_spec, N.ldiff_spec, N.land_spec.
      replace (8 * N.of_nat 0 + i) with i by lia.
      destruct (N.testbit 1303 i) eqn:T; [|rewrite andb_false_r, orb_false_r, andb_true_r; reflexivity].
      exfalso. apply Hx. split; [unfold header_writable; lia|]. split; [intros _; apply ND; [first [exact T|reflexivity]|lia]|lia].
    + change (N.to_nat 5) with (4 + 1)%nat. rewrite (wr_bit _ _ _ _ _ 1 i W) by lia.
      rewrite <- (rd_bit _ _ _ _ 1 i Bc Ro) by lia. rewrite N.lor_spec, N.ldiff_spec, N.land_spec.
      replace (8 * N.of_nat 1 + i) with (8 + i) by lia.
      destruct (N.testbit 1303 (8 + i)) eqn:T; [|rewrite andb_false_r, orb_false_r, andb_true_r; reflexivity].
      exfalso. apply Hx. split; [unfold header_writable; lia|]. split; [lia|]. intros _. apply ND2. first [exact T|reflexivity].
    + f_equal. eapply wr_other; [exact W|]. lia.
  - pose proof (hdr_write_same e cfg off buf o cfg' Ho Bb H) as S.
    assert (S45 : forall x, x = 4 \/ x = 5 -> nth (N.to_nat x) cfg' 0 = nth (N.to_nat x) cfg 0).
    { intros x Hx. unfold hdr_write in H. destruct (off =? 4) eqn:E4; [lia|].
      match type of H with (if ?b then _ else _) = _ => destruct b eqn:E5 end; [injection H as <- <-; reflexivity|].
      assert (ST : forall n v, 6 <= off ->
        (match wr cfg (N.to_nat off) n v with Some c => (Ok tt, c) | None => (Crash OutOfBounds, cfg) end) = (o, cfg') ->
        nth (N.to_nat x) cfg' 0 = nth (N.to_nat x) cfg 0).
      { intros n v Hn. destruct (wr cfg (N.to_nat off) n v) as [c|] eqn:W; intros Q; injection Q as <- <-; [|reflexivity].
        eapply wr_other; [exact W|]. lia. }
      unfold need in H.
      match type of H with (if ?b then _ else _) = _ => destruct b eqn:E6 end.
      { destruct (rd buf 0 1) as [v|]; [|injection H as <- <-; reflexivity]. apply ST in H; [exact H|lia]. }
      match type of H with (if ?b then _ else _) = _ => destruct b eqn:E7 end.
      { match type of H with (if ?b then _ else _) = _ => destruct b end; [injection H as <- <-; reflexivity|].
        destruct (rd buf 0 4) as [v|]; [|injection H as <- <-; reflexivity].
        destruct (rd cfg (N.to_nat off) 4) as [old|]; [|injection H as <- <-; reflexivity]. apply ST in H; [exact H|lia]. }
      destruct (off =? 48) eqn:E8; [|injection H as <- <-; reflexivity].
      destruct (rd buf 0 4) as [v|]; [|injection H as <- <-; reflexivity].
      destruct (erom_write v) as [[|]|]; try (injection H as <- <-; reflexivity). apply ST in H; [exact H|lia]. }
    destruct S as (L & B & S). split; [exact L|]. split; [exact B|]. intros x i Hx.
    destruct (N.eq_dec x 4) as [->|D4]; [f_equal; apply S45; lia|]. destruct (N.eq_dec x 5) as [->|D5]; [f_equal; apply S45; lia|].
    f_equal. apply S. intros C. apply Hx. split; [exact C|]. split; intros; lia.
Qed.

(* ---- what capability writes do, exactly *)
Lemma merged_bit m a w b : N.testbit (merged m a w) b = if N.testbit m b then N.testbit w b else N.testbit a b.
Proof.
  unfold merged. rewrite N.lor_spec, N.ldiff_spec, N.land_spec. destruct (N.testbit m b), (N.testbit a b), (N.testbit w b); reflexivity.
Qed.
Lemma merged_same m a : merged m a a = a.
Proof. apply N.bits_inj. intros i. rewrite merged_bit. now destruct (N.testbit m i). Qed.
Lemma merged_0 a w : merged 0 a w = a.
Proof. apply N.bits_inj. intros i. rewrite merged_bit, N.bits_0. reflexivity. Qed.
Lemma merged_255 a w : a < 256 -> w < 256 -> merged 255 a w = w.
Proof.
  intros A W. apply N.bits_inj. intros i. rewrite merged_bit. destruct (N.lt_ge_cases i 8) as [L|L].
  - now rewrite (N.ones_spec_low 8 i L : N.testbit 255 i = true).
  - rewrite (N.ones_spec_high 8 i L : N.testbit 255 i = false). now rewrite !byte_bit.
Qed.
Lemma merged_byte m a w : m < 256 -> a < 256 -> w < 256 -> merged m a w < 256.
Proof.
  intros M A W. destruct (N.eq_dec (merged m a w) 0) as [->|Z]; [lia|].
  change 256 with (2 ^ 8). apply N.log2_lt_pow2; [lia|].
  destruct (N.lt_ge_cases (N.log2 (merged m a w)) 8) as [L|L]; [exact L|].
  pose proof (N.bit_log2 _ Z) as T. rewrite merged_bit in T. rewrite !byte_bit in T by assumption. discriminate.
Qed.

Lemma overlay_byte cfg off data o : bytes cfg -> bytes data -> overlay cfg off data o < 256.
Proof. intros B D. unfold overlay. destruct ((off <=? o) && (o <? off + N.of_nat (length data))); now apply bytes_nth. Qed.

Lemma put_overlay cfg off data cfg' o : put_slice cfg (N.to_nat off) data = Some cfg' -> nth (N.to_nat o) cfg' 0 = overlay cfg off data o.
Proof.
  intros H. rewrite (put_slice_nth _ _ _ _ (N.to_nat o) H). unfold overlay.
  destruct ((off <=? o) && (o <? off + N.of_nat (length data))) eqn:E.
  - replace (Nat.leb (N.to_nat off) (N.to_nat o) && Nat.ltb (N.to_nat o) (N.to_nat off + length data)) with true by lia. f_equal. lia.
  - replace (Nat.leb (N.to_nat off) (N.to_nat o) && Nat.ltb (N.to_nat o) (N.to_nat off + length data)) with false by lia. reflexivity.
Qed.

(* The bytes of the capability after a write, in terms of a mask by position. *)
Definition masked_to (cfg cfg' : list N) (base size off : N) (data : list N) (m : N -> N) : Prop :=
  forall o, nth (N.to_nat o) cfg' 0 =
    if (base <=? o) && (o <? base + size) then merged (m (o - base)) (nth (N.to_nat o) cfg 0) (overlay cfg off data o)
    else nth (N.to_nat o) cfg 0.

Lemma masked_refl cfg base size off data : masked_to cfg cfg base size off data (fun _ => 0).
Proof. intros o. rewrite merged_0. now destruct ((base <=? o) && (o <? base + size)). Qed.

(* A slice of the capability with data laid over it. *)
Lemma slice_overlay cfg base size old rel data new i : slice cfg (N.to_nat base) size = Some old -> put_slice old (N.to_nat rel) data = Some new ->
  (i < size)%nat -> nth i new 0 = overlay cfg (base + rel) data (base + N.of_nat i).
Proof.
  intros S P Hi. rewrite (put_slice_nth _ _ _ _ i P). unfold overlay.
  destruct ((base + rel <=? base + N.of_nat i) && (base + N.of_nat i <? base + rel + N.of_nat (length data))) eqn:E.
  - replace (Nat.leb (N.to_nat rel) i && Nat.ltb i (N.to_nat rel + length data)) with true by lia. f_equal. lia.
  - replace (Nat.leb (N.to_nat rel) i && Nat.ltb i (N.to_nat rel + length data)) with false by lia.
    rewrite (slice_nth _ _ _ _ _ S Hi). f_equal. lia.
Qed.
