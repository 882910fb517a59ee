(* More lemmas about byte buffers: single bytes and single bits. *)
From Coq Require Import NArith ZArith List Bool Lia ZifyBool ZifyNat ZifyN.
From Verif Require Import Base Bytes BytesProofs Pci.
Import ListNotations.
Open Scope N_scope.
Ltac Zify.zify_post_hook ::= idtac.

Lemma nth_firstn {A} (l : list A) n i d : (i < n)%nat -> nth i (firstn n l) d = nth i l d.
Proof.
  revert n i. induction l as [|x l IH]; intros n i H.
  - now rewrite firstn_nil.
  - destruct n; [lia|]. destruct i; cbn [firstn nth]; [reflexivity|]. apply IH. lia.
Qed.

Lemma nth_skipn {A} (l : list A) n i d : nth i (skipn n l) d = nth (n + i) l d.
Proof.
  revert l. induction n as [|n IH]; intros l; [reflexivity|]. destruct l; [now destruct i|]. cbn [skipn Nat.add nth]. apply IH.
Qed.

Lemma slice_nth l off n s i : slice l off n = Some s -> (i < n)%nat -> nth i s 0 = nth (off + i) l 0.
Proof.
  unfold slice. destruct (Nat.leb (off + n) (length l)); [|discriminate]. intros E H. injection E as <-.
  rewrite nth_firstn by exact H. apply nth_skipn.
Qed.

Lemma slice_bound l off n s : slice l off n = Some s -> (off + n <= length l)%nat.
Proof. unfold slice. destruct (Nat.leb (off + n) (length l)) eqn:E; [|discriminate]. intros _. now apply Nat.leb_le. Qed.

Lemma slice_bytes l off n s : bytes l -> slice l off n = Some s -> bytes s.
Proof.
  unfold slice. destruct (Nat.leb (off + n) (length l)); [|discriminate]. intros B E. injection E as <-.
  unfold bytes in *. rewrite Forall_forall in *. intros x Hx. apply B.
  rewrite <- (firstn_skipn off l). apply in_or_app. right.
  rewrite <- (firstn_skipn n (skipn off l)). apply in_or_app. now left.
Qed.

Lemma put_slice_some l off new : (off + length new <= length l)%nat -> exists l', put_slice l off new = Some l'.
Proof. intros H. unfold put_slice. apply Nat.leb_le in H. rewrite H. eauto. Qed.

Lemma put_slice_bound l off new l' : put_slice l off new = Some l' -> (off + length new <= length l)%nat.
Proof. unfold put_slice. destruct (Nat.leb (off + length new) (length l)) eqn:E; [|discriminate]. intros _. now apply Nat.leb_le. Qed.

Lemma put_slice_nth l off new l' j : put_slice l off new = Some l' ->
  nth j l' 0 = if Nat.leb off j && Nat.ltb j (off + length new) then nth (j - off) new 0 else nth j l 0.
Proof.
  unfold put_slice. destruct (Nat.leb (off + length new) (length l)) eqn:E; [|discriminate]. intros H. injection H as <-.
  apply Nat.leb_le in E.
  assert (L : length (firstn off l) = off) by (rewrite firstn_length; lia).
  destruct (Nat.leb off j) eqn:E1; [apply Nat.leb_le in E1|apply Nat.leb_gt in E1].
  - rewrite app_nth2 by lia. rewrite L. destruct (Nat.ltb j (off + length new)) eqn:E2; [apply Nat.ltb_lt in E2|apply Nat.ltb_ge in E2]; cbn [andb].
    + apply app_nth1. lia.
    + rewrite app_nth2 by lia. rewrite nth_skipn. f_equal. lia.
  - cbn [andb]. rewrite app_nth1 by lia. apply nth_firstn. lia.
Qed.

Lemma put_slice_bytes l off new l' : bytes l -> bytes new -> put_slice l off new = Some l' -> bytes l'.
Proof.
  intros B Bn. unfold put_slice. destruct (Nat.leb (off + length new) (length l)); [|discriminate]. intros H. injection H as <-.
  unfold bytes in *. rewrite !Forall_app.
  assert (Bf : Forall is_byte (firstn off l)) by (rewrite <- (firstn_skipn off l) in B; apply Forall_app in B; tauto).
  assert (Bs : Forall is_byte (skipn (off + length new) l)) by (rewrite <- (firstn_skipn (off + length new) l) in B; apply Forall_app in B; tauto).
  auto.
Qed.

Lemma wr_length l off n v l' : wr l off n v = Some l' -> length l' = length l.
Proof. apply put_slice_length. Qed.
Lemma wr_bytes l off n v l' : bytes l -> wr l off n v = Some l' -> bytes l'.
Proof. intros B. apply put_slice_bytes; [exact B|apply le_bytes_bytes]. Qed.
Lemma wr_some l off n v : (off + n <= length l)%nat -> exists l', wr l off n v = Some l'.
Proof. intros H. apply put_slice_some. now rewrite le_bytes_length. Qed.
Lemma wr_nth l off n v l' j : wr l off n v = Some l' ->
  nth j l' 0 = if Nat.leb off j && Nat.ltb j (off + n) then nth (j - off) (le_bytes n v) 0 else nth j l 0.
Proof. intros H. rewrite (put_slice_nth _ _ _ _ j H), le_bytes_length. reflexivity. Qed.

Lemma bytes_nth l i : bytes l -> nth i l 0 < 256.
Proof.
  intros B. destruct (Nat.lt_ge_cases i (length l)) as [L|L].
  - unfold bytes in B. rewrite Forall_forall in B. apply B. now apply nth_In.
  - rewrite nth_overflow by exact L. reflexivity.
Qed.

Lemma bytes_firstn l n : bytes l -> bytes (firstn n l).
Proof. intros B. rewrite <- (firstn_skipn n l) in B. apply bytes_app in B. tauto. Qed.
Lemma bytes_skipn l n : bytes l -> bytes (skipn n l).
Proof. intros B. rewrite <- (firstn_skipn n l) in B. apply bytes_app in B. tauto. Qed.

(* ---- bits *)
Lemma byte_bit b i : b < 256 -> 8 <= i -> N.testbit b i = false.
Proof.
  intros H Hi. destruct (N.eq_dec b 0) as [->|N0]; [apply N.bits_0|].
  apply N.bits_above_log2. apply N.log2_lt_pow2; [lia|].
  apply N.lt_le_trans with (2 ^ 8); [exact H|]. apply N.pow_le_mono_r; lia.
Qed.

Lemma le_bytes_bit n : forall k x b, (k < n)%nat -> b < 8 -> N.testbit (nth k (le_bytes n x) 0) b = N.testbit x (8 * N.of_nat k + b).
Proof.
  induction n as [|n IH]; intros k x b H Hb; [lia|]. destruct k as [|k]; cbn [le_bytes nth].
  - change 256 with (2 ^ 8). rewrite N.mod_pow2_bits_low by exact Hb. f_equal; lia.
  - rewrite IH by lia. change 256 with (2 ^ 8). rewrite N.div_pow2_bits. f_equal; lia.
Qed.

Lemma le_val_bit l : bytes l -> forall k b, b < 8 -> N.testbit (le_val l) (8 * N.of_nat k + b) = N.testbit (nth k l 0) b.
Proof.
  intros B k b Hb. destruct (Nat.lt_ge_cases k (length l)) as [L|L].
  - rewrite <- (le_bytes_le_val l B) at 2. now rewrite le_bytes_bit.
  - rewrite nth_overflow by exact L. rewrite N.bits_0.
    assert (Bd := le_val_bound l B). destruct (N.eq_dec (le_val l) 0) as [->|N0]; [apply N.bits_0|].
    apply N.bits_above_log2. apply N.log2_lt_pow2; [lia|]. eapply N.lt_le_trans; [exact Bd|].
    change 256 with (2 ^ 8). rewrite <- N.pow_mul_r. apply N.pow_le_mono_r; lia.
Qed.

Lemma bf_set_bit x lo w v i : N.testbit (bf_set x lo w v) i = if (lo <=? i) && (i <? lo + w) then N.testbit v (i - lo) else N.testbit x i.
Proof.
  unfold bf_set. rewrite N.lor_spec, N.ldiff_spec.
  destruct (lo <=? i) eqn:E1.
  - rewrite !N.shiftl_spec_high' by lia. rewrite N.land_spec. cbn [andb].
    destruct (i <? lo + w) eqn:E2.
    + rewrite N.ones_spec_low by lia. cbn [negb]. rewrite andb_false_r, andb_true_r. reflexivity.
    + rewrite N.ones_spec_high by lia. cbn [negb]. rewrite andb_false_r, andb_true_r, orb_false_r. reflexivity.
  - rewrite !N.shiftl_spec_low by lia. cbn [negb andb]. rewrite andb_true_r, orb_false_r. reflexivity.
Qed.

Lemma bf_get_bit x lo w i : N.testbit (bf_get x lo w) i = if i <? w then N.testbit x (lo + i) else false.
Proof.
  unfold bf_get. rewrite N.land_spec, N.shiftr_spec'. destruct (i <? w) eqn:E.
  - rewrite N.ones_spec_low by lia. rewrite andb_true_r. f_equal. lia.
  - rewrite N.ones_spec_high by lia. apply andb_false_r.
Qed.

(* Bytes that agree on their eight bits are equal. *)
Lemma byte_ext a b : a < 256 -> b < 256 -> (forall i, i < 8 -> N.testbit a i = N.testbit b i) -> a = b.
Proof.
  intros Ha Hb H. apply N.bits_inj. intros i. destruct (N.lt_ge_cases i 8) as [L|L]; [auto|].
  now rewrite !byte_bit.
Qed.

Lemma list_ext (l1 l2 : list N) : length l1 = length l2 -> (forall i, (i < length l1)%nat -> nth i l1 0 = nth i l2 0) -> l1 = l2.
Proof.
  revert l2. induction l1 as [|x l1 IH]; intros [|y l2] L H; try discriminate; [reflexivity|].
  f_equal.
  - exact (H 0%nat ltac:(cbn [length]; lia)).
  - apply IH; [cbn [length] in L; lia|]. intros i Hi. exact (H (S i) ltac:(cbn [length]; lia)).
Qed.
