(* Lemmas about byte buffers. *)
From Coq Require Import NArith ZArith List Bool Lia ZifyBool ZifyNat ZifyN.
From Verif Require Import Base Bytes.
Import ListNotations.
Open Scope N_scope.
Ltac Zify.zify_post_hook ::= idtac.

Lemma le_bytes_length n : forall x, length (le_bytes n x) = n.
Proof. induction n; intros x; cbn [le_bytes length]; auto. Qed.

Lemma le_bytes_bytes n : forall x, bytes (le_bytes n x).
Proof.
  induction n as [|n IH]; intros x; cbn [le_bytes]; constructor; [|apply IH].
  unfold is_byte. apply N.mod_lt. discriminate.
Qed.

Lemma le_val_le_bytes n : forall x, le_val (le_bytes n x) = x mod 256 ^ N.of_nat n.
Proof.
  induction n as [|n IH]; intros x.
  - cbn [le_bytes le_val]. change (N.of_nat 0) with 0. now rewrite N.pow_0_r, N.mod_1_r.
  - cbn [le_bytes le_val]. rewrite IH, Nat2N.inj_succ, N.pow_succ_r'.
    rewrite N.mod_mul_r; [reflexivity|discriminate|apply N.pow_nonzero; discriminate].
Qed.

Lemma le_bytes_le_val : forall l, bytes l -> le_bytes (length l) (le_val l) = l.
Proof.
  induction l as [|b l IH]; intros H; [reflexivity|].
  inversion H as [|? ? Hb Hl]; subst. cbn [length le_bytes le_val].
  unfold is_byte in Hb. rewrite (N.mul_comm 256), N.mod_add, N.mod_small, N.div_add, N.div_small by (lia || discriminate).
  rewrite N.add_0_l, IH by exact Hl. reflexivity.
Qed.

Lemma le_val_bound : forall l, bytes l -> le_val l < 256 ^ N.of_nat (length l).
Proof.
  induction l as [|b l IH]; intros H; [cbn; lia|].
  inversion H as [|? ? Hb Hl]; subst. specialize (IH Hl). unfold is_byte in Hb.
  cbn [length le_val]. rewrite Nat2N.inj_succ, N.pow_succ_r'. lia.
Qed.

Lemma le_bytes_inj n x y : x < 256 ^ N.of_nat n -> y < 256 ^ N.of_nat n -> le_bytes n x = le_bytes n y -> x = y.
Proof.
  intros Hx Hy E. apply (f_equal le_val) in E. rewrite !le_val_le_bytes in E.
  now rewrite !N.mod_small in E.
Qed.

(* Reading a field that was laid out at the front. *)
Lemma slice_front a rest n : length a = n -> slice (a ++ rest) 0 n = Some a.
Proof.
  intros H. unfold slice. rewrite app_length. cbn [Nat.add skipn].
  destruct (Nat.leb n (length a + length rest)) eqn:E; [|apply Nat.leb_gt in E; lia].
  f_equal. rewrite <- H, firstn_app, Nat.sub_diag, firstn_O, app_nil_r. apply firstn_all.
Qed.

Lemma slice_skip a rest off n : (length a <= off)%nat -> slice (a ++ rest) off n = slice rest (off - length a) n.
Proof.
  intros H. unfold slice. rewrite app_length.
  rewrite (skipn_app off a rest), (skipn_all2 a H). cbn [app].
  destruct (Nat.leb (off + n) (length a + length rest)) eqn:E1; destruct (Nat.leb (off - length a + n) (length rest)) eqn:E2;
    try reflexivity; try (apply Nat.leb_le in E1; apply Nat.leb_gt in E2; lia);
    apply Nat.leb_gt in E1; apply Nat.leb_le in E2; lia.
Qed.

Lemma slice_length l off n s : slice l off n = Some s -> length s = n.
Proof.
  unfold slice. destruct (Nat.leb (off + n) (length l)) eqn:E; [|discriminate].
  intros H; injection H as <-. apply Nat.leb_le in E. rewrite firstn_length, skipn_length. lia.
Qed.

Lemma slice_some l off n : (off + n <= length l)%nat -> exists s, slice l off n = Some s.
Proof. intros H. unfold slice. apply Nat.leb_le in H. rewrite H. eauto. Qed.

Lemma slice_none l off n : (length l < off + n)%nat -> slice l off n = None.
Proof. intros H. unfold slice. apply Nat.leb_gt in H. now rewrite H. Qed.

Lemma rd_front n x rest : x < 256 ^ N.of_nat n -> rd (le_bytes n x ++ rest) 0 n = Some x.
Proof.
  intros H. unfold rd. rewrite slice_front by apply le_bytes_length.
  now rewrite le_val_le_bytes, N.mod_small.
Qed.

Lemma rd_skip a rest off n : (length a <= off)%nat -> rd (a ++ rest) off n = rd rest (off - length a) n.
Proof. intros H. unfold rd. now rewrite slice_skip. Qed.

Lemma rd_none l off n : (length l < off + n)%nat -> rd l off n = None.
Proof. intros H. unfold rd. now rewrite slice_none. Qed.

Lemma rd_some l off n : (off + n <= length l)%nat -> exists v, rd l off n = Some v.
Proof. intros H. unfold rd. destruct (slice_some l off n H) as [s ->]. eauto. Qed.

Lemma rd_bound l off n v : bytes l -> rd l off n = Some v -> v < 256 ^ N.of_nat n.
Proof.
  unfold rd, slice. destruct (Nat.leb (off + n) (length l)) eqn:E; [|discriminate].
  intros B H; injection H as <-. apply Nat.leb_le in E.
  assert (L : length (firstn n (skipn off l)) = n) by (rewrite firstn_length, skipn_length; lia).
  rewrite <- L at 2. apply le_val_bound.
  rewrite <- (firstn_skipn off l) in B. apply Forall_app in B. destruct B as [_ B].
  rewrite <- (firstn_skipn n (skipn off l)) in B. now apply Forall_app in B.
Qed.

(* Every buffer of at least n bytes starts with an n-byte field. *)
Lemma split_field n l : bytes l -> (n <= length l)%nat ->
  exists x rest, l = le_bytes n x ++ rest /\ x < 256 ^ N.of_nat n /\ bytes rest.
Proof.
  intros B H. exists (le_val (firstn n l)), (skipn n l).
  assert (Bf : bytes (firstn n l) /\ bytes (skipn n l))
    by (apply Forall_app; now rewrite firstn_skipn).
  assert (L : length (firstn n l) = n) by (rewrite firstn_length; lia).
  split; [|split; [|apply Bf]].
  - rewrite <- L at 1. rewrite le_bytes_le_val by apply Bf. now rewrite firstn_skipn.
  - rewrite <- L at 2. apply le_val_bound, Bf.
Qed.

Lemma fit_exact {A} n (l : list A) z : length l = n -> firstn n (l ++ z) = l.
Proof. intros <-. rewrite firstn_app, Nat.sub_diag, firstn_O, app_nil_r. apply firstn_all. Qed.

Lemma bytes_app l1 l2 : bytes (l1 ++ l2) <-> bytes l1 /\ bytes l2.
Proof. apply Forall_app. Qed.

Lemma put_slice_length l off new l' : put_slice l off new = Some l' -> length l' = length l.
Proof.
  unfold put_slice. destruct (Nat.leb (off + length new) (length l)) eqn:E; [|discriminate].
  intros H; injection H as <-. apply Nat.leb_le in E. rewrite !app_length, firstn_length, skipn_length. lia.
Qed.
