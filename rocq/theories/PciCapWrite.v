(* What writes to each capability's registers do. *)
From Coq Require Import NArith ZArith List Bool Lia ZifyBool ZifyNat ZifyN.
From Verif Require Import Base Types Bytes BytesProofs Migr Pci SpecPci BufProofs PciProofs PciWrite.
Import ListNotations.
Open Scope N_scope.
Ltac Zify.zify_post_hook ::= idtac.

Ltac ifs := repeat match goal with
  | |- context [if ?c then _ else _] => let v := eval vm_compute in c in
      match v with true => change c with true; cbv iota | false => change c with false; cbv iota end
  end.

Lemma upto8 b : b < 8 -> b = 0 \/ b = 1 \/ b = 2 \/ b = 3 \/ b = 4 \/ b = 5 \/ b = 6 \/ b = 7.
Proof. lia. Qed.

Lemma byte_ext_masked x m a w : x < 256 -> m < 256 -> a < 256 -> w < 256 ->
  (forall b, b < 8 -> N.testbit x b = if N.testbit m b then N.testbit w b else N.testbit a b) -> x = merged m a w.
Proof.
  intros X M A W H. apply byte_ext; [exact X|now apply merged_byte|]. intros b Hb. rewrite merged_bit. auto.
Qed.

Lemma msi_mask_byte i : msi_mask i < 256.
Proof. unfold msi_mask. repeat match goal with |- context [if ?c then _ else _] => destruct c end; lia. Qed.


Lemma bf_get_low_byte v lo w : lo + w <= 8 -> bf_get v lo w = bf_get (v mod 256) lo w.
Proof.
  intros H. apply N.bits_inj. intros i. rewrite !bf_get_bit. destruct (i <? w) eqn:E; [|reflexivity].
  change 256 with (2 ^ 8). now rewrite N.mod_pow2_bits_low by lia.
Qed.

Lemma rd_low_byte l off n v : bytes l -> rd l off (S n) = Some v -> v mod 256 = nth off l 0.
Proof.
  intros B H. apply byte_ext.
  - apply N.mod_lt. lia.
  - now apply bytes_nth.
  - intros b Hb. change 256 with (2 ^ 8). rewrite N.mod_pow2_bits_low by exact Hb.
    pose proof (rd_bit _ _ _ _ 0 b B H ltac:(lia) Hb) as Q. rewrite Nat.add_0_r in Q. rewrite <- Q. reflexivity.
Qed.

Lemma msi_exact cfg base rel data o cfg' ev : bytes cfg -> bytes data -> base + 24 <= N.of_nat (length cfg) ->
  rel + N.of_nat (length data) <= 24 ->
  cap_write_msi cfg base rel data = (o, cfg', ev) ->
  let bad := mme_bad (nth (N.to_nat (base + 2)) cfg 0) (overlay cfg (base + rel) data (base + 2)) in
  ev = [] /\ length cfg' = length cfg /\ bytes cfg' /\
  o = (if bad then Err EINVAL else Ok tt) /\
  masked_to cfg cfg' base 24 (base + rel) data (if bad then (fun i => if i =? 2 then 1 else 0) else msi_mask).
Proof.
  intros B Bd Hl Hr H. unfold cap_write_msi, need in H.
  destruct (slice cfg (N.to_nat base) 24) as [old|] eqn:So; [|destruct (slice_some cfg (N.to_nat base) 24 ltac:(lia)); congruence].
  pose proof (slice_length _ _ _ _ So) as Lo. pose proof (slice_bytes _ _ _ _ B So) as Bo.
  destruct (put_slice old (N.to_nat rel) data) as [new|] eqn:Sn; [|destruct (put_slice_some old (N.to_nat rel) data ltac:(lia)); congruence].
  pose proof (put_slice_length _ _ _ _ Sn) as Ln. pose proof (put_slice_bytes _ _ _ _ Bo Bd Sn) as Bn.
  assert (NEW : forall i, (i < 24)%nat -> nth i new 0 = overlay cfg (base + rel) data (base + N.of_nat i)) by (intros i Hi; eapply slice_overlay; eauto).
  assert (OLD : forall i, (i < 24)%nat -> nth i old 0 = nth (N.to_nat base + i) cfg 0) by (intros i Hi; eapply slice_nth; eauto).
  destruct (rd old 2 2) as [mc|] eqn:Rmc; [|destruct (rd_some old 2 2 ltac:(lia)); congruence].
  destruct (rd new 2 2) as [mc'|] eqn:Rmc'; [|destruct (rd_some new 2 2 ltac:(lia)); congruence].
  destruct (wr cfg (N.to_nat (base + 2)) 2 (bf_set mc 0 1 (bf_get mc' 0 1))) as [c1|] eqn:W1;
    [|destruct (wr_some cfg (N.to_nat (base + 2)) 2 (bf_set mc 0 1 (bf_get mc' 0 1)) ltac:(lia)); congruence].
  assert (MC : forall k b, (k < 2)%nat -> b < 8 -> N.testbit mc (8 * N.of_nat k + b) = N.testbit (nth (N.to_nat base + (2 + k)) cfg 0) b).
  { intros k b Hk Hb. rewrite (rd_bit _ _ _ _ k b Bo Rmc Hk Hb). now rewrite OLD by lia. }
  assert (MC' : forall k b, (k < 2)%nat -> b < 8 -> N.testbit mc' (8 * N.of_nat k + b) = N.testbit (overlay cfg (base + rel) data (base + N.of_nat (2 + k))) b).
  { intros k b Hk Hb. rewrite (rd_bit _ _ _ _ k b Bn Rmc' Hk Hb). now rewrite NEW by lia. }
  assert (LOW : mc mod 256 = nth (N.to_nat (base + 2)) cfg 0).
  { rewrite (rd_low_byte _ _ _ _ Bo Rmc). rewrite OLD by lia. f_equal. lia. }
  assert (LOW' : mc' mod 256 = overlay cfg (base + rel) data (base + 2)).
  { rewrite (rd_low_byte _ _ _ _ Bn Rmc'). rewrite NEW by lia. reflexivity. }
  assert (BADEQ : mme_bad (nth (N.to_nat (base + 2)) cfg 0) (overlay cfg (base + rel) data (base + 2)) =
     (negb (bf_get mc 4 3 =? bf_get mc' 4 3) && ((5 <? bf_get mc' 4 3) || (bf_get mc 1 3 <? bf_get mc' 4 3)))).
  { unfold mme_bad, mme_of, mmc_of. rewrite <- LOW, <- LOW'. rewrite (bf_get_low_byte mc 4 3), (bf_get_low_byte mc' 4 3), (bf_get_low_byte mc 1 3) by lia. reflexivity. }
  cbv zeta. rewrite BADEQ.
  assert (BAD : forall P : Prop, (c1 = cfg' -> P) -> (Err EINVAL, c1, []) = (o, cfg', ev) -> P) by (intros P K Q; apply K; congruence).
  assert (FAIL : (Err EINVAL, c1, []) = (o, cfg', ev) ->
     ev = [] /\ length cfg' = length cfg /\ bytes cfg' /\ o = Err EINVAL /\ masked_to cfg cfg' base 24 (base + rel) data (fun i => if i =? 2 then 1 else 0)).
  { intros Q. injection Q as <- <- <-. split; [reflexivity|]. split; [eapply wr_length; eauto|]. split; [eapply wr_bytes; [exact B|exact W1]|].
    split; [reflexivity|]. intros x. destruct ((base <=? x) && (x <? base + 24)) eqn:E; [|eapply wr_other; [exact W1|]; lia].
    destruct (x - base =? 2) eqn:E2.
    - assert (x = base + 2) by lia. subst x. apply byte_ext_masked; [apply bytes_nth; eapply wr_bytes; [exact B|exact W1]|lia|now apply bytes_nth|now apply overlay_byte|].
      intros b Hb. pose proof (wr_bit _ _ _ _ _ 0 b W1 ltac:(lia) Hb) as Q. rewrite Nat.add_0_r in Q. rewrite Q. clear Q.
      pose proof (MC 0%nat b ltac:(lia) Hb) as M0. pose proof (MC' 0%nat b ltac:(lia) Hb) as M1.
      change (8 * N.of_nat 0 + b) with b in *. change (base + N.of_nat (2 + 0)) with (base + 2) in M1.
      replace (N.to_nat base + (2 + 0))%nat with (N.to_nat (base + 2)) in M0 by lia. rewrite <- M0, <- M1.
      rewrite bf_set_bit, bf_get_bit. apply upto8 in Hb. decompose [or] Hb; subst b; ifs; reflexivity.
    - rewrite merged_0. assert (C : x = base + 3 \/ x < base + 2 \/ base + 4 <= x) by lia. destruct C as [->|C]; [|eapply wr_other; [exact W1|]; lia].
      apply byte_ext; [apply bytes_nth; eapply wr_bytes; [exact B|exact W1]|now apply bytes_nth|]. intros b Hb.
      pose proof (wr_bit _ _ _ _ _ 1 b W1 ltac:(lia) Hb) as Q. replace (N.to_nat (base + 2) + 1)%nat with (N.to_nat (base + 3)) in Q by lia. rewrite Q.
      rewrite bf_set_bit. replace ((0 <=? 8 * N.of_nat 1 + b) && (8 * N.of_nat 1 + b <? 0 + 1)) with false by lia.
      rewrite (MC 1%nat b) by lia. do 2 f_equal. lia. }
  match type of H with (if ?c1 then ?F1 else if ?c2 then ?F2 else ?R) = _ =>
    assert (SUCC : R = (o, cfg', ev) -> ev = [] /\ length cfg' = length cfg /\ bytes cfg' /\ o = Ok tt /\ masked_to cfg cfg' base 24 (base + rel) data msi_mask) end.
  2: { clear - FAIL SUCC H. destruct (negb (bf_get mc 4 3 =? bf_get mc' 4 3)); cbn [andb] in H |- *; [|exact (SUCC H)].
       destruct (5 <? bf_get mc' 4 3); cbn [orb]; [exact (FAIL H)|].
       destruct (bf_get mc 1 3 <? bf_get mc' 4 3); [exact (FAIL H)|exact (SUCC H)]. }
  clear H FAIL BAD BADEQ. intros H.
  match type of H with context [wr c1 ?a ?b ?d] => destruct (wr c1 a b d) as [c2|] eqn:W2;
    [|pose proof (wr_length _ _ _ _ _ W1); destruct (wr_some c1 a b d ltac:(lia)); congruence] end.
  pose proof (wr_length _ _ _ _ _ W1) as L1; pose proof (wr_length _ _ _ _ _ W2) as L2.
  destruct (rd old 4 4) as [ma|] eqn:Rma; [|destruct (rd_some old 4 4 ltac:(lia)); congruence].
  destruct (rd new 4 4) as [ma'|] eqn:Rma'; [|destruct (rd_some new 4 4 ltac:(lia)); congruence].
  match type of H with context [wr c2 ?a ?b ?d] => destruct (wr c2 a b d) as [c3|] eqn:W3;
    [|destruct (wr_some c2 a b d ltac:(lia)); congruence] end.
  pose proof (wr_length _ _ _ _ _ W3) as L3.
  destruct (slice new 8 6) as [mm|] eqn:Smm; [|destruct (slice_some new 8 6 ltac:(lia)); congruence].
  pose proof (slice_length _ _ _ _ Smm) as Lmm.
  destruct (put_slice c3 (N.to_nat (base + 8)) mm) as [c4|] eqn:W4; [|destruct (put_slice_some c3 (N.to_nat (base + 8)) mm ltac:(lia)); congruence].
  pose proof (put_slice_length _ _ _ _ W4) as L4.
  destruct (slice new 16 4) as [mk|] eqn:Smk; [|destruct (slice_some new 16 4 ltac:(lia)); congruence].
  pose proof (slice_length _ _ _ _ Smk) as Lmk.
  destruct (put_slice c4 (N.to_nat (base + 16)) mk) as [c5|] eqn:W5; [|destruct (put_slice_some c4 (N.to_nat (base + 16)) mk ltac:(lia)); congruence].
  pose proof (put_slice_length _ _ _ _ W5) as L5.
  injection H as <- <- <-.
  assert (B1 : bytes c1) by (eapply wr_bytes; [exact B|exact W1]); assert (B2 : bytes c2) by (eapply wr_bytes; [exact B1|exact W2]);
       assert (B3 : bytes c3) by (eapply wr_bytes; [exact B2|exact W3]);
       assert (B4 : bytes c4) by (eapply put_slice_bytes; [exact B3| |exact W4]; eapply slice_bytes; [exact Bn|exact Smm]);
       assert (B5 : bytes c5) by (eapply put_slice_bytes; [exact B4| |exact W5]; eapply slice_bytes; [exact Bn|exact Smk]).
  split; [reflexivity|]; split; [congruence|]; split; [exact B5|]; split; [reflexivity|]; intros x.
  assert (P4 : forall j, j < base + 8 \/ base + 14 <= j -> nth (N.to_nat j) c4 0 = nth (N.to_nat j) c3 0)
    by (intros j Hj; rewrite (put_slice_nth _ _ _ _ _ W4);
        now replace (Nat.leb (N.to_nat (base + 8)) (N.to_nat j) && Nat.ltb (N.to_nat j) (N.to_nat (base + 8) + length mm)) with false by lia).
  assert (P5 : forall j, j < base + 16 \/ base + 20 <= j -> nth (N.to_nat j) c5 0 = nth (N.to_nat j) c4 0)
    by (intros j Hj; rewrite (put_slice_nth _ _ _ _ _ W5);
        now replace (Nat.leb (N.to_nat (base + 16)) (N.to_nat j) && Nat.ltb (N.to_nat j) (N.to_nat (base + 16) + length mk)) with false by lia).
  assert (P3 : forall j, j < base + 4 \/ base + 8 <= j -> nth (N.to_nat j) c3 0 = nth (N.to_nat j) c2 0)
    by (intros j Hj; eapply wr_other; [exact W3|]; lia).
  assert (P2 : forall j, j < base + 2 \/ base + 4 <= j -> nth (N.to_nat j) c2 0 = nth (N.to_nat j) cfg 0)
    by (intros j Hj; rewrite (wr_other _ _ _ _ _ _ W2) by lia; eapply wr_other; [exact W1|]; lia).
  destruct ((base <=? x) && (x <? base + 24)) eqn:E; [|rewrite P5, P4, P3, P2 by lia; reflexivity].
  set (i := x - base); assert (Ei : x = base + i) by (unfold i; lia); assert (Hi : i < 24) by lia; clearbody i; subst x.
  assert (CASES : i < 2 \/ i = 2 \/ i = 3 \/ i = 4 \/ 5 <= i < 8 \/ 8 <= i < 14 \/ 14 <= i < 16 \/ 16 <= i < 20 \/ 20 <= i) by lia.
  assert (M2 : i = 2 \/ i = 3 -> forall b, b < 8 -> N.testbit (nth (N.to_nat (base + i)) c5 0) b =
        if (i =? 2) && ((b =? 0) || ((4 <=? b) && (b <? 7))) then N.testbit (overlay cfg (base + rel) data (base + i)) b
        else N.testbit (nth (N.to_nat (base + i)) cfg 0) b)
    by (intros Ci b Hb; rewrite P5, P4, P3 by lia;
        pose proof (wr_bit _ _ _ _ _ (N.to_nat (i - 2)) b W2 ltac:(lia) Hb) as Q;
        replace (N.to_nat (base + 2) + N.to_nat (i - 2))%nat with (N.to_nat (base + i)) in Q by lia; rewrite Q; clear Q;
        pose proof (MC (N.to_nat (i - 2)) b ltac:(lia) Hb) as M0; pose proof (MC' (N.to_nat (i - 2)) b ltac:(lia) Hb) as M1;
        replace (N.to_nat base + (2 + N.to_nat (i - 2)))%nat with (N.to_nat (base + i)) in M0 by lia;
        replace (base + N.of_nat (2 + N.to_nat (i - 2))) with (base + i) in M1 by lia; rewrite <- M0, <- M1;
        rewrite !bf_set_bit, !bf_get_bit;
        apply upto8 in Hb; destruct Ci as [->| ->]; decompose [or] Hb; subst b; ifs; try reflexivity; f_equal; reflexivity).
  assert (M4 : 4 <= i < 8 -> forall b, b < 8 -> N.testbit (nth (N.to_nat (base + i)) c5 0) b =
        if (i =? 4) && (b <? 2) then N.testbit (nth (N.to_nat (base + i)) cfg 0) b else N.testbit (overlay cfg (base + rel) data (base + i)) b)
    by (intros Ci b Hb; rewrite P5, P4 by lia;
        pose proof (wr_bit _ _ _ _ _ (N.to_nat (i - 4)) b W3 ltac:(lia) Hb) as Q;
        replace (N.to_nat (base + 4) + N.to_nat (i - 4))%nat with (N.to_nat (base + i)) in Q by lia; rewrite Q; clear Q;
        pose proof (rd_bit _ _ _ _ (N.to_nat (i - 4)) b Bo Rma ltac:(lia) Hb) as M0; pose proof (rd_bit _ _ _ _ (N.to_nat (i - 4)) b Bn Rma' ltac:(lia) Hb) as M1;
        rewrite OLD in M0 by lia; rewrite NEW in M1 by lia;
        replace (N.to_nat base + (4 + N.to_nat (i - 4)))%nat with (N.to_nat (base + i)) in M0 by lia;
        replace (base + N.of_nat (4 + N.to_nat (i - 4))) with (base + i) in M1 by lia; rewrite <- M0, <- M1;
        rewrite bf_set_bit, bf_get_bit; rewrite N2Nat.id;
        destruct ((i =? 4) && (b <? 2)) eqn:Cb;
        [ replace ((2 <=? 8 * (i - 4) + b) && (8 * (i - 4) + b <? 2 + 30)) with false by lia; reflexivity
        | replace ((2 <=? 8 * (i - 4) + b) && (8 * (i - 4) + b <? 2 + 30)) with true by lia;
          replace (8 * (i - 4) + b - 2 <? 30) with true by lia; f_equal; lia ]).
  assert (A5 : nth (N.to_nat (base + i)) c5 0 < 256) by now apply bytes_nth.
  assert (A0 : nth (N.to_nat (base + i)) cfg 0 < 256) by now apply bytes_nth.
  assert (AO : overlay cfg (base + rel) data (base + i) < 256) by now apply overlay_byte.
  replace (base + i - base) with i by lia.
  clear MC MC' LOW LOW' W1 W2 W3 B1 B2 B3 B4 Rmc Rmc' Rma Rma' E.
  destruct CASES as [C|[C|[C|[C|[C|[C|[C|[C|C]]]]]]]].
  - (rewrite P5, P4, P3, P2 by lia; replace (msi_mask i) with 0 by (unfold msi_mask; repeat match goal with |- context [if ?c then _ else _] => replace c with false by lia end; reflexivity); now rewrite merged_0).
  - (subst i; change (msi_mask 2) with 113; apply byte_ext_masked; [exact A5|reflexivity|exact A0|exact AO|]; intros b Hb; rewrite M2 by lia; apply upto8 in Hb; decompose [or] Hb; subst b; ifs; reflexivity).
  - (subst i; change (msi_mask 3) with 0; apply byte_ext_masked; [exact A5|reflexivity|exact A0|exact AO|]; intros b Hb; rewrite M2 by lia; apply upto8 in Hb; decompose [or] Hb; subst b; ifs; reflexivity).
  - (subst i; change (msi_mask 4) with 252; apply byte_ext_masked; [exact A5|reflexivity|exact A0|exact AO|]; intros b Hb; rewrite M4 by lia; apply upto8 in Hb; decompose [or] Hb; subst b; ifs; reflexivity).
  - (replace (msi_mask i) with 255 by (unfold msi_mask; replace (i =? 2) with false by lia; replace (i =? 4) with false by lia; replace ((5 <=? i) && (i <? 14)) with true by lia; reflexivity);
        rewrite merged_255 by assumption; apply byte_ext; auto; intros b Hb; rewrite M4 by lia; replace (i =? 4) with false by lia; reflexivity).
  - (replace (msi_mask i) with 255 by (unfold msi_mask; replace (i =? 2) with false by lia; replace (i =? 4) with false by lia; replace ((5 <=? i) && (i <? 14)) with true by lia; reflexivity);
        rewrite merged_255 by assumption; rewrite P5 by lia; rewrite (put_slice_nth _ _ _ _ _ W4);
        replace (Nat.leb (N.to_nat (base + 8)) (N.to_nat (base + i)) && Nat.ltb (N.to_nat (base + i)) (N.to_nat (base + 8) + length mm)) with true by lia;
        rewrite (slice_nth _ _ _ _ _ Smm) by lia; rewrite NEW by lia; f_equal; lia).
  - (rewrite P5, P4, P3, P2 by lia; replace (msi_mask i) with 0 by (unfold msi_mask; repeat match goal with |- context [if ?c then _ else _] => replace c with false by lia end; reflexivity); now rewrite merged_0).
  - (replace (msi_mask i) with 255 by (unfold msi_mask; replace (i =? 2) with false by lia; replace (i =? 4) with false by lia; replace ((5 <=? i) && (i <? 14)) with false by lia; replace ((16 <=? i) && (i <? 20)) with true by lia; reflexivity);
        rewrite merged_255 by assumption; rewrite (put_slice_nth _ _ _ _ _ W5);
        replace (Nat.leb (N.to_nat (base + 16)) (N.to_nat (base + i)) && Nat.ltb (N.to_nat (base + i)) (N.to_nat (base + 16) + length mk)) with true by lia;
        rewrite (slice_nth _ _ _ _ _ Smk) by lia; rewrite NEW by lia; f_equal; lia).
  - (rewrite P5, P4, P3, P2 by lia; replace (msi_mask i) with 0 by (unfold msi_mask; repeat match goal with |- context [if ?c then _ else _] => replace c with false by lia end; reflexivity); now rewrite merged_0).
Qed.

Lemma msix_exact cfg base rel data o cfg' ev : bytes cfg -> bytes data -> base + 12 <= N.of_nat (length cfg) ->
  rel + N.of_nat (length data) <= 12 ->
  cap_write_msix cfg base rel data = (o, cfg', ev) ->
  ev = [] /\ length cfg' = length cfg /\ bytes cfg' /\ o = Ok tt /\ masked_to cfg cfg' base 12 (base + rel) data msix_mask.
Proof.
  intros B Bd Hl Hr H. unfold cap_write_msix, need in H.
  destruct (slice cfg (N.to_nat base) 12) as [old|] eqn:So; [|destruct (slice_some cfg (N.to_nat base) 12 ltac:(lia)); congruence].
  pose proof (slice_length _ _ _ _ So) as Lo. pose proof (slice_bytes _ _ _ _ B So) as Bo.
  destruct (put_slice old (N.to_nat rel) data) as [new|] eqn:Sn; [|destruct (put_slice_some old (N.to_nat rel) data ltac:(lia)); congruence].
  pose proof (put_slice_length _ _ _ _ Sn) as Ln. pose proof (put_slice_bytes _ _ _ _ Bo Bd Sn) as Bn.
  destruct (rd old 2 2) as [mc|] eqn:Rmc; [|destruct (rd_some old 2 2 ltac:(lia)); congruence].
  destruct (rd new 2 2) as [mc'|] eqn:Rmc'; [|destruct (rd_some new 2 2 ltac:(lia)); congruence].
  match type of H with context [wr cfg ?a ?b ?d] => destruct (wr cfg a b d) as [c1|] eqn:W1; [|destruct (wr_some cfg a b d ltac:(lia)); congruence] end.
  injection H as <- <- <-. assert (B1 : bytes c1) by (eapply wr_bytes; [exact B|exact W1]).
  split; [reflexivity|]. split; [eapply wr_length; eauto|]. split; [exact B1|]. split; [reflexivity|]. intros x.
  destruct ((base <=? x) && (x <? base + 12)) eqn:E; [|eapply wr_other; [exact W1|]; lia].
  assert (C : x = base + 2 \/ x = base + 3 \/ (x < base + 2 \/ base + 4 <= x)) by lia.
  assert (M : forall k, (k < 2)%nat -> x = base + 2 + N.of_nat k -> nth (N.to_nat x) c1 0 = merged (msix_mask (2 + N.of_nat k)) (nth (N.to_nat x) cfg 0) (overlay cfg (base + rel) data x)).
  { intros k Hk ->. apply byte_ext_masked; try now apply bytes_nth.
    { unfold msix_mask. destruct (2 + N.of_nat k =? 3); lia. } { now apply overlay_byte. }
    intros b Hb. pose proof (wr_bit _ _ _ _ _ k b W1 Hk Hb) as Q.
    replace (N.to_nat (base + 2) + k)%nat with (N.to_nat (base + 2 + N.of_nat k)) in Q by lia. rewrite Q. clear Q.
    pose proof (rd_bit _ _ _ _ k b Bo Rmc Hk Hb) as M0. pose proof (rd_bit _ _ _ _ k b Bn Rmc' Hk Hb) as M1.
    rewrite (slice_nth _ _ _ _ _ So) in M0 by lia. rewrite (slice_overlay _ _ _ _ _ _ _ _ So Sn) in M1 by lia.
    replace (N.to_nat base + (2 + k))%nat with (N.to_nat (base + 2 + N.of_nat k)) in M0 by lia.
    replace (base + N.of_nat (2 + k)) with (base + 2 + N.of_nat k) in M1 by lia. rewrite <- M0, <- M1. rewrite !bf_set_bit, !bf_get_bit.
    clear - Hk Hb. apply upto8 in Hb. destruct k as [|[|k]]; [| |lia]; decompose [or] Hb; subst b; ifs; try reflexivity; f_equal; reflexivity. }
  destruct C as [C|[C|C]].
  - rewrite (M 0%nat) by lia. f_equal. f_equal. lia.
  - rewrite (M 1%nat) by lia. f_equal. f_equal. lia.
  - replace (msix_mask (x - base)) with 0; [rewrite merged_0; eapply wr_other; [exact W1|]; lia|].
    unfold msix_mask. destruct (x - base =? 3) eqn:E3; [lia|reflexivity].
Qed.

Lemma masked_ext cfg cfg' base size off data m1 m2 : (forall i, i < size -> m1 i = m2 i) ->
  masked_to cfg cfg' base size off data m1 -> masked_to cfg cfg' base size off data m2.
Proof.
  intros E M o. rewrite M. destruct ((base <=? o) && (o <? base + size)) eqn:C; [|reflexivity]. rewrite E by lia. reflexivity.
Qed.

(* Storing the data directly. *)
Lemma put_masked cfg base size rel data cfg' : bytes cfg -> bytes data -> rel + N.of_nat (length data) <= size ->
  put_slice cfg (N.to_nat (base + rel)) data = Some cfg' ->
  forall m, (forall i, rel <= i < rel + N.of_nat (length data) -> m i = 255) -> masked_to cfg cfg' base size (base + rel) data m.
Proof.
  intros B Bd Hr H m Hm o. rewrite (put_overlay _ _ _ _ o H).
  destruct ((base <=? o) && (o <? base + size)) eqn:E.
  - destruct ((base + rel <=? o) && (o <? base + rel + N.of_nat (length data))) eqn:E2.
    + rewrite Hm by lia. rewrite merged_255; [reflexivity|now apply bytes_nth|now apply overlay_byte].
    + unfold overlay. rewrite E2. now rewrite merged_same.
  - unfold overlay. replace ((base + rel <=? o) && (o <? base + rel + N.of_nat (length data))) with false by lia. reflexivity.
Qed.

(* Writing part of the register bits, in place. *)
Lemma pxdc_exact e cfg base data ans o cfg' ev : bytes cfg -> bytes data -> base + 60 <= N.of_nat (length cfg) -> length data = 2%nat ->
  px_pxdc_write e cfg base (le_val data) ans = (o, cfg', ev) ->
  length cfg' = length cfg /\ bytes cfg' /\ masked_to cfg cfg' base 60 (base + 8) data px_mask /\
  (o, ev) = (if N.testbit (nth 1 data 0) 7 then
               if N.testbit (nth (N.to_nat (base + 7)) cfg 0) 4 then
                 if pe_reset_cb e then (match ans with None => Ok tt | Some er => Err er end, [EvReset ResetPciFlr]) else (Ok tt, [])
               else (Err EINVAL, [])
             else (Ok tt, [])).
Proof.
  intros B Bd Hl L2 H. unfold px_pxdc_write, need in H.
  destruct (rd cfg (N.to_nat (base + 8)) 2) as [old|] eqn:Ro; [|destruct (rd_some cfg (N.to_nat (base + 8)) 2 ltac:(lia)); congruence].
  destruct (rd cfg (N.to_nat (base + 4)) 4) as [dc|] eqn:Rd; [|destruct (rd_some cfg (N.to_nat (base + 4)) 4 ltac:(lia)); congruence].
  destruct (wr cfg (N.to_nat (base + 8)) 2 (bf_set old 0 15 (le_val data))) as [c1|] eqn:W1;
    [|destruct (wr_some cfg (N.to_nat (base + 8)) 2 (bf_set old 0 15 (le_val data)) ltac:(lia)); congruence].
  assert (B1 : bytes c1) by (eapply wr_bytes; [exact B|exact W1]).
  assert (T15 : N.testbit (le_val data) 15 = N.testbit (nth 1 data 0) 7) by exact (le_val_bit data Bd 1 7 ltac:(lia)).
  assert (T28 : N.testbit dc 28 = N.testbit (nth (N.to_nat (base + 7)) cfg 0) 4).
  { pose proof (rd_bit _ _ _ _ 3 4 B Rd ltac:(lia) ltac:(lia)) as Q. change (8 * N.of_nat 3 + 4) with 28 in Q. rewrite Q. f_equal. f_equal. lia. }
  assert (M : masked_to cfg c1 base 60 (base + 8) data px_mask).
  { intros x. destruct ((base <=? x) && (x <? base + 60)) eqn:E; [|eapply wr_other; [exact W1|]; lia].
    assert (C : (exists k, (k < 2)%nat /\ x = base + 8 + N.of_nat k) \/ (x < base + 8 \/ base + 10 <= x)).
    { assert (C : x = base + 8 \/ x = base + 9 \/ (x < base + 8 \/ base + 10 <= x)) by lia.
      destruct C as [C|[C|C]]; [left; exists 0%nat; lia|left; exists 1%nat; lia|right; exact C]. }
    destruct C as [[k [Hk ->]]|C].
    - replace (base + 8 + N.of_nat k - base) with (8 + N.of_nat k) by lia. apply byte_ext_masked; try now apply bytes_nth.
      { clear - Hk. destruct k as [|[|k]]; [reflexivity|reflexivity|lia]. } { now apply overlay_byte. }
      intros b Hb. pose proof (wr_bit _ _ _ _ _ k b W1 Hk Hb) as Q.
      replace (N.to_nat (base + 8) + k)%nat with (N.to_nat (base + 8 + N.of_nat k)) in Q by lia. rewrite Q. clear Q.
      pose proof (rd_bit _ _ _ _ k b B Ro Hk Hb) as M0.
      replace (N.to_nat (base + 8) + k)%nat with (N.to_nat (base + 8 + N.of_nat k)) in M0 by lia. rewrite <- M0. rewrite bf_set_bit.
      unfold overlay. replace ((base + 8 <=? base + 8 + N.of_nat k) && (base + 8 + N.of_nat k <? base + 8 + N.of_nat (length data))) with true by lia.
      replace (N.to_nat (base + 8 + N.of_nat k - (base + 8))) with k by lia. rewrite <- (le_val_bit data Bd k b Hb).
      clear - Hk Hb. apply upto8 in Hb. destruct k as [|[|k]]; [| |lia]; decompose [or] Hb; subst b; ifs; try reflexivity; f_equal; reflexivity.
    - unfold overlay. replace ((base + 8 <=? x) && (x <? base + 8 + N.of_nat (length data))) with false by lia. rewrite merged_same.
      eapply wr_other; [exact W1|]. lia. }
  rewrite T15, T28 in H. pose proof (wr_length _ _ _ _ _ W1) as L1.
  destruct (N.testbit (nth 1 data 0) 7); [|injection H as <- <- <-; auto].
  destruct (N.testbit (nth (N.to_nat (base + 7)) cfg 0) 4); cbn [negb] in H; [|injection H as <- <- <-; auto].
  destruct (pe_reset_cb e); [|injection H as <- <- <-; auto]. destruct ans; injection H as <- <- <-; auto.
Qed.

Lemma cap_write_exact e cfg c off data ans o cfg' ev : cap_wf c -> bytes cfg -> bytes data -> cap_end c <= N.of_nat (length cfg) ->
  cp_off c + cp_hdr_size c <= off -> off + N.of_nat (length data) <= cap_end c ->
  cap_write e cfg c off data ans = (o, cfg', ev) ->
  (forall cr, o <> Crash cr) /\ length cfg' = length cfg /\ bytes cfg' /\
  exists m, (forall i, m i < 256) /\ (forall i b, N.testbit (m i) b = true -> N.testbit (cap_mask c i) b = true) /\
    (o = Ok tt -> forall i, i < cp_size c -> m i = cap_mask c i) /\
    masked_to cfg cfg' (cp_off c) (cp_size c) off data m.
Proof.
  intros W B Bd He Ho Hn H. unfold cap_write in H. unfold cap_end in *.
  assert (Eo : off = cp_off c + (off - cp_off c)) by lia. set (rel := off - cp_off c) in *. clearbody rel.
  assert (NOP : forall o', (forall cr, o' <> Crash cr) -> (o' = Ok tt -> forall i, i < cp_size c -> cap_mask c i = 0 \/ i < rel \/ rel + N.of_nat (length data) <= i) ->
     (o', cfg, @nil event) = (o, cfg', ev) ->
     (forall cr, o <> Crash cr) /\ length cfg' = length cfg /\ bytes cfg' /\
     exists m, (forall i, m i < 256) /\ (forall i b, N.testbit (m i) b = true -> N.testbit (cap_mask c i) b = true) /\
       (o = Ok tt -> forall i, i < cp_size c -> m i = cap_mask c i) /\ masked_to cfg cfg' (cp_off c) (cp_size c) off data m).
  { intros o' NC K Q. injection Q as <- <- <-. split; [exact NC|]. split; [reflexivity|]. split; [exact B|].
    destruct o' as [u|er|cr].
    - destruct u. exists (fun i => if i <? cp_size c then cap_mask c i else 0).
      assert (CB : forall i, cap_mask c i < 256).
      { intros i. unfold cap_mask, pm_mask, px_mask, msi_mask, msix_mask. repeat match goal with |- context [if ?x then _ else _] => destruct x end; lia. }
      split; [intros i; destruct (i <? cp_size c); [apply CB|lia]|]. split; [intros i b; destruct (i <? cp_size c); [auto|rewrite N.bits_0; discriminate]|].
      split; [intros _ i Hi; now replace (i <? cp_size c) with true by lia|].
      intros x. destruct ((cp_off c <=? x) && (x <? cp_off c + cp_size c)) eqn:E; [|reflexivity].
      replace (x - cp_off c <? cp_size c) with true by lia.
      destruct (K eq_refl (x - cp_off c) ltac:(lia)) as [->|K2]; [now rewrite merged_0|].
      unfold overlay. replace ((off <=? x) && (x <? off + N.of_nat (length data))) with false by lia. now rewrite merged_same.
    - exists (fun _ => 0). split; [intros; lia|]. split; [intros i b; rewrite N.bits_0; discriminate|]. split; [discriminate|]. apply masked_refl.
    - exfalso. eapply NC. reflexivity. }
  assert (ERR : forall er, (Err er, cfg, @nil event) = (o, cfg', ev) ->
     (forall cr, o <> Crash cr) /\ length cfg' = length cfg /\ bytes cfg' /\
     exists m, (forall i, m i < 256) /\ (forall i b, N.testbit (m i) b = true -> N.testbit (cap_mask c i) b = true) /\
       (o = Ok tt -> forall i, i < cp_size c -> m i = cap_mask c i) /\ masked_to cfg cfg' (cp_off c) (cp_size c) off data m).
  { intros er. apply NOP; [discriminate|discriminate]. }
  assert (FULL : forall at_, at_ = off -> (forall i, cap_mask c i < 256) -> (forall i, rel <= i < rel + N.of_nat (length data) -> cap_mask c i = 255) ->
     match put_slice cfg (N.to_nat at_) data with Some cfg'0 => (Ok tt, cfg'0, []) | None => (Crash OutOfBounds, cfg, []) end = (o, cfg', ev) ->
     (forall cr, o <> Crash cr) /\ length cfg' = length cfg /\ bytes cfg' /\
     exists m, (forall i, m i < 256) /\ (forall i b, N.testbit (m i) b = true -> N.testbit (cap_mask c i) b = true) /\
       (o = Ok tt -> forall i, i < cp_size c -> m i = cap_mask c i) /\ masked_to cfg cfg' (cp_off c) (cp_size c) off data m).
  { intros at_ -> CB C255. destruct (put_slice cfg (N.to_nat off) data) as [c1|] eqn:P; [|destruct (put_slice_some cfg (N.to_nat off) data ltac:(lia)); congruence].
    intros Q. injection Q as <- <- <-. split; [discriminate|]. split; [eapply put_slice_length; eauto|]. split; [eapply put_slice_bytes; [exact B|exact Bd|exact P]|].
    exists (cap_mask c). split; [exact CB|]. split; [auto|]. split; [auto|]. rewrite Eo in P |- *. eapply put_masked; eauto. lia. }
  unfold PCI_CAP_ID_PM, PCI_CAP_ID_EXP, PCI_CAP_ID_MSI, PCI_CAP_ID_MSIX, PCI_EXT_CAP_ID_DSN in *.
  assert (CB : forall i, cap_mask c i < 256).
  { intros i. unfold cap_mask, pm_mask, px_mask, msi_mask, msix_mask. repeat match goal with |- context [if ?x then _ else _] => destruct x end; lia. }
  unfold cap_wf in W. destruct (cp_ext c) eqn:X.
  { destruct (cp_id c =? 3) eqn:I; [exact (ERR _ H)|]. apply (FULL off); auto. intros i _. unfold cap_mask. rewrite X, I. reflexivity. }
  destruct (cp_id c =? 1) eqn:I1.
  { unfold cap_write_pm in H. destruct (rel =? 2) eqn:R2; [exact (ERR _ H)|]. destruct (rel =? 4) eqn:R4.
    - destruct (negb (N.of_nat (length data) =? 2)) eqn:L; [exact (ERR _ H)|]. apply (FULL (cp_off c + 4)); auto; [lia|].
      intros i Hi. unfold cap_mask. rewrite X, I1. unfold pm_mask. now replace ((i =? 4) || (i =? 5)) with true by lia.
    - match type of H with (if ?b then _ else _) = _ => destruct b end; exact (ERR _ H). }
  destruct (cp_id c =? 16) eqn:I2.
  { unfold cap_write_px in H. destruct (negb (N.of_nat (length data) =? 2)) eqn:L; [exact (ERR _ H)|].
    assert (PX : forall i, cap_mask c i = px_mask i) by (intros i; unfold cap_mask; rewrite X, I1, I2; reflexivity).
    assert (SZ : cp_size c = 60) by lia.
    destruct (rel =? 8) eqn:R8.
    - assert (rel = 8) by lia. subst rel. assert (Lb : cp_off c + 60 <= N.of_nat (length cfg)) by lia. assert (Ld : length data = 2%nat) by lia.
      destruct (pxdc_exact _ _ _ _ _ _ _ _ B Bd Lb Ld H) as (L1 & B1 & M & Q).
      split; [intros cr C; subst o; destruct (N.testbit (nth 1 data 0) 7), (N.testbit (nth (N.to_nat (cp_off c + 7)) cfg 0) 4), (pe_reset_cb e), ans; discriminate Q|].
      split; [exact L1|]. split; [exact B1|]. exists px_mask. split; [intros i; rewrite <- PX; apply CB|]. split; [intros i b; now rewrite PX|].
      split; [intros _ i _; now rewrite PX|]. rewrite SZ, Eo. exact M.
    - match type of H with (if ?b then _ else _) = _ => destruct b eqn:R end.
      + apply (NOP (Ok tt)); [discriminate| |exact H]. intros _ i Hi. rewrite PX. unfold px_mask.
        destruct (i <? rel) eqn:A1; [lia|]. destruct (rel + N.of_nat (length data) <=? i) eqn:A2; [lia|]. left.
        repeat match goal with |- context [if ?x then _ else _] => replace x with false by lia end. reflexivity.
      + match type of H with (if ?b then _ else _) = _ => destruct b eqn:R' end; [|exact (ERR _ H)].
        apply (FULL (cp_off c + rel)); auto.
        intros i Hi. rewrite PX. unfold px_mask. replace (i =? 8) with false by lia. replace (i =? 9) with false by lia.
        now replace ((i =? 40) || (i =? 41) || (i =? 48) || (i =? 49)) with true by lia. }
  destruct (cp_id c =? 5) eqn:I3.
  { assert (SZ : cp_size c = 24) by lia.
    assert (PM : forall i, cap_mask c i = msi_mask i) by (intros i; unfold cap_mask; rewrite X, I1, I2, I3; reflexivity).
    assert (Lb : cp_off c + 24 <= N.of_nat (length cfg)) by lia. assert (Lr : rel + N.of_nat (length data) <= 24) by lia.
    pose proof (msi_exact _ _ _ _ _ _ _ B Bd Lb Lr H) as Q. cbv zeta in Q. destruct Q as (-> & L1 & B1 & -> & M).
    rewrite SZ, Eo.
    destruct (mme_bad _ _); (split; [discriminate|]; split; [exact L1|]; split; [exact B1|]).
    - exists (fun i => if i =? 2 then 1 else 0). split; [intros i; destruct (i =? 2); lia|].
      split; [|split; [discriminate|exact M]]. intros i b. rewrite PM. destruct (i =? 2) eqn:E2; [|rewrite N.bits_0; discriminate].
      replace i with 2 by lia. change (msi_mask 2) with 113. destruct (N.eq_dec b 0) as [->|D]; [reflexivity|].
      change 1 with (2 ^ 0) at 1. rewrite N.pow2_bits_false by congruence. discriminate.
    - exists msi_mask. split; [intros; apply msi_mask_byte|]. split; [intros i b; now rewrite PM|]. split; [intros _ i _; now rewrite PM|exact M]. }
  destruct (cp_id c =? 17) eqn:I4.
  { assert (SZ : cp_size c = 12) by lia.
    assert (PM : forall i, cap_mask c i = msix_mask i) by (intros i; unfold cap_mask; rewrite X, I1, I2, I3, I4; reflexivity).
    assert (Lb : cp_off c + 12 <= N.of_nat (length cfg)) by lia. assert (Lr : rel + N.of_nat (length data) <= 12) by lia.
    destruct (msix_exact _ _ _ _ _ _ _ B Bd Lb Lr H) as (-> & L1 & B1 & -> & M).
    split; [discriminate|]. split; [exact L1|]. split; [exact B1|]. exists msix_mask. split; [intros i; rewrite <- PM; apply CB|].
    split; [intros i b; now rewrite PM|]. split; [intros _ i _; now rewrite PM|]. rewrite SZ, Eo. exact M. }
  apply (FULL off); auto. intros i _. unfold cap_mask. rewrite X, I1, I2, I3, I4. reflexivity.
Qed.
