(* Reports with a page size different from the logging page size. *)
From Coq Require Import NArith ZArith List Bool Lia ZifyBool ZifyNat ZifyN.
From Verif Require Import Base Types Spec Dma Dirty DmaOps SpecDma DmaProofs DmaDisjoint DmaSgl DmaMap DmaRemap DirtyProofs.
Import ListNotations.
Open Scope N_scope.
Ltac Zify.zify_post_hook ::= Z.div_mod_to_equations.

Lemma page_set_cons b bm p : page_set (b :: bm) p <->
  (p < 8 /\ N.testbit b p = true) \/ (8 <= p /\ page_set bm (p - 8)).
Proof.
  unfold page_set. destruct (N.lt_ge_cases p 8) as [H|H].
  - rewrite N.div_small, N.mod_small by auto. simpl. intuition lia.
  - replace (p / 8) with (N.succ ((p - 8) / 8)) by lia. rewrite N2Nat.inj_succ. simpl.
    replace (p mod 8) with ((p - 8) mod 8) by lia. intuition lia.
Qed.

Lemma page_set_nil p : ~ page_set [] p.
Proof. unfold page_set. destruct (N.to_nat (p / 8)); simpl; rewrite N.bits_0; discriminate. Qed.

Lemma page_set_bound bm p : page_set bm p -> p < 8 * N.of_nat (length bm).
Proof.
  unfold page_set. intros H. destruct (Nat.lt_ge_cases (N.to_nat (p / 8)) (length bm)) as [L|L]; [lia|].
  rewrite nth_overflow, N.bits_0 in H by auto. discriminate.
Qed.

(* the bit (x >> j) & 1, shifted left by t *)
Lemma server_bit x j : N.land (N.shiftr x j) 1 = N.b2n (N.testbit x j).
Proof.
  change 1 with (N.ones 1). rewrite N.land_ones. change (2 ^ 1) with 2.
  rewrite <- N.bit0_mod, N.shiftr_spec'. reflexivity.
Qed.

Lemma shifted_bit b t u : N.testbit (N.b2n b * 2 ^ t) u = b && (u =? t).
Proof.
  destruct b; simpl N.b2n.
  - rewrite N.mul_1_l, N.pow2_bits_eqb. simpl. apply N.eqb_sym.
  - rewrite N.mul_0_l, N.bits_0. reflexivity.
Qed.

Lemma or_bit_ok out c b : c < 8 * N.of_nat (length out) ->
  exists out', or_byte out (c / 8) (N.b2n b * 2 ^ (c mod 8)) = Ok out' /\ length out' = length out /\
    forall p, page_set out' p <-> page_set out p \/ (b = true /\ p = c).
Proof.
  intros H. destruct (or_byte out (c / 8) (N.b2n b * 2 ^ (c mod 8))) as [o| |] eqn:E.
  - exists o. split; [auto|]. split; [eapply or_byte_length; eauto|].
    intros p. rewrite (or_byte_bits _ _ _ _ E p), shifted_bit, andb_true_iff, N.eqb_eq.
    split; (intros [A|[A B]]; [auto|right]).
    + split; [tauto|lia].
    + subst. auto.
  - unfold or_byte in E. destruct (nth_error _ _); discriminate.
  - unfold or_byte in E. destruct (nth_error out (N.to_nat (c / 8))) eqn:E2; [discriminate|].
    apply nth_error_None in E2. lia.
Qed.

Lemma div_shift p c k f : 0 < f -> c + k * f <= p -> (p - c) / f = k + (p - (c + k * f)) / f.
Proof.
  intros Hf H. replace (p - c) with (p - (c + k * f) + k * f) by lia. rewrite N.div_add by lia. apply N.add_comm.
Qed.

(* ---- extend *)

Lemma repeat_bit_eq fuel bit c last out :
  repeat_bit fuel bit c last out =
  if c <? last then
    match fuel with
    | O => Crash Diverges
    | S f =>
        match or_byte out (c / 8) (bit * 2 ^ (c mod 8)) with
        | Ok out' => repeat_bit f bit (w8 (c + 1)) last out'
        | Err e => Err e
        | Crash c => Crash c
        end
    end
  else Ok (c, out).
Proof. destruct fuel; reflexivity. Qed.

Lemma repeat_bit_spec fuel : forall b c last out,
  c <= last -> last <= 255 -> last <= 8 * N.of_nat (length out) -> (N.to_nat (last - c) <= fuel)%nat ->
  exists out', repeat_bit fuel (N.b2n b) c last out = Ok (last, out') /\ length out' = length out /\
    forall p, page_set out' p <-> page_set out p \/ (b = true /\ c <= p < last).
Proof.
  induction fuel as [|f IH]; intros b c last out H1 H2 H3 H4; rewrite repeat_bit_eq.
  - destruct (N.ltb_spec c last); [lia|]. assert (c = last) by lia. subst.
    exists out. split; [auto|]. split; [auto|]. intros p. split; [auto|]. intros [A|[_ A]]; [auto|lia].
  - destruct (N.ltb_spec c last) as [L|L].
    + destruct (or_bit_ok out c b) as (o1 & E1 & L1 & B1); [lia|]. rewrite E1.
      unfold w8. rewrite N.mod_small by lia.
      destruct (IH b (c + 1) last o1) as (o2 & E2 & L2 & B2); try lia.
      exists o2. split; [exact E2|]. split; [lia|]. intros p. rewrite B2, B1.
      split.
      * intros [[A|[A ->]]|[A B]]; auto; right; split; auto; lia.
      * intros [A|[A B]]; auto. destruct (N.eq_dec p c) as [->|]; [auto|]. right. split; auto; lia.
    + assert (c = last) by lia. subst. exists out. split; [auto|]. split; [auto|]. intros p. split; [auto|]. intros [A|[_ A]]; [auto|lia].
Qed.

Lemma extend_bits_spec n : forall j byte f c out,
  0 < f -> c + N.of_nat n * f <= 255 -> c + N.of_nat n * f <= 8 * N.of_nat (length out) ->
  exists out', extend_bits n j byte f c out = Ok (c + N.of_nat n * f, out') /\ length out' = length out /\
    forall p, page_set out' p <->
      page_set out p \/ (c <= p < c + N.of_nat n * f /\ N.testbit byte (j + (p - c) / f) = true).
Proof.
  induction n as [|n IH]; intros j byte f c out Hf H1 H2.
  - unfold extend_bits. exists out. split; [f_equal; f_equal; lia|]. split; [auto|]. intros p.
    split; [auto|]. intros [A|[A _]]; [auto|lia].
  - change (extend_bits (S n) j byte f c out) with
      (match repeat_bit 256 (N.land (N.shiftr byte j) 1) c (c + f) out with
       | Ok (cidx', out') => extend_bits n (j + 1) byte f cidx' out'
       | o => o end).
    rewrite server_bit.
    assert (Hs : N.of_nat (S n) * f = f + N.of_nat n * f) by lia.
    destruct (repeat_bit_spec 256 (N.testbit byte j) c (c + f) out) as (o1 & E1 & L1 & B1); try lia.
    rewrite E1.
    destruct (IH (j + 1) byte f (c + f) o1) as (o2 & E2 & L2 & B2); try lia.
    rewrite E2. exists o2. split; [f_equal; f_equal; lia|]. split; [lia|].
    intros p. rewrite B2, B1. rewrite Hs.
    destruct (N.lt_ge_cases p (c + f)) as [L|L].
    + destruct (N.lt_ge_cases p c) as [L'|L'].
      * split; [|intros [A|[A _]]; [auto|lia]]. intros [[A|[_ A]]|[A _]]; auto; lia.
      * rewrite (N.div_small (p - c) f) by lia. rewrite N.add_0_r.
        split; [intros [[A|[A B]]|[A B]]; auto; try lia; right; split; auto; lia|].
        intros [A|[A B]]; [auto|]. left; right. split; auto; lia.
    + assert (Ed : (p - c) / f = 1 + (p - (c + f)) / f).
      { replace (p - c) with (p - (c + f) + 1 * f) by lia. rewrite N.div_add by lia. lia. }
      rewrite Ed. replace (j + (1 + (p - (c + f)) / f)) with (j + 1 + (p - (c + f)) / f) by lia.
      split; [intros [[A|[A B]]|[A B]]; auto; try lia; right; split; auto; lia|].
      intros [A|[A B]]; auto. right. split; auto; lia.
Qed.

Lemma le_div8 a b : a <= b / 8 -> 8 * a <= b.
Proof. lia. Qed.

Lemma lt_div8 a b : b / 8 < a -> b < 8 * a.
Proof. lia. Qed.

Ltac Zify.zify_post_hook ::= idtac.

Lemma extend_bytes_spec n : forall bm f q c out,
  0 < f -> f * q = N.of_nat (length out) -> N.of_nat (length out) <= 31 -> n = length bm ->
  c mod (8 * f) = 0 -> c <= 8 * N.of_nat (length out) ->
  exists out' m, extend_bytes n bm f (N.of_nat (length out)) c out = Ok (out', repeat 0 m ++ skipn m bm) /\
    length out' = length out /\ (m <= n)%nat /\
    (m = n \/ c + 8 * f * N.of_nat m = 8 * N.of_nat (length out)) /\
    forall p, page_set out' p <->
      page_set out p \/ (c <= p < 8 * N.of_nat (length out) /\ page_set bm ((p - c) / f)).
Proof.
  induction n as [|n IH]; intros bm f q c out Hf Hq Hl Hn Hc Hcl.
  - destruct bm; [|discriminate]. exists out, 0%nat. simpl. split; [auto|]. split; [auto|]. split; [auto|]. split; [auto|].
    intros p. split; [auto|]. intros [A|[_ A]]; auto. now apply page_set_nil in A.
  - simpl. destruct (N.leb_spec (N.of_nat (length out)) (c / 8)) as [L|L]; [apply le_div8 in L|apply lt_div8 in L].
    + assert (c = 8 * N.of_nat (length out)) by lia. subst c.
      exists out, 0%nat. simpl. split; [auto|]. split; [auto|]. split; [lia|]. split; [right; lia|].
      intros p. split; [auto|]. intros [A|[A _]]; [auto|lia].
    + destruct bm as [|b bm]; [discriminate|]. simpl in Hn. injection Hn as Hn.
      (* c + 8 f <= 8 * length out by divisibility *)
      assert (Hnext : c + 8 * f <= 8 * N.of_nat (length out)).
      { assert (E := N.div_mod c (8 * f) ltac:(lia)). rewrite Hc in E.
        set (t := c / (8 * f)) in *. rewrite <- Hq in *. clear - E L Hf.
        assert (t < q); [|nia]. nia. }
      destruct (extend_bits_spec 8 0 b f c out Hf) as (o1 & E1 & L1 & B1); try (simpl; lia).
      change (N.of_nat 8) with 8 in *. rewrite E1.
      assert (Hc' : (c + 8 * f) mod (8 * f) = 0).
      { replace (c + 8 * f) with (c + 1 * (8 * f)) by lia. rewrite N.mod_add by lia. exact Hc. }
      rewrite <- L1 in Hq, Hl.
      assert (Hcl' : c + 8 * f <= 8 * N.of_nat (length o1)) by (rewrite L1; exact Hnext).
      destruct (IH bm f q (c + 8 * f) o1 Hf Hq Hl Hn Hc' Hcl') as (o2 & m & E2 & L2 & Hm & Hd & B2).
      clear Hc Hc' Hq IH. rewrite L1 in *. rewrite E2.
      exists o2, (S m). split; [reflexivity|]. split; [lia|]. split; [lia|].
      split. { destruct Hd as [->|Hd]; [auto|right; lia]. }
      intros p. rewrite B2, B1, page_set_cons. clear B1 B2.
      destruct (N.lt_ge_cases p (c + 8 * f)) as [L'|L'].
      * assert (Hd8 : c <= p -> (p - c) / f < 8) by (intros; apply N.div_lt_upper_bound; clear - Hf L' H; lia).
        split.
        -- intros [[A|[A B]]|[A B]]; auto; try lia. right. split; [lia|]. left. rewrite N.add_0_l in B. split; auto. apply Hd8; lia.
        -- intros [A|[A [[B1 B2]|[B1 _]]]]; auto.
           ++ left; right. split; [lia|]. now rewrite N.add_0_l.
           ++ specialize (Hd8 ltac:(lia)). lia.
      * rewrite (div_shift p c 8 f Hf L'). set (z := (p - (c + 8 * f)) / f).
        replace (8 + z - 8) with z by (clear; lia).
        split.
        -- intros [[A|[A B]]|[A B]]; [auto|lia|]. right. split; [lia|]. right. split; [lia|auto].
        -- intros [A|[A [[B1 B2]|[B1 B2]]]]; [auto|lia|]. right. split; [lia|auto].
Qed.
