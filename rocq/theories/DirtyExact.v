(* Reports with a page size different from the logging page size, where the 8-bit index of the code matters. *)
From Coq Require Import NArith ZArith List Bool Lia ZifyBool ZifyNat ZifyN.
From Verif Require Import Base Types Spec Dma Dirty DmaOps SpecDma DmaProofs DmaDisjoint DmaSgl DmaMap DmaRemap DirtyProofs DirtyScale DirtyHist.
Import ListNotations.
Open Scope N_scope.
Ltac Zify.zify_post_hook ::= idtac.

Lemma combine_bits_S n j byte sb f csize c out : combine_bits (S n) j byte sb f csize c out =
  match or_byte out (c / 8) (N.land (N.shiftr byte j) 1 * 2 ^ (c mod 8)) with
  | Ok out' =>
      if sb mod f =? sub64 f 1 then
        let cidx' := w8 (c + 1) in
        if csize <=? cidx' / 8 then Ok (None, out')
        else combine_bits n (j + 1) byte (sb + 1) f csize cidx' out'
      else combine_bits n (j + 1) byte (sb + 1) f csize c out'
  | Err e => Err e
  | Crash c => Crash c
  end.
Proof. reflexivity. Qed.

(* the client page of the next server page *)
Lemma next_page sb f : 0 < f ->
  (sb mod f = f - 1 -> (sb + 1) / f = sb / f + 1) /\ (sb mod f <> f - 1 -> (sb + 1) / f = sb / f).
Proof.
  intros Hf. assert (Dm := N.div_mod sb f ltac:(lia)). assert (Ml := N.mod_lt sb f ltac:(lia)). split; intros Em.
  - symmetry. apply N.div_unique with (r := 0); [lia|]. rewrite Em in Dm. set (z := sb / f) in *. nia.
  - symmetry. apply N.div_unique with (r := sb mod f + 1); lia.
Qed.

Lemma w8_next a : w8 (a mod 256 + 1) = (a + 1) mod 256.
Proof. unfold w8. change 256 with 256. rewrite N.add_mod_idemp_l by lia. reflexivity. Qed.

(* With 32 bytes or more the index wraps and never reaches the end. *)
Lemma combine_bits_wrap n : forall j byte sb f csize c out,
  0 < f < two64 -> csize = N.of_nat (length out) -> 32 <= csize -> c = (sb / f) mod 256 ->
  exists out', combine_bits n j byte sb f csize c out = Ok (Some (((sb + N.of_nat n) / f) mod 256), out') /\
    length out' = length out /\
    forall p, page_set out' p <->
      page_set out p \/ exists t, t < N.of_nat n /\ N.testbit byte (j + t) = true /\ ((sb + t) / f) mod 256 = p.
Proof.
  induction n as [|n IH]; intros j byte sb f csize c out Hf Hs H32 Hc.
  - exists out. unfold combine_bits. rewrite N.add_0_r, <- Hc. split; [reflexivity|]. split; [auto|].
    intros p. split; [auto|]. intros [A|(t & A & _)]; [auto|lia].
  - rewrite combine_bits_S, server_bit.
    assert (Hc256 : c < 256) by (subst c; apply N.mod_lt; lia).
    destruct (or_bit_ok out c (N.testbit byte j)) as (o1 & E1 & L1 & B1); [lia|].
    rewrite E1, sub64_small by lia.
    assert (Es : sb + N.of_nat (S n) = sb + 1 + N.of_nat n) by lia. rewrite Es.
    assert (G : forall c', c' = ((sb + 1) / f) mod 256 ->
      exists out', combine_bits n (j + 1) byte (sb + 1) f csize c' o1 = Ok (Some (((sb + 1 + N.of_nat n) / f) mod 256), out') /\
      length out' = length out /\
      forall p, page_set out' p <->
        page_set out p \/ exists t, t < N.of_nat (S n) /\ N.testbit byte (j + t) = true /\ ((sb + t) / f) mod 256 = p).
    { intros c' Hc'. destruct (IH (j + 1) byte (sb + 1) f csize c' o1 Hf ltac:(congruence) H32 Hc') as (o2 & E2 & L2 & B2).
      exists o2. split; [exact E2|]. split; [congruence|]. intros p. rewrite B2, B1. split.
      - intros [[A|[A ->]]|(t & T1 & T2 & T3)]; auto.
        + right. exists 0. rewrite !N.add_0_r. split; [clear; lia|]. auto.
        + right. exists (t + 1). replace (j + (t + 1)) with (j + 1 + t) by (clear; lia).
          replace (sb + (t + 1)) with (sb + 1 + t) by (clear; lia). split; [clear - T1; lia|auto].
      - intros [A|(t & T1 & T2 & T3)]; auto. destruct (N.eq_dec t 0) as [->|Ht].
        + rewrite N.add_0_r in *. left; right. split; auto. congruence.
        + right. exists (t - 1). replace (j + 1 + (t - 1)) with (j + t) by (clear - Ht; lia).
          replace (sb + 1 + (t - 1)) with (sb + t) by (clear - Ht; lia). split; [clear - T1 Ht; lia|auto]. }
    destruct (next_page sb f) as [N1 N2]; [lia|].
    destruct (N.eqb_spec (sb mod f) (f - 1)) as [Em|Em].
    + cbv zeta. assert (Hw : w8 (c + 1) = ((sb + 1) / f) mod 256) by (rewrite (N1 Em), Hc; apply w8_next).
      rewrite Hw. destruct (N.leb_spec csize ((((sb + 1) / f) mod 256) / 8)) as [L|L].
      * exfalso. assert (((sb + 1) / f) mod 256 < 256) by (apply N.mod_lt; lia).
        assert (((sb + 1) / f) mod 256 / 8 < 32) by (apply N.div_lt_upper_bound; lia). lia.
      * apply G. reflexivity.
    + apply G. now rewrite (N2 Em).
Qed.

Lemma combine_bytes_wrap n : forall bm sb f csize c out,
  0 < f < two64 -> csize = N.of_nat (length out) -> 32 <= csize -> n = length bm -> c = (sb / f) mod 256 ->
  exists out', combine_bytes n bm sb f csize c out = Ok (out', repeat 0 n) /\ length out' = length out /\
    forall p, page_set out' p <-> page_set out p \/ exists q, page_set bm q /\ ((sb + q) / f) mod 256 = p.
Proof.
  induction n as [|n IH]; intros bm sb f csize c out Hf Hs H32 Hn Hc.
  - destruct bm; [|discriminate]. exists out. split; [reflexivity|]. split; [auto|].
    intros p. split; [auto|]. intros [A|(q & A & _)]; auto. now apply page_set_nil in A.
  - simpl combine_bytes. destruct (N.leb_spec csize (c / 8)) as [L|L].
    { exfalso. assert (c < 256) by (subst c; apply N.mod_lt; lia).
      assert (c / 8 < 32) by (apply N.div_lt_upper_bound; lia). lia. }
    destruct bm as [|b bm]; [discriminate|]. simpl in Hn. injection Hn as Hn.
    destruct (combine_bits_wrap 8 0 b sb f csize c out Hf Hs H32 Hc) as (o1 & E1 & L1 & B1).
    change (N.of_nat 8) with 8 in *. rewrite E1.
    destruct (IH bm (sb + 8) f csize _ o1 Hf ltac:(congruence) H32 Hn eq_refl) as (o2 & E2 & L2 & B2). rewrite E2.
    exists o2. split; [reflexivity|]. split; [congruence|].
    intros p. rewrite B2, B1. split.
    + intros [[A|(t & T1 & T2 & T3)]|(q & Q1 & Q2)]; auto.
      * right. exists t. rewrite page_set_cons. rewrite N.add_0_l in T2. auto.
      * right. exists (q + 8). rewrite page_set_cons. replace (q + 8 - 8) with q by (clear; lia).
        split; [right; split; [clear; lia|auto]|]. replace (sb + (q + 8)) with (sb + 8 + q) by (clear; lia). auto.
    + intros [A|(q & Q1 & Q2)]; auto. rewrite page_set_cons in Q1. destruct Q1 as [[Q1 Q3]|[Q1 Q3]].
      * left; right. exists q. rewrite N.add_0_l. auto.
      * right. exists (q - 8). split; auto. replace (sb + 8 + (q - 8)) with (sb + q) by (clear - Q1; lia). auto.
Qed.

(* With less the report ends before the index can wrap. *)
Lemma combine_bits_small n : forall j byte sb f csize c out,
  0 < f < two64 -> csize = N.of_nat (length out) -> csize <= 31 -> c = sb / f -> c < 8 * csize ->
  exists oc out', combine_bits n j byte sb f csize c out = Ok (oc, out') /\ length out' = length out /\
    match oc with
    | Some c' => c' = (sb + N.of_nat n) / f /\ c' < 8 * csize
    | None => 8 * csize <= (sb + N.of_nat n) / f
    end /\
    forall p, page_set out' p <->
      page_set out p \/ (p < 8 * csize /\ exists t, t < N.of_nat n /\ N.testbit byte (j + t) = true /\ (sb + t) / f = p).
Proof.
  induction n as [|n IH]; intros j byte sb f csize c out Hf Hs H31 Hc H2.
  - exists (Some c), out. unfold combine_bits. split; [reflexivity|]. split; [auto|].
    split; [split; [rewrite N.add_0_r; auto|auto]|]. intros p. split; [auto|].
    intros [A|(_ & t & A & _)]; [auto|lia].
  - rewrite combine_bits_S, server_bit.
    destruct (or_bit_ok out c (N.testbit byte j)) as (o1 & E1 & L1 & B1); [lia|].
    rewrite E1, sub64_small by lia.
    assert (Es : sb + N.of_nat (S n) = sb + 1 + N.of_nat n) by lia. rewrite Es.
    assert (G : forall c', c' = (sb + 1) / f -> c' < 8 * csize ->
      exists oc out', combine_bits n (j + 1) byte (sb + 1) f csize c' o1 = Ok (oc, out') /\ length out' = length out /\
      match oc with
      | Some c' => c' = (sb + 1 + N.of_nat n) / f /\ c' < 8 * csize
      | None => 8 * csize <= (sb + 1 + N.of_nat n) / f
      end /\
      forall p, page_set out' p <->
        page_set out p \/ (p < 8 * csize /\ exists t, t < N.of_nat (S n) /\ N.testbit byte (j + t) = true /\ (sb + t) / f = p)).
    { intros c' Hc' Hl. destruct (IH (j + 1) byte (sb + 1) f csize c' o1 Hf ltac:(congruence) H31 Hc' Hl) as (oc & o2 & E2 & L2 & Hoc & B2).
      exists oc, o2. split; [exact E2|]. split; [congruence|]. split; [exact Hoc|]. intros p. rewrite B2, B1. split.
      - intros [[A|[A ->]]|(A & t & T1 & T2 & T3)]; auto.
        + right. split; [exact H2|]. exists 0. rewrite !N.add_0_r. split; [clear; lia|]. auto.
        + right. split; [exact A|]. exists (t + 1). replace (j + (t + 1)) with (j + 1 + t) by (clear; lia).
          replace (sb + (t + 1)) with (sb + 1 + t) by (clear; lia). split; [clear - T1; lia|auto].
      - intros [A|(A & t & T1 & T2 & T3)]; auto. destruct (N.eq_dec t 0) as [->|Ht].
        + rewrite N.add_0_r in *. left; right. split; auto. congruence.
        + right. split; [exact A|]. exists (t - 1). replace (j + 1 + (t - 1)) with (j + t) by (clear - Ht; lia).
          replace (sb + 1 + (t - 1)) with (sb + t) by (clear - Ht; lia). split; [clear - T1 Ht; lia|auto]. }
    destruct (next_page sb f) as [N1 N2]; [lia|].
    destruct (N.eqb_spec (sb mod f) (f - 1)) as [Em|Em].
    + specialize (N1 Em). cbv zeta. unfold w8. rewrite (N.mod_small (c + 1)) by lia.
      destruct (N.leb_spec csize ((c + 1) / 8)) as [L|L]; [apply le_div8 in L|apply lt_div8 in L].
      * exists None, o1. split; [reflexivity|]. split; [auto|].
        assert (Hm : (sb + 1) / f <= (sb + 1 + N.of_nat n) / f) by (apply N.div_le_mono; lia).
        split; [lia|]. intros p. rewrite B1. split.
        -- intros [A|[A ->]]; auto. right. split; [auto|]. exists 0. rewrite !N.add_0_r. split; [clear; lia|auto].
        -- intros [A|(A & t & T1 & T2 & T3)]; auto.
           assert (t = 0).
           { destruct (N.eq_dec t 0); auto. exfalso.
             assert ((sb + 1) / f <= (sb + t) / f) by (apply N.div_le_mono; lia). lia. }
           subst t. rewrite N.add_0_r in *. right. split; auto. congruence.
      * apply G; [congruence|exact L].
    + apply G; [now rewrite (N2 Em)|exact H2].
Qed.

Lemma combine_bytes_small n : forall bm sb f csize c out,
  0 < f < two64 -> csize = N.of_nat (length out) -> csize <= 31 -> n = length bm -> c = sb / f ->
  exists out' m, combine_bytes n bm sb f csize c out = Ok (out', repeat 0 m ++ skipn m bm) /\
    length out' = length out /\ (m <= n)%nat /\
    (m = n \/ 8 * csize <= (sb + 8 * N.of_nat m) / f) /\
    forall p, page_set out' p <->
      page_set out p \/ (p < 8 * csize /\ exists q, page_set bm q /\ (sb + q) / f = p).
Proof.
  induction n as [|n IH]; intros bm sb f csize c out Hf Hs H31 Hn Hc.
  - destruct bm; [|discriminate]. exists out, 0%nat. simpl. split; [auto|]. split; [auto|]. split; [auto|]. split; [auto|].
    intros p. split; [auto|]. intros [A|(_ & q & A & _)]; auto. now apply page_set_nil in A.
  - simpl combine_bytes. destruct (N.leb_spec csize (c / 8)) as [L|L]; [apply le_div8 in L|apply lt_div8 in L].
    + exists out, 0%nat. simpl. split; [reflexivity|]. split; [auto|]. split; [lia|].
      rewrite N.add_0_r. split; [right; lia|].
      intros p. split; [auto|]. intros [A|(A & q & _ & B)]; auto. exfalso.
      assert (sb / f <= (sb + q) / f) by (apply N.div_le_mono; lia). lia.
    + destruct bm as [|b bm]; [discriminate|]. simpl in Hn. injection Hn as Hn.
      destruct (combine_bits_small 8 0 b sb f csize c out Hf Hs H31 Hc L) as (oc & o1 & E1 & L1 & Hoc & B1).
      change (N.of_nat 8) with 8 in *. rewrite E1. destruct oc as [c'|].
      * destruct Hoc as [Hc' Hc8].
        destruct (IH bm (sb + 8) f csize c' o1 Hf ltac:(congruence) H31 Hn Hc') as (o2 & m & E2 & L2 & Hm & Hd & B2).
        rewrite E2. exists o2, (S m). split; [reflexivity|]. split; [congruence|]. split; [lia|].
        split. { destruct Hd as [->|Hd]; [auto|right]. replace (sb + 8 * N.of_nat (S m)) with (sb + 8 + 8 * N.of_nat m) by lia. auto. }
        intros p. rewrite B2, B1. split.
        -- intros [[A|(A & t & T1 & T2 & T3)]|(A & q & Q1 & Q2)]; auto.
           ++ right. split; auto. exists t. rewrite page_set_cons. rewrite N.add_0_l in T2. auto.
           ++ right. split; auto. exists (q + 8). rewrite page_set_cons. replace (q + 8 - 8) with q by (clear; lia).
              split; [right; split; [clear; lia|auto]|]. replace (sb + (q + 8)) with (sb + 8 + q) by (clear; lia). auto.
        -- intros [A|(A & q & Q1 & Q2)]; auto. rewrite page_set_cons in Q1.
           destruct Q1 as [[Q1 Q3]|[Q1 Q3]].
           ++ left; right. split; auto. exists q. rewrite N.add_0_l. auto.
           ++ right. split; auto. exists (q - 8). split; auto. replace (sb + 8 + (q - 8)) with (sb + q) by (clear - Q1; lia). auto.
      * exists o1, 1%nat. split; [reflexivity|]. split; [auto|]. split; [lia|].
        split; [right; exact Hoc|]. intros p. rewrite B1. split.
        -- intros [A|(A & t & T1 & T2 & T3)]; auto. right. split; auto. exists t. rewrite page_set_cons.
           rewrite N.add_0_l in T2. auto.
        -- intros [A|(A & q & Q1 & Q2)]; auto. rewrite page_set_cons in Q1.
           destruct Q1 as [[Q1 Q3]|[Q1 Q3]].
           ++ right. split; auto. exists q. rewrite N.add_0_l. auto.
           ++ exfalso. assert ((sb + 8) / f <= (sb + q) / f) by (apply N.div_le_mono; lia). lia.
Qed.

(* ---- extend: where it does not end or leaves the buffer *)

(* end beyond 255 and a buffer of 32 bytes or more: the loop never ends *)
Lemma repeat_bit_forever fuel : forall b c last out,
  c <= 255 -> 255 < last -> 32 <= N.of_nat (length out) -> repeat_bit fuel (N.b2n b) c last out = Crash Diverges.
Proof.
  induction fuel as [|f IH]; intros b c last out H1 H2 H3; rewrite repeat_bit_eq.
  - destruct (N.ltb_spec c last); [reflexivity|lia].
  - destruct (N.ltb_spec c last); [|lia].
    destruct (or_bit_ok out c b) as (o1 & E1 & L1 & _); [lia|]. rewrite E1. apply IH; [|auto|lia].
    unfold w8. assert ((c + 1) mod 256 < 256) by (apply N.mod_lt; lia). lia.
Qed.

(* end beyond the buffer, which has less than 32 bytes *)
Lemma repeat_bit_past fuel : forall b c last out,
  c <= 8 * N.of_nat (length out) -> 8 * N.of_nat (length out) < last -> N.of_nat (length out) <= 31 ->
  (N.to_nat (8 * N.of_nat (length out) - c) < fuel)%nat ->
  repeat_bit fuel (N.b2n b) c last out = Crash OutOfBounds.
Proof.
  induction fuel as [|f IH]; intros b c last out H1 H2 H3 H4; [lia|]. rewrite repeat_bit_eq.
  destruct (N.ltb_spec c last); [|lia].
  destruct (N.eq_dec c (8 * N.of_nat (length out))) as [E|E].
  - unfold or_byte. assert (En : nth_error out (N.to_nat (c / 8)) = None).
    { apply nth_error_None. subst c. rewrite N.mul_comm, N.div_mul by lia. lia. }
    now rewrite En.
  - destruct (or_bit_ok out c b) as (o1 & E1 & L1 & _); [lia|]. rewrite E1.
    unfold w8. rewrite N.mod_small by lia. apply IH; rewrite L1; lia.
Qed.

Lemma extend_bits_S n j byte f c out : extend_bits (S n) j byte f c out =
  match repeat_bit 256 (N.land (N.shiftr byte j) 1) c (c + f) out with
  | Ok (cidx', out') => extend_bits n (j + 1) byte f cidx' out'
  | o => o
  end.
Proof. reflexivity. Qed.

(* the bits of one byte, when they do not all fit *)
Lemma extend_bits_forever n : forall j byte f c out,
  0 < f -> c <= 255 -> 255 < c + N.of_nat n * f -> 32 <= N.of_nat (length out) ->
  extend_bits n j byte f c out = Crash Diverges.
Proof.
  induction n as [|n IH]; intros j byte f c out Hf Hc Hl H32; [simpl in Hl; lia|].
  rewrite extend_bits_S, server_bit. destruct (N.lt_ge_cases 255 (c + f)) as [L|L].
  - now rewrite repeat_bit_forever.
  - destruct (repeat_bit_spec 256 (N.testbit byte j) c (c + f) out) as (o1 & E1 & L1 & _); try lia.
    rewrite E1. apply IH; lia.
Qed.

Lemma extend_bits_past n : forall j byte f c out,
  0 < f -> c <= 8 * N.of_nat (length out) -> 8 * N.of_nat (length out) < c + N.of_nat n * f -> N.of_nat (length out) <= 31 ->
  extend_bits n j byte f c out = Crash OutOfBounds.
Proof.
  induction n as [|n IH]; intros j byte f c out Hf Hc Hl H31; [simpl in Hl; lia|].
  rewrite extend_bits_S, server_bit. destruct (N.lt_ge_cases (8 * N.of_nat (length out)) (c + f)) as [L|L].
  - rewrite repeat_bit_past; auto; lia.
  - destruct (repeat_bit_spec 256 (N.testbit byte j) c (c + f) out) as (o1 & E1 & L1 & _); try lia.
    rewrite E1. apply IH; lia.
Qed.

Lemma extend_bytes_forever n : forall bm f c out,
  0 < f -> n = length bm -> c <= 255 -> 255 < c + 8 * f * N.of_nat n -> 32 <= N.of_nat (length out) ->
  extend_bytes n bm f (N.of_nat (length out)) c out = Crash Diverges.
Proof.
  induction n as [|n IH]; intros bm f c out Hf Hn Hc Hl H32; [lia|].
  destruct bm as [|b bm]; [discriminate|]. simpl in Hn. injection Hn as Hn. simpl extend_bytes.
  destruct (N.leb_spec (N.of_nat (length out)) (c / 8)) as [L|L].
  { exfalso. assert (c / 8 < 32) by (apply N.div_lt_upper_bound; lia). lia. }
  destruct (N.lt_ge_cases 255 (c + 8 * f)) as [G|G].
  - rewrite extend_bits_forever; auto; lia.
  - destruct (extend_bits_spec 8 0 b f c out Hf) as (o1 & E1 & L1 & _); try (simpl; lia).
    change (N.of_nat 8) with 8 in *. rewrite E1. rewrite <- L1. rewrite IH; auto; lia.
Qed.

Lemma extend_bytes_past n : forall bm f c out,
  0 < f -> n = length bm -> N.of_nat (length out) <= 31 ->
  c < 8 * N.of_nat (length out) -> 8 * N.of_nat (length out) <= c + 8 * f * N.of_nat n ->
  (8 * N.of_nat (length out) - c) mod (8 * f) <> 0 ->
  extend_bytes n bm f (N.of_nat (length out)) c out = Crash OutOfBounds.
Proof.
  induction n as [|n IH]; intros bm f c out Hf Hn H31 Hc Hl Hd; [lia|].
  destruct bm as [|b bm]; [discriminate|]. simpl in Hn. injection Hn as Hn. simpl extend_bytes.
  destruct (N.leb_spec (N.of_nat (length out)) (c / 8)) as [L|L]; [apply le_div8 in L; lia|].
  destruct (N.lt_ge_cases (8 * N.of_nat (length out)) (c + 8 * f)) as [G|G].
  - rewrite extend_bits_past; auto; lia.
  - destruct (extend_bits_spec 8 0 b f c out Hf) as (o1 & E1 & L1 & _); try (simpl; lia).
    change (N.of_nat 8) with 8 in *. rewrite E1. rewrite <- L1.
    destruct (N.eq_dec (c + 8 * f) (8 * N.of_nat (length out))) as [Q|Q].
    { exfalso. apply Hd. replace (8 * N.of_nat (length out) - c) with (8 * f) by (clear - Q; lia). apply N.mod_same. clear - Hf; lia. }
    assert (Hd' : (8 * N.of_nat (length out) - (c + 8 * f)) mod (8 * f) <> 0).
    { intros Z. apply Hd.
      replace (8 * N.of_nat (length out) - c) with (8 * N.of_nat (length out) - (c + 8 * f) + 1 * (8 * f)) by (clear - G; lia).
      rewrite N.mod_add by (clear - Hf; lia). exact Z. }
    clear Hd. rewrite <- L1 in Hd'. rewrite IH; auto; clear Hd'; rewrite L1; clear - Hl G Q H31; lia.
Qed.

(* ---- whole reports *)

Lemma zeroes_unlogged d i r bm bm' m q :
  nth_error (dm_regions d) i = Some r -> rg_bitmap r = Some bm -> bm' = repeat 0 m ++ skipn m bm ->
  q < 8 * N.of_nat m -> ~ logged (set_regions d (set_nth i (set_bitmap r (Some bm')) (dm_regions d))) i q.
Proof.
  intros Hn Hb -> Hq. rewrite (logged_set _ _ _ _ _ Hn Hb), Nat.eqb_refl. intros Hps. unfold page_set in Hps.
  assert (Hz2 : (N.to_nat (q / 8) < m)%nat).
  { assert (q / 8 < N.of_nat m) by (apply N.div_lt_upper_bound; lia). lia. }
  rewrite app_nth1 in Hps by (rewrite repeat_length; auto).
  assert (En : nth (N.to_nat (q / 8)) (repeat 0 m) 0 = 0).
  { generalize (N.to_nat (q / 8)). clear. induction m as [|m IH]; intros [|n]; simpl; auto. }
  rewrite En, N.bits_0 in Hps. discriminate.
Qed.

Lemma past_unlogged d i r bm bm' q :
  nth_error (dm_regions d) i = Some r -> rg_bitmap r = Some bm -> 8 * N.of_nat (length bm') <= q ->
  ~ logged (set_regions d (set_nth i (set_bitmap r (Some bm')) (dm_regions d))) i q.
Proof.
  intros Hn Hb Hq. rewrite (logged_set _ _ _ _ _ Hn Hb), Nat.eqb_refl. intros Hps. apply page_set_bound in Hps. lia.
Qed.

Lemma report_combine_small d hint i r bm k c cs buf :
  inv d -> inv2 d -> nth_error (dm_regions d) i = Some r -> rg_bitmap r = Some bm ->
  dm_pgsize d = 2 ^ k -> k < c -> c <= 63 -> get_bitmap_size (rg_len r) (2 ^ c) = Ok cs ->
  cs <= 31 -> N.of_nat (length buf) = cs ->
  exists out d' h, dirty_page_get d hint (rg_base r) (rg_len r) (2 ^ c) cs buf = (Ok out, d', h) /\
    length out = length buf /\
    (forall p, page_set out p <->
       page_set buf p \/ (p < 8 * cs /\ exists q, logged d i q /\ q * 2 ^ k / 2 ^ c = p)) /\
    (forall q, q * 2 ^ k / 2 ^ c < 8 * cs -> ~ logged d' i q).
Proof.
  intros Hi H2 Hn Hb HP Hck Hk Hcs H31 Hbuf.
  pose proof (proj1 (Forall_forall _ _) (inv_bm _ Hi) r ltac:(eapply nth_error_In; eauto)) as Hok.
  unfold bm_ok in Hok. rewrite Hb, HP in Hok. destruct Hok as (_ & _ & ss & Hss & Hlen & _).
  destruct (report_exact d hint i r bm c _ _ _ buf Hi H2 Hn Hb HP ltac:(lia) Hss Hcs) as [h E].
  assert (Hpc := pow_pos k). assert (Hlt : 2 ^ k < 2 ^ c) by (apply N.pow_lt_mono_r; lia).
  unfold report_bitmap in E. rewrite (proj2 (N.eqb_neq (2 ^ c) (2 ^ k))) in E by lia.
  rewrite (proj2 (N.ltb_ge (2 ^ c) (2 ^ k))) in E by lia.
  rewrite pow_ratio in E by lia. set (f := 2 ^ (c - k)) in *.
  assert (Hf : 0 < f < two64).
  { split; [apply pow_pos|]. apply pow_lt64. lia. }
  destruct (combine_bytes_small (N.to_nat ss) bm 0 f cs 0 buf Hf) as (out & m & E2 & L & Hm & Hd & B).
  { auto. } { auto. } { lia. } { symmetry. apply N.div_0_l. lia. }
  rewrite E2 in E.
  eexists _, _, _. split; [exact E|]. split; [auto|]. split.
  - intros p. rewrite B.
    split; (intros [A|(A & q & Q1 & Q2)]; [auto|right; split; [auto|]]; exists q).
    + rewrite (logged_at _ _ _ _ _ Hn Hb), scale_div by lia. split; auto.
    + rewrite (logged_at _ _ _ _ _ Hn Hb) in Q1. rewrite scale_div in Q2 by lia. split; auto.
  - intros q Hq. rewrite scale_div in Hq by lia. fold f in Hq.
    destruct (N.lt_ge_cases q (8 * N.of_nat m)) as [L1|L1].
    + exact (zeroes_unlogged _ _ _ _ _ m q Hn Hb eq_refl L1).
    + destruct Hd as [Hd|Hd].
      * apply (past_unlogged _ _ _ _ _ _ Hn Hb). rewrite app_length, repeat_length, skipn_length. lia.
      * rewrite N.add_0_l in Hd. exfalso.
        assert (8 * N.of_nat m / f <= q / f) by (apply N.div_le_mono; lia). lia.
Qed.

Lemma report_combine_wrap d hint i r bm k c cs buf :
  inv d -> inv2 d -> nth_error (dm_regions d) i = Some r -> rg_bitmap r = Some bm ->
  dm_pgsize d = 2 ^ k -> k < c -> c <= 63 -> get_bitmap_size (rg_len r) (2 ^ c) = Ok cs ->
  32 <= cs -> N.of_nat (length buf) = cs ->
  exists out d' h, dirty_page_get d hint (rg_base r) (rg_len r) (2 ^ c) cs buf = (Ok out, d', h) /\
    length out = length buf /\
    (forall p, page_set out p <->
       page_set buf p \/ exists q, logged d i q /\ (q * 2 ^ k / 2 ^ c) mod 256 = p) /\
    (forall q, ~ logged d' i q).
Proof.
  intros Hi H2 Hn Hb HP Hck Hk Hcs H32 Hbuf.
  pose proof (proj1 (Forall_forall _ _) (inv_bm _ Hi) r ltac:(eapply nth_error_In; eauto)) as Hok.
  unfold bm_ok in Hok. rewrite Hb, HP in Hok. destruct Hok as (_ & _ & ss & Hss & Hlen & _).
  destruct (report_exact d hint i r bm c _ _ _ buf Hi H2 Hn Hb HP ltac:(lia) Hss Hcs) as [h E].
  assert (Hpc := pow_pos k). assert (Hlt : 2 ^ k < 2 ^ c) by (apply N.pow_lt_mono_r; lia).
  unfold report_bitmap in E. rewrite (proj2 (N.eqb_neq (2 ^ c) (2 ^ k))) in E by lia.
  rewrite (proj2 (N.ltb_ge (2 ^ c) (2 ^ k))) in E by lia.
  rewrite pow_ratio in E by lia. set (f := 2 ^ (c - k)) in *.
  assert (Hf : 0 < f < two64).
  { split; [apply pow_pos|]. apply pow_lt64. lia. }
  destruct (combine_bytes_wrap (N.to_nat ss) bm 0 f cs 0 buf Hf) as (out & E2 & L & B).
  { auto. } { auto. } { lia. } { rewrite N.div_0_l by lia. reflexivity. }
  rewrite E2 in E.
  eexists _, _, _. split; [exact E|]. split; [auto|]. split.
  - intros p. rewrite B.
    split; (intros [A|(q & Q1 & Q2)]; [auto|right]; exists q).
    + rewrite (logged_at _ _ _ _ _ Hn Hb), scale_div by lia. split; auto.
    + rewrite (logged_at _ _ _ _ _ Hn Hb) in Q1. rewrite scale_div in Q2 by lia. split; auto.
  - intros q. destruct (N.lt_ge_cases q (8 * ss)) as [L1|L1].
    + apply (zeroes_unlogged _ _ _ _ _ (N.to_nat ss) q Hn Hb).
      * rewrite skipn_all2 by lia. now rewrite app_nil_r.
      * now rewrite N2Nat.id.
    + apply (past_unlogged _ _ _ _ _ _ Hn Hb). rewrite repeat_length. lia.
Qed.

(* A finer report that is too large, or does not give whole bytes to each logged page. *)
Lemma report_extend_otherwise d hint i r bm k c cs buf :
  inv d -> inv2 d -> nth_error (dm_regions d) i = Some r -> rg_bitmap r = Some bm ->
  dm_pgsize d = 2 ^ k -> c < k -> k <= 63 -> rg_len r < 2 ^ 64 - 64 -> get_bitmap_size (rg_len r) (2 ^ c) = Ok cs ->
  N.of_nat (length buf) = cs ->
  exists h,
    (cs <= 31 -> cs mod 2 ^ (k - c) <> 0 ->
     dirty_page_get d hint (rg_base r) (rg_len r) (2 ^ c) cs buf = (Crash OutOfBounds, d, h)) /\
    (32 <= cs -> dirty_page_get d hint (rg_base r) (rg_len r) (2 ^ c) cs buf = (Crash Diverges, d, h)).
Proof.
  intros Hi H2 Hn Hb HP Hck Hk Hl64 Hcs Hbuf.
  pose proof (proj1 (Forall_forall _ _) (inv_bm _ Hi) r ltac:(eapply nth_error_In; eauto)) as Hok.
  unfold bm_ok in Hok. rewrite Hb, HP in Hok. destruct Hok as (_ & _ & ss & Hss & Hlen & _).
  destruct (report_exact d hint i r bm c _ _ _ buf Hi H2 Hn Hb HP ltac:(lia) Hss Hcs) as [h E].
  assert (Hpc := pow_pos c). assert (Hlt : 2 ^ c < 2 ^ k) by (apply N.pow_lt_mono_r; lia).
  unfold report_bitmap in E. rewrite (proj2 (N.eqb_neq (2 ^ c) (2 ^ k))) in E by lia.
  rewrite (proj2 (N.ltb_lt (2 ^ c) (2 ^ k))) in E by lia.
  rewrite pow_ratio in E by lia. set (f := 2 ^ (k - c)) in *.
  assert (Hf : 0 < f) by apply pow_pos.
  assert (Hkf : 2 ^ k = f * 2 ^ c) by (unfold f; rewrite <- N.pow_add_r; f_equal; lia).
  apply bitmap_size_exact in Hss; [|exact Hl64]. apply bitmap_size_exact in Hcs; [|exact Hl64].
  assert (Hbig : cs <= f * ss).
  { destruct Hss as (sp & [S1 S2] & S3 & S4 & S5), Hcs as (cp & [C1 C2] & C3 & C4 & C5). rewrite Hkf in *.
    set (g := 2 ^ c) in *. clear - S1 S2 S3 S4 S5 C1 C2 C3 C4 C5 Hf Hpc.
    apply N.mod_divide in S3; [|lia]. destruct S3 as [u ->]. apply N.mod_divide in C3; [|lia]. destruct C3 as [v ->].
    (* cp <= sp * f <= 64 u f, and 64 v < cp + 64 *)
    assert (cp - 1 < sp * f).
    { apply N.mul_lt_mono_pos_r with (p := g); [exact Hpc|]. nia. }
    assert (cp <= 64 * (u * f)) by nia. assert (64 * v < 64 * (u * f) + 64) by lia. nia. }
  exists h. split; intros A.
  - intros A2. rewrite <- Hbuf in E at 2.
    rewrite extend_bytes_past in E; [exact E|exact Hf|lia|lia|..].
    + assert (cs <> 0) by (intros ->; apply A2; apply N.mod_0_l; lia). lia.
    + rewrite Hbuf, N2Nat.id. lia.
    + rewrite Hbuf, N.sub_0_r. intros Z. apply A2.
      rewrite N.mul_mod_distr_l in Z by lia. lia.
  - rewrite <- Hbuf in E at 2. rewrite extend_bytes_forever in E; [exact E|exact Hf|lia|lia|rewrite N2Nat.id; lia|lia].
Qed.
