(* Lemmas about adding capabilities. *)
From Coq Require Import NArith ZArith List Bool Lia ZifyBool ZifyNat ZifyN Sorted.
From Verif Require Import Base Types Bytes BytesProofs Migr Pci SpecPci SpecCaps BufProofs PciProofs PciWrite DmaMap.
Import ListNotations.
Open Scope N_scope.
Ltac Zify.zify_post_hook ::= idtac.

(* ---- linked lists *)
Lemma walk_nonzero next o l : walk next o l -> forall x, In x l -> x <> 0.
Proof. induction 1 as [|o l Ho W IH]; intros x Hx; [destruct Hx|]. destruct Hx as [<-|Hx]; auto. Qed.

Lemma walk_head next o l : walk next o l -> o = hd 0 l.
Proof. destruct 1; reflexivity. Qed.

Lemma last_in {A} (l : list A) d : l <> [] -> In (last l d) l.
Proof.
  induction l as [|x l IH]; [congruence|]. intros _. destruct l as [|y l]; [now left|].
  right. apply IH. discriminate.
Qed.
Lemma last_cons {A} (x : A) l d : last (x :: l) d = last l x.
Proof. revert x d. induction l as [|y l IH]; intros x d; [reflexivity|]. change (last (x :: y :: l) d) with (last (y :: l) d). now rewrite !IH. Qed.

Lemma walk_snoc next next' o l off : walk next o l -> l <> [] -> NoDup l -> off <> 0 ->
  (forall x, In x l -> x <> last l 0 -> next' x = next x) -> next' (last l 0) = off -> next' off = 0 ->
  walk next' o (l ++ [off]).
Proof.
  intros W. induction W as [|o l Ho W IH]; intros Hn ND H0 Hs Hl He; [congruence|].
  inversion_clear ND as [|? ? Nin ND']. cbn [app]. constructor; [exact Ho|].
  destruct l as [|y l].
  - cbn [last] in Hl. rewrite Hl. cbn [app]. constructor; [exact H0|].
    rewrite He. constructor.
  - change (last (o :: y :: l) 0) with (last (y :: l) 0) in *.
    assert (E : next' o = next o).
    { apply Hs; [now left|]. intros E. apply Nin. rewrite E. apply last_in. discriminate. }
    rewrite E. apply IH; auto; [discriminate|]. intros x Hx. apply Hs. now right.
Qed.

Lemma walk_same next next' o l : walk next o l -> (forall x, In x l -> next' x = next x) -> walk next' o l.
Proof.
  intros W. induction W as [|o l Ho W IH]; intros Hs; [constructor|].
  constructor; [exact Ho|]. rewrite Hs by now left. apply IH. intros x Hx. apply Hs. now right.
Qed.

Lemma fop_snoc {A} (R : A -> A -> Prop) l x : ForallOrdPairs R l -> Forall (fun y => R y x) l -> ForallOrdPairs R (l ++ [x]).
Proof.
  induction l as [|y l IH]; intros H F; cbn [app].
  - constructor; constructor.
  - inversion H; subst. inversion F; subst. constructor; [|auto].
    apply Forall_app. split; [assumption|]. constructor; [assumption|constructor].
Qed.

(* ---- reading fields *)
Lemma rd1 l off : (off < length l)%nat -> rd l off 1 = Some (nth off l 0).
Proof.
  intros H. unfold rd. destruct (slice_some l off 1) as [s S]; [lia|]. rewrite S.
  pose proof (slice_length _ _ _ _ S) as L. pose proof (slice_nth _ _ _ _ 0 S ltac:(lia)) as E.
  destruct s as [|b [|]]; try discriminate. cbn [nth] in E. cbn [le_val]. f_equal. rewrite Nat.add_0_r in E. lia.
Qed.
Lemma rd2 l off : (off + 2 <= length l)%nat -> rd l off 2 = Some (nth off l 0 + 256 * nth (off + 1) l 0).
Proof.
  intros H. unfold rd. destruct (slice_some l off 2) as [s S]; [lia|]. rewrite S.
  pose proof (slice_length _ _ _ _ S) as L. pose proof (slice_nth _ _ _ _ 0 S ltac:(lia)) as E.
  pose proof (slice_nth _ _ _ _ 1 S ltac:(lia)) as E1.
  destruct s as [|b [|b1 [|]]]; try discriminate. cbn [nth] in E, E1. cbn [le_val]. f_equal. rewrite Nat.add_0_r in E. lia.
Qed.
Lemma rd4 l off : (off + 4 <= length l)%nat ->
  rd l off 4 = Some (nth off l 0 + 256 * (nth (off + 1) l 0 + 256 * (nth (off + 2) l 0 + 256 * nth (off + 3) l 0))).
Proof.
  intros H. unfold rd. destruct (slice_some l off 4) as [s S]; [lia|]. rewrite S.
  pose proof (slice_length _ _ _ _ S) as L. pose proof (slice_nth _ _ _ _ 0 S ltac:(lia)) as E.
  pose proof (slice_nth _ _ _ _ 1 S ltac:(lia)) as E1. pose proof (slice_nth _ _ _ _ 2 S ltac:(lia)) as E2.
  pose proof (slice_nth _ _ _ _ 3 S ltac:(lia)) as E3.
  destruct s as [|b [|b1 [|b2 [|b3 [|]]]]]; try discriminate. cbn [nth] in E, E1, E2, E3. cbn [le_val]. f_equal. rewrite Nat.add_0_r in E. lia.
Qed.

Lemma shiftr20 b0 b1 b2 b3 : b0 < 256 -> b1 < 256 -> b2 < 256 ->
  N.shiftr (b0 + 256 * (b1 + 256 * (b2 + 256 * b3))) 20 = b2 / 16 + 16 * b3.
Proof.
  intros H0 H1 H2. rewrite N.shiftr_div_pow2. change (2 ^ 20) with 1048576.
  symmetry. apply N.div_unique with (r := b0 + 256 * b1 + 65536 * (b2 mod 16)).
  - pose proof (N.mod_lt b2 16 ltac:(discriminate)). lia.
  - pose proof (N.div_mod b2 16 ltac:(discriminate)). lia.
Qed.
Lemma low16 b0 b1 v : b0 < 256 -> b1 < 256 -> N.land (b0 + 256 * (b1 + 256 * v)) 65535 = b0 + 256 * b1.
Proof.
  intros H0 H1. change 65535 with (N.ones 16). rewrite N.land_ones. change (2 ^ 16) with 65536.
  symmetry. apply N.mod_unique with (q := v); lia.
Qed.

Lemma ext_hdr_fields cfg o : bytes cfg -> o + 4 <= N.of_nat (length cfg) -> ext_hdr cfg o = Some (ext_id cfg o, ext_next cfg o).
Proof.
  intros B H. unfold ext_hdr. replace (N.of_nat (length cfg) <=? o) with false by lia.
  rewrite rd4 by lia. unfold ext_id, ext_next, cfg_byte.
  rewrite low16 by (apply bytes_nth; exact B). rewrite shiftr20 by (apply bytes_nth; exact B).
  replace (N.to_nat (o + 1)) with (N.to_nat o + 1)%nat by lia. replace (N.to_nat (o + 2)) with (N.to_nat o + 2)%nat by lia.
  replace (N.to_nat (o + 3)) with (N.to_nat o + 3)%nat by lia. reflexivity.
Qed.

Lemma set_next_spec cfg o nxt c : bytes cfg -> nxt < 4096 -> set_ext_next cfg o nxt = Some c ->
  bytes c /\ length c = length cfg /\ (forall j, j <> o + 2 -> j <> o + 3 -> cfg_byte c j = cfg_byte cfg j) /\ ext_next c o = nxt.
Proof.
  intros B Hn H. unfold set_ext_next in H. destruct (rd cfg (N.to_nat o) 4) as [v|] eqn:R; [|discriminate].
  pose proof (wr_bytes _ _ _ _ _ B H) as Bc. pose proof (wr_length _ _ _ _ _ H) as L.
  assert (Lb : (N.to_nat o + 4 <= length cfg)%nat) by (unfold rd in R; destruct (slice cfg (N.to_nat o) 4) eqn:S; [|discriminate]; now apply slice_bound in S).
  split; [exact Bc|]. split; [exact L|]. split.
  - intros j H2 H3. unfold cfg_byte. destruct (N.lt_ge_cases j o) as [J|J].
    + eapply wr_other; [exact H|]. lia.
    + destruct (N.lt_ge_cases j (o + 4)) as [K|K]; [|eapply wr_other; [exact H|]; lia].
      set (k := N.to_nat (j - o)). assert (Hk : (k < 2)%nat) by lia.
      replace (N.to_nat j) with (N.to_nat o + k)%nat by lia.
      apply byte_ext; [now apply bytes_nth..|]. intros b Hb.
      rewrite (wr_bit _ _ _ _ _ k b H) by lia. rewrite bf_set_bit.
      replace (20 <=? 8 * N.of_nat k + b) with false by lia. cbn [andb].
      apply (rd_bit _ _ _ _ k b B R); lia.
  - pose proof (ext_hdr_fields c o Bc ltac:(lia)) as E. unfold ext_hdr in E.
    replace (N.of_nat (length c) <=? o) with false in E by lia.
    assert (R' : rd c (N.to_nat o) 4 = Some (bf_set v 20 12 nxt)).
    { destruct (rd_some c (N.to_nat o) 4 ltac:(lia)) as [w W]. rewrite W. f_equal. apply N.bits_inj. intros i.
      pose proof (rd_bound _ _ _ _ Bc W) as Wb. pose proof (rd_bound _ _ _ _ B R) as Vb.
      change (256 ^ N.of_nat 4) with (2 ^ 32) in *.
      destruct (N.lt_ge_cases i 32) as [I|I].
      - pose proof (N.div_mod i 8 ltac:(discriminate)) as D. pose proof (N.mod_lt i 8 ltac:(discriminate)).
        set (k := N.to_nat (i / 8)). assert (Hk : (k < 4)%nat) by (assert (i / 8 < 4) by (apply N.div_lt_upper_bound; lia); lia).
        replace i with (8 * N.of_nat k + i mod 8) by lia.
        rewrite (rd_bit _ _ _ _ k _ Bc W) by lia. apply (wr_bit _ _ _ _ _ k _ H); lia.
      - rewrite bf_set_bit. replace (i <? 20 + 12) with false by lia. rewrite andb_false_r.
        destruct (N.eq_dec w 0) as [->|W0]; destruct (N.eq_dec v 0) as [->|V0]; rewrite ?N.bits_0; auto;
          rewrite ?(N.bits_above_log2 w), ?(N.bits_above_log2 v); auto; apply N.lt_le_trans with 32; auto; apply N.log2_lt_pow2; lia. }
    rewrite R' in E. injection E as _ E. rewrite <- E. apply N.bits_inj. intros i. rewrite N.shiftr_spec', bf_set_bit.
    replace (20 <=? i + 20) with true by lia. cbn [andb]. destruct (i + 20 <? 20 + 12) eqn:I.
    + f_equal. lia.
    + destruct (N.eq_dec nxt 0) as [->|N0]; rewrite ?N.bits_0.
      * assert (Vb : v < 2 ^ 32) by exact (rd_bound _ _ _ _ B R). destruct (N.eq_dec v 0) as [->|V0]; [apply N.bits_0|].
        apply N.bits_above_log2. apply N.lt_le_trans with 32; [apply N.log2_lt_pow2; lia|lia].
      * rewrite (N.bits_above_log2 nxt) by (apply N.lt_le_trans with 12; [apply N.log2_lt_pow2; [lia|change (2 ^ 12) with 4096; lia]|lia]).
        assert (Vb : v < 2 ^ 32) by exact (rd_bound _ _ _ _ B R). destruct (N.eq_dec v 0) as [->|V0]; [apply N.bits_0|].
        apply N.bits_above_log2. apply N.lt_le_trans with 32; [apply N.log2_lt_pow2; lia|lia].
Qed.

(* ---- sizes *)
Lemma rd_inv l off n v : rd l off n = Some v -> (off + n <= length l)%nat.
Proof. unfold rd. destruct (slice l off n) eqn:S; [|discriminate]. intros _. now apply slice_bound in S. Qed.

Definition known_id (ext : bool) (data : list N) : Prop :=
  if ext then (nth 0 data 0 = 3 \/ nth 0 data 0 = 11) /\ nth 1 data 0 = 0
  else nth 0 data 0 = 1 \/ nth 0 data 0 = 16 \/ nth 0 data 0 = 5 \/ nth 0 data 0 = 17 \/ nth 0 data 0 = 9.

Lemma cap_size_inv data ext n : bytes data -> cap_size data ext = Ok n -> n = cap_bytes ext data /\ known_id ext data.
Proof.
  intros B. unfold cap_size, need, cap_bytes, known_id.
  unfold PCI_EXT_CAP_ID_DSN, PCI_EXT_CAP_ID_VNDR, PCI_CAP_ID_PM, PCI_CAP_ID_EXP, PCI_CAP_ID_MSI, PCI_CAP_ID_MSIX, PCI_CAP_ID_VNDR.
  destruct ext.
  - destruct (rd data 0 2) as [id|] eqn:R; [|discriminate]. pose proof (rd_inv _ _ _ _ R) as L.
    rewrite rd2 in R by lia. cbn [Nat.add] in R. injection R as <-.
    pose proof (bytes_nth data 0 B). pose proof (bytes_nth data 1 B).
    destruct (nth 0 data 0 + 256 * nth 1 data 0 =? 3) eqn:E3.
    { intros E. injection E as <-. replace (nth 0 data 0 =? 3) with true by lia. split; [reflexivity|]. split; [left|]; lia. }
    destruct (nth 0 data 0 + 256 * nth 1 data 0 =? 11) eqn:E11; [|discriminate].
    destruct (rd data 4 4) as [v|] eqn:R4; [|discriminate]. intros E. injection E as <-.
    pose proof (rd_inv _ _ _ _ R4). rewrite rd4 in R4 by lia. injection R4 as <-.
    rewrite shiftr20 by (apply bytes_nth; exact B). cbn [Nat.add].
    replace (nth 0 data 0 =? 3) with false by lia. split; [reflexivity|]. split; [right|]; lia.
  - destruct (rd data 0 1) as [id|] eqn:R; [|discriminate]. pose proof (rd_inv _ _ _ _ R) as L.
    rewrite rd1 in R by lia. injection R as <-.
    destruct (nth 0 data 0 =? 1) eqn:E1; [intros E; injection E as <-; split; [reflexivity|lia]|].
    destruct (nth 0 data 0 =? 16) eqn:E2; [intros E; injection E as <-; split; [reflexivity|lia]|].
    destruct (nth 0 data 0 =? 5) eqn:E3; [intros E; injection E as <-; split; [reflexivity|lia]|].
    destruct (nth 0 data 0 =? 17) eqn:E4; [intros E; injection E as <-; split; [reflexivity|lia]|].
    destruct (nth 0 data 0 =? 9) eqn:E5; [|discriminate].
    destruct (rd data 2 1) as [v|] eqn:R2; [|discriminate]. intros E. injection E as <-.
    pose proof (rd_inv _ _ _ _ R2). rewrite rd1 in R2 by lia. injection R2 as <-. split; [reflexivity|lia].
Qed.

Lemma cap_size_of data ext : bytes data -> known_id ext data -> ((if ext then 8 else 3) <= length data)%nat ->
  cap_size data ext = Ok (cap_bytes ext data).
Proof.
  intros B K L. unfold cap_size, need, cap_bytes.
  unfold PCI_EXT_CAP_ID_DSN, PCI_EXT_CAP_ID_VNDR, PCI_CAP_ID_PM, PCI_CAP_ID_EXP, PCI_CAP_ID_MSI, PCI_CAP_ID_MSIX, PCI_CAP_ID_VNDR.
  destruct ext; cbn [known_id] in K.
  - rewrite rd2 by lia. cbn [Nat.add]. destruct K as [K K1]. rewrite K1. rewrite rd4 by lia.
    rewrite shiftr20 by (apply bytes_nth; exact B). cbn [Nat.add].
    destruct K as [->| ->]; reflexivity.
  - rewrite !rd1 by lia. destruct K as [K|[K|[K|[K|K]]]]; rewrite K; reflexivity.
Qed.

Lemma cap_bytes_same (ext : bool) (d d' : list N) : (forall i : nat, (i < 8)%nat -> (if ext then i <> 2 /\ i <> 3 else i <> 1)%nat -> (ext = false -> i < 3)%nat -> nth i d 0 = nth i d' 0) ->
  known_id ext d -> known_id ext d' /\ cap_bytes ext d = cap_bytes ext d'.
Proof.
  intros H K. unfold known_id, cap_bytes in *. destruct ext.
  - rewrite (H 0%nat), (H 1%nat), (H 6%nat), (H 7%nat) in * by (try split; congruence || lia). auto.
  - rewrite (H 0%nat), (H 2%nat) in * by (congruence || lia). auto.
Qed.

(* ---- where the next capability goes *)
Lemma round4 x : x < 2 ^ 62 -> round_up x 4 mod 4 = 0 /\ x <= round_up x 4 < x + 4.
Proof.
  intros H. change (round_up x 4) with (round_up x (2 ^ 2)). rewrite round_up_pow2; [|lia|].
  2: { change (2 ^ 2) with 4. change two64 with (4 * 2 ^ 62). lia. }
  change (2 ^ 2) with 4. split; [apply N.mod_mul; discriminate|].
  pose proof (N.div_mod (x + 4 - 1) 4 ltac:(discriminate)). pose proof (N.mod_lt (x + 4 - 1) 4 ltac:(discriminate)). lia.
Qed.

Lemma last_cap_walk cfg : forall l fuel prevp lst, walk (std_next cfg) (cfg_byte cfg prevp) l ->
  prevp < N.of_nat (length cfg) -> (forall x, In x l -> x + 1 < N.of_nat (length cfg)) -> (length l < fuel)%nat ->
  last_cap fuel cfg prevp lst = Ok (last (map (fun x => x + 1) l) prevp, last l lst).
Proof.
  induction l as [|o l IH]; intros fuel prevp lst W Hp Hl Hf; (destruct fuel as [|fuel]; [cbn [length] in Hf; lia|]); cbn [last_cap];
    replace (N.of_nat (length cfg) <=? prevp) with false by lia; rewrite rd1 by lia; unfold need;
    change (nth (N.to_nat prevp) cfg 0) with (cfg_byte cfg prevp).
  - pose proof (walk_head _ _ _ W) as E. cbn [hd] in E. rewrite E. reflexivity.
  - inversion W as [|? ? Ho W' E]; subst. replace (cfg_byte cfg prevp =? 0) with false by lia.
    rewrite (IH fuel (cfg_byte cfg prevp + 1) (cfg_byte cfg prevp)).
    + cbn [map]. now rewrite !last_cons.
    + exact W'.
    + apply Hl. now left.
    + intros x Hx. apply Hl. now right.
    + cbn [length] in Hf. lia.
Qed.

Lemma last_ext_walk cfg : bytes cfg -> forall l fuel o, walk (ext_next cfg) o l -> o <> 0 ->
  (forall x, In x l -> x + 4 <= N.of_nat (length cfg)) -> (length l <= fuel)%nat ->
  last_ext_cap fuel cfg o = Ok (last l 0).
Proof.
  intros B. induction l as [|o' l IH]; intros fuel o W Ho Hl Hf; inversion W as [|? ? Ho' W' E1]; [congruence|]. subst.
  destruct fuel as [|fuel]; [cbn [length] in Hf; lia|]. cbn [last_ext_cap].
  rewrite ext_hdr_fields by (auto; apply Hl; now left). unfold need. cbn [snd].
  rewrite last_cons. destruct l as [|x l].
  - pose proof (walk_head _ _ _ W') as E. cbn [hd] in E. rewrite E. reflexivity.
  - inversion W' as [|? ? Hx W'' E]. subst. replace (ext_next cfg o' =? 0) with false by lia.
    rewrite (IH fuel (ext_next cfg o')); [now rewrite !last_cons|exact W'|exact Hx| |cbn [length] in *; lia].
    intros y Hy. apply Hl. now right.
Qed.

(* ---- config space after placing *)
Lemma put_byte cfg off d c j : put_slice cfg (N.to_nat off) d = Some c ->
  cfg_byte c j = if (off <=? j) && (j <? off + N.of_nat (length d)) then nth (N.to_nat (j - off)) d 0 else cfg_byte cfg j.
Proof.
  intros H. unfold cfg_byte. rewrite (put_slice_nth _ _ _ _ (N.to_nat j) H).
  destruct ((off <=? j) && (j <? off + N.of_nat (length d))) eqn:E.
  - replace (Nat.leb (N.to_nat off) (N.to_nat j) && Nat.ltb (N.to_nat j) (N.to_nat off + length d)) with true by lia.
    f_equal. lia.
  - now replace (Nat.leb (N.to_nat off) (N.to_nat j) && Nat.ltb (N.to_nat j) (N.to_nat off + length d)) with false by lia.
Qed.
Lemma wr1_byte cfg off v c j : wr cfg (N.to_nat off) 1 v = Some c -> cfg_byte c j = if j =? off then v mod 256 else cfg_byte cfg j.
Proof.
  intros H. unfold wr in H. rewrite (put_byte _ _ _ _ j H). cbn [length le_bytes].
  destruct (j =? off) eqn:E.
  - replace ((off <=? j) && (j <? off + N.of_nat 1)) with true by lia. replace (N.to_nat (j - off)) with 0%nat by lia. reflexivity.
  - now replace ((off <=? j) && (j <? off + N.of_nat 1)) with false by lia.
Qed.
Lemma slice0_nth data n d i : slice data 0 n = Some d -> (i < n)%nat -> nth i d 0 = nth i data 0.
Proof. intros H Hi. exact (slice_nth _ _ _ _ _ H Hi). Qed.
