(* Lemmas about config space accesses. *)
From Coq Require Import NArith ZArith List Bool Lia ZifyBool ZifyNat ZifyN.
From Verif Require Import Base Types Bytes BytesProofs Migr Pci SpecPci BufProofs.
Import ListNotations.
Open Scope N_scope.
Ltac Zify.zify_post_hook ::= idtac.

Lemma find_app {A} (f : A -> bool) l1 l2 : find f (l1 ++ l2) = match find f l1 with Some x => Some x | None => find f l2 end.
Proof. induction l1 as [|x l1 IH]; [reflexivity|]. cbn [app find]. destruct (f x); auto. Qed.

Lemma cap_find_all p off n : cap_find_by_offset p off n = find (fun c => ranges_intersect off n (cp_off c) (cp_size c)) (all_caps p).
Proof. unfold cap_find_by_offset, all_caps. rewrite find_app. reflexivity. Qed.

Lemma intersect_spec off n c : ranges_intersect off n (cp_off c) (cp_size c) = true <-> off < cap_end c /\ cp_off c <= off + n.
Proof. unfold ranges_intersect, cap_end. lia. Qed.

(* In ordered lists the first match leaves no capability between the access and the match. *)
Lemma find_ordered l off n : ForallOrdPairs (fun a b => cap_end a <= cp_off b) l ->
  (forall c, In c l -> 0 < cp_size c) ->
  match find (fun c => ranges_intersect off n (cp_off c) (cp_size c)) l with
  | Some c => In c l /\ off < cap_end c /\ cp_off c <= off + n /\ (forall b, In b l -> cap_end b <= off \/ cp_off c <= cp_off b)
  | None => forall b, In b l -> ~ (off < cap_end b /\ cp_off b <= off + n)
  end.
Proof.
  induction l as [|x l IH]; intros O S; cbn [find].
  - intros b [].
  - inversion O as [|? ? Hx Hl]; subst.
    destruct (ranges_intersect off n (cp_off x) (cp_size x)) eqn:E.
    + apply intersect_spec in E. split; [now left|]. split; [tauto|]. split; [tauto|].
      intros b [->|Hb]; [right; lia|]. rewrite Forall_forall in Hx. specialize (Hx _ Hb).
      right. unfold cap_end in *. lia.
    + assert (NE : ~ (off < cap_end x /\ cp_off x <= off + n)) by (intros C; apply intersect_spec in C; congruence).
      specialize (IH Hl (fun c H => S c (or_intror H))).
      destruct (find (fun c => ranges_intersect off n (cp_off c) (cp_size c)) l) as [c|].
      * destruct IH as (I & A & B & D). split; [now right|]. split; [exact A|]. split; [exact B|].
        intros b [<-|Hb]; [|auto]. rewrite Forall_forall in Hx. specialize (Hx _ I).
        specialize (S x (or_introl eq_refl)). unfold cap_end in *. lia.
      * intros b [<-|Hb]; [exact NE|auto].
Qed.

Lemma wf_size c : cap_wf c -> 0 < cp_size c /\ cp_hdr_size c <= cp_size c /\ 2 <= cp_hdr_size c.
Proof. unfold cap_wf. destruct (cp_ext c); lia. Qed.

Lemma order_disjoint p a b o : caps_ok p -> In a (all_caps p) -> In b (all_caps p) -> in_cap a o -> in_cap b o -> a = b.
Proof.
  intros K Ia Ib A B. assert (O := co_order _ K).
  destruct (ForallOrdPairs_In O a b Ia Ib) as [E|[E|E]]; [exact E| |]; unfold in_cap, cap_end in *; lia.
Qed.

(* pci_cap_access looks the capability up again with a smaller count: it finds the same one. *)
Lemma cap_find_again p off count n c : cap_find_by_offset p off count = Some c -> cp_off c <= off -> n <= count ->
  cap_find_by_offset p off n = Some c.
Proof.
  rewrite !cap_find_all. induction (all_caps p) as [|x l IH]; cbn [find]; [discriminate|].
  intros H Ho Hn. destruct (ranges_intersect off count (cp_off x) (cp_size x)) eqn:E.
  - injection H as ->. apply intersect_spec in E.
    assert (E2 : ranges_intersect off n (cp_off c) (cp_size c) = true) by (apply intersect_spec; lia). now rewrite E2.
  - destruct (ranges_intersect off n (cp_off x) (cp_size x)) eqn:E2; [|auto].
    apply intersect_spec in E2. assert (C : ranges_intersect off count (cp_off x) (cp_size x) = true) by (apply intersect_spec; lia).
    congruence.
Qed.

(* ---- reading *)
Lemma cfg_copy_ok cfg off n : 0 < n -> off + n <= N.of_nat (length cfg) ->
  exists s, cfg_copy cfg off n = Ok s /\ slice cfg (N.to_nat off) (N.to_nat n) = Some s.
Proof.
  intros P H. unfold cfg_copy. destruct (N.of_nat (length cfg) <=? off) eqn:E; [lia|].
  destruct (slice_some cfg (N.to_nat off) (N.to_nat n)) as [s Hs]; [lia|]. exists s. now rewrite Hs.
Qed.

Lemma next_segment_read p count off : 0 < count ->
  match next_segment p count off false with
  | SegBad => False
  | SegHeader n => 0 < n <= count /\ off + n <= 64
  | SegOther n => 0 < n <= count /\ 64 <= off
  | SegCap c n => 0 < n <= count /\ In c (all_caps p) /\ cp_off c <= off < cap_end c /\ 64 <= off /\ n = N.min count (cp_size c)
  end.
Proof.
  intros P. unfold next_segment, PCI_STD_HEADER_SIZEOF. destruct (off <? 64) eqn:E; [lia|].
  rewrite cap_find_all. destruct (find _ (all_caps p)) as [c|] eqn:F; [|lia].
  apply find_some in F. destruct F as [I F]. apply intersect_spec in F. unfold cap_end in *.
  destruct (off <? cp_off c) eqn:E2; [lia|]. split; [|split; [exact I|]]; lia.
Qed.

Lemma read_segment_plain e p count off ans : pe_cfg_cb e = false -> 0 < count -> off + count <= N.of_nat (length (pc_cfg p)) ->
  exists n s, read_segment e p count off ans = Some (Ok (n, s), []) /\ 0 < n <= count /\ slice (pc_cfg p) (N.to_nat off) (N.to_nat n) = Some s.
Proof.
  intros NC P H. pose proof (next_segment_read p count off P) as S. unfold read_segment.
  assert (C : forall n, 0 < n <= count -> exists s, cfg_copy (pc_cfg p) off n = Ok s /\ slice (pc_cfg p) (N.to_nat off) (N.to_nat n) = Some s)
    by (intros n Hn; apply cfg_copy_ok; lia).
  destruct (next_segment p count off false) as [n| |n|c n]; [| contradiction | |].
  - destruct (C n) as (s & -> & Hs); [lia|]. exists n, s. repeat split; auto; lia.
  - destruct (C n) as (s & Q & Hs); [lia|]. exists n, s. unfold nonstd_read. rewrite NC, Q. repeat split; auto; lia.
  - destruct (C n) as (s & Q & Hs); [lia|]. exists n, s. unfold nonstd_read. rewrite NC, Q.
    destruct (has (cp_flags c) CAP_FLAG_CALLBACK); (repeat split; auto; lia).
Qed.

Lemma slice_join l off a b s1 s2 : slice l off a = Some s1 -> slice l (off + a) b = Some s2 -> slice l off (a + b) = Some (s1 ++ s2).
Proof.
  intros H1 H2. pose proof (slice_bound _ _ _ _ H2) as B.
  destruct (slice_some l off (a + b)) as [s Hs]; [lia|]. rewrite Hs. f_equal.
  pose proof (slice_length _ _ _ _ H1) as L1. pose proof (slice_length _ _ _ _ H2) as L2. pose proof (slice_length _ _ _ _ Hs) as L.
  apply list_ext; [rewrite app_length; lia|]. intros i Hi. rewrite (slice_nth _ _ _ _ _ Hs) by lia.
  destruct (Nat.lt_ge_cases i a) as [C|C].
  - rewrite app_nth1 by lia. now rewrite (slice_nth _ _ _ _ _ H1).
  - rewrite app_nth2 by lia. rewrite (slice_nth _ _ _ _ _ H2) by lia. f_equal. lia.
Qed.

Lemma cfg_read_plain fuel : forall e p answers k count off done, pe_cfg_cb e = false ->
  (N.to_nat count <= fuel)%nat -> off + count <= N.of_nat (length (pc_cfg p)) ->
  exists s, cfg_read fuel e p answers k count off done = (Ok (done + count), s, []) /\
    (count <> 0 -> slice (pc_cfg p) (N.to_nat off) (N.to_nat count) = Some s) /\ length s = N.to_nat count.
Proof.
  induction fuel as [|fuel IH]; intros e p answers k count off done NC F H.
  - assert (count = 0) by lia. subst. cbn [cfg_read]. exists []. rewrite N.add_0_r. repeat split; auto. congruence.
  - cbn [cfg_read]. destruct (count =? 0) eqn:E.
    + assert (count = 0) by lia. subst. exists []. rewrite N.add_0_r. repeat split; auto. congruence.
    + destruct (read_segment_plain e p count off (answers k) NC ltac:(lia) H) as (n & s & Q & Hn & Hs). rewrite Q.
      cbn [length]. rewrite Nat.add_0_r.
      destruct (IH e p answers k (count - n) (off + n) (done + n) NC ltac:(lia) ltac:(lia)) as (s' & Q' & Hs' & L'). rewrite Q'.
      exists (s ++ s'). cbn [app]. split; [|split].
      * f_equal. f_equal. f_equal. lia.
      * intros _. destruct (N.eq_dec (count - n) 0) as [Z|Z].
        -- assert (s' = []) by (destruct s'; [reflexivity|cbn [length] in L'; lia]). subst s'. rewrite app_nil_r.
           replace count with n by lia. exact Hs.
        -- specialize (Hs' Z). replace (N.to_nat count) with (N.to_nat n + N.to_nat (count - n))%nat by lia.
           apply slice_join; [exact Hs|]. replace (N.to_nat off + N.to_nat n)%nat with (N.to_nat (off + n)) by lia. exact Hs'.
      * rewrite app_length, (slice_length _ _ _ _ Hs), L'. lia.
Qed.

(* ---- frames of writes *)
Definition same_outside (cfg cfg' : list N) (changed : N -> Prop) : Prop :=
  length cfg' = length cfg /\ (bytes cfg -> bytes cfg') /\ forall o, ~ changed o -> nth (N.to_nat o) cfg' 0 = nth (N.to_nat o) cfg 0.

Lemma same_refl cfg P : same_outside cfg cfg P.
Proof. repeat split; auto. Qed.

Lemma same_trans a b c P : same_outside a b P -> same_outside b c P -> same_outside a c P.
Proof.
  intros (L1 & B1 & S1) (L2 & B2 & S2). split; [congruence|]. split; [auto|]. intros o H. rewrite S2, S1; auto.
Qed.

Lemma same_weaken a b (P Q : N -> Prop) : (forall o, P o -> Q o) -> same_outside a b P -> same_outside a b Q.
Proof. intros W (L & B & S). repeat split; auto. Qed.

Lemma put_slice_same cfg off new cfg' : bytes new -> put_slice cfg (N.to_nat off) new = Some cfg' ->
  same_outside cfg cfg' (fun o => off <= o < off + N.of_nat (length new)).
Proof.
  intros B H. split; [now apply put_slice_length in H|]. split; [intros Bc; exact (put_slice_bytes _ _ _ _ Bc B H)|].
  intros o Ho. rewrite (put_slice_nth _ _ _ _ (N.to_nat o) H).
  destruct (Nat.leb (N.to_nat off) (N.to_nat o) && Nat.ltb (N.to_nat o) (N.to_nat off + length new)) eqn:E; [|reflexivity]. lia.
Qed.

Lemma wr_same cfg off n v cfg' : wr cfg (N.to_nat off) n v = Some cfg' ->
  same_outside cfg cfg' (fun o => off <= o < off + N.of_nat n).
Proof.
  intros H. pose proof (put_slice_same cfg off (le_bytes n v) cfg' (le_bytes_bytes n v) H) as S. now rewrite le_bytes_length in S.
Qed.

Lemma hdr_write_same e cfg off buf o cfg' : off < 64 -> bytes buf -> hdr_write e cfg off buf = (o, cfg') ->
  same_outside cfg cfg' header_writable.
Proof.
  intros Ho Bb. unfold hdr_write.
  destruct (off =? 4) eqn:E4.
  { unfold need. destruct (rd buf 0 2) as [v|]; [|intros H; injection H as <- <-; apply same_refl].
    destruct (rd cfg 4 2) as [old|]; [|intros H; injection H as <- <-; apply same_refl].
    destruct (command_write old v) as [new good].
    destruct (wr cfg 4 2 new) as [c|] eqn:W; [|intros H; injection H as <- <-; apply same_refl].
    intros H; injection H as <- <-. apply (wr_same cfg 4) in W. eapply same_weaken; [|exact W]. intros o' H. cbn beta in H. unfold header_writable. lia. }
  match goal with |- (if ?b then _ else _) = _ -> _ => destruct b eqn:E5 end; [intros H; injection H as <- <-; apply same_refl|].
  assert (ST : forall n v, (forall x, off <= x < off + N.of_nat n -> header_writable x) ->
    (match wr cfg (N.to_nat off) n v with Some c => (Ok tt, c) | None => (Crash OutOfBounds, cfg) end) = (o, cfg') ->
    same_outside cfg cfg' header_writable).
  { intros n v Hx. destruct (wr cfg (N.to_nat off) n v) as [c|] eqn:W; intros H; injection H as <- <-; [|apply same_refl].
    eapply same_weaken; [|apply (wr_same _ _ _ _ _ W)]. exact Hx. }
  match goal with |- (if ?b then _ else _) = _ -> _ => destruct b eqn:E6 end.
  { unfold need. destruct (rd buf 0 1) as [v|]; [|intros H; injection H as <- <-; apply same_refl].
    apply ST. intros x Hx. unfold header_writable. lia. }
  match goal with |- (if ?b then _ else _) = _ -> _ => destruct b eqn:E7 end.
  { match goal with |- (if ?b then _ else _) = _ -> _ => destruct b end; [intros H; injection H as <- <-; apply same_refl|].
    unfold need. destruct (rd buf 0 4) as [v|]; [|intros H; injection H as <- <-; apply same_refl].
    destruct (rd cfg (N.to_nat off) 4) as [old|]; [|intros H; injection H as <- <-; apply same_refl].
    apply ST. intros x Hx. unfold header_writable. lia. }
  destruct (off =? 48) eqn:E8; [|intros H; injection H as <- <-; apply same_refl].
  unfold need. destruct (rd buf 0 4) as [v|]; [|intros H; injection H as <- <-; apply same_refl].
  destruct (erom_write v) as [[|]|]; [|intros H; injection H as <- <-; apply same_refl|intros H; injection H as <- <-; apply same_refl].
  apply ST. intros x Hx. unfold header_writable. lia.
Qed.

Ltac bad_case := let H := fresh in intros H; injection H as <- <- <-; apply same_refl.

Lemma cap_write_same e cfg c off data ans o cfg' ev : cap_wf c -> bytes cfg -> bytes data ->
  cp_off c + cp_hdr_size c <= off -> off < cap_end c ->
  cap_write e cfg c off data ans = (o, cfg', ev) ->
  same_outside cfg cfg' (fun x => cp_off c + cp_hdr_size c <= x /\ (x < cap_end c \/ x < off + N.of_nat (length data))).
Proof.
  intros W B Bd Ho He. unfold cap_write.
  assert (V : match put_slice cfg (N.to_nat off) data with Some cfg'0 => (Ok tt, cfg'0, []) | None => (Crash OutOfBounds, cfg, []) end = (o, cfg', ev) ->
     same_outside cfg cfg' (fun x => cp_off c + cp_hdr_size c <= x /\ (x < cap_end c \/ x < off + N.of_nat (length data)))).
  { destruct (put_slice cfg (N.to_nat off) data) as [c1|] eqn:P; [|bad_case]. intros H; injection H as <- <- <-.
    eapply same_weaken; [|apply (put_slice_same _ _ _ _ Bd P)]. intros x. cbn beta. lia. }
  unfold cap_wf in W. destruct (cp_ext c).
  { destruct (cp_id c =? PCI_EXT_CAP_ID_DSN); [bad_case|exact V]. }
  unfold PCI_CAP_ID_PM, PCI_CAP_ID_EXP, PCI_CAP_ID_MSI, PCI_CAP_ID_MSIX.
  destruct (cp_id c =? 1) eqn:I1.
  { unfold cap_write_pm. match goal with |- (if ?b then _ else _) = _ -> _ => destruct b end; [bad_case|].
    match goal with |- (if ?b then _ else _) = _ -> _ => destruct b end.
    - match goal with |- (if ?b then _ else _) = _ -> _ => destruct b eqn:L end; [bad_case|].
      destruct (put_slice cfg (N.to_nat (cp_off c + 4)) data) as [c1|] eqn:P; [|bad_case]. intros H; injection H as <- <- <-.
      eapply same_weaken; [|apply (put_slice_same _ _ _ _ Bd P)]. intros x. cbn beta. unfold cap_end. lia.
    - match goal with |- (if ?b then _ else _) = _ -> _ => destruct b end; bad_case. }
  destruct (cp_id c =? 16) eqn:I2.
  { unfold cap_write_px. match goal with |- (if ?b then _ else _) = _ -> _ => destruct b eqn:L end; [bad_case|].
    match goal with |- (if ?b then _ else _) = _ -> _ => destruct b end.
    - unfold px_pxdc_write, need. destruct (rd cfg (N.to_nat (cp_off c + 8)) 2) as [old|]; [|bad_case].
      destruct (rd cfg (N.to_nat (cp_off c + 4)) 4) as [dc|]; [|bad_case].
      destruct (wr cfg (N.to_nat (cp_off c + 8)) 2 (bf_set old 0 15 (le_val data))) as [c1|] eqn:P; [|bad_case].
      assert (S : same_outside cfg c1 (fun x => cp_off c + cp_hdr_size c <= x /\ (x < cap_end c \/ x < off + N.of_nat (length data)))).
      { eapply same_weaken; [|apply (wr_same _ _ _ _ _ P)]. intros x. cbn beta. unfold cap_end. lia. }
      repeat match goal with |- (if ?b then _ else _) = _ -> _ => destruct b | |- (match ?b with _ => _ end) = _ -> _ => destruct b end;
        intros H; injection H as <- <- <-; exact S.
    - match goal with |- (if ?b then _ else _) = _ -> _ => destruct b end; [bad_case|].
      match goal with |- (if ?b then _ else _) = _ -> _ => destruct b eqn:R end; [|bad_case].
      destruct (put_slice cfg (N.to_nat (cp_off c + (off - cp_off c))) data) as [c1|] eqn:P; [|bad_case]. intros H; injection H as <- <- <-.
      eapply same_weaken; [|apply (put_slice_same _ _ _ _ Bd P)]. intros x. cbn beta. unfold cap_end. lia. }
  destruct (cp_id c =? 5) eqn:I3.
  { unfold cap_write_msi, need. destruct (slice cfg (N.to_nat (cp_off c)) 24) as [old|] eqn:So; [|bad_case].
    destruct (put_slice old (N.to_nat (off - cp_off c)) data) as [new|] eqn:Sn; [|bad_case].
    destruct (rd old 2 2) as [mc|]; [|bad_case]. destruct (rd new 2 2) as [mc'|]; [|bad_case].
    destruct (wr cfg (N.to_nat (cp_off c + 2)) 2 (bf_set mc 0 1 (bf_get mc' 0 1))) as [c1|] eqn:W1; [|bad_case].
    assert (Bn : bytes new) by (eapply put_slice_bytes; [eapply slice_bytes; [exact B|exact So]|exact Bd|exact Sn]).
    assert (R : forall a b, 2 <= a -> a + b <= 24 -> forall x, cp_off c + a <= x < cp_off c + a + b -> cp_off c + cp_hdr_size c <= x /\ (x < cap_end c \/ x < off + N.of_nat (length data)))
      by (intros a b; unfold cap_end; lia).
    set (P := fun x => cp_off c + cp_hdr_size c <= x /\ (x < cap_end c \/ x < off + N.of_nat (length data))) in *.
    assert (S1 : same_outside cfg c1 P) by (eapply same_weaken; [|apply (wr_same _ _ _ _ _ W1)]; apply (R 2 2); lia).
    match goal with |- (if ?b then _ else _) = _ -> _ => destruct b end; [intros H; injection H as <- <- <-; exact S1|].
    match goal with |- (if ?b then _ else _) = _ -> _ => destruct b end; [intros H; injection H as <- <- <-; exact S1|].
    match goal with |- context [wr c1 ?a ?b ?d] => destruct (wr c1 a b d) as [c2|] eqn:W2 end; [|bad_case].
    assert (S2 : same_outside c1 c2 P) by (eapply same_weaken; [|apply (wr_same _ _ _ _ _ W2)]; apply (R 2 2); lia).
    destruct (rd old 4 4) as [ma|]; [|bad_case]. destruct (rd new 4 4) as [ma'|]; [|bad_case].
    match goal with |- context [wr c2 ?a ?b ?d] => destruct (wr c2 a b d) as [c3|] eqn:W3 end; [|bad_case].
    assert (S3 : same_outside c2 c3 P) by (eapply same_weaken; [|apply (wr_same _ _ _ _ _ W3)]; apply (R 4 4); lia).
    destruct (slice new 8 6) as [mm|] eqn:Sm; [|bad_case].
    destruct (put_slice c3 (N.to_nat (cp_off c + 8)) mm) as [c4|] eqn:W4; [|bad_case].
    assert (S4 : same_outside c3 c4 P).
    { eapply same_weaken; [|apply (put_slice_same _ _ _ _ (slice_bytes _ _ _ _ Bn Sm) W4)]. rewrite (slice_length _ _ _ _ Sm). apply (R 8 6); lia. }
    destruct (slice new 16 4) as [mk|] eqn:Sk; [|bad_case].
    destruct (put_slice c4 (N.to_nat (cp_off c + 16)) mk) as [c5|] eqn:W5; [|bad_case].
    assert (S5 : same_outside c4 c5 P).
    { eapply same_weaken; [|apply (put_slice_same _ _ _ _ (slice_bytes _ _ _ _ Bn Sk) W5)]. rewrite (slice_length _ _ _ _ Sk). apply (R 16 4); lia. }
    intros H; injection H as <- <- <-. eapply same_trans; [exact S1|]. eapply same_trans; [exact S2|]. eapply same_trans; [exact S3|].
    eapply same_trans; [exact S4|exact S5]. }
  destruct (cp_id c =? 17) eqn:I4.
  { unfold cap_write_msix, need. destruct (slice cfg (N.to_nat (cp_off c)) 12) as [old|] eqn:So; [|bad_case].
    destruct (put_slice old (N.to_nat (off - cp_off c)) data) as [new|] eqn:Sn; [|bad_case].
    destruct (rd old 2 2) as [mc|]; [|bad_case]. destruct (rd new 2 2) as [mc'|]; [|bad_case].
    match goal with |- context [wr cfg ?a ?b ?d] => destruct (wr cfg a b d) as [c1|] eqn:W1 end; [|bad_case].
    intros H; injection H as <- <- <-.
    eapply same_weaken; [|apply (wr_same _ _ _ _ _ W1)]. intros x. cbn beta. unfold cap_end. lia. }
  exact V.
Qed.
