(* Config space writes as a whole. *)
From Coq Require Import NArith ZArith List Bool Lia ZifyBool ZifyNat ZifyN.
From Verif Require Import Base Types Bytes BytesProofs Migr Pci SpecPci BufProofs PciProofs PciWrite PciCapWrite.
Import ListNotations.
Open Scope N_scope.
Ltac Zify.zify_post_hook ::= idtac.

Lemma reg_size_bound off : off < 64 -> off + reg_size off <= 64.
Proof.
  intros H. unfold reg_size. destruct (existsb (N.eqb off) [0; 16; 20; 24; 28; 32; 36; 40; 44; 48]) eqn:E; [cbn [existsb] in E; lia|].
  destruct (off =? 9) eqn:E9; [lia|]. destruct (existsb (N.eqb off) [4; 6]) eqn:E4; [cbn [existsb] in E4; lia|].
  destruct (existsb (N.eqb off) [8; 12; 13; 14; 15; 52; 60; 61; 62; 63]); clear - H; lia.
Qed.

Lemma caps_ok_cfg p cfg' : caps_ok p -> length cfg' = length (pc_cfg p) -> bytes cfg' -> caps_ok (set_cfg p cfg').
Proof.
  intros [A B C D E F] L Bs. constructor; cbn [set_cfg pc_cfg]; auto; try (rewrite L; auto). 
Qed.

Lemma find_cap_at p c off n : caps_ok p -> In c (all_caps p) -> in_cap c off -> cap_find_by_offset p off n = Some c.
Proof.
  intros K I A. rewrite cap_find_all. pose proof (find_ordered (all_caps p) off n (co_order _ K)) as F.
  specialize (F (fun c H => proj1 (wf_size c (co_wf _ K c H)))).
  destruct (find _ (all_caps p)) as [c0|].
  - destruct F as (I0 & E0 & _ & D). destruct (D c I) as [C|C]; [unfold in_cap in A; lia|]. f_equal.
    apply (order_disjoint p c0 c off K I0 I); [|exact A]. unfold in_cap in *. lia.
  - exfalso. apply (F c I). unfold in_cap in A. lia.
Qed.

Lemma nonstd_write_ok e off data ans n ev : (forall m d, ans off (N.of_nat (length data)) = AccOk m d -> m = N.of_nat (length data)) ->
  nonstd_write e off data ans = (Ok n, ev) -> n = N.of_nat (length data) /\ 0 < n.
Proof.
  intros F. unfold nonstd_write. destruct (pe_cfg_cb e); [|discriminate].
  destruct (ans off (N.of_nat (length data))) as [m d|er] eqn:A; [|discriminate]. specialize (F _ _ eq_refl). subst m.
  destruct (N.of_nat (length data) <? N.of_nat (length data)); [discriminate|]. destruct (N.of_nat (length data) =? 0) eqn:Z; [discriminate|].
  intros H. injection H as <- _. lia.
Qed.

Lemma write_step e p off buf ans rans : caps_ok p -> bytes buf -> buf <> [] ->
  (forall n m d, ans off n = AccOk m d -> m = n) ->
  (forall c, In c (all_caps p) -> ~ runs_past c off (N.of_nat (length buf))) ->
  match write_segment e p off buf ans rans with
  | None => True
  | Some (o, cfg', ev) =>
      bits_same (pc_cfg p) cfg' (client_may p) /\
      forall n, o = Ok n -> 0 < n <= N.of_nat (length buf) /\ (forall x, off <= x < off + n -> ~ protected p x) /\
        (n < N.of_nat (length buf) -> forall c, In c (all_caps p) -> ~ runs_past c (off + n) (N.of_nat (length buf) - n))
  end.
Proof.
  intros K Bb NE FC NR. unfold write_segment, next_segment, PCI_STD_HEADER_SIZEOF.
  assert (L0 : 0 < N.of_nat (length buf)) by (destruct buf; [congruence|cbn [length]; lia]).
  destruct (off <? 64) eqn:E64.
  { destruct (reg_size off =? 0) eqn:R0; [exact I|].
    pose proof (reg_size_bound off ltac:(lia)) as RB.
    destruct (hdr_write e (pc_cfg p) off buf) as [o' cfg'] eqn:HW.
    assert (H64 : off < 64) by lia.
    pose proof (hdr_write_bits _ _ _ _ _ _ H64 (co_bytes _ K) Bb HW) as HB.
    assert (HB' : bits_same (pc_cfg p) cfg' (client_may p)) by (eapply bits_weaken; [|exact HB]; intros; now left).
    destruct o' as [u|er|cr]; (split; [exact HB'|]); intros n Q; [|discriminate|discriminate]. injection Q as <-.
    split; [lia|]. split.
    - intros x Hx [c (I & A & _)]. pose proof (co_low _ K c I). unfold in_cap in A. lia.
    - intros _ c I R. pose proof (co_low _ K c I). unfold runs_past in R. lia. }
  rewrite cap_find_all. pose proof (find_ordered (all_caps p) off (N.of_nat (length buf)) (co_order _ K)) as F.
  specialize (F (fun c H => proj1 (wf_size c (co_wf _ K c H)))).
  destruct (find _ (all_caps p)) as [c|].
  - destruct F as (I & E1 & E2 & D). pose proof (wf_size c (co_wf _ K c I)) as WS.
    destruct (off <? cp_off c) eqn:Eo.
    + destruct (nonstd_write e off (firstn (N.to_nat (cp_off c - off)) buf) ans) as [o ev] eqn:NW.
      split; [apply bits_refl|]. intros n ->. apply nonstd_write_ok in NW; [|intros m d; apply FC].
      rewrite firstn_length_le in NW by lia. split; [lia|]. split.
      * intros x Hx [b (Ib & Ab & _)]. destruct (D b Ib) as [Db|Db]; unfold in_cap, cap_end in *; lia.
      * intros _ b Ib R. unfold runs_past in R. assert (b = c); [|subst b; lia].
        apply (order_disjoint p b c (off + n) K Ib I); unfold in_cap, cap_end in *; lia.
    + assert (Hn : cp_off c = off \/ off + N.of_nat (length buf) <= cap_end c).
      { destruct (N.eq_dec (cp_off c) off) as [Q|Q]; [now left|right]. specialize (NR c I). unfold runs_past in NR. lia. }
      set (n0 := N.min (N.of_nat (length buf)) (cp_size c)).
      assert (Hend : off + n0 <= cap_end c) by (unfold n0, cap_end in *; lia).
      assert (Hn0 : 0 < n0 <= N.of_nat (length buf)) by (unfold n0; lia).
      assert (LF : length (firstn (N.to_nat n0) buf) = N.to_nat n0) by (apply firstn_length_le; lia).
      assert (NEXT : n0 < N.of_nat (length buf) -> forall b, In b (all_caps p) -> ~ runs_past b (off + n0) (N.of_nat (length buf) - n0)).
      { intros Hlt b Ib R. unfold runs_past in R. assert (E : off + n0 = cap_end c) by (unfold n0, cap_end in *; lia).
        assert (b = c); [|subst b; lia]. apply (order_disjoint p b c (off + n0 - 1) K Ib I); unfold in_cap, cap_end in *; lia. }
      assert (ONLY : forall b x, off <= x < off + n0 -> In b (all_caps p) -> in_cap b x -> b = c).
      { intros b x Hx Ib Ab. apply (order_disjoint p b c x K Ib I Ab). unfold in_cap. lia. }
      rewrite has_readonly, has_callback.
      destruct (N.testbit (cp_flags c) 2) eqn:RO; [split; [apply bits_refl|discriminate]|].
      destruct (N.testbit (cp_flags c) 1) eqn:CB.
      * destruct (nonstd_write e off (firstn (N.to_nat n0) buf) ans) as [o ev] eqn:NW.
        split; [apply bits_refl|]. intros n ->. apply nonstd_write_ok in NW; [|intros m d; apply FC]. rewrite LF in NW.
        assert (n = n0) by lia. subst n. split; [lia|]. split; [|exact NEXT].
        intros x Hx [b (Ib & Ab & Pb)]. rewrite (ONLY b x Hx Ib Ab) in Pb. unfold read_only, by_callback in Pb. rewrite RO, CB in Pb.
        destruct Pb as [Pb|[Pb _]]; [discriminate|congruence].
      * destruct (off - cp_off c <? cp_hdr_size c) eqn:EH; [split; [apply bits_refl|discriminate]|].
        destruct (cap_write e (pc_cfg p) c off (firstn (N.to_nat n0) buf) rans) as [[o cfg'] ev] eqn:CW.
        assert (Hlo : cp_off c + cp_hdr_size c <= off) by lia.
        assert (Hhi : off + N.of_nat (length (firstn (N.to_nat n0) buf)) <= cap_end c) by lia.
        destruct (cap_write_exact _ _ _ _ _ _ _ _ _ (co_wf _ K c I) (co_bytes _ K) (bytes_firstn _ _ Bb) (co_high _ K c I) Hlo Hhi CW)
          as (NC & Lc & Bc & m & Mb & Mm & _ & MT).
        assert (BS : bits_same (pc_cfg p) cfg' (client_may p)).
        { split; [exact Lc|]. split; [intros _; exact Bc|]. intros x b Hx. rewrite (MT x).
          destruct ((cp_off c <=? x) && (x <? cp_off c + cp_size c)) eqn:E; [|reflexivity]. rewrite merged_bit.
          destruct (N.testbit (m (x - cp_off c)) b) eqn:T; [|reflexivity].
          unfold overlay. destruct ((off <=? x) && (x <? off + N.of_nat (length (firstn (N.to_nat n0) buf)))) eqn:E2'; [|reflexivity].
          exfalso. apply Hx. right. exists c. split; [exact I|]. unfold read_only, by_callback. rewrite RO, CB.
          split; [discriminate|]. split; [discriminate|]. split; [unfold cap_end; lia|]. apply Mm. exact T. }
        destruct o as [u|er|cr]; (split; [exact BS|]); intros n Q; [|discriminate|discriminate]. injection Q as <-.
        split; [lia|]. split; [|exact NEXT]. intros x Hx [b (Ib & Ab & Pb)]. rewrite (ONLY b x Hx Ib Ab) in Pb.
        unfold read_only, by_callback in Pb. rewrite RO in Pb. destruct Pb as [Pb|[_ Pb]]; [discriminate|]. lia.
  - destruct (nonstd_write e off (firstn (N.to_nat (N.of_nat (length buf))) buf) ans) as [o ev] eqn:NW.
    split; [apply bits_refl|]. intros n ->. apply nonstd_write_ok in NW; [|intros m d; apply FC].
    rewrite firstn_length_le in NW by lia. split; [lia|]. split; [|lia].
    intros x Hx [b (Ib & Ab & _)]. apply (F b Ib). unfold in_cap in Ab. lia.
Qed.

Lemma cfg_write_frame fuel : forall e p answers rans k off buf done o p' ev, caps_ok p -> bytes buf -> full_callbacks answers ->
  (forall c, In c (all_caps p) -> ~ runs_past c off (N.of_nat (length buf))) ->
  cfg_write fuel e p answers rans k off buf done = (o, p', ev) ->
  p' = set_cfg p (pc_cfg p') /\ bits_same (pc_cfg p) (pc_cfg p') (client_may p) /\
  (o = Ok (done + N.of_nat (length buf)) -> forall x, off <= x < off + N.of_nat (length buf) -> ~ protected p x).
Proof.
  assert (SELF : forall p, p = set_cfg p (pc_cfg p)) by (intros []; reflexivity).
  induction fuel as [|fuel IH]; intros e p answers rans k off buf done o p' ev K Bb FC NR H.
  - cbn [cfg_write] in H. destruct buf as [|y buf]; injection H as <- <- <-; (split; [apply SELF|]; split; [apply bits_refl|]).
    + intros _ x Hx. cbn [length] in Hx. lia.
    + discriminate.
  - cbn [cfg_write] in H. destruct buf as [|y buf0]; [injection H as <- <- <-; split; [apply SELF|]; split; [apply bits_refl|]; intros _ x Hx; cbn [length] in Hx; lia|].
    set (buf := y :: buf0) in *. assert (NE : buf <> []) by discriminate.
    assert (L0 : 0 < N.of_nat (length buf)) by (unfold buf; cbn [length]; lia). clearbody buf.
    pose proof (write_step e p off buf (answers k) (rans k) K Bb NE (fun n m d => FC k off n m d) NR) as S.
    destruct (write_segment e p off buf (answers k) (rans k)) as [[[o1 c1] ev1]|].
    + destruct S as [BS SO]. destruct o1 as [n|er|cr].
      * destruct (SO n eq_refl) as (Hn & NP & NR').
        set (p1 := set_cfg p c1) in *. assert (A1 : all_caps p1 = all_caps p) by reflexivity.
        assert (K1 : caps_ok p1) by (apply caps_ok_cfg; [exact K|apply BS|apply BS; apply (co_bytes _ K)]).
        assert (LS : N.of_nat (length (skipn (N.to_nat n) buf)) = N.of_nat (length buf) - n) by (rewrite skipn_length; lia).
        destruct (cfg_write fuel e p1 answers rans (k + length ev1) (off + n) (skipn (N.to_nat n) buf) (done + n)) as [[o2 p2] ev2] eqn:R.
        injection H as <- <- <-.
        assert (NR2 : forall c, In c (all_caps p1) -> ~ runs_past c (off + n) (N.of_nat (length (skipn (N.to_nat n) buf)))).
        { rewrite A1, LS. destruct (N.eq_dec n (N.of_nat (length buf))); [intros c I; unfold runs_past; lia|apply NR'; lia]. }
        destruct (IH _ _ _ _ _ _ _ _ _ _ _ K1 (bytes_skipn _ _ Bb) FC NR2 R) as (P & BS2 & PR).
        split; [rewrite P; reflexivity|]. split.
        { eapply bits_trans; [exact BS|]. exact BS2. }
        intros Q x Hx. rewrite LS in PR. destruct (N.lt_ge_cases x (off + n)) as [C|C]; [apply NP; lia|].
        apply PR; [rewrite Q; f_equal; lia|lia].
      * injection H as <- <- <-. split; [reflexivity|]. split; [exact BS|discriminate].
      * injection H as <- <- <-. split; [reflexivity|]. split; [exact BS|discriminate].
    + injection H as <- <- <-. split; [apply SELF|]. split; [apply bits_refl|]. intros Q. injection Q as Q. lia.
Qed.

(* The header part does not depend on the order of the capabilities. *)
Lemma write_step_header e p off buf ans rans : bytes (pc_cfg p) -> bytes buf ->
  (forall c, In c (all_caps p) -> cap_wf c /\ 64 <= cp_off c) ->
  match write_segment e p off buf ans rans with
  | None => True
  | Some (_, cfg', _) => bits_same (pc_cfg p) cfg' (fun o b => 64 <= o \/ header_may o b)
  end.
Proof.
  intros Bc Bb LOW. unfold write_segment. destruct (next_segment p (N.of_nat (length buf)) off true) as [n| |n|c n] eqn:S; [|exact I| |].
  - unfold next_segment, PCI_STD_HEADER_SIZEOF in S. destruct (off <? 64) eqn:E; [|destruct (cap_find_by_offset _ _ _) as [c|]; [destruct (off <? cp_off c)|]; discriminate].
    destruct (hdr_write e (pc_cfg p) off buf) as [o' cfg'] eqn:HW.
    assert (H64 : off < 64) by lia.
    pose proof (hdr_write_bits _ _ _ _ _ _ H64 Bc Bb HW) as HB.
    destruct o'; (eapply bits_weaken; [|exact HB]; intros; now right).
  - destruct (nonstd_write _ _ _ _). apply bits_refl.
  - unfold next_segment, PCI_STD_HEADER_SIZEOF in S. destruct (off <? 64) eqn:E; [destruct (reg_size off =? 0); discriminate|].
    rewrite cap_find_all in S. destruct (find _ (all_caps p)) as [c'|] eqn:F; [|discriminate].
    destruct (off <? cp_off c') eqn:Eo; [discriminate|]. injection S as -> <-.
    apply find_some in F. destruct F as [I F]. apply intersect_spec in F. destruct (LOW c I) as [W L64].
    destruct (has (cp_flags c) CAP_FLAG_READONLY); [apply bits_refl|].
    destruct (has (cp_flags c) CAP_FLAG_CALLBACK); [destruct (nonstd_write _ _ _ _); apply bits_refl|].
    destruct (off - cp_off c <? cp_hdr_size c) eqn:EH; [apply bits_refl|].
    match goal with |- context [cap_write ?a ?b ?d ?f ?g ?h] => destruct (cap_write a b d f g h) as [[o cfg'] ev] eqn:CW end.
    assert (Hlo : cp_off c + cp_hdr_size c <= off) by lia. assert (Hhi : off < cap_end c) by lia.
    pose proof (cap_write_same _ _ _ _ _ _ _ _ _ W Bc (bytes_firstn _ _ Bb) Hlo Hhi CW) as CS.
    destruct o; (eapply same_bits; [|exact CS]; intros x i Hx; cbn beta in Hx; left; lia).
Qed.

Lemma cfg_write_header fuel : forall e p answers rans k off buf done o p' ev, bytes (pc_cfg p) -> bytes buf ->
  (forall c, In c (all_caps p) -> cap_wf c /\ 64 <= cp_off c) ->
  cfg_write fuel e p answers rans k off buf done = (o, p', ev) ->
  bits_same (pc_cfg p) (pc_cfg p') (fun o b => 64 <= o \/ header_may o b).
Proof.
  induction fuel as [|fuel IH]; intros e p answers rans k off buf done o p' ev Bc Bb LOW H.
  - cbn [cfg_write] in H. destruct buf; injection H as <- <- <-; apply bits_refl.
  - cbn [cfg_write] in H. destruct buf as [|y buf0]; [injection H as <- <- <-; apply bits_refl|].
    set (buf := y :: buf0) in *. clearbody buf.
    pose proof (write_step_header e p off buf (answers k) (rans k) Bc Bb LOW) as S.
    destruct (write_segment e p off buf (answers k) (rans k)) as [[[o1 c1] ev1]|]; [|injection H as <- <- <-; apply bits_refl].
    destruct o1 as [n|er|cr]; [|injection H as <- <- <-; exact S|injection H as <- <- <-; exact S].
    destruct (cfg_write fuel e (set_cfg p c1) answers rans (k + length ev1) (off + n) (skipn (N.to_nat n) buf) (done + n)) as [[o2 p2] ev2] eqn:R.
    injection H as <- <- <-. eapply bits_trans; [exact S|].
    eapply (IH _ (set_cfg p c1)); [apply S; exact Bc|apply bytes_skipn; exact Bb|exact LOW|exact R].
Qed.

(* ---- accesses that are one segment *)
Lemma header_read e p answers off n : (64 <= length (pc_cfg p))%nat -> 0 < n -> off + n <= 64 ->
  config_read e p answers off n = (Ok n, firstn (N.to_nat n) (skipn (N.to_nat off) (pc_cfg p)), []).
Proof.
  intros L P H. unfold config_read. destruct (N.to_nat n) as [|f] eqn:F; [lia|]. cbn [cfg_read].
  destruct (n =? 0) eqn:Z; [lia|]. unfold read_segment, next_segment, PCI_STD_HEADER_SIZEOF.
  destruct (off <? 64) eqn:E; [|lia]. replace (N.min n (64 - off)) with n by lia.
  destruct (cfg_copy_ok (pc_cfg p) off n P ltac:(lia)) as (s & -> & Hs).
  replace (n - n) with 0 by lia. assert (R : cfg_read f e p answers (0 + length (@nil event)) 0 (off + n) (0 + n) = (Ok (0 + n), [], [])) by (destruct f; reflexivity).
  rewrite R. rewrite app_nil_r. unfold slice in Hs. destruct (Nat.leb _ _); [|discriminate]. injection Hs as <-. rewrite F. reflexivity.
Qed.

Lemma single_cap_write e p answers rans c off data : caps_ok p -> In c (all_caps p) -> ~ read_only c -> ~ by_callback c ->
  cp_off c + cp_hdr_size c <= off -> off + N.of_nat (length data) <= cap_end c -> data <> [] ->
  config_write e p answers rans off data =
    match cap_write e (pc_cfg p) c off data (rans 0%nat) with
    | (Ok _, cfg', ev) => (Ok (N.of_nat (length data)), set_cfg p cfg', ev)
    | (Err er, cfg', ev) => (Err er, set_cfg p cfg', ev)
    | (Crash cr, cfg', ev) => (Crash cr, set_cfg p cfg', ev)
    end.
Proof.
  intros K I NR NC Ho Hn ND. unfold config_write.
  assert (L : (0 < length data)%nat) by (destruct data; [congruence|cbn [length]; lia]).
  destruct (length data) as [|f] eqn:F; [lia|]. destruct data as [|y data']; [congruence|]. cbn [cfg_write]. set (data := y :: data') in *.
  pose proof (wf_size c (co_wf _ K c I)) as WS. pose proof (co_low _ K c I) as LOW. unfold cap_end in *.
  assert (NS : next_segment p (N.of_nat (length data)) off true = SegCap c (N.of_nat (length data))).
  { unfold next_segment, PCI_STD_HEADER_SIZEOF. destruct (off <? 64) eqn:E; [lia|].
    rewrite (find_cap_at p c off _ K I) by (unfold in_cap, cap_end; lia). destruct (off <? cp_off c) eqn:E2; [lia|]. f_equal. lia. }
  unfold write_segment. rewrite NS. rewrite has_readonly, has_callback.
  destruct (N.testbit (cp_flags c) 2) eqn:RO; [exfalso; apply NR; exact RO|]. destruct (N.testbit (cp_flags c) 1) eqn:CB; [exfalso; apply NC; exact CB|].
  destruct (off - cp_off c <? cp_hdr_size c) eqn:EH; [lia|]. rewrite Nat2N.id, firstn_all.
  destruct (cap_write e (pc_cfg p) c off data (rans 0%nat)) as [[o cfg'] ev]. destruct o as [u|er|cr]; try reflexivity.
  rewrite Nat2N.id, skipn_all.
  assert (R : forall p1 k o1, cfg_write f e p1 answers rans k o1 [] (0 + N.of_nat (length data)) = (Ok (N.of_nat (length data)), p1, [])) by (intros; destruct f; reflexivity).
  rewrite R. rewrite app_nil_r, F. reflexivity.
Qed.

Lemma hdr_step_write e p answers rans off data cfg' n : off < 64 -> reg_size off = n -> 0 < n -> N.of_nat (length data) = n ->
  hdr_write e (pc_cfg p) off data = (Ok tt, cfg') ->
  config_write e p answers rans off data = (Ok n, set_cfg p cfg', []).
Proof.
  intros Ho Rs Pn Ln H. unfold config_write.
  destruct (length data) as [|f] eqn:F; [lia|]. destruct data as [|y data']; [discriminate|]. cbn [cfg_write]. set (data := y :: data') in *.
  unfold write_segment, next_segment, PCI_STD_HEADER_SIZEOF. replace (off <? 64) with true by lia. rewrite Rs. replace (n =? 0) with false by lia.
  rewrite H. replace (N.min (N.of_nat (length data)) n) with n by lia.
  replace (N.to_nat n) with (length data) by lia. rewrite skipn_all.
  assert (R : forall p1 k o1, cfg_write f e p1 answers rans k o1 [] (0 + n) = (Ok n, p1, [])) by (intros; destruct f; reflexivity).
  rewrite R. reflexivity.
Qed.

(* ---- reads with callbacks *)

Lemma nonstd_read_cb e p off n ans m s ev : pe_cfg_cb e = true -> (forall m d, ans off n = AccOk m d -> m = n) ->
  nonstd_read e p off n ans = (Ok (m, s), ev) -> m = n /\ 0 < n /\ length s = N.to_nat n /\ ev = [EvAccess CFG_REGION false off n []].
Proof.
  intros CB F. unfold nonstd_read. rewrite CB. destruct (ans off n) as [m' d|er] eqn:A; [|discriminate]. specialize (F _ _ eq_refl). subst m'.
  destruct (n <? n) eqn:L; [lia|]. destruct (n =? 0) eqn:Z; [discriminate|]. intros H. injection H as <- <- <-.
  split; [reflexivity|]. split; [lia|]. split; [|reflexivity]. unfold fit. rewrite firstn_length_le; [reflexivity|].
  unfold zeros. rewrite app_length, repeat_length. lia.
Qed.

Lemma nonstd_read_ev e p off n ans o ev : nonstd_read e p off n ans = (o, ev) -> ev = [] \/ ev = [EvAccess CFG_REGION false off n []].
Proof.
  unfold nonstd_read. destruct (pe_cfg_cb e); [|destruct (cfg_copy _ _ _)]; intros H; injection H as <- <-; auto.
Qed.

Lemma read_step e p count off ans : caps_ok p -> 0 < count -> off + count <= N.of_nat (length (pc_cfg p)) ->
  (forall n m d, ans off n = AccOk m d -> m = n) ->
  (forall c, In c (all_caps p) -> ~ runs_past c off count) ->
  match read_segment e p count off ans with
  | None => False
  | Some (o, ev) =>
      (forall c r o' n d, In (EvAccess c r o' n d) ev -> forall x, o' <= x < o' + n -> ~ library_byte p x) /\
      (forall cr, o = Crash cr -> exists n m d, ans off n = AccOk m d /\ n = 0) /\
      forall n s, o = Ok (n, s) -> 0 < n <= count /\ length s = N.to_nat n /\
        (forall x, off <= x < off + n -> library_byte p x -> nth (N.to_nat (x - off)) s 0 = byte_at p x) /\
        (n < count -> forall c, In c (all_caps p) -> ~ runs_past c (off + n) (count - n))
  end.
Proof.
  intros K P H FC NR. unfold read_segment.
  assert (COPY : forall n, 0 < n <= count -> exists s, cfg_copy (pc_cfg p) off n = Ok s /\ slice (pc_cfg p) (N.to_nat off) (N.to_nat n) = Some s)
    by (intros n Hn; apply cfg_copy_ok; lia).
  assert (SL : forall n s, slice (pc_cfg p) (N.to_nat off) (N.to_nat n) = Some s -> length s = N.to_nat n /\
     (forall x, off <= x < off + n -> library_byte p x -> nth (N.to_nat (x - off)) s 0 = byte_at p x)).
  { intros n s Hs. split; [eapply slice_length; eauto|]. intros x Hx _. rewrite (slice_nth _ _ _ _ _ Hs) by lia. unfold byte_at. f_equal. lia. }
  assert (NS : forall n, 0 < n <= count -> 64 <= off -> (forall x, off <= x < off + n -> ~ library_byte p x) ->
     (n < count -> forall c, In c (all_caps p) -> ~ runs_past c (off + n) (count - n)) ->
     let '(o, ev) := nonstd_read e p off n ans in
      (forall c r o' n d, In (EvAccess c r o' n d) ev -> forall x, o' <= x < o' + n -> ~ library_byte p x) /\
      (forall cr, o = Crash cr -> exists n m d, ans off n = AccOk m d /\ n = 0) /\
      forall n s, o = Ok (n, s) -> 0 < n <= count /\ length s = N.to_nat n /\
        (forall x, off <= x < off + n -> library_byte p x -> nth (N.to_nat (x - off)) s 0 = byte_at p x) /\
        (n < count -> forall c, In c (all_caps p) -> ~ runs_past c (off + n) (count - n))).
  { intros n Hn H64 NL NX. destruct (nonstd_read e p off n ans) as [o ev] eqn:NR'. split; [|split].
    - intros c r o' n' d Iev. apply nonstd_read_ev in NR'. destruct NR' as [->| ->]; [destruct Iev|].
      destruct Iev as [Q|[]]. injection Q as <- <- <- <- <-. exact NL.
    - intros cr ->. unfold nonstd_read in NR'. destruct (pe_cfg_cb e).
      + destruct (ans off n) as [m d|er] eqn:A; [|discriminate]. pose proof (FC _ _ _ A). subst m.
        destruct (n <? n) eqn:L; [lia|]. destruct (n =? 0) eqn:Z; [lia|discriminate].
      + destruct (COPY n Hn) as (s & Q & _). rewrite Q in NR'. discriminate.
    - intros m s ->. destruct (pe_cfg_cb e) eqn:CB.
      + destruct (nonstd_read_cb _ _ _ _ _ _ _ _ CB (FC n) NR') as (-> & Hp & Ls & _). split; [lia|]. split; [exact Ls|].
        split; [|exact NX]. intros x Hx Lx. exfalso. apply (NL x Hx Lx).
      + unfold nonstd_read in NR'. rewrite CB in NR'. destruct (COPY n Hn) as (s' & Q & Hs). rewrite Q in NR'. injection NR' as <- <- <-.
        destruct (SL _ _ Hs) as [Ls Sx]. repeat split; auto; lia. }
  unfold next_segment, PCI_STD_HEADER_SIZEOF. destruct (off <? 64) eqn:E64.
  { assert (Hn : 0 < N.min count (64 - off) <= count) by lia. assert (H64 : off + N.min count (64 - off) <= 64) by lia.
    set (n0 := N.min count (64 - off)) in *. clearbody n0.
    destruct (COPY _ Hn) as (s & -> & Hs). destruct (SL _ _ Hs) as [Ls Sx].
    split; [intros c r o' n d []|]. split; [discriminate|]. intros n s' Q. injection Q as <- <-. split; [exact Hn|]. split; [exact Ls|]. split; [exact Sx|].
    intros _ c I R. pose proof (co_low _ K c I) as LC. unfold runs_past in R. lia. }
  rewrite cap_find_all. pose proof (find_ordered (all_caps p) off count (co_order _ K)) as F.
  specialize (F (fun c H => proj1 (wf_size c (co_wf _ K c H)))).
  destruct (find _ (all_caps p)) as [c|].
  - destruct F as (I & E1 & E2 & D). pose proof (wf_size c (co_wf _ K c I)) as WS.
    destruct (off <? cp_off c) eqn:Eo.
    + specialize (NS (cp_off c - off) ltac:(lia) ltac:(lia)).
      destruct (nonstd_read e p off (cp_off c - off) ans) as [o ev]. apply NS.
      * intros x Hx [Lx|[b (Ib & Ab & _)]]; [lia|]. destruct (D b Ib) as [Db|Db]; unfold in_cap, cap_end in *; lia.
      * intros _ b Ib R. unfold runs_past in R. assert (b = c); [|subst b; lia].
        apply (order_disjoint p b c (off + (cp_off c - off)) K Ib I); unfold in_cap, cap_end in *; lia.
    + assert (Hn : cp_off c = off \/ off + count <= cap_end c).
      { destruct (N.eq_dec (cp_off c) off) as [Q|Q]; [now left|right]. specialize (NR c I). unfold runs_past in NR. lia. }
      set (n0 := N.min count (cp_size c)).
      assert (Hend : off + n0 <= cap_end c) by (unfold n0, cap_end in *; lia).
      assert (Hn0 : 0 < n0 <= count) by (unfold n0; lia).
      assert (NEXT : n0 < count -> forall b, In b (all_caps p) -> ~ runs_past b (off + n0) (count - n0)).
      { intros Hlt b Ib R. unfold runs_past in R. assert (E : off + n0 = cap_end c) by (unfold n0, cap_end in *; lia).
        assert (b = c); [|subst b; lia]. apply (order_disjoint p b c (off + n0 - 1) K Ib I); unfold in_cap, cap_end in *; lia. }
      rewrite has_callback. destruct (N.testbit (cp_flags c) 1) eqn:CB.
      * specialize (NS n0 Hn0 ltac:(lia)). destruct (nonstd_read e p off n0 ans) as [o ev]. apply NS; [|exact NEXT].
        intros x Hx [Lx|[b (Ib & Ab & Nb)]]; [lia|]. apply Nb. unfold by_callback.
        rewrite (order_disjoint p b c x K Ib I Ab) by (unfold in_cap; lia). exact CB.
      * destruct (COPY _ Hn0) as (s & -> & Hs). destruct (SL _ _ Hs) as [Ls Sx].
        split; [intros c' r o' n d []|]. split; [discriminate|]. intros n s' Q. injection Q as <- <-. auto.
  - specialize (NS count ltac:(lia) ltac:(lia)). destruct (nonstd_read e p off count ans) as [o ev]. apply NS; [|lia].
    intros x Hx [Lx|[b (Ib & Ab & _)]]; [lia|]. apply (F b Ib). unfold in_cap in Ab. lia.
Qed.

Lemma cfg_read_routed fuel : forall e p answers k count off done o s ev, caps_ok p -> full_callbacks answers ->
  off + count <= N.of_nat (length (pc_cfg p)) ->
  (forall c, In c (all_caps p) -> ~ runs_past c off count) ->
  cfg_read fuel e p answers k count off done = (o, s, ev) ->
  (forall c r o' n d, In (EvAccess c r o' n d) ev -> forall x, o' <= x < o' + n -> ~ library_byte p x) /\
  (o = Ok (done + count) -> length s = N.to_nat count /\
     forall x, off <= x < off + count -> library_byte p x -> nth (N.to_nat (x - off)) s 0 = byte_at p x).
Proof.
  induction fuel as [|fuel IH]; intros e p answers k count off done o s ev K FC HL NR H.
  - cbn [cfg_read] in H. destruct (count =? 0) eqn:Z; injection H as <- <- <-; (split; [intros c r o' n d []|]); [|discriminate].
    intros _. split; [cbn [length]; lia|]. intros; lia.
  - cbn [cfg_read] in H. destruct (count =? 0) eqn:Z.
    { injection H as <- <- <-. split; [intros c r o' n d []|]. intros _. split; [cbn [length]; lia|]. intros; lia. }
    assert (P : 0 < count) by lia.
    pose proof (read_step e p count off (answers k) K P HL (fun n m d => FC k off n m d) NR) as S.
    destruct (read_segment e p count off (answers k)) as [[o1 ev1]|]; [|contradiction]. destruct S as (EV & _ & SO).
    destruct o1 as [[n s1]|er|cr]; [|injection H as <- <- <-; split; [exact EV|discriminate]|injection H as <- <- <-; split; [exact EV|discriminate]].
    destruct (SO n s1 eq_refl) as (Hn & L1 & S1 & NR').
    destruct (cfg_read fuel e p answers (k + length ev1) (count - n) (off + n) (done + n)) as [[o2 s2] ev2] eqn:R.
    injection H as <- <- <-.
    assert (HL2 : off + n + (count - n) <= N.of_nat (length (pc_cfg p))) by lia.
    assert (NR2 : forall c, In c (all_caps p) -> ~ runs_past c (off + n) (count - n)).
    { destruct (N.eq_dec n count); [intros c I; unfold runs_past; lia|apply NR'; lia]. }
    destruct (IH _ _ _ _ _ _ _ _ _ _ K FC HL2 NR2 R) as (EV2 & S2). split.
    + intros c r o' n' d I. apply in_app_or in I. destruct I as [I|I]; [eapply EV; eauto|eapply EV2; eauto].
    + intros Q. destruct S2 as [L2 S2]; [rewrite Q; f_equal; lia|]. split; [rewrite app_length; lia|]. intros x Hx Lx.
      destruct (N.lt_ge_cases x (off + n)) as [C|C].
      * rewrite app_nth1 by lia. apply S1; [lia|exact Lx].
      * rewrite app_nth2 by lia. rewrite L1. replace (N.to_nat (x - off) - N.to_nat n)%nat with (N.to_nat (x - (off + n))) by lia. apply S2; [lia|exact Lx].
Qed.
