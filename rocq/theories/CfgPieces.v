(* Config space accesses as a sequence of pieces. *)
From Coq Require Import NArith ZArith List Bool Lia ZifyBool ZifyNat ZifyN.
From Verif Require Import Base Types Bytes BytesProofs Migr Pci SpecPci SpecCfg BufProofs PciProofs PciWrite PciCapWrite PciLoop.
Import ListNotations.
Open Scope N_scope.
Ltac Zify.zify_post_hook ::= idtac.

(* Strictly inside a capability there is no boundary. *)
Lemma no_boundary p c x : caps_ok p -> In c (all_caps p) -> cp_off c < x < cap_end c -> ~ boundary p x.
Proof.
  intros K I A B. pose proof (co_low _ K c I) as LOW. destruct B as [B|[B|(b & Ib & B)]].
  - unfold register_start in B. cbn [In] in B. lia.
  - lia.
  - pose proof (wf_size b (co_wf _ K b Ib)) as WS.
    assert (E : b = c).
    { destruct B as [B|B].
      - apply (order_disjoint p b c x K Ib I); unfold in_cap, cap_end in *; lia.
      - apply (order_disjoint p b c (x - 1) K Ib I); unfold in_cap, cap_end in *; lia. }
    subst b. unfold cap_end in *. lia.
Qed.

(* A smaller access that still reaches the first capability finds the same one. *)
Lemma find_again p off count n c : cap_find_by_offset p off count = Some c -> cp_off c <= off + n -> n <= count ->
  cap_find_by_offset p off n = Some c.
Proof.
  rewrite !cap_find_all. induction (all_caps p) as [|x l IH]; cbn [find]; [discriminate|].
  intros H Ho Hn. destruct (ranges_intersect off count (cp_off x) (cp_size x)) eqn:E.
  - injection H as ->. apply intersect_spec in E.
    assert (E2 : ranges_intersect off n (cp_off c) (cp_size c) = true) by (apply intersect_spec; lia). now rewrite E2.
  - destruct (ranges_intersect off n (cp_off x) (cp_size x)) eqn:E2; [|auto].
    apply intersect_spec in E2. assert (C : ranges_intersect off count (cp_off x) (cp_size x) = true) by (apply intersect_spec; lia).
    congruence.
Qed.

(* What comes first behind the header. *)
Lemma pieces p off n : caps_ok p -> 64 <= off -> 
  match cap_find_by_offset p off n with
  | None => in_gap p off n /\ forall x, off < x <= off + n -> ~ boundary p x
  | Some c => In c (all_caps p) /\ off < cap_end c /\ cp_off c <= off + n /\
      (off < cp_off c -> in_gap p off (cp_off c - off) /\ forall x, off < x -> boundary p x -> cp_off c <= x)
  end.
Proof.
  intros K L. rewrite cap_find_all. pose proof (find_ordered (all_caps p) off n (co_order _ K)) as F.
  specialize (F (fun c H => proj1 (wf_size c (co_wf _ K c H)))).
  destruct (find _ (all_caps p)) as [c|].
  - destruct F as (I & E & S & D). split; [exact I|]. split; [exact E|]. split; [exact S|]. intros B. split.
    + split; [exact L|]. intros b Ib. destruct (D b Ib) as [Q|Q]; [left; exact Q|right; lia].
    + intros x Hx [Bx|[Bx|(b & Ib & Bx)]]; [unfold register_start in Bx; cbn [In] in Bx; lia|lia|].
      pose proof (wf_size b (co_wf _ K b Ib)) as WS.
      destruct (D b Ib) as [Q|Q]; unfold cap_end in *; lia.
  - split.
    + split; [exact L|]. intros b Ib. specialize (F b Ib). lia.
    + intros x Hx [Bx|[Bx|(b & Ib & Bx)]]; [unfold register_start in Bx; cbn [In] in Bx; lia|lia|].
      apply (F b Ib). pose proof (wf_size b (co_wf _ K b Ib)) as WS. unfold cap_end in *. lia.
Qed.

Lemma rd_app d1 d2 n : (n <= length d1)%nat -> rd (d1 ++ d2) 0 n = rd d1 0 n.
Proof.
  intros L. unfold rd, slice. cbn [skipn Nat.add]. rewrite app_length.
  replace (n <=? length d1 + length d2)%nat with true by lia. replace (n <=? length d1)%nat with true by lia.
  rewrite firstn_app. replace (n - length d1)%nat with 0%nat by lia. now rewrite firstn_O, app_nil_r.
Qed.

Lemma firstn_keep {A} (d1 d2 : list A) n : (n <= length d1)%nat -> firstn n (d1 ++ d2) = firstn n d1.
Proof. intros L. rewrite firstn_app. replace (n - length d1)%nat with 0%nat by lia. now rewrite firstn_O, app_nil_r. Qed.

Lemma skipn_keep {A} (d1 d2 : list A) n : (n <= length d1)%nat -> skipn n (d1 ++ d2) = skipn n d1 ++ d2.
Proof. intros L. rewrite skipn_app. replace (n - length d1)%nat with 0%nat by lia. reflexivity. Qed.

Lemma hdr_write_app e cfg off d1 d2 : reg_size off <= N.of_nat (length d1) -> reg_size off <> 0 ->
  hdr_write e cfg off (d1 ++ d2) = hdr_write e cfg off d1.
Proof.
  intros L Z. unfold hdr_write.
  destruct (off =? 4) eqn:E4. { replace off with 4 in L by lia. change (reg_size 4) with 2 in L. rewrite rd_app by lia. reflexivity. }
  destruct ((off =? 6) || (off =? 8) || (off =? 9) || (off =? 61) || (off =? 62) || (off =? 63)); [reflexivity|].
  assert (L1 : (1 <= length d1)%nat) by lia.
  destruct ((off =? 60) || (off =? 12) || (off =? 13)). { rewrite rd_app by lia. reflexivity. }
  destruct ((off =? 16) || (off =? 20) || (off =? 24) || (off =? 28) || (off =? 32) || (off =? 36)) eqn:E16.
  { assert (Q : reg_size off = 4) by (unfold reg_size; cbn [existsb]; replace ((off =? 0) || _) with true by lia; reflexivity).
    destruct (nth _ (pe_bar_size e) 0 =? 0); [reflexivity|]. rewrite rd_app by lia. reflexivity. }
  destruct (off =? 48) eqn:E48; [|reflexivity]. replace off with 48 in L by lia. change (reg_size 48) with 4 in L. rewrite rd_app by lia. reflexivity.
Qed.

(* A register of the header does not reach beyond the next boundary. *)
Lemma reg_to_boundary p off x : caps_ok p -> off < 64 -> off < x -> boundary p x -> off + reg_size off <= x.
Proof.
  intros K H Hx B. pose proof (reg_size_bound off H) as RB.
  destruct B as [B|[B|(c & I & B)]]; [|lia|pose proof (co_low _ K c I); unfold cap_end in B; lia].
  unfold register_start in B. cbn [In] in B. clear RB. unfold reg_size.
  destruct (existsb (N.eqb off) [0; 16; 20; 24; 28; 32; 36; 40; 44; 48]) eqn:E; [cbn [existsb] in E; lia|].
  destruct (off =? 9) eqn:E9; [lia|]. destruct (existsb (N.eqb off) [4; 6]) eqn:E4; [cbn [existsb] in E4; lia|].
  destruct (existsb (N.eqb off) [8; 12; 13; 14; 15; 52; 60; 61; 62; 63]); clear - Hx; lia.
Qed.

Lemma segment_app p off (n1 n2 : N) : caps_ok p -> 0 < n1 -> 64 <= off ->
  (forall c, In c (all_caps p) -> ~ runs_past c off (n1 + n2)) ->
  boundary p (off + n1) ->
  forall w, next_segment p (n1 + n2) off w = next_segment p n1 off w /\
    match next_segment p n1 off w with SegHeader n | SegOther n | SegCap _ n => n <= n1 | SegBad => True end.
Proof.
  intros K N1 L NR B w. unfold next_segment, PCI_STD_HEADER_SIZEOF. destruct (off <? 64) eqn:E; [lia|].
  destruct (N.eq_dec n2 0) as [->|N2].
  - rewrite N.add_0_r. split; [reflexivity|].
    pose proof (pieces p off n1 K L) as P. destruct (cap_find_by_offset p off n1) as [c|]; [|lia].
    destruct P as (I & P1 & P2 & P3). destruct (off <? cp_off c) eqn:EO; lia.
  - pose proof (pieces p off (n1 + n2) K L) as P. destruct (cap_find_by_offset p off (n1 + n2)) as [c|] eqn:F.
    + destruct P as (I & P1 & P2 & P3). destruct (off <? cp_off c) eqn:EO.
      * destruct (P3 ltac:(lia)) as (G & X). specialize (X (off + n1) ltac:(lia) B).
        rewrite (find_again p off (n1 + n2) n1 c F X ltac:(lia)), EO. split; [reflexivity|lia].
      * rewrite (find_again p off (n1 + n2) n1 c F ltac:(lia) ltac:(lia)), EO. split; [|lia].
        assert (Q : cap_end c <= off + n1).
        { destruct (N.le_gt_cases (cap_end c) (off + n1)) as [Q|Q]; [exact Q|].
          exfalso. apply (no_boundary p c (off + n1) K I); [lia|exact B]. }
        assert (O : cp_off c = off).
        { destruct (N.eq_dec (cp_off c) off) as [O|O]; [exact O|]. exfalso. apply (NR c I). unfold runs_past. lia. }
        f_equal. unfold cap_end in Q. lia.
    + destruct P as (G & X). exfalso. apply (X (off + n1)); [lia|exact B].
Qed.

Lemma write_segment_app e p off d1 d2 a r : caps_ok p -> d1 <> [] ->
  (forall c, In c (all_caps p) -> ~ runs_past c off (N.of_nat (length (d1 ++ d2)))) ->
  boundary p (off + N.of_nat (length d1)) ->
  write_segment e p off (d1 ++ d2) a r = write_segment e p off d1 a r.
Proof.
  intros K ND NR B. assert (L1 : 0 < N.of_nat (length d1)) by (destruct d1; [congruence|cbn [length]; lia]).
  rewrite app_length, Nat2N.inj_add in NR.
  destruct (N.lt_ge_cases off 64) as [H|H].
  - pose proof (reg_to_boundary p off (off + N.of_nat (length d1)) K H ltac:(lia) B) as RB.
    unfold write_segment, next_segment, PCI_STD_HEADER_SIZEOF. replace (off <? 64) with true by lia.
    destruct (reg_size off =? 0) eqn:R; [reflexivity|]. rewrite hdr_write_app by lia.
    replace (N.min (N.of_nat (length (d1 ++ d2))) (reg_size off)) with (N.min (N.of_nat (length d1)) (reg_size off)); [reflexivity|].
    rewrite app_length. lia.
  - destruct (segment_app p off (N.of_nat (length d1)) (N.of_nat (length d2)) K L1 H NR B true) as (S & Le).
    unfold write_segment. rewrite app_length, Nat2N.inj_add, S.
    destruct (next_segment p (N.of_nat (length d1)) off true) as [n| |n|c n]; [|reflexivity| |].
    + exfalso. unfold next_segment, PCI_STD_HEADER_SIZEOF in S. replace (off <? 64) with false in S by lia.
      destruct (cap_find_by_offset _ _ _) as [c|]; [destruct (off <? cp_off c)|]; discriminate.
    + rewrite firstn_keep by lia. reflexivity.
    + rewrite firstn_keep by lia. reflexivity.
Qed.

(* An iteration keeps the capabilities. *)
Lemma write_step_caps e p off buf ans rans o cfg' ev : caps_ok p -> bytes buf -> buf <> [] ->
  (forall n m d, ans off n = AccOk m d -> m = n) ->
  (forall c, In c (all_caps p) -> ~ runs_past c off (N.of_nat (length buf))) ->
  write_segment e p off buf ans rans = Some (Ok o, cfg', ev) ->
  caps_ok (set_cfg p cfg') /\ 0 < o <= N.of_nat (length buf).
Proof.
  intros K Bb ND FC NR W. pose proof (write_step e p off buf ans rans K Bb ND FC NR) as Q. rewrite W in Q.
  destruct Q as ((L & B & S) & Q). destruct (Q o eq_refl) as (Q1 & _). split; [|exact Q1]. apply caps_ok_cfg; [exact K|exact L|auto using co_bytes].
Qed.

Lemma write_next e p off buf ans rans n cfg' ev : caps_ok p -> bytes buf -> buf <> [] ->
  (forall n m d, ans off n = AccOk m d -> m = n) ->
  (forall c, In c (all_caps p) -> ~ runs_past c off (N.of_nat (length buf))) ->
  write_segment e p off buf ans rans = Some (Ok n, cfg', ev) ->
  forall c, In c (all_caps p) -> ~ runs_past c (off + n) (N.of_nat (length buf) - n).
Proof.
  intros K Bb ND FC NR W. pose proof (write_step e p off buf ans rans K Bb ND FC NR) as Q. rewrite W in Q.
  destruct Q as (_ & Q). destruct (Q n eq_refl) as (Q1 & _ & Q2). intros c Ic. destruct (N.eq_dec n (N.of_nat (length buf))) as [->|D].
  - unfold runs_past. lia.
  - apply Q2; [lia|exact Ic].
Qed.

Lemma bytes_skipn n d : bytes d -> bytes (skipn n d).
Proof.
  intros B. apply Forall_forall. intros x Hx. eapply (proj1 (Forall_forall _ _) B). rewrite <- (firstn_skipn n d). apply in_or_app. now right.
Qed.

(* How much fuel there is does not matter. *)
Lemma write_fuel : forall f1 f2 e p answers rans k off d done, caps_ok p -> bytes d -> full_callbacks answers ->
  (forall c, In c (all_caps p) -> ~ runs_past c off (N.of_nat (length d))) ->
  (length d <= f1)%nat -> (length d <= f2)%nat ->
  cfg_write f1 e p answers rans k off d done = cfg_write f2 e p answers rans k off d done.
Proof.
  induction f1 as [|f1 IH]; intros f2 e p answers rans k off d done K B FC NR L1 L2.
  - destruct d; [|cbn [length] in L1; lia]. destruct f2; reflexivity.
  - destruct d as [|y d']; [destruct f2; reflexivity|]. destruct f2 as [|f2]; [cbn [length] in L2; lia|].
    cbn [cfg_write]. set (d := y :: d') in *. assert (ND : d <> []) by discriminate.
    destruct (write_segment e p off d (answers k) (rans k)) as [[[[n|er|cr] cfg'] ev]|] eqn:W; try reflexivity.
    destruct (write_step_caps e p off d (answers k) (rans k) n cfg' ev K B ND (fun n m d => FC k off n m d) NR W) as (K' & N0).
    pose proof (write_next e p off d (answers k) (rans k) n cfg' ev K B ND (fun n m d => FC k off n m d) NR W) as NX.
    assert (LS : length (skipn (N.to_nat n) d) = (length d - N.to_nat n)%nat) by apply skipn_length.
    rewrite (IH f2); [reflexivity|exact K'|now apply bytes_skipn|exact FC| |lia|lia].
    intros c Ic. rewrite LS, Nat2N.inj_sub, N2Nat.id. exact (NX c Ic).
Qed.

Lemma write_app : forall fuel f1 f2 e p answers rans k off d1 d2 done, caps_ok p -> bytes d1 -> bytes d2 -> full_callbacks answers ->
  (forall c, In c (all_caps p) -> ~ runs_past c off (N.of_nat (length (d1 ++ d2)))) ->
  boundary p (off + N.of_nat (length d1)) ->
  (length (d1 ++ d2) <= fuel)%nat -> (length d1 <= f1)%nat -> (length d2 <= f2)%nat ->
  cfg_write fuel e p answers rans k off (d1 ++ d2) done =
    let '(o1, p1, ev1) := cfg_write f1 e p answers rans k off d1 done in
    match o1 with
    | Ok n1 =>
        if n1 =? done + N.of_nat (length d1) then
          let '(o2, p2, ev2) := cfg_write f2 e p1 answers rans (k + length ev1) (off + N.of_nat (length d1)) d2 (done + N.of_nat (length d1)) in
          (o2, p2, ev1 ++ ev2)
        else (Ok 0, p1, ev1)
    | other => (other, p1, ev1)
    end.
Proof.
  induction fuel as [|fuel IH]; intros f1 f2 e p answers rans k off d1 d2 done K B1 B2 FC NR BD LF L1 L2.
  - destruct d1; [|cbn [app length] in LF; lia]. destruct d2; [|cbn [app length] in LF; lia].
    destruct f1, f2; cbn [cfg_write app length N.of_nat]; rewrite N.add_0_r, N.eqb_refl; reflexivity.
  - destruct d1 as [|y d1'].
    + cbn [app length N.of_nat] in *. rewrite !N.add_0_r.
      replace (cfg_write f1 e p answers rans k off [] done) with (Ok done, p, @nil event) by (destruct f1; reflexivity).
      cbv iota beta. rewrite N.eqb_refl, Nat.add_0_r. rewrite (write_fuel (S fuel) f2) by assumption.
      destruct (cfg_write f2 e p answers rans k off d2 done) as [[o2 p2] ev2]. reflexivity.
    + destruct f1 as [|f1]; [cbn [length] in L1; lia|]. set (d1 := y :: d1') in *.
      assert (ND : d1 <> []) by discriminate.
      change (cfg_write (S fuel) e p answers rans k off (d1 ++ d2) done) with
        (match write_segment e p off (d1 ++ d2) (answers k) (rans k) with
          | None => (Ok 0, p, [])
          | Some (Err er, cfg', ev) => (Err er, set_cfg p cfg', ev)
          | Some (Crash c, cfg', ev) => (Crash c, set_cfg p cfg', ev)
          | Some (Ok n, cfg', ev) =>
              let '(o, p', ev') :=
                cfg_write fuel e (set_cfg p cfg') answers rans (k + length ev) (off + n) (skipn (N.to_nat n) (d1 ++ d2)) (done + n) in
              (o, p', ev ++ ev')
          end).
      change (cfg_write (S f1) e p answers rans k off d1 done) with
        (match write_segment e p off d1 (answers k) (rans k) with
          | None => (Ok 0, p, [])
          | Some (Err er, cfg', ev) => (Err er, set_cfg p cfg', ev)
          | Some (Crash c, cfg', ev) => (Crash c, set_cfg p cfg', ev)
          | Some (Ok n, cfg', ev) =>
              let '(o, p', ev') :=
                cfg_write f1 e (set_cfg p cfg') answers rans (k + length ev) (off + n) (skipn (N.to_nat n) d1) (done + n) in
              (o, p', ev ++ ev')
          end).
      rewrite (write_segment_app e p off d1 d2 (answers k) (rans k) K ND NR BD).
      assert (LD : (0 < length d1)%nat) by (unfold d1; cbn [length]; lia).
      assert (NR1 : forall c, In c (all_caps p) -> ~ runs_past c off (N.of_nat (length d1))).
      { intros c Ic R. destruct (N.eq_dec 0 (N.of_nat (length d2))) as [Z|Z].
        - apply (NR c Ic). destruct d2; [now rewrite app_nil_r|cbn [length] in Z; lia].
        - apply (NR c Ic). unfold runs_past in *. rewrite app_length. lia. }
      destruct (write_segment e p off d1 (answers k) (rans k)) as [[[[n|er|cr] cfg'] ev]|] eqn:W; [|reflexivity|reflexivity|].
      2:{ replace (0 =? done + N.of_nat (length d1)) with false by lia. reflexivity. }
      destruct (write_step_caps e p off d1 (answers k) (rans k) n cfg' ev K B1 ND (fun n m d => FC k off n m d) NR1 W) as (K' & N0).
      pose proof W as W2. rewrite <- (write_segment_app e p off d1 d2 (answers k) (rans k) K ND NR BD) in W2.
      assert (B12 : bytes (d1 ++ d2)) by (apply Forall_app; split; assumption).
      assert (ND2 : d1 ++ d2 <> []) by discriminate.
      pose proof (write_next e p off (d1 ++ d2) (answers k) (rans k) n cfg' ev K B12 ND2 (fun n m d => FC k off n m d) NR W2) as NX.
      rewrite skipn_keep by lia.
      assert (LS : length (skipn (N.to_nat n) d1) = (length d1 - N.to_nat n)%nat) by apply skipn_length.
      rewrite (IH f1 f2 e (set_cfg p cfg') answers rans (k + length ev)%nat (off + n) (skipn (N.to_nat n) d1) d2 (done + n)).
      2:{ exact K'. } 2:{ now apply bytes_skipn. }
      2:{ exact B2. } 2:{ exact FC. }
      2:{ intros c Ic. rewrite <- skipn_keep by lia. rewrite skipn_length, Nat2N.inj_sub, N2Nat.id. exact (NX c Ic). }
      2:{ replace (off + n + N.of_nat (length (skipn (N.to_nat n) d1))) with (off + N.of_nat (length d1)) by lia. exact BD. }
      2:{ rewrite app_length in LF |- *. rewrite LS. clear - LF LD N0. lia. } 2:{ lia. } 2:{ exact L2. }
      destruct (cfg_write f1 e (set_cfg p cfg') answers rans (k + length ev) (off + n) (skipn (N.to_nat n) d1) (done + n)) as [[o1 p1] ev1].
      destruct o1 as [n1|er|cr]; [|reflexivity|reflexivity].
      replace (done + n + N.of_nat (length (skipn (N.to_nat n) d1))) with (done + N.of_nat (length d1)) by lia.
      destruct (n1 =? done + N.of_nat (length d1)); [|reflexivity].
      replace (off + n + N.of_nat (length (skipn (N.to_nat n) d1))) with (off + N.of_nat (length d1)) by lia.
      rewrite app_length, Nat.add_assoc.
      destruct (cfg_write f2 _ _ _ _ _ _ _ _) as [[o2 p2] ev2]. rewrite app_assoc. reflexivity.
Qed.

Lemma write_le e p off d a r n cfg' ev : write_segment e p off d a r = Some (Ok n, cfg', ev) -> n <= N.of_nat (length d).
Proof.
  assert (NW : forall d' m ev', (length d' <= length d)%nat -> nonstd_write e off d' a = (Ok m, ev') -> m <= N.of_nat (length d)).
  { intros d' m ev' L. unfold nonstd_write. destruct (pe_cfg_cb e); [|discriminate]. destruct (a off (N.of_nat (length d'))) as [m' d''|]; [|discriminate].
    destruct (N.of_nat (length d') <? m') eqn:E; [discriminate|]. destruct (m' =? 0); [discriminate|]. intros Q. injection Q as <- _. lia. }
  assert (FL : forall j, (length (firstn j d) <= length d)%nat) by (intros j; rewrite firstn_length; lia).
  unfold write_segment, next_segment, PCI_STD_HEADER_SIZEOF. destruct (off <? 64).
  - destruct (reg_size off =? 0); [discriminate|]. destruct (hdr_write e (pc_cfg p) off d) as [[u|er|cr] c']; [|discriminate|discriminate].
    intros Q. injection Q as <- _ _. lia.
  - destruct (cap_find_by_offset p off (N.of_nat (length d))) as [c|].
    + destruct (off <? cp_off c).
      * destruct (nonstd_write _ _ _ _) as [o ev'] eqn:NS. intros Q. injection Q as -> _ _. exact (NW _ _ _ (FL _) NS).
      * destruct (has _ _); [discriminate|]. destruct (has _ _).
        { destruct (nonstd_write _ _ _ _) as [o ev'] eqn:NS. intros Q. injection Q as -> _ _. exact (NW _ _ _ (FL _) NS). }
        destruct (_ <? _); [discriminate|]. destruct (cap_write _ _ _ _ _ _) as [[[u|er|cr] c'] ev']; [|discriminate|discriminate].
        intros Q. injection Q as <- _ _. lia.
    + destruct (nonstd_write _ _ _ _) as [o ev'] eqn:NS. intros Q. injection Q as -> _ _. exact (NW _ _ _ (FL _) NS).
Qed.

(* Counting callbacks and bytes from zero again. *)
Lemma write_shift : forall f e p answers rans k off d done,
  cfg_write f e p answers rans k off d done =
    let '(o, p', ev) := cfg_write f e p (after k answers) (after k rans) 0 off d 0 in
    (match o with Ok n => if n =? N.of_nat (length d) then Ok (done + n) else Ok 0 | other => other end, p', ev).
Proof.
  assert (G : forall f e p a1 a2 r1 r2 k1 k2 off d n1 n2, (forall j, a1 (k1 + j)%nat = a2 (k2 + j)%nat) -> (forall j, r1 (k1 + j)%nat = r2 (k2 + j)%nat) ->
    (exists x, cfg_write f e p a1 r1 k1 off d n1 = (Ok (n1 + N.of_nat (length d)), fst x, snd x) /\
               cfg_write f e p a2 r2 k2 off d n2 = (Ok (n2 + N.of_nat (length d)), fst x, snd x)) \/
    (exists o x, cfg_write f e p a1 r1 k1 off d n1 = (o, fst x, snd x) /\ cfg_write f e p a2 r2 k2 off d n2 = (o, fst x, snd x) /\
               (d = [] -> False) /\ forall n, o = Ok n -> n = 0)).
  { induction f as [|f IH]; intros e p a1 a2 r1 r2 k1 k2 off d n1 n2 A R.
    - destruct d as [|y d]; cbn [cfg_write].
      + left. exists (p, []). cbn [length N.of_nat fst snd]. now rewrite !N.add_0_r.
      + right. exists (Crash Diverges), (p, []). repeat split; try discriminate.
    - destruct d as [|y d']; cbn [cfg_write].
      + left. exists (p, []). cbn [length N.of_nat fst snd]. now rewrite !N.add_0_r.
      + set (d := y :: d') in *. pose proof (A 0%nat) as A0. pose proof (R 0%nat) as R0. rewrite !Nat.add_0_r in A0, R0. rewrite A0, R0.
        assert (ND : d = [] -> False) by discriminate.
        destruct (write_segment e p off d (a2 k2) (r2 k2)) as [[[[n|er|cr] cfg'] ev]|] eqn:W.
        * apply write_le in W. assert (LS : length (skipn (N.to_nat n) d) = (length d - N.to_nat n)%nat) by apply skipn_length.
          assert (A' : forall j, a1 (k1 + length ev + j)%nat = a2 (k2 + length ev + j)%nat) by (intros j; rewrite <- !Nat.add_assoc; apply A).
          assert (R' : forall j, r1 (k1 + length ev + j)%nat = r2 (k2 + length ev + j)%nat) by (intros j; rewrite <- !Nat.add_assoc; apply R).
          destruct (IH e (set_cfg p cfg') a1 a2 r1 r2 (k1 + length ev)%nat (k2 + length ev)%nat (off + n) (skipn (N.to_nat n) d) (n1 + n) (n2 + n) A' R')
            as [(x & Q1 & Q2)|(o & x & Q1 & Q2 & _ & Q4)]; rewrite Q1, Q2; clear Q1 Q2.
          { left. exists (fst x, ev ++ snd x). cbn [fst snd].
            assert (EL : forall a, a + n + N.of_nat (length (skipn (N.to_nat n) d)) = a + N.of_nat (length d)) by (intros a; rewrite LS; clear - W; lia).
            rewrite !EL. split; reflexivity. }
          right. exists o, (fst x, ev ++ snd x). cbn [fst snd]. repeat split; [exact ND|exact Q4].
        * right. exists (Err er), (set_cfg p cfg', ev). repeat split; [exact ND|discriminate].
        * right. exists (Crash cr), (set_cfg p cfg', ev). repeat split; [exact ND|discriminate].
        * right. exists (Ok 0), (p, []). repeat split; [exact ND|]. intros n Q. now injection Q as <-. }
  intros f e p answers rans k off d done.
  destruct (G f e p answers (after k answers) rans (after k rans) k 0%nat off d done 0 (fun j => eq_refl) (fun j => eq_refl))
    as [(x & -> & ->)|(o & x & -> & -> & ND & Q)].
  - rewrite N.add_0_l, N.eqb_refl. reflexivity.
  - destruct o as [n|er|cr]; [|reflexivity|reflexivity]. rewrite (Q n eq_refl).
    replace (0 =? N.of_nat (length d)) with false; [reflexivity|]. destruct d; [now destruct ND|cbn [length]; lia].
Qed.

Lemma config_write_app e p answers rans off d1 d2 : caps_ok p -> bytes d1 -> bytes d2 -> full_callbacks answers ->
  (forall c, In c (all_caps p) -> ~ runs_past c off (N.of_nat (length (d1 ++ d2)))) ->
  boundary p (off + N.of_nat (length d1)) ->
  config_write e p answers rans off (d1 ++ d2) = then_write e answers rans off d1 d2 (config_write e p answers rans off d1).
Proof.
  intros K B1 B2 FC NR BD. unfold config_write at 1 2, then_write.
  rewrite (write_app (length (d1 ++ d2)) (length d1) (length d2)) by auto.
  destruct (cfg_write (length d1) e p answers rans 0 off d1 0) as [[o1 p1] ev1]. destruct o1 as [n1|er|cr]; [|reflexivity|reflexivity].
  cbn [Nat.add]. rewrite N.add_0_l. destruct (n1 =? N.of_nat (length d1)) eqn:E; [|reflexivity].
  rewrite write_shift. unfold config_write. destruct (cfg_write (length d2) _ _ _ _ _ _ _ _) as [[o2 p2] ev2].
  apply N.eqb_eq in E. rewrite E. reflexivity.
Qed.

(* ---- reading *)

Lemma read_segment_app e p off n1 n2 a : caps_ok p -> 0 < n1 ->
  (forall c, In c (all_caps p) -> ~ runs_past c off (n1 + n2)) ->
  boundary p (off + n1) -> 64 <= off + n1 ->
  read_segment e p (n1 + n2) off a = read_segment e p n1 off a.
Proof.
  intros K N1 NR B H64. unfold read_segment. destruct (N.lt_ge_cases off 64) as [H|H].
  - unfold next_segment, PCI_STD_HEADER_SIZEOF. replace (off <? 64) with true by lia.
    replace (N.min (n1 + n2) (64 - off)) with (N.min n1 (64 - off)) by lia. reflexivity.
  - destruct (segment_app p off n1 n2 K N1 H NR B false) as (S & _). rewrite S. reflexivity.
Qed.

Lemma read_next e p count off ans n s ev : caps_ok p -> 0 < count -> off + count <= N.of_nat (length (pc_cfg p)) ->
  (forall n m d, ans off n = AccOk m d -> m = n) ->
  (forall c, In c (all_caps p) -> ~ runs_past c off count) ->
  read_segment e p count off ans = Some (Ok (n, s), ev) ->
  0 < n <= count /\ forall c, In c (all_caps p) -> ~ runs_past c (off + n) (count - n).
Proof.
  intros K P HL FC NR R. pose proof (read_step e p count off ans K P HL FC NR) as Q. rewrite R in Q. destruct Q as (_ & _ & Q).
  destruct (Q n s eq_refl) as (Q1 & _ & _ & Q2). split; [exact Q1|]. intros c Ic. destruct (N.eq_dec n count) as [->|D].
  - unfold runs_past. lia.
  - apply Q2; [lia|exact Ic].
Qed.

Lemma read_fuel : forall f1 f2 e p answers k count off done, caps_ok p -> full_callbacks answers ->
  off + count <= N.of_nat (length (pc_cfg p)) ->
  (forall c, In c (all_caps p) -> ~ runs_past c off count) ->
  (N.to_nat count <= f1)%nat -> (N.to_nat count <= f2)%nat ->
  cfg_read f1 e p answers k count off done = cfg_read f2 e p answers k count off done.
Proof.
  induction f1 as [|f1 IH]; intros f2 e p answers k count off done K FC HL NR L1 L2.
  - replace count with 0 by lia. destruct f2; reflexivity.
  - destruct (count =? 0) eqn:Z; [apply N.eqb_eq in Z; subst count; destruct f2; reflexivity|].
    destruct f2 as [|f2]; [lia|]. cbn [cfg_read]. rewrite Z.
    destruct (read_segment e p count off (answers k)) as [[[[n s]|er|cr] ev]|] eqn:R; try reflexivity.
    destruct (read_next e p count off (answers k) n s ev K ltac:(lia) HL (fun n m d => FC k off n m d) NR R) as (N0 & NX).
    rewrite (IH f2 e p answers (k + length ev)%nat (count - n) (off + n) (done + n)); auto; lia.
Qed.

Lemma read_app : forall fuel f1 f2 e p answers k off n1 n2 done, caps_ok p -> full_callbacks answers ->
  off + (n1 + n2) <= N.of_nat (length (pc_cfg p)) ->
  (forall c, In c (all_caps p) -> ~ runs_past c off (n1 + n2)) ->
  boundary p (off + n1) -> 64 <= off + n1 ->
  (N.to_nat (n1 + n2) <= fuel)%nat -> (N.to_nat n1 <= f1)%nat -> (N.to_nat n2 <= f2)%nat ->
  cfg_read fuel e p answers k (n1 + n2) off done =
    let '(o1, s1, ev1) := cfg_read f1 e p answers k n1 off done in
    match o1 with
    | Ok _ =>
        let '(o2, s2, ev2) := cfg_read f2 e p answers (k + length ev1) n2 (off + n1) (done + n1) in
        (o2, s1 ++ s2, ev1 ++ ev2)
    | other => (other, s1, ev1)
    end.
Proof.
  induction fuel as [|fuel IH]; intros f1 f2 e p answers k off n1 n2 done K FC HL NR BD B64 LF L1 L2.
  - replace n1 with 0 by lia. replace n2 with 0 by lia. destruct f1, f2; cbn [cfg_read N.eqb N.add app]; now rewrite N.add_0_r.
  - destruct (n1 =? 0) eqn:Z.
    + apply N.eqb_eq in Z. subst n1. rewrite N.add_0_l, !N.add_0_r in *.
      replace (cfg_read f1 e p answers k 0 off done) with (Ok done, @nil N, @nil event) by (destruct f1; reflexivity).
      cbv iota beta. cbn [length app]. rewrite Nat.add_0_r. rewrite (read_fuel (S fuel) f2) by (auto; lia).
      destruct (cfg_read f2 e p answers k n2 off done) as [[o2 s2] ev2]. reflexivity.
    + destruct f1 as [|f1]; [lia|]. cbn [cfg_read]. replace (n1 + n2 =? 0) with false by lia. rewrite Z.
      rewrite (read_segment_app e p off n1 n2 (answers k) K ltac:(lia) NR BD B64).
      assert (NR1 : forall c, In c (all_caps p) -> ~ runs_past c off n1) by (intros c Ic R; apply (NR c Ic); unfold runs_past in *; lia).
      assert (HL1 : off + n1 <= N.of_nat (length (pc_cfg p))) by lia.
      pose proof (read_step e p n1 off (answers k) K ltac:(lia) HL1 (fun n m d => FC k off n m d) NR1) as RS.
      destruct (read_segment e p n1 off (answers k)) as [[[[n s]|er|cr] ev]|] eqn:R; [|reflexivity|reflexivity|contradiction]. clear RS.
      destruct (read_next e p n1 off (answers k) n s ev K ltac:(lia) HL1 (fun n m d => FC k off n m d) NR1 R) as (N0 & _).
      pose proof R as R2. rewrite <- (read_segment_app e p off n1 n2 (answers k) K ltac:(lia) NR BD B64) in R2.
      destruct (read_next e p (n1 + n2) off (answers k) n s ev K ltac:(lia) HL (fun n m d => FC k off n m d) NR R2) as (_ & NX).
      replace (n1 + n2 - n) with (n1 - n + n2) in * by lia.
      rewrite (IH f1 f2 e p answers (k + length ev)%nat (off + n) (n1 - n) n2 (done + n) K FC); [|lia|exact NX| |lia|lia|lia|exact L2].
      2:{ replace (off + n + (n1 - n)) with (off + n1) by lia. exact BD. }
      destruct (cfg_read f1 e p answers (k + length ev) (n1 - n) (off + n) (done + n)) as [[o1 s1] ev1].
      destruct o1 as [m1|er|cr]; [|reflexivity|reflexivity].
      replace (off + n + (n1 - n)) with (off + n1) by lia. replace (done + n + (n1 - n)) with (done + n1) by lia.
      rewrite app_length, Nat.add_assoc.
      destruct (cfg_read f2 _ _ _ _ _ _ _) as [[o2 s2] ev2]. rewrite !app_assoc. reflexivity.
Qed.

Lemma read_shift : forall f e p answers k count off done,
  cfg_read f e p answers k count off done =
    let '(o, s, ev) := cfg_read f e p (after k answers) 0 count off 0 in
    (match o with Ok n => Ok (done + n) | other => other end, s, ev).
Proof.
  assert (G : forall f e p a1 a2 k1 k2 count off n1 n2, (forall j, a1 (k1 + j)%nat = a2 (k2 + j)%nat) ->
    exists o s ev, cfg_read f e p a1 k1 count off n1 = (match o with Ok n => Ok (n1 + n) | other => other end, s, ev) /\
                   cfg_read f e p a2 k2 count off n2 = (match o with Ok n => Ok (n2 + n) | other => other end, s, ev)).
  { induction f as [|f IH]; intros e p a1 a2 k1 k2 count off n1 n2 A; cbn [cfg_read]; (destruct (count =? 0);
      [exists (Ok 0), [], []; now rewrite !N.add_0_r|]).
    - exists (Crash Diverges), [], []. auto.
    - pose proof (A 0%nat) as A0. rewrite !Nat.add_0_r in A0. rewrite A0.
      destruct (read_segment e p count off (a2 k2)) as [[[[n s]|er|cr] ev]|] eqn:R.
      + assert (A' : forall j, a1 (k1 + length ev + j)%nat = a2 (k2 + length ev + j)%nat) by (intros j; rewrite <- !Nat.add_assoc; apply A).
        destruct (IH e p a1 a2 (k1 + length ev)%nat (k2 + length ev)%nat (count - n) (off + n) (n1 + n) (n2 + n) A') as (o & s' & ev' & -> & ->).
        destruct o as [m|er|cr].
        * exists (Ok (n + m)), (s ++ s'), (ev ++ ev'). now rewrite !N.add_assoc.
        * exists (Err er), (s ++ s'), (ev ++ ev'). auto.
        * exists (Crash cr), (s ++ s'), (ev ++ ev'). auto.
      + exists (Err er), [], ev. auto.
      + exists (Crash cr), [], ev. auto.
      + exfalso. unfold read_segment, next_segment in R. destruct (off <? PCI_STD_HEADER_SIZEOF); [discriminate|].
        destruct (cap_find_by_offset p off count) as [c|]; [destruct (off <? cp_off c); [discriminate|destruct (has _ _); discriminate]|discriminate]. }
  intros f e p answers k count off done.
  destruct (G f e p answers (after k answers) k 0%nat count off done 0 (fun j => eq_refl)) as (o & s & ev & -> & ->).
  destruct o as [n|er|cr]; reflexivity.
Qed.

Lemma config_read_app e p answers off n1 n2 : caps_ok p -> full_callbacks answers ->
  off + (n1 + n2) <= N.of_nat (length (pc_cfg p)) ->
  (forall c, In c (all_caps p) -> ~ runs_past c off (n1 + n2)) ->
  boundary p (off + n1) -> 64 <= off + n1 ->
  config_read e p answers off (n1 + n2) = then_read e p answers off n1 n2 (config_read e p answers off n1).
Proof.
  intros K FC HL NR BD B64. unfold config_read at 1 2, then_read.
  rewrite (read_app (N.to_nat (n1 + n2)) (N.to_nat n1) (N.to_nat n2)) by auto.
  destruct (cfg_read (N.to_nat n1) e p answers 0 n1 off 0) as [[o1 s1] ev1]. destruct o1 as [m1|er|cr]; [|reflexivity|reflexivity].
  cbn [Nat.add]. rewrite N.add_0_l, read_shift. unfold config_read. destruct (cfg_read (N.to_nat n2) _ _ _ _ _ _ _) as [[o2 s2] ev2] eqn:E2.
  destruct o2 as [m2|er|cr]; [|reflexivity|reflexivity]. reflexivity.
Qed.
