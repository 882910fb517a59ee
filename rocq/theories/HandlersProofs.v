(* Lemmas about the request handlers. *)
From Coq Require Import NArith ZArith List Bool Lia ZifyBool ZifyNat ZifyN.
From Verif Require Import Base Types Bytes BytesProofs BufProofs Dma Dirty Migr Irq Pci SpecPci PciProofs Handlers SpecHandlers.
Import ListNotations.
Open Scope N_scope.
Ltac Zify.zify_post_hook ::= idtac.

Ltac rdsk := repeat (rewrite rd_skip by (rewrite le_bytes_length; lia); rewrite le_bytes_length; cbn [Nat.sub]).
Ltac layout := rewrite ?app_length, ?le_bytes_length.

Lemma has_pow2 x k : has x (2 ^ k) = N.testbit x k.
Proof.
  unfold has. rewrite <- N.shiftl_1_l. destruct (N.testbit x k) eqn:E.
  - apply negb_true_iff, N.eqb_neq. intros H. apply (f_equal (fun y => N.testbit y k)) in H.
    rewrite N.land_spec, E, N.bits_0, N.shiftl_spec_high' in H by lia. rewrite N.sub_diag in H. discriminate H.
  - apply negb_false_iff, N.eqb_eq. apply N.bits_inj. intros i. rewrite N.land_spec, N.bits_0.
    destruct (N.eq_dec i k) as [->|D]; [now rewrite E|]. rewrite N.shiftl_1_l, N.pow2_bits_false by lia. apply andb_false_r.
Qed.

Lemma fit_length n l : length (fit n l) = n.
Proof. unfold fit, zeros. rewrite firstn_length, app_length, repeat_length. lia. Qed.

Lemma access_req_length off region count data : length (access_req off region count data) = (16 + length data)%nat.
Proof. unfold access_req. layout. lia. Qed.
Lemma access_req_off off region count data : off < 2 ^ 64 -> rd (access_req off region count data) 0 8 = Some off.
Proof. intros H. unfold access_req. now rewrite rd_front. Qed.
Lemma access_req_region off region count data : region < 2 ^ 32 -> rd (access_req off region count data) 8 4 = Some region.
Proof. intros H. unfold access_req. rdsk. now rewrite rd_front. Qed.
Lemma access_req_count off region count data : count < 2 ^ 32 -> rd (access_req off region count data) 12 4 = Some count.
Proof. intros H. unfold access_req. rdsk. now rewrite rd_front. Qed.
Lemma access_req_data off region count data : skipn 16 (access_req off region count data) = data.
Proof.
  unfold access_req. rewrite !app_assoc. rewrite skipn_app.
  rewrite skipn_all2 by (rewrite !app_length, !le_bytes_length; lia).
  rewrite !app_length, !le_bytes_length. reflexivity.
Qed.

(* Every payload of at least 16 bytes is a request with some fields. *)
Lemma access_req_surj body : bytes body -> (16 <= length body)%nat ->
  exists off region count data, in_range off region count /\ body = access_req off region count data /\ bytes data.
Proof.
  intros B L. destruct (split_field 8 body B) as (off & r1 & -> & O & B1); [lia|]. rewrite app_length, le_bytes_length in L.
  destruct (split_field 4 r1 B1) as (region & r2 & -> & R & B2); [lia|]. rewrite app_length, le_bytes_length in L.
  destruct (split_field 4 r2 B2) as (count & data & -> & C & B3); [lia|].
  exists off, region, count, data. split; [split; [exact O|split; [exact R|exact C]]|]. split; [reflexivity|exact B3].
Qed.

(* Validation. *)
Lemma valid_access c write off region count data : regs_wf c -> in_range off region count ->
  (valid_region_access c (N.of_nat (16 + length data)) write off region count = true <-> access_ok c write off region count data).
Proof.
  intros W (O & R & C). unfold valid_region_access, access_ok, MAX_XFER.
  assert (D : N.of_nat (16 + length data) - 16 = N.of_nat (length data)) by lia. rewrite D. clear D.
  destruct (1048576 <? count) eqn:E1; [split; [discriminate|intros (_ & H & _); lia]|].
  destruct (write && negb (N.of_nat (length data) =? count)) eqn:E2.
  { split; [discriminate|]. intros (_ & _ & H & _). destruct write; [|discriminate E2]. specialize (H eq_refl). cbn [andb] in E2. lia. }
  assert (H2 : write = true -> N.of_nat (length data) = count) by (intros ->; cbn [andb] in E2; lia).
  destruct (nth_error (cx_regs c) (N.to_nat region)) as [r|] eqn:En.
  2: { split; [discriminate|]. intros ((r & H & _) & _). discriminate H. }
  assert (S : ri_size r < 2 ^ 32) by (unfold regs_wf in W; rewrite Forall_forall in W; apply W; eapply nth_error_In; eauto).
  assert (SA : (ri_size r <? satadd_u64 off count) = negb (off + count <=? ri_size r)).
  { clear - O C S. unfold satadd_u64, w64, two64. destruct (N.lt_ge_cases (off + count) 18446744073709551616) as [L|L].
    - rewrite N.mod_small by exact L. destruct (off + count <? off) eqn:Q; lia.
    - assert (X : (off + count) mod 18446744073709551616 = off + count - 18446744073709551616).
      { symmetry. apply N.mod_unique with (q := 1); lia. }
      rewrite X. destruct (off + count - 18446744073709551616 <? off) eqn:Q; lia. }
  rewrite SA. destruct (off + count <=? ri_size r) eqn:E3; cbn [negb].
  - destruct (cx_mig c) as [s|] eqn:Em; cbn [is_stopped_and_copying].
    + change ST_STOP_COPY with 3. split.
      * intros H. split; [exists r; split; [reflexivity|lia]|]. split; [lia|]. split; [exact H2|].
        intros X. injection X as ->. discriminate H.
      * intros (_ & _ & _ & H). destruct (s =? 3) eqn:Q; [|reflexivity]. apply N.eqb_eq in Q. subst s. now exfalso.
    + split; [|reflexivity]. intros _. split; [exists r; split; [reflexivity|lia]|]. split; [lia|]. split; [exact H2|discriminate].
  - split; [discriminate|]. intros ((r' & H & H') & _). injection H as <-. lia.
Qed.

(* ---- callbacks made by config space accesses are parts of the access *)
Lemma find_intersects p off n c : cap_find_by_offset p off n = Some c -> off < cap_end c /\ cp_off c <= off + n.
Proof. rewrite cap_find_all. intros H. apply find_some in H. destruct H as [_ H]. now apply intersect_spec in H. Qed.

Lemma next_segment_cases p count off w : 0 < count ->
  match next_segment p count off w with
  | SegBad => w = true
  | SegHeader n => 0 < n <= count
  | SegOther n => 0 < n <= count
  | SegCap c n => 0 < n <= count /\ In c (all_caps p) /\ cp_off c <= off < cap_end c
  end.
Proof.
  intros P. unfold next_segment, PCI_STD_HEADER_SIZEOF. destruct (off <? 64) eqn:E.
  - destruct w; [destruct (reg_size off =? 0) eqn:R; [reflexivity|lia]|lia].
  - destruct (cap_find_by_offset p off count) as [c|] eqn:F; [|lia].
    pose proof (find_intersects _ _ _ _ F) as [I1 I2].
    rewrite cap_find_all in F. apply find_some in F. destruct F as [In _].
    destruct (off <? cp_off c) eqn:O; [lia|]. unfold cap_end in *. split; [lia|]. split; [exact In|]. lia.
Qed.

Lemma cfg_read_parts fuel : forall e p answers k count off done o s ev,
  cfg_read fuel e p answers k count off done = (o, s, ev) ->
  Forall (part_of false off 7 count []) ev.
Proof.
  induction fuel as [|fuel IH]; intros e p answers k count off done o s ev H; cbn [cfg_read] in H.
  - destruct (count =? 0); injection H as <- <- <-; constructor.
  - destruct (count =? 0) eqn:C0; [injection H as <- <- <-; constructor|].
    pose proof (next_segment_cases p count off false ltac:(lia)) as S. unfold read_segment in H.
    assert (NS : forall n, 0 < n <= count -> forall o1 ev1, nonstd_read e p off n (answers k) = (o1, ev1) ->
                 Forall (part_of false off 7 count []) ev1 /\
                 (forall m s1, o1 = Ok (m, s1) -> m <= count)).
    { intros n Hn o1 ev1 Q. unfold nonstd_read in Q. destruct (pe_cfg_cb e).
      - injection Q as <- <-. split.
        + constructor; [|constructor]. cbn [part_of]. change CFG_REGION with 7. repeat split; lia.
        + intros m s1. destruct (answers k off n) as [m' d|er]; [|discriminate].
          destruct (n <? m') eqn:L; [discriminate|]. destruct (m' =? 0); [discriminate|]. intros X; injection X as <- <-. lia.
      - destruct (cfg_copy (pc_cfg p) off n); injection Q as <- <-; (split; [constructor|intros m s1 X; try discriminate X]).
        injection X as <- <-. lia. }
    assert (CP : forall n, 0 < n <= count -> forall o1 ev1,
                 (match cfg_copy (pc_cfg p) off n with Ok s => Ok (n, s) | Err er => Err er | Crash c => Crash c end, @nil event) = (o1, ev1) ->
                 Forall (part_of false off 7 count []) ev1 /\ (forall m s1, o1 = Ok (m, s1) -> m <= count)).
    { intros n Hn o1 ev1 Q. injection Q as <- <-. split; [constructor|]. intros m s1 X.
      destruct (cfg_copy (pc_cfg p) off n); try discriminate X. injection X as <- <-. lia. }
    assert (G : match (match next_segment p count off false with
              | SegHeader n => Some ((match cfg_copy (pc_cfg p) off n with Ok s => Ok (n, s) | Err er => Err er | Crash c => Crash c end), [])
              | SegBad => None
              | SegOther n => Some (nonstd_read e p off n (answers k))
              | SegCap c n => if has (cp_flags c) CAP_FLAG_CALLBACK then Some (nonstd_read e p off n (answers k))
                              else Some ((match cfg_copy (pc_cfg p) off n with Ok s => Ok (n, s) | Err er => Err er | Crash c => Crash c end), [])
              end) with
              | Some (o1, ev1) => Forall (part_of false off 7 count []) ev1 /\ (forall m s1, o1 = Ok (m, s1) -> m <= count)
              | None => True end).
    { destruct (next_segment p count off false) as [n| |n|c n]; [|exact I| |].
      - now apply (CP n).
      - destruct (nonstd_read e p off n (answers k)) as [o1 ev1] eqn:Q. now apply (NS n S).
      - destruct (has (cp_flags c) CAP_FLAG_CALLBACK).
        + destruct (nonstd_read e p off n (answers k)) as [o1 ev1] eqn:Q. now apply (NS n (proj1 S)).
        + now apply (CP n). }
    set (X := match next_segment p count off false with
              | SegHeader n => _ | SegBad => _ | SegOther n => _ | SegCap c n => _ end) in H, G. clearbody X.
    destruct X as [[[[m s1]|er|cr] ev1]|].
    + destruct G as [G1 G2]. specialize (G2 m s1 eq_refl).
      destruct (cfg_read fuel e p answers (k + length ev1) (count - m) (off + m) (done + m)) as [[o2 s2] ev2] eqn:Q.
      injection H as <- <- <-. apply IH in Q. apply Forall_app. split; [exact G1|].
      eapply Forall_impl; [|exact Q]. intros a. destruct a; cbn [part_of]; try tauto.
      intros (-> & -> & A & B & C & ->). repeat split; lia.
    + injection H as <- <- <-. apply G.
    + injection H as <- <- <-. apply G.
    + injection H as <- <- <-. constructor.
Qed.

Lemma cap_write_events e cfg c off data ans o cfg' ev : cap_write e cfg c off data ans = (o, cfg', ev) -> ev = [] \/ ev = [EvReset ResetPciFlr].
Proof.
  intros H.
  assert (PX : forall base rel d o cfg' ev, cap_write_px e cfg base rel d ans = (o, cfg', ev) -> ev = [] \/ ev = [EvReset ResetPciFlr]).
  { clear. intros base rel d o cfg' ev. unfold cap_write_px, px_pxdc_write, need.
    repeat match goal with
    | |- (match ?x with _ => _ end) = _ -> _ => destruct x
    | |- (let '(_, _) := ?x in _) = _ -> _ => destruct x
    end; intros H; injection H as <- <- <-; auto. }
  unfold cap_write in H.
  repeat match type of H with (if ?x then _ else _) = _ => destruct x end;
  try (eapply PX; exact H);
  unfold cap_write_pm, cap_write_msi, cap_write_msix, need in H;
  repeat match type of H with
    | (match ?x with _ => _ end) = _ => destruct x
    | (let '(_, _) := ?x in _) = _ => destruct x
    end; injection H as <- <- <-; auto.
Qed.

Lemma skipn_skipn_add {A} a : forall b (l : list A), skipn a (skipn b l) = skipn (b + a) l.
Proof. intros b. induction b as [|b IH]; intros l; [reflexivity|]. destruct l; [now rewrite !skipn_nil|]. exact (IH l). Qed.

Lemma part_of_shift w off m count region data a : m <= count -> part_of w (off + m) region (count - m) (skipn (N.to_nat m) data) a -> part_of w off region count data a.
Proof.
  intros L. destruct a; cbn [part_of]; try tauto.
  intros (-> & -> & A & B & C & ->). repeat split; try lia. destruct w; [|reflexivity].
  f_equal. rewrite skipn_skipn_add. f_equal. lia.
Qed.

Lemma cfg_write_parts fuel : forall e p answers rans k off buf done o p' ev,
  cfg_write fuel e p answers rans k off buf done = (o, p', ev) ->
  Forall (part_of true off 7 (N.of_nat (length buf)) buf) ev.
Proof.
  induction fuel as [|fuel IH]; intros e p answers rans k off buf done o p' ev H; cbn [cfg_write] in H.
  - destruct buf; injection H as <- <- <-; constructor.
  - destruct buf as [|b0 buf0]; [injection H as <- <- <-; constructor|]. remember (b0 :: buf0) as buf.
    assert (Lb : 0 < N.of_nat (length buf)) by (subst buf; cbn [length]; lia). clear Heqbuf b0 buf0.
    pose proof (next_segment_cases p (N.of_nat (length buf)) off true Lb) as S.
    assert (NS : forall n, 0 < n <= N.of_nat (length buf) -> forall o1 ev1,
                 nonstd_write e off (firstn (N.to_nat n) buf) (answers k) = (o1, ev1) ->
                 Forall (part_of true off 7 (N.of_nat (length buf)) buf) ev1 /\ (forall m, o1 = Ok m -> m <= N.of_nat (length buf))).
    { intros n Hn o1 ev1 Q. unfold nonstd_write in Q.
      assert (L : N.of_nat (length (firstn (N.to_nat n) buf)) = n) by (rewrite firstn_length; lia). rewrite L in Q.
      destruct (pe_cfg_cb e); injection Q as <- <-; [|split; [constructor|discriminate]]. split.
      - constructor; [|constructor]. cbn [part_of]. change CFG_REGION with 7. repeat split; try lia. now rewrite N.sub_diag.
      - intros m. destruct (answers k off n); [|discriminate]. destruct (n <? n0) eqn:Q; [discriminate|].
        destruct (n0 =? 0); [discriminate|]. intros X; injection X as <-. lia. }
    assert (G : match write_segment e p off buf (answers k) (rans k) with
                | Some (o1, _, ev1) => Forall (part_of true off 7 (N.of_nat (length buf)) buf) ev1 /\ (forall m, o1 = Ok m -> m <= N.of_nat (length buf))
                | None => True end).
    { unfold write_segment. destruct (next_segment p (N.of_nat (length buf)) off true) as [n| |n|c n]; [|exact I| |].
      - destruct (hdr_write e (pc_cfg p) off buf) as [[u|er|cr] cfg']; (split; [constructor|]); try discriminate.
        intros m X; injection X as <-. lia.
      - destruct (nonstd_write e off (firstn (N.to_nat n) buf) (answers k)) as [o1 ev1] eqn:Q. now apply (NS n S).
      - destruct (has (cp_flags c) CAP_FLAG_READONLY); [split; [constructor|discriminate]|].
        destruct (has (cp_flags c) CAP_FLAG_CALLBACK).
        + destruct (nonstd_write e off (firstn (N.to_nat n) buf) (answers k)) as [o1 ev1] eqn:Q. now apply (NS n (proj1 S)).
        + destruct (off - cp_off c <? cp_hdr_size c); [split; [constructor|discriminate]|].
          destruct (cap_write e (pc_cfg p) c off (firstn (N.to_nat n) buf) (rans k)) as [[o1 cfg'] ev1] eqn:Q.
          apply cap_write_events in Q.
          assert (F : Forall (part_of true off 7 (N.of_nat (length buf)) buf) ev1)
            by (destruct Q as [->| ->]; constructor; [cbn [part_of]; auto|constructor]).
          destruct o1; (split; [exact F|]); try discriminate. intros m X; injection X as <-. lia. }
    destruct (write_segment e p off buf (answers k) (rans k)) as [[[[m|er|cr] cfg'] ev1]|].
    + destruct G as [G1 G2]. specialize (G2 m eq_refl).
      destruct (cfg_write fuel e (set_cfg p cfg') answers rans (k + length ev1) (off + m) (skipn (N.to_nat m) buf) (done + m)) as [[o2 p2] ev2] eqn:Q.
      injection H as <- <- <-. apply IH in Q. apply Forall_app. split; [exact G1|].
      eapply Forall_impl; [|exact Q]. intros a Ha. apply (part_of_shift true off m); [exact G2|].
      rewrite skipn_length in Ha. replace (N.of_nat (length buf) - m) with (N.of_nat (length buf - N.to_nat m)) by lia. exact Ha.
    + injection H as <- <- <-. apply G.
    + injection H as <- <- <-. apply G.
    + injection H as <- <- <-. constructor.
Qed.

(* ---- region_access *)
Lemma region_access_parts c o region w off count data res buf c' ev :
  (w = true -> N.of_nat (length data) = count) -> (w = false -> data = []) -> 0 < count ->
  region_access c o region w off count data = (res, buf, c', ev) -> Forall (part_of w off region count data) ev.
Proof.
  intros D D' P H. unfold region_access in H. destruct (nth_error (cx_regs c) (N.to_nat region)) as [r|]; [|injection H as <- <- <- <-; constructor].
  destruct ((region =? CFG_REGION) && negb (has (ri_flags r) REGION_FLAG_ALWAYS_CB)) eqn:E.
  - assert (region = 7) by (change CFG_REGION with 7 in E; lia). subst region. destruct w.
    + destruct (config_write (env_of c) (cx_pci c) (or_access o) (or_reset o) off data) as [[o1 p1] ev1] eqn:Q.
      injection H as <- <- <- <-. unfold config_write in Q. apply cfg_write_parts in Q. rewrite <- (D eq_refl). exact Q.
    + destruct (config_read (env_of c) (cx_pci c) (or_access o) off count) as [[o1 p1] ev1] eqn:Q.
      injection H as <- <- <- <-. unfold config_read in Q. apply cfg_read_parts in Q. rewrite (D' eq_refl). exact Q.
  - destruct (ri_cb r); [|injection H as <- <- <- <-; constructor].
    assert (ev = [EvAccess region w off count data]) by (destruct (or_access o 0%nat off count); now injection H as <- <- <- <-).
    subst ev. constructor; [|constructor]. cbn [part_of]. repeat split; try lia. destruct w; [|now apply D'].
    rewrite N.sub_diag. change (N.to_nat 0) with 0%nat. cbn [skipn]. rewrite firstn_all2; [reflexivity|]. specialize (D eq_refl). lia.
Qed.
