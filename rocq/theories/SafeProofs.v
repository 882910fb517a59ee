(* Harmless messages do not crash the server: DMA, configuration space, the handlers. *)
From Coq Require Import NArith ZArith List Bool Lia ZifyBool ZifyNat ZifyN.
From Verif Require Import Base Types Bytes BytesProofs Spec Dma Dirty DmaOps SpecDma DmaProofs DmaRemap DirtyScale DirtyHist Migr SpecMigr PropMigr
  Irq SpecIrq IrqProofs PropIrq Pci SpecPci BufProofs PciProofs PciWrite PciCapWrite PciLoop Handlers SpecHandlers HandlersProofs HandlersDma
  Server SpecServer ServerProofs SpecSafe.
Import ListNotations.
Open Scope N_scope.
Ltac Zify.zify_post_hook ::= idtac.

(* ---------- translation *)

Lemma iov_end_le r : iov_end r <= rg_base r + rg_len r.
Proof. unfold iov_end, w64. apply N.mod_le. discriminate. Qed.
Lemma iov_end_lt r : iov_end r < two64.
Proof. unfold iov_end, w64. apply N.mod_lt. discriminate. Qed.

(* How many regions end behind a. *)
Definition behind (rs : list region) (a : N) : nat := length (filter (fun r => a <? iov_end r) rs).
Lemma behind_mono rs a b : a <= b -> (behind rs b <= behind rs a)%nat.
Proof.
  intros H. unfold behind. induction rs as [|r rs IH]; [auto|]. cbn [filter].
  destruct (b <? iov_end r) eqn:B, (a <? iov_end r) eqn:A; cbn [length]; lia.
Qed.
Lemma behind_len rs a : (behind rs a <= length rs)%nat.
Proof. unfold behind. induction rs as [|r l IH]; [cbn; lia|]. cbn [filter length]. destruct (a <? iov_end r); cbn [length]; lia. Qed.
Lemma behind_less rs r a b : In r rs -> a < iov_end r -> iov_end r <= b -> (behind rs b < behind rs a)%nat.
Proof.
  intros I A B. induction rs as [|x rs IH]; [destruct I|]. pose proof (behind_mono rs a b ltac:(lia)) as M. unfold behind in *. cbn [filter].
  destruct I as [->|I].
  - replace (b <? iov_end r) with false by lia. replace (a <? iov_end r) with true by lia. cbn [length]. lia.
  - specialize (IH I). destruct (b <? iov_end x) eqn:Eb, (a <? iov_end x) eqn:Ea; cbn [length]; lia.
Qed.

(* An entry lies inside its region. *)
Definition inside (rs : list region) (s : sg) : Prop :=
  exists r, nth_error rs (sg_region s) = Some r /\ sg_base s = rg_base r /\ sg_off s + sg_len s <= rg_len r.

Lemma init_inside rs r idx addr len prot s : nth_error rs idx = Some r -> rg_base r <= addr -> addr + len <= iov_end r ->
  init_sg r idx addr len prot = Ok s -> inside rs s.
Proof.
  intros Hn B E H. unfold init_sg in H. destruct (has prot PROT_WRITE && negb (has (di_prot (rg_info r)) PROT_WRITE)); [discriminate|].
  injection H as <-. exists r. cbn [sg_region sg_base sg_off sg_len]. split; [exact Hn|]. split; [reflexivity|].
  pose proof (iov_end_le r). pose proof (iov_end_lt r).
  assert (S : sub64 addr (rg_base r) = addr - rg_base r).
  { unfold sub64, w64. replace (addr + two64 - rg_base r) with ((addr - rg_base r) + 1 * two64) by lia. rewrite N.mod_add by discriminate.
    apply N.mod_small. lia. }
  rewrite S. lia.
Qed.

Lemma split_pass_spec max prot all rs : forall pre found addr len cnt acc, all = pre ++ rs -> Forall (inside all) acc ->
  match split_pass rs (length pre) found addr len cnt acc max prot with
  | PassErr _ => True
  | PassOut _ acc' => Forall (inside all) acc'
  | PassEnd f addr' _ _ acc' => Forall (inside all) acc' /\ (f = found /\ addr' = addr \/ (behind all addr' < behind all addr)%nat)
  end.
Proof.
  induction rs as [|r rs IH]; intros pre found addr len cnt acc E F; cbn [split_pass].
  - split; [exact F|]. now left.
  - assert (E2 : all = (pre ++ [r]) ++ rs) by (rewrite <- app_assoc; exact E).
    assert (L : length (pre ++ [r]) = S (length pre)) by (rewrite app_length; cbn; lia).
    assert (Hn : nth_error all (length pre) = Some r) by (rewrite E, nth_error_app2, Nat.sub_diag by lia; reflexivity).
    destruct ((rg_base r <=? addr) && (addr <? iov_end r)) eqn:M.
    + set (rl := N.min (iov_end r - addr) len).
      assert (A : w64 (addr + rl) = addr + rl) by (unfold w64; apply N.mod_small; pose proof (iov_end_lt r); unfold rl; lia).
      assert (NEXT : forall acc', Forall (inside all) acc' ->
        match (if len - rl =? 0 then PassOut (S cnt) acc' else split_pass rs (S (length pre)) true (w64 (addr + rl)) (len - rl) (S cnt) acc' max prot) with
        | PassErr _ => True
        | PassOut _ acc' => Forall (inside all) acc'
        | PassEnd f addr' _ _ acc' => Forall (inside all) acc' /\ (f = found /\ addr' = addr \/ (behind all addr' < behind all addr)%nat)
        end).
      { intros acc' F'. destruct (len - rl =? 0) eqn:Z; [exact F'|]. rewrite A.
        specialize (IH (pre ++ [r]) true (addr + rl) (len - rl) (S cnt) acc' E2 F'). rewrite L in IH.
        destruct (split_pass rs (S (length pre)) true (addr + rl) (len - rl) (S cnt) acc' max prot) as [e|c2 a2|f2 ad2 l2 c2 a2]; auto.
        destruct IH as [IH1 IH2]. split; [exact IH1|]. right.
        assert (X : (behind all (addr + rl) < behind all addr)%nat).
        { apply (behind_less _ r); [rewrite E; apply in_or_app; right; now left| |]; unfold rl in *; lia. }
        destruct IH2 as [[_ ->]|IH2]; lia. }
      destruct (Nat.ltb cnt max); [|now apply NEXT].
      destruct (init_sg r (length pre) addr rl prot) as [s|e|c] eqn:Is; [|exact I|exact I]. apply NEXT. apply Forall_app. split; [exact F|].
      constructor; [|constructor]. eapply (init_inside all r _ addr rl); eauto; unfold rl; lia.
    + specialize (IH (pre ++ [r]) found addr len cnt acc E2 F). rewrite L in IH. exact IH.
Qed.

Definition fine (rs : list region) (x : sgl_res) : Prop :=
  match x with SglOk l => Forall (inside rs) l | SglCrash _ => False | _ => True end.

Lemma split_loop_fine max prot rs fuel : forall addr len cnt acc, (behind rs addr < fuel)%nat -> Forall (inside rs) acc ->
  fine rs (split_loop fuel rs addr len cnt acc max prot).
Proof.
  induction fuel as [|fuel IH]; intros addr len cnt acc B F; cbn [split_loop]; [lia|].
  assert (OUT : forall c a, Forall (inside rs) a -> fine rs (split_out c a max)).
  { intros c a Fa. unfold split_out. destruct (Nat.ltb max c); [exact I|exact Fa]. }
  destruct (len =? 0); [now apply OUT|].
  pose proof (split_pass_spec max prot rs rs [] false addr len cnt acc eq_refl F) as P. cbn [length] in P.
  destruct (split_pass rs 0 false addr len cnt acc max prot) as [e|c2 a2|[|] ad2 l2 c2 a2]; [exact I|now apply OUT| |exact I].
  destruct P as [P1 [[P2 _]|P2]]; [discriminate|]. apply IH; [lia|exact P1].
Qed.

Lemma addr_to_sgl_fine d hint addr len max prot x h : addr + len < 2 ^ 64 -> addr_to_sgl d hint addr len max prot = (x, h) -> fine (dm_regions d) x.
Proof.
  intros W H. unfold addr_to_sgl in H.
  assert (SLOW : forall y, (match sg_split d addr len max prot with SglOk [] => (SglOk [], hint) | SglOk (s :: l) => (SglOk (s :: l), sg_region s) | o => (o, hint) end) = (x, y) ->
    fine (dm_regions d) x).
  { intros y Q. unfold sg_split in Q.
    pose proof (split_loop_fine max prot (dm_regions d) (S (length (dm_regions d))) addr len 0 []) as P.
    assert (B : (behind (dm_regions d) addr < S (length (dm_regions d)))%nat).
    { pose proof (behind_len (dm_regions d) addr). lia. }
    specialize (P B (Forall_nil _)).
    destruct (split_loop _ _ _ _ _ _ _ _) as [[|s l]|n|e|c]; injection Q as <- <-; exact P. }
  destruct (nth_error (dm_regions d) hint) as [r|] eqn:Hn; [|eapply SLOW; exact H].
  destruct (Nat.ltb 0 max && (0 <? len) && (rg_base r <=? addr) && (w64 (addr + len) <=? iov_end r)) eqn:C; [|eapply SLOW; exact H].
  assert (E : w64 (addr + len) = addr + len) by (apply w64_small; exact W). rewrite E in C.
  destruct (init_sg r hint addr len prot) as [s|e|c] eqn:Is.
  - injection H as <- <-. constructor; [|constructor]. eapply init_inside; eauto; lia.
  - injection H as <- <-. exact I.
  - unfold init_sg in Is. destruct (has prot PROT_WRITE && negb (has (di_prot (rg_info r)) PROT_WRITE)); discriminate Is.
Qed.

(* ---------- reports *)

Lemma extend_app n : forall bm rest f cs c out o2 bm', extend_bytes n bm f cs c out = Ok (o2, bm') ->
  extend_bytes n (bm ++ rest) f cs c out = Ok (o2, bm' ++ rest).
Proof.
  induction n as [|n IH]; intros bm rest f cs c out o2 bm' H; cbn [extend_bytes] in *; [injection H as <- <-; reflexivity|].
  destruct (cs <=? c / 8); [injection H as <- <-; reflexivity|]. destruct bm as [|b bm]; [discriminate|]. cbn [app].
  destruct (extend_bits 8 0 b f c out) as [[c2 out2]|e|cr]; [|discriminate|discriminate].
  destruct (extend_bytes n bm f cs c2 out2) as [[o3 bm3]|e|cr] eqn:Q; [|discriminate|discriminate]. injection H as <- <-.
  rewrite (IH _ rest _ _ _ _ _ _ Q). reflexivity.
Qed.
Lemma or_byte_ok out k v : k < N.of_nat (length out) -> exists o, or_byte out k v = Ok o /\ length o = length out.
Proof.
  intros L. unfold or_byte. destruct (nth_error out (N.to_nat k)) as [b|] eqn:E; [|apply nth_error_None in E; lia].
  eexists. split; [reflexivity|]. apply set_nth_length.
Qed.
Lemma combine_bits_ok n : forall j byte sb f c out, c / 8 < N.of_nat (length out) ->
  exists oc out', combine_bits n j byte sb f (N.of_nat (length out)) c out = Ok (oc, out') /\ length out' = length out /\
    forall c', oc = Some c' -> c' / 8 < N.of_nat (length out).
Proof.
  induction n as [|n IH]; intros j byte sb f c out L.
  - exists (Some c), out. split; [reflexivity|]. split; [reflexivity|]. intros c' E. injection E as <-. exact L.
  - destruct (or_byte_ok out (c / 8) (N.land (N.shiftr byte j) 1 * 2 ^ (c mod 8)) L) as (o & E & Lo).
    assert (STEP : combine_bits (S n) j byte sb f (N.of_nat (length out)) c out =
      if sb mod f =? sub64 f 1 then
        if N.of_nat (length out) <=? w8 (c + 1) / 8 then Ok (None, o) else combine_bits n (j + 1) byte (sb + 1) f (N.of_nat (length out)) (w8 (c + 1)) o
      else combine_bits n (j + 1) byte (sb + 1) f (N.of_nat (length out)) c o).
    { change (combine_bits (S n) j byte sb f (N.of_nat (length out)) c out) with
        (match or_byte out (c / 8) (N.land (N.shiftr byte j) 1 * 2 ^ (c mod 8)) with
         | Ok out' => if sb mod f =? sub64 f 1 then let cidx' := w8 (c + 1) in if N.of_nat (length out) <=? cidx' / 8 then Ok (None, out')
             else combine_bits n (j + 1) byte (sb + 1) f (N.of_nat (length out)) cidx' out' else combine_bits n (j + 1) byte (sb + 1) f (N.of_nat (length out)) c out'
         | Err e => Err e | Crash c => Crash c end).
      rewrite E. reflexivity. }
    rewrite STEP. clear STEP. rewrite <- Lo in L |- *.
    destruct (sb mod f =? sub64 f 1); [destruct (N.leb_spec (N.of_nat (length o)) (w8 (c + 1) / 8)) as [Q|Q]|].
    + exists None, o. split; [reflexivity|]. split; [reflexivity|]. discriminate.
    + exact (IH _ _ _ _ _ _ Q).
    + exact (IH _ _ _ _ _ _ L).
Qed.
Lemma combine_ok n : forall bm sb f c out, (n <= length bm)%nat -> exists x, combine_bytes n bm sb f (N.of_nat (length out)) c out = Ok x.
Proof.
  induction n as [|n IH]; intros bm sb f c out L; cbn [combine_bytes]; [eauto|].
  destruct (N.leb_spec (N.of_nat (length out)) (c / 8)) as [Q|Q]; [eauto|]. destruct bm as [|b bm]; [cbn in L; lia|]. cbn [length] in L.
  destruct (combine_bits_ok 8 0 b sb f c out Q) as (oc & o & -> & Lo & H). destruct oc as [c'|]; [|eauto].
  rewrite <- Lo. destruct (IH bm (sb + 8) f c' o ltac:(lia)) as [[o2 r] ->]. eauto.
Qed.
Lemma get_same_ok n : forall bm, (n <= length bm)%nat -> exists x, get_same n bm = Ok x.
Proof.
  induction n as [|n IH]; intros bm L; cbn [get_same]; [eauto|]. destruct bm as [|b bm]; [cbn in L; lia|]. cbn [length] in L.
  destruct (IH bm ltac:(lia)) as [[o r] ->]. eauto.
Qed.

Lemma bitmap_size_mono a b pg n m : a <= b -> b < 2 ^ 64 - 64 -> get_bitmap_size a pg = Ok n -> get_bitmap_size b pg = Ok m -> n <= m.
Proof.
  intros L B Hn Hm. pose proof (bitmap_size_exact a pg n ltac:(lia) Hn) as (p & P1 & P2 & P3 & P4).
  pose proof (bitmap_size_exact b pg m B Hm) as (q & Q1 & Q2 & Q3 & Q4).
  assert (p <= q) by nia.
  apply N.mod_divide in P2; [|discriminate]. apply N.mod_divide in Q2; [|discriminate]. destruct P2 as [x ->], Q2 as [y ->]. lia.
Qed.

Lemma report_bitmap_ok spg cpg len rlen ssize csize bm buf : spg <> 0 -> cpg <> 0 -> len <= rlen -> rlen < 2 ^ 64 - 64 ->
  get_bitmap_size rlen spg = Ok (N.of_nat (length bm)) -> get_bitmap_size len spg = Ok ssize -> get_bitmap_size len cpg = Ok csize ->
  N.of_nat (length buf) = csize -> spg < two64 -> cpg < two64 ->
  (cpg < spg -> forall n, bitmap_bytes len cpg n -> n <= 31 /\ n mod (spg / cpg) = 0) ->
  exists x, report_bitmap spg cpg ssize csize bm buf = Ok x.
Proof.
  intros Sz Cz L B Gr Gs Gc Lb S64 C64 FI. unfold report_bitmap.
  pose proof (bitmap_size_mono _ _ _ _ _ L B Gs Gr) as SB.
  assert (SPLIT : bm = firstn (N.to_nat ssize) bm ++ skipn (N.to_nat ssize) bm) by (symmetry; apply firstn_skipn).
  assert (LF : length (firstn (N.to_nat ssize) bm) = N.to_nat ssize) by (apply firstn_length_le; lia).
  destruct (cpg =? spg) eqn:E.
  { apply N.eqb_eq in E. subst cpg. rewrite Gs in Gc. injection Gc as <-. destruct (get_same_ok (N.to_nat ssize) bm ltac:(lia)) as [[o r] ->]. eauto. }
  destruct (cpg <? spg) eqn:Lt.
  - destruct (FI ltac:(lia) csize) as [F31 Fm]; [apply bitmap_size_exact; [lia|exact Gc]|].
    assert (0 < spg / cpg) by (apply N.div_str_pos; lia).
    destruct (extend_bytes_spec (N.to_nat ssize) (firstn (N.to_nat ssize) bm) (spg / cpg) (csize / (spg / cpg)) 0 buf) as (o & m & Q & _);
      [assumption|rewrite Lb; symmetry; apply N.div_exact; [lia|exact Fm]|lia|lia|apply N.mod_0_l; lia|lia|].
    rewrite Lb in Q. rewrite SPLIT. rewrite (extend_app _ _ _ _ _ _ _ _ _ Q). eauto.
  - rewrite <- Lb. apply combine_ok. lia.
Qed.

Lemma dirty_page_get_safe d hint addr len cpg size buf : inv d -> dm_max_size d <= 8 * 2 ^ 40 -> cpg < two64 -> N.of_nat (length buf) = size ->
  report_ok (dm_pgsize d) addr len cpg -> forall cr d' h, dirty_page_get d hint addr len cpg size buf <> (Crash cr, d', h).
Proof.
  intros I M C64 Lb (W & FI) cr d' h H. unfold dirty_page_get in H.
  destruct (addr_to_sgl d hint addr len 1 0) as [x hint'] eqn:A. pose proof (addr_to_sgl_fine _ _ _ _ _ _ _ _ W A) as F.
  destruct x as [[|s l]|n|e|c]; [discriminate| |discriminate|discriminate|destruct F].
  destruct (negb (sg_base s =? addr) || negb (sg_len s =? len)) eqn:Es; [discriminate|].
  destruct (dm_pgsize d =? 0) eqn:P0; [discriminate|]. destruct ((cpg =? 0) || negb (pow2_or_zero cpg)) eqn:C0; [discriminate|].
  inversion F as [|s0 l0 (r & Hn & Sb & Sl) _]; subst s0 l0.
  destruct (get_bitmap_size len (dm_pgsize d)) as [ssize|e|c] eqn:Gs; [| |unfold get_bitmap_size in Gs; destruct (dm_pgsize d =? 0); [discriminate|]; destruct (len <? dm_pgsize d); discriminate].
  2: { destruct (get_bitmap_size len cpg); discriminate. }
  destruct (get_bitmap_size len cpg) as [csize|e|c] eqn:Gc; [|discriminate|unfold get_bitmap_size in Gc; destruct (cpg =? 0); [discriminate|]; destruct (len <? cpg); discriminate].
  destruct (negb (size =? csize)) eqn:Ez; [discriminate|]. rewrite Hn in H. destruct (rg_fd r =? -1)%Z eqn:Ef; [discriminate|].
  assert (IR : In r (dm_regions d)) by (eapply nth_error_In; eauto).
  pose proof (proj1 (Forall_forall _ _) (inv_bm _ I) r IR) as BM. pose proof (proj1 (Forall_forall _ _) (inv_size _ I) r IR) as SZ. cbn beta in SZ.
  unfold bm_ok in BM. destruct (rg_bitmap r) as [bm|]; [|lia].
  destruct BM as (Pn & _ & sz & Gr & Lm & _).
  assert (SPG : dm_pgsize d <= rg_len r).
  { unfold get_bitmap_size in Gr. destruct (dm_pgsize d =? 0); [discriminate|]. destruct (rg_len r <? dm_pgsize d) eqn:X; [discriminate|lia]. }
  assert (sz = N.of_nat (length bm)) by lia. subst sz.
  destruct (report_bitmap_ok (dm_pgsize d) cpg len (rg_len r) ssize csize bm buf) as [[o b'] Q]; auto; try lia.
  { change two64 with (2 ^ 64). lia. }
  rewrite Q in H. discriminate.
Qed.

(* The limits of the controller do not change. *)
Lemma run_max cb ops : forall d d' ev, dma_run cb d ops = (d', ev) -> dm_max_size d' = dm_max_size d.
Proof. intros d d' ev H. apply DmaMap.run_limits in H. unfold DmaMap.limits in H. congruence. Qed.

(* ---------- configuration space *)

Lemma cfg_copy_ok cfg off n : 0 < n -> off + n <= N.of_nat (length cfg) -> exists s, cfg_copy cfg off n = Ok s.
Proof.
  intros P L. unfold cfg_copy. replace (N.of_nat (length cfg) <=? off) with false by lia.
  destruct (slice_some cfg (N.to_nat off) (N.to_nat n) ltac:(lia)) as [s ->]. eauto.
Qed.

Lemma nonstd_read_ok e p off n ans : (forall n m d, ans off n = AccOk m d -> m = n) -> 0 < n -> off + n <= N.of_nat (length (pc_cfg p)) ->
  match fst (nonstd_read e p off n ans) with Ok (m, _) => m = n | Err _ => True | Crash _ => False end.
Proof.
  intros F P L. unfold nonstd_read. destruct (pe_cfg_cb e).
  - cbn [fst]. destruct (ans off n) as [m d|er] eqn:A; [|exact I]. apply F in A. subst m. replace (n <? n) with false by lia.
    replace (n =? 0) with false by lia. reflexivity.
  - destruct (cfg_copy_ok (pc_cfg p) off n P L) as [s ->]. reflexivity.
Qed.

Lemma read_segment_ok e p count off ans : caps_ok p -> (forall n m d, ans off n = AccOk m d -> m = n) -> 0 < count ->
  off + count <= N.of_nat (length (pc_cfg p)) ->
  match read_segment e p count off ans with
  | Some (Ok (n, _), _) => 0 < n <= count
  | Some (Crash _, _) => False
  | _ => True
  end.
Proof.
  intros K F P L. unfold read_segment.
  pose proof (next_segment_cases p count off false P) as NS.
  assert (COPY : forall n, 0 < n <= count ->
     match (match cfg_copy (pc_cfg p) off n with Ok s => Ok (n, s) | Err er => Err er | Crash c => Crash c end) with Ok (m, _) => 0 < m <= count | Err _ => True | Crash _ => False end).
  { intros n Hn. destruct (cfg_copy_ok (pc_cfg p) off n ltac:(lia) ltac:(lia)) as [s ->]. exact Hn. }
  assert (NON : forall n, 0 < n <= count -> match nonstd_read e p off n ans with (Ok (m, _), _) => 0 < m <= count | (Crash _, _) => False | _ => True end).
  { intros n Hn. pose proof (nonstd_read_ok e p off n ans F ltac:(lia) ltac:(lia)) as Q.
    destruct (nonstd_read e p off n ans) as [[[m s]|er|c] ev]; cbn [fst] in Q; [subst m; exact Hn|exact I|exact Q]. }
  assert (SZ : match next_segment p count off false with SegHeader n => 0 < n <= count | SegBad => True | SegOther n => 0 < n <= count | SegCap c n => 0 < n <= count end).
  { clear NS. unfold next_segment, PCI_STD_HEADER_SIZEOF. destruct (off <? 64) eqn:E; [lia|].
    destruct (cap_find_by_offset p off count) as [c|] eqn:Fc; [|lia]. pose proof (find_intersects _ _ _ _ Fc) as [A B].
    assert (In c (all_caps p)). { rewrite cap_find_all in Fc. apply find_some in Fc. apply Fc. }
    pose proof (wf_size c (co_wf _ K c H)). destruct (off <? cp_off c) eqn:Eo; lia. }
  destruct (next_segment p count off false) as [n| |n|c n].
  - pose proof (COPY n SZ) as Q. destruct (match cfg_copy (pc_cfg p) off n with Ok s => Ok (n, s) | Err er => Err er | Crash c => Crash c end) as [[m s]|er|c]; exact Q.
  - exact I.
  - apply NON, SZ.
  - destruct (has (cp_flags c) CAP_FLAG_CALLBACK); [apply NON, SZ|].
    pose proof (COPY n SZ) as Q. destruct (match cfg_copy (pc_cfg p) off n with Ok s => Ok (n, s) | Err er => Err er | Crash c => Crash c end) as [[m s]|er|c']; exact Q.
Qed.

Lemma cfg_read_safe fuel : forall e p answers k count off done, caps_ok p -> full_callbacks answers -> (N.to_nat count <= fuel)%nat ->
  off + count <= N.of_nat (length (pc_cfg p)) -> forall cr, fst (fst (cfg_read fuel e p answers k count off done)) <> Crash cr.
Proof.
  induction fuel as [|fuel IH]; intros e p answers k count off done K F Lf L cr; cbn [cfg_read].
  - replace (count =? 0) with true by lia. discriminate.
  - destruct (count =? 0) eqn:Z; [discriminate|].
    pose proof (read_segment_ok e p count off (answers k) K (fun n m d => F k off n m d) ltac:(lia) L) as S.
    destruct (read_segment e p count off (answers k)) as [[[[n s]|er|c] ev]|]; [|discriminate|destruct S|discriminate].
    pose proof (IH e p answers (k + length ev)%nat (count - n) (off + n) (done + n) K F ltac:(lia) ltac:(lia) cr) as Q.
    destruct (cfg_read fuel e p answers (k + length ev)%nat (count - n) (off + n) (done + n)) as [[o s'] ev']. exact Q.
Qed.

Definition whole (off n : N) : Prop := forall reg size, In (reg, size) header_registers -> off <= reg < off + n -> reg + size <= off + n.

Lemma hdr_write_safe e cfg off buf : (64 <= length cfg)%nat -> off < 64 -> buf <> [] -> whole off (N.of_nat (length buf)) ->
  forall cr, fst (hdr_write e cfg off buf) <> Crash cr.
Proof.
  intros L O NE W cr. assert (L0 : (0 < length buf)%nat) by (destruct buf; [congruence|cbn; lia]).
  assert (ST : forall n v, (N.to_nat off + n <= length cfg)%nat -> fst (match wr cfg (N.to_nat off) n v with Some c => (Ok tt, c) | None => (Crash OutOfBounds, cfg) end) <> Crash cr).
  { intros n v H. destruct (wr_some cfg (N.to_nat off) n v H) as [c ->]. discriminate. }
  assert (REG : forall reg size, In (reg, size) header_registers -> off = reg -> size <= N.of_nat (length buf)).
  { intros reg size H E. specialize (W reg size H ltac:(lia)). lia. }
  unfold hdr_write. destruct (off =? 4) eqn:E4.
  { specialize (REG 4 2 ltac:(now left) ltac:(lia)). destruct (rd_some buf 0 2 ltac:(lia)) as [v ->]. destruct (rd_some cfg 4 2 ltac:(lia)) as [o ->]. cbn [need].
    destruct (command_write o v) as [new good]. destruct (wr_some cfg 4 2 new ltac:(lia)) as [c ->]. destruct good; discriminate. }
  destruct ((off =? 6) || (off =? 8) || (off =? 9) || (off =? 61) || (off =? 62) || (off =? 63)); [discriminate|].
  destruct ((off =? 60) || (off =? 12) || (off =? 13)) eqn:E1.
  { destruct (rd_some buf 0 1 ltac:(lia)) as [v ->]. cbn [need]. apply ST. lia. }
  destruct ((off =? 16) || (off =? 20) || (off =? 24) || (off =? 28) || (off =? 32) || (off =? 36)) eqn:EB.
  { destruct (nth (N.to_nat ((off - 16) / 4)) (pe_bar_size e) 0 =? 0); [discriminate|].
    assert (B4 : 4 <= N.of_nat (length buf)).
    { apply (REG off 4); [|reflexivity]. unfold header_registers. cbn [In].
      assert (D : off = 16 \/ off = 20 \/ off = 24 \/ off = 28 \/ off = 32 \/ off = 36) by lia.
      destruct D as [->|[->|[->|[->|[->| ->]]]]]; tauto. }
    destruct (rd_some buf 0 4 ltac:(lia)) as [v ->]. destruct (rd_some cfg (N.to_nat off) 4 ltac:(lia)) as [o ->]. cbn [need]. apply ST. lia. }
  destruct (off =? 48) eqn:E48; [|discriminate].
  assert (B4 : 4 <= N.of_nat (length buf)) by (apply (REG 48 4); [unfold header_registers; cbn [In]; tauto|lia]).
  destruct (rd_some buf 0 4 ltac:(lia)) as [v ->]. cbn [need]. destruct (erom_write v) as [[|]|]; [apply ST; lia|discriminate|discriminate].
Qed.

Lemma nonstd_write_safe e off data ans : data <> [] -> (forall n m d, ans off n = AccOk m d -> m = n) ->
  forall cr, fst (nonstd_write e off data ans) <> Crash cr.
Proof.
  intros NE F cr. unfold nonstd_write. destruct (pe_cfg_cb e); [|discriminate]. cbn [fst].
  destruct (ans off (N.of_nat (length data))) as [m d|er] eqn:A; [|discriminate]. apply F in A. subst m.
  replace (N.of_nat (length data) <? N.of_nat (length data)) with false by lia.
  destruct data; [congruence|]. cbn [length]. destruct (N.of_nat (S (length data)) =? 0) eqn:Z; [lia|discriminate].
Qed.

Lemma write_segment_safe e p off buf ans rans : caps_ok p -> bytes buf -> buf <> [] ->
  (forall n m d, ans off n = AccOk m d -> m = n) ->
  (forall c, In c (all_caps p) -> ~ runs_past c off (N.of_nat (length buf))) -> whole off (N.of_nat (length buf)) ->
  forall cr cfg' ev, write_segment e p off buf ans rans <> Some (Crash cr, cfg', ev).
Proof.
  intros K Bb NE FC NR W cr cfg' ev. unfold write_segment.
  assert (L0 : 0 < N.of_nat (length buf)) by (destruct buf; [congruence|cbn [length]; lia]).
  assert (SZ : match next_segment p (N.of_nat (length buf)) off true with
    | SegHeader n => off < 64 | SegBad => True | SegOther n => 0 < n <= N.of_nat (length buf)
    | SegCap c n => In c (all_caps p) /\ 0 < n <= N.of_nat (length buf) /\ cp_off c <= off /\ off + n <= cap_end c end).
  { unfold next_segment, PCI_STD_HEADER_SIZEOF. destruct (off <? 64) eqn:E; [destruct (reg_size off =? 0); [exact I|lia]|].
    destruct (cap_find_by_offset p off (N.of_nat (length buf))) as [c|] eqn:Fc; [|lia]. pose proof (find_intersects _ _ _ _ Fc) as [A B].
    assert (H : In c (all_caps p)). { rewrite cap_find_all in Fc. apply find_some in Fc. apply Fc. }
    pose proof (wf_size c (co_wf _ K c H)). destruct (off <? cp_off c) eqn:Eo; [lia|]. split; [exact H|]. split; [lia|]. split; [lia|].
    specialize (NR c H). unfold runs_past, cap_end in *. lia. }
  assert (NON : forall n, 0 < n <= N.of_nat (length buf) -> forall o1 ev1, nonstd_write e off (firstn (N.to_nat n) buf) ans = (o1, ev1) -> Some (o1, pc_cfg p, ev1) <> Some (Crash cr, cfg', ev)).
  { intros n Hn o1 ev1 Q H. injection H as -> _ _.
    assert (NE1 : firstn (N.to_nat n) buf <> []). { intros E. apply (f_equal (@length N)) in E. rewrite firstn_length_le in E by lia. cbn in E. lia. }
    apply (nonstd_write_safe e off _ ans NE1 FC cr). rewrite Q. reflexivity. }
  destruct (next_segment p (N.of_nat (length buf)) off true) as [n| |n|c n].
  - pose proof (hdr_write_safe e (pc_cfg p) off buf (co_size _ K) SZ NE W cr) as H.
    destruct (hdr_write e (pc_cfg p) off buf) as [[u|er|c] cfg1]; [discriminate|discriminate|]. intros Q. injection Q as -> _ _. now apply H.
  - discriminate.
  - destruct (nonstd_write e off (firstn (N.to_nat n) buf) ans) as [o1 ev1] eqn:Q. now apply (NON n).
  - destruct SZ as (IC & Hn & Lo & Hi). destruct (has (cp_flags c) CAP_FLAG_READONLY); [discriminate|].
    destruct (has (cp_flags c) CAP_FLAG_CALLBACK).
    { destruct (nonstd_write e off (firstn (N.to_nat n) buf) ans) as [o1 ev1] eqn:Q. now apply (NON n). }
    destruct (off - cp_off c <? cp_hdr_size c) eqn:EH; [discriminate|].
    assert (LF : length (firstn (N.to_nat n) buf) = N.to_nat n) by (apply firstn_length_le; lia).
    assert (HA : cp_off c + cp_hdr_size c <= off) by lia.
    assert (HB : off + N.of_nat (length (firstn (N.to_nat n) buf)) <= cap_end c) by (rewrite LF; lia).
    destruct (cap_write e (pc_cfg p) c off (firstn (N.to_nat n) buf) rans) as [[o1 cfg1] ev1] eqn:CW.
    destruct (cap_write_exact _ _ _ _ _ _ _ _ _ (co_wf _ K c IC) (co_bytes _ K) (bytes_firstn _ _ Bb) (co_high _ K c IC) HA HB CW) as (NC & _).
    destruct o1 as [u|er|c1]; [discriminate|discriminate|]. now destruct (NC c1).
Qed.

Lemma cfg_write_safe fuel : forall e p answers rans k off buf done, caps_ok p -> bytes buf -> full_callbacks answers -> (length buf <= fuel)%nat ->
  (forall c, In c (all_caps p) -> ~ runs_past c off (N.of_nat (length buf))) -> whole off (N.of_nat (length buf)) ->
  forall cr, fst (fst (cfg_write fuel e p answers rans k off buf done)) <> Crash cr.
Proof.
  induction fuel as [|fuel IH]; intros e p answers rans k off buf done K Bb FC Lf NR W cr; cbn [cfg_write].
  - destruct buf; [discriminate|cbn in Lf; lia].
  - destruct buf as [|y buf0]; [discriminate|]. set (buf := y :: buf0) in *. assert (NE : buf <> []) by discriminate.
    assert (L0 : 0 < N.of_nat (length buf)) by (unfold buf; cbn [length]; lia). clearbody buf.
    pose proof (write_step e p off buf (answers k) (rans k) K Bb NE (fun n m d => FC k off n m d) NR) as S.
    pose proof (write_segment_safe e p off buf (answers k) (rans k) K Bb NE (fun n m d => FC k off n m d) NR W) as NC.
    destruct (write_segment e p off buf (answers k) (rans k)) as [[[[n|er|c] c1] ev1]|]; [|discriminate|now destruct (NC c c1 ev1)|discriminate].
    destruct S as [BS SO]. destruct (SO n eq_refl) as (Hn & _ & NR').
    assert (K1 : caps_ok (set_cfg p c1)) by (apply caps_ok_cfg; [exact K|apply BS|apply BS; apply (co_bytes _ K)]).
    assert (LS : N.of_nat (length (skipn (N.to_nat n) buf)) = N.of_nat (length buf) - n) by (rewrite skipn_length; lia).
    pose proof (IH e (set_cfg p c1) answers rans (k + length ev1)%nat (off + n) (skipn (N.to_nat n) buf) (done + n) K1 (bytes_skipn _ _ Bb) FC ltac:(lia)) as Q.
    assert (NR2 : forall c, In c (all_caps (set_cfg p c1)) -> ~ runs_past c (off + n) (N.of_nat (length (skipn (N.to_nat n) buf)))).
    { change (all_caps (set_cfg p c1)) with (all_caps p). rewrite LS. destruct (N.eq_dec n (N.of_nat (length buf))); [intros c I; unfold runs_past; lia|apply NR'; lia]. }
    assert (W2 : whole (off + n) (N.of_nat (length (skipn (N.to_nat n) buf)))).
    { intros reg size I R. rewrite LS in *. specialize (W reg size I ltac:(lia)). lia. }
    specialize (Q NR2 W2 cr). destruct (cfg_write fuel e (set_cfg p c1) answers rans (k + length ev1)%nat (off + n) (skipn (N.to_nat n) buf) (done + n)) as [[o2 p2] ev2]. exact Q.
Qed.
