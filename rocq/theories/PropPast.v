(* C66, C43, C44: what becomes of an access that starts inside a capability and runs past its end. *)
From Coq Require Import NArith ZArith List Bool Lia ZifyBool ZifyNat ZifyN.
From Verif Require Import Base Types Bytes BytesProofs BufProofs Dma Dirty Migr Irq Pci SpecPci SpecCfg PciProofs PciWrite PciCapWrite PciLoop CfgPieces
  PropPci Handlers SpecHandlers HandlersProofs PropHandlers PropCfg.
Import ListNotations.
Open Scope N_scope.
Ltac Zify.zify_post_hook ::= idtac.

Definition sized (p : pci) : Prop := forall c, In c (all_caps p) -> 0 < cp_size c.
Lemma ok_sized p : caps_ok p -> sized p.
Proof. intros K c I. exact (proj1 (wf_size c (co_wf _ K c I))). Qed.

Lemma found p off n c : cap_find_by_offset p off n = Some c -> In c (all_caps p) /\ off < cap_end c /\ cp_off c <= off + n.
Proof. rewrite cap_find_all. intros F. apply find_some in F. destruct F as (I & E). apply intersect_spec in E. tauto. Qed.

(* Every piece has at least one byte and is part of the access. *)
Lemma segment_some p count off w : sized p -> 0 < count ->
  match next_segment p count off w with SegBad => True | SegHeader n | SegOther n | SegCap _ n => 0 < n <= count end.
Proof.
  intros Z C. unfold next_segment, PCI_STD_HEADER_SIZEOF. destruct (off <? 64) eqn:E.
  - destruct w; [destruct (reg_size off =? 0) eqn:R; [exact I|lia]|lia].
  - destruct (cap_find_by_offset p off count) as [c|] eqn:F; [|lia]. destruct (found _ _ _ _ F) as (Ic & A & B). specialize (Z c Ic).
    destruct (off <? cp_off c) eqn:E2; lia.
Qed.

Lemma read_progress e p count off a n s ev : sized p -> 0 < count -> read_segment e p count off a = Some (Ok (n, s), ev) -> 0 < n <= count.
Proof.
  intros Z C. unfold read_segment. pose proof (segment_some p count off false Z C) as S.
  destruct (next_segment p count off false) as [m| |m|c m]; [|discriminate| |].
  - destruct (cfg_copy _ _ _); [|discriminate|discriminate]. intros Q. injection Q as <- _ _. exact S.
  - intros Q. injection Q as Q. destruct (nonstd_read_le e p off m a n s ev); [lia|exact Q|lia].
  - destruct (has _ _).
    + intros Q. injection Q as Q. destruct (nonstd_read_le e p off m a n s ev); [lia|exact Q|lia].
    + destruct (cfg_copy _ _ _); [|discriminate|discriminate]. intros Q. injection Q as <- _ _. exact S.
Qed.
Lemma any_read_fuel : forall f1 f2 e p answers k n off done, sized p -> (N.to_nat n <= f1)%nat -> (N.to_nat n <= f2)%nat ->
  cfg_read f1 e p answers k n off done = cfg_read f2 e p answers k n off done.
Proof.
  induction f1 as [|f1 IH]; intros f2 e p answers k n off done Z L1 L2.
  - replace n with 0 by lia. destruct f2; reflexivity.
  - destruct (N.eqb_spec n 0) as [->|NZ]; [destruct f2; reflexivity|]. destruct f2 as [|f2]; [lia|]. cbn [cfg_read].
    replace (n =? 0) with false by lia. cbn [cfg_read]. destruct (read_segment e p n off (answers k)) as [[[[m s]|er|cr] ev]|] eqn:R; [|reflexivity|reflexivity|reflexivity].
    assert (N0 : 0 < n) by lia. pose proof (read_progress _ _ _ _ _ _ _ _ Z N0 R) as M. rewrite (IH f2 e p answers _ (n - m) (off + m) (done + m) Z) by lia. reflexivity.
Qed.

Lemma write_progress e p off d a r n cfg' ev : sized p -> d <> [] -> write_segment e p off d a r = Some (Ok n, cfg', ev) -> 0 < n <= N.of_nat (length d).
Proof.
  intros Z ND W. split; [|exact (write_le _ _ _ _ _ _ _ _ _ W)]. revert W.
  assert (L : 0 < N.of_nat (length d)) by (destruct d; [congruence|cbn [length]; lia]).
  unfold write_segment. pose proof (segment_some p (N.of_nat (length d)) off true Z L) as S.
  destruct (next_segment p (N.of_nat (length d)) off true) as [m| |m|c m]; [|discriminate| |].
  - destruct (hdr_write _ _ _ _) as [[u|er|cr] c']; [|discriminate|discriminate]. intros Q. injection Q as <- _ _. lia.
  - destruct (nonstd_write _ _ _ _) as [o ev'] eqn:NW. intros Q. injection Q as -> _ _. apply nonstd_write_le in NW. lia.
  - destruct (has _ _); [discriminate|]. destruct (has _ _).
    + destruct (nonstd_write _ _ _ _) as [o ev'] eqn:NW. intros Q. injection Q as -> _ _. apply nonstd_write_le in NW. lia.
    + destruct (_ <? _); [discriminate|]. destruct (cap_write _ _ _ _ _ _) as [[[u|er|cr] c'] ev']; [|discriminate|discriminate].
      intros Q. injection Q as <- _ _. lia.
Qed.
Lemma any_write_fuel : forall f1 f2 e p answers rans k d off done, sized p -> (length d <= f1)%nat -> (length d <= f2)%nat ->
  cfg_write f1 e p answers rans k off d done = cfg_write f2 e p answers rans k off d done.
Proof.
  induction f1 as [|f1 IH]; intros f2 e p answers rans k d off done Z L1 L2.
  - destruct d; [|cbn [length] in L1; lia]. destruct f2; reflexivity.
  - destruct d as [|y d']; [destruct f2; reflexivity|]. destruct f2 as [|f2]; [cbn [length] in L2; lia|]. cbn [cfg_write]. set (d := y :: d') in *.
    destruct (write_segment e p off d (answers k) (rans k)) as [[[[n|er|cr] cfg'] ev]|] eqn:W; [|reflexivity|reflexivity|reflexivity].
    assert (ND : d <> []) by discriminate. pose proof (write_progress _ _ _ _ _ _ _ _ _ Z ND W) as M.
    rewrite (IH f2 e (set_cfg p cfg') answers rans _ (skipn (N.to_nat n) d) (off + n) (done + n)); [reflexivity|exact Z| |]; rewrite skipn_length; lia.
Qed.

(* One piece, then the rest. *)
Lemma first_read e p answers off n k s ev : sized p -> 0 < n -> read_segment e p n off (answers 0%nat) = Some (Ok (k, s), ev) ->
  config_read e p answers off n = then_read e p answers off k (n - k) (Ok k, s, ev).
Proof.
  intros Z N0 R. pose proof (read_progress _ _ _ _ _ _ _ _ Z N0 R) as M. unfold config_read at 1, then_read.
  destruct (N.to_nat n) as [|f] eqn:F; [lia|]. cbn [cfg_read]. replace (n =? 0) with false by lia. rewrite R.
  rewrite (any_read_fuel f (N.to_nat (n - k)) e p answers _ (n - k) (off + k) (0 + k) Z) by lia.
  rewrite read_shift. unfold config_read. cbn [Nat.add]. rewrite N.add_0_l.
  destruct (cfg_read (N.to_nat (n - k)) _ _ _ _ _ _ _) as [[o s'] ev']. destruct o; reflexivity.
Qed.
Lemma first_write e p answers rans off data k cfg' ev : sized p -> data <> [] ->
  write_segment e p off data (answers 0%nat) (rans 0%nat) = Some (Ok k, cfg', ev) ->
  config_write e p answers rans off data =
    then_write e answers rans off (firstn (N.to_nat k) data) (skipn (N.to_nat k) data) (Ok k, set_cfg p cfg', ev).
Proof.
  intros Z ND W. pose proof (write_progress _ _ _ _ _ _ _ _ _ Z ND W) as M. unfold config_write at 1, then_write.
  destruct data as [|y data']; [congruence|]. change (cfg_write (length (y :: data'))) with (cfg_write (S (length data'))). cbn [cfg_write].
  set (data := y :: data') in *. assert (LD : length data = S (length data')) by reflexivity. rewrite W.
  assert (LF : N.of_nat (length (firstn (N.to_nat k) data)) = k) by (rewrite firstn_length; lia). rewrite LF, N.eqb_refl.
  assert (LS : length (skipn (N.to_nat k) data) = (length data - N.to_nat k)%nat) by apply skipn_length.
  rewrite (any_write_fuel (length data') (length (skipn (N.to_nat k) data)) e (set_cfg p cfg') answers rans _ (skipn (N.to_nat k) data) (off + k) (0 + k) Z) by lia.
  rewrite write_shift. unfold config_write. cbn [Nat.add]. rewrite N.add_0_l.
  destruct (cfg_write (length (skipn (N.to_nat k) data)) _ _ _ _ _ _ _ _) as [[o p'] ev']. destruct o; reflexivity.
Qed.

Lemma started_segment p c off n w : caps_ok p -> In c (all_caps p) -> cp_off c <= off < cap_end c ->
  next_segment p n off w = SegCap c (N.min n (cp_size c)).
Proof.
  intros K I A. pose proof (co_low _ K c I) as LOW. unfold next_segment, PCI_STD_HEADER_SIZEOF. replace (off <? 64) with false by lia.
  rewrite (find_cap_at p c off n K I) by exact A. replace (off <? cp_off c) with false by lia. reflexivity.
Qed.

(* A read that starts at any byte of a capability: the library takes the next k bytes for that capability, where k is the length
   of the whole capability and not of what is left of it (or the length of the access, if that is shorter).  If the capability is the
   device's, the callback is asked for all of the k bytes, also for those past the end; if not, all of them come from the library's
   config space, also those that belong to the device.  Then the rest is read. *)
Theorem C66_past_read : forall e p answers c off n,
  caps_ok p -> full_callbacks answers -> 0 < n -> off + n <= N.of_nat (length (pc_cfg p)) ->
  In c (all_caps p) -> cp_off c <= off < cap_end c ->
  let k := N.min n (cp_size c) in
  let from_library := (Ok k, firstn (N.to_nat k) (skipn (N.to_nat off) (pc_cfg p)), []) in
  (by_callback c -> config_read e p answers off n = then_read e p answers off k (n - k) (if pe_cfg_cb e then device_read answers off k else from_library)) /\
  (~ by_callback c -> config_read e p answers off n = then_read e p answers off k (n - k) from_library).
Proof.
  intros e p answers c off n K FC N0 HL I A k from_library. pose proof (ok_sized p K) as Z. pose proof (Z c I) as Zc.
  assert (HK : 0 < k <= n) by (unfold k; lia).
  assert (RS : read_segment e p n off (answers 0%nat) =
    if N.testbit (cp_flags c) 1 then Some (nonstd_read e p off k (answers 0%nat)) else
      Some (match cfg_copy (pc_cfg p) off k with Ok s => Ok (k, s) | Err er => Err er | Crash cr => Crash cr end, [])).
  { unfold read_segment. rewrite (started_segment p c off n false K I A). now rewrite has_callback. }
  assert (CC : cfg_copy (pc_cfg p) off k = Ok (firstn (N.to_nat k) (skipn (N.to_nat off) (pc_cfg p)))).
  { unfold cfg_copy. replace (N.of_nat (length (pc_cfg p)) <=? off) with false by lia. unfold slice.
    replace (N.to_nat off + N.to_nat k <=? length (pc_cfg p))%nat with true by lia. reflexivity. }
  split; intros CB.
  - rewrite CB in RS. pose proof (nonstd_read_is e p answers off k ltac:(lia) FC ltac:(lia)) as Q.
    destruct (nonstd_read e p off k (answers 0%nat)) as [o ev] eqn:NR. destruct Q as (Q & M). unfold from_library. rewrite <- Q.
    destruct o as [[m s]|er|cr].
    + rewrite (M m s eq_refl) in *. now apply first_read.
    + unfold config_read, then_read. destruct (N.to_nat n) as [|f] eqn:F; [lia|]. cbn [cfg_read]. replace (n =? 0) with false by lia. now rewrite RS.
    + unfold config_read, then_read. destruct (N.to_nat n) as [|f] eqn:F; [lia|]. cbn [cfg_read]. replace (n =? 0) with false by lia. now rewrite RS.
  - destruct (N.testbit (cp_flags c) 1) eqn:E; [exfalso; apply CB; exact E|]. rewrite CC in RS. now apply first_read.
Qed.
Print Assumptions C66_past_read.
(* Sixteen bytes from near the end of the PCI Express capability: the eight bytes of the device's capability at 0xb0 come from the
   library.  Sixteen bytes from the middle of the device's capability: the callback is asked for eight, four of them past its end. *)
Example C66_past_read_case :
  In ex_px (all_caps ex_pci) /\ ~ by_callback ex_px /\ by_callback ex_dev /\ caps_ok ex_pci /\ full_callbacks ex_ans /\
  config_read ex_env ex_pci ex_ans 0xa8 16 = (Ok 16, zeros 8 ++ [9; 0; 8; 7; 7; 7; 7; 7], []) /\
  config_read ex_env ex_pci ex_ans 0xb4 16 = (Ok 16, repeat 0xee 16, [EvAccess 7 false 0xb4 8 []; EvAccess 7 false 0xbc 8 []]).
Proof.
  split; [cbn; tauto|]. split; [discriminate|]. split; [reflexivity|]. split; [exact ex_caps_ok|]. split; [exact ex_full|]. split; vm_compute; reflexivity.
Qed.

(* A write that starts in a capability, in a place the client may write, and goes past the end with its first piece (k bytes, as for reads):
   - a capability of the device: the callback gets all k bytes, then the rest is written;
   - power management and PCI Express: EINVAL, nothing changes;
   - device serial number: EPERM, nothing changes;
   - MSI and MSI-X: the library writes past the end of a copy on its stack;
   - vendor specific: the k bytes are stored, whatever lies behind the capability (protected or not, the device's or not), then the
     rest is written; but if config space ends before, memory past its end is written. *)
Theorem C66_past_write : forall e p answers rans c off data,
  caps_ok p -> full_callbacks answers -> data <> [] ->
  In c (all_caps p) -> cp_off c <= off < cap_end c -> ~ read_only c ->
  let k := N.min (N.of_nat (length data)) (cp_size c) in
  let d1 := firstn (N.to_nat k) data in let d2 := skipn (N.to_nat k) data in
  (by_callback c -> config_write e p answers rans off data =
     then_write e answers rans off d1 d2 (if pe_cfg_cb e then device_write p answers off d1 else (Err EINVAL, p, []))) /\
  (~ by_callback c -> cp_off c + cp_hdr_size c <= off -> cap_end c < off + k ->
   let r := config_write e p answers rans off data in
   (cp_ext c = false -> cp_id c = 1 \/ cp_id c = 16 -> r = (Err EINVAL, p, [])) /\
   (cp_ext c = true -> cp_id c = 3 -> r = (Err EPERM, p, [])) /\
   (cp_ext c = false -> cp_id c = 5 \/ cp_id c = 17 -> r = (Crash OutOfBounds, p, [])) /\
   ((if cp_ext c then cp_id c = 11 else cp_id c = 9) ->
     r = if off + k <=? N.of_nat (length (pc_cfg p))
         then then_write e answers rans off d1 d2
                (Ok k, set_cfg p (firstn (N.to_nat off) (pc_cfg p) ++ d1 ++ skipn (N.to_nat (off + k)) (pc_cfg p)), [])
         else (Crash OutOfBounds, p, []))).
Proof.
  intros e p answers rans c off data K FC ND I A NRO k d1 d2. pose proof (ok_sized p K) as Z. pose proof (Z c I) as Zc.
  assert (L : 0 < N.of_nat (length data)) by (destruct data; [congruence|cbn [length]; lia]).
  assert (HK : 0 < k <= N.of_nat (length data)) by (unfold k; lia).
  assert (L1 : N.of_nat (length d1) = k) by (unfold d1; rewrite firstn_length; lia).
  assert (ND1 : d1 <> []) by (intros E; rewrite E in L1; cbn [length] in L1; lia).
  pose proof (co_wf _ K c I) as W. pose proof (co_high _ K c I) as HI.
  assert (Stop : forall o cfg' ev, write_segment e p off data (answers 0%nat) (rans 0%nat) = Some (o, cfg', ev) -> (forall n, o <> Ok n) ->
            config_write e p answers rans off data = (o, set_cfg p cfg', ev)).
  { intros o cfg' ev R NO. rewrite (one_write e p answers rans off data _ ND R); [reflexivity|]. cbn [fst snd]. intros n E. exfalso. exact (NO n E). }
  assert (WS : forall r, write_segment e p off data (answers 0%nat) r =
     if N.testbit (cp_flags c) 1 then let '(o, ev) := nonstd_write e off d1 (answers 0%nat) in Some (o, pc_cfg p, ev)
     else if off - cp_off c <? cp_hdr_size c then Some (Err EPERM, pc_cfg p, [])
     else Some (match cap_write e (pc_cfg p) c off d1 r with
                | (Ok _, cfg', ev) => (Ok k, cfg', ev) | (Err er, cfg', ev) => (Err er, cfg', ev) | (Crash cr, cfg', ev) => (Crash cr, cfg', ev) end)).
  { intros r. unfold write_segment. rewrite (started_segment p c off _ true K I A). fold k. fold d1. rewrite has_readonly, has_callback.
    destruct (N.testbit (cp_flags c) 2) eqn:RO; [exfalso; apply NRO; exact RO|]. reflexivity. }
  split.
  - intros CB. specialize (WS (rans 0%nat)). rewrite CB in WS. pose proof (nonstd_write_is e p answers off d1 ND1 FC) as Q.
    destruct (nonstd_write e off d1 (answers 0%nat)) as [o ev] eqn:NW. destruct Q as (Q & M). rewrite <- Q. destruct o as [m|er|cr].
    + rewrite (M m eq_refl), L1 in *. rewrite (first_write e p answers rans off data k _ ev Z ND WS). now rewrite set_cfg_same.
    + rewrite (Stop _ _ _ WS) by discriminate. cbn [then_write]. now rewrite set_cfg_same.
    + rewrite (Stop _ _ _ WS) by discriminate. cbn [then_write]. now rewrite set_cfg_same.
  - intros CB HB PAST. specialize (WS (rans 0%nat)). destruct (N.testbit (cp_flags c) 1) eqn:E; [exfalso; apply CB; exact E|].
    replace (off - cp_off c <? cp_hdr_size c) with false in WS by lia. unfold cap_end in *. unfold cap_wf in W.
    unfold cap_write in WS. cbv zeta. repeat split.
    + intros X ID. rewrite X in *. rewrite <- (set_cfg_same p) at 2. apply Stop; [|discriminate]. rewrite WS. f_equal. destruct ID as [ID|ID]; rewrite ID in *; cbn [N.eqb Pos.eqb].
      * change (1 =? PCI_CAP_ID_PM) with true. cbn iota. unfold cap_write_pm. rewrite L1.
        destruct (_ =? 2) eqn:E1; [replace (k =? 2) with false by lia; reflexivity|].
        destruct (_ =? 4) eqn:E2; [replace (k =? 2) with false by lia; reflexivity|].
        destruct ((off - cp_off c =? 6) || (off - cp_off c =? 7)) eqn:E3; [replace (k =? 1) with false by lia; reflexivity|reflexivity].
      * change (16 =? PCI_CAP_ID_PM) with false. change (16 =? PCI_CAP_ID_EXP) with true. cbn iota. unfold cap_write_px. rewrite L1.
        destruct (k =? 2) eqn:E1; [|reflexivity]. cbn [negb]. replace (off - cp_off c) with 59 by lia. reflexivity.
    + intros X ID. rewrite X, ID in *. rewrite <- (set_cfg_same p) at 2. apply Stop; [|discriminate]. rewrite WS. reflexivity.
    + intros X ID. rewrite X in *. rewrite <- (set_cfg_same p) at 2. apply Stop; [|discriminate]. rewrite WS. f_equal. destruct ID as [ID|ID]; rewrite ID in *.
      * change (5 =? PCI_CAP_ID_PM) with false. change (5 =? PCI_CAP_ID_EXP) with false. change (5 =? PCI_CAP_ID_MSI) with true. cbn iota.
        unfold cap_write_msi. cbv zeta. unfold slice at 1. destruct (N.to_nat (cp_off c) + 24 <=? length (pc_cfg p))%nat eqn:E1; [|lia]. cbn [need].
        unfold put_slice at 1. rewrite firstn_length, skipn_length.
        replace (N.to_nat (off - cp_off c) + length d1 <=? Nat.min 24 (length (pc_cfg p) - N.to_nat (cp_off c)))%nat with false by lia. reflexivity.
      * change (17 =? PCI_CAP_ID_PM) with false. change (17 =? PCI_CAP_ID_EXP) with false. change (17 =? PCI_CAP_ID_MSI) with false.
        change (17 =? PCI_CAP_ID_MSIX) with true. cbn iota.
        unfold cap_write_msix. cbv zeta. unfold slice at 1. destruct (N.to_nat (cp_off c) + 12 <=? length (pc_cfg p))%nat eqn:E1; [|lia]. cbn [need].
        unfold put_slice at 1. rewrite firstn_length, skipn_length.
        replace (N.to_nat (off - cp_off c) + length d1 <=? Nat.min 12 (length (pc_cfg p) - N.to_nat (cp_off c)))%nat with false by lia. reflexivity.
    + intros V. assert (WV : write_segment e p off data (answers 0%nat) (rans 0%nat) =
        Some (match put_slice (pc_cfg p) (N.to_nat off) d1 with Some cfg' => (Ok k, cfg', []) | None => (Crash OutOfBounds, pc_cfg p, []) end)).
      { rewrite WS. f_equal. destruct (cp_ext c); rewrite V; destruct (put_slice _ _ _); reflexivity. }
      unfold put_slice in WV. destruct (off + k <=? N.of_nat (length (pc_cfg p))) eqn:E1.
      * replace (N.to_nat off + length d1 <=? length (pc_cfg p))%nat with true in WV by lia.
        rewrite (first_write e p answers rans off data k _ _ Z ND WV). now replace (N.to_nat (off + k)) with (N.to_nat off + length d1)%nat by lia.
      * replace (N.to_nat off + length d1 <=? length (pc_cfg p))%nat with false in WV by lia.
        rewrite (Stop _ _ _ WV) by discriminate. now rewrite set_cfg_same.
Qed.
Print Assumptions C66_past_write.
(* Six bytes from the end of the vendor capability at 0x48: the header of the MSI capability behind it is overwritten. *)
Example C66_past_write_case :
  In ex_vndr (all_caps ex_pci) /\ ~ read_only ex_vndr /\ ~ by_callback ex_vndr /\
  (let r := config_write ex_env ex_pci ex_ans no_reset 0x54 [1; 2; 3; 4; 5; 6] in
   fst (fst r) = Ok 6 /\ firstn 8 (skipn 0x54 (pc_cfg (snd (fst r)))) = [1; 2; 3; 4; 5; 6; 0x86; 1]) /\
  fst (fst (config_write ex_env ex_pci ex_ans no_reset 0x6c [1; 2; 3; 4; 5; 6])) = Crash OutOfBounds.
Proof. split; [cbn; tauto|]. split; [discriminate|]. split; [discriminate|]. vm_compute. auto. Qed.
