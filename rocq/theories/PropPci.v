(* C43-C46, C49: config space accesses. *)
From Coq Require Import NArith ZArith List Bool Lia ZifyBool ZifyNat ZifyN.
From Verif Require Import Base Types Bytes BytesProofs Migr Pci SpecPci BufProofs PciProofs PciWrite PciCapWrite PciLoop.
Import ListNotations.
Open Scope N_scope.
Ltac Zify.zify_post_hook ::= idtac.

(* An example device: 256 bytes of config space with a read-only PM capability at 0x40, a vendor
   capability of 16 bytes at 0x48, an MSI capability at 0x58, a PCI Express capability at 0x70 that
   supports function level reset, and a vendor capability of 8 bytes at 0xb0 handled by the device. *)
Definition ex_cfg : list N :=
  [0x34; 0x12; 0xcd; 0xab; 0; 0; 0x10; 0; 1; 0; 0; 0xff; 0; 0; 0; 0] ++ [0xc; 0; 0; 0] ++ zeros 32 ++ [0x40] ++ zeros 11 ++
  [1; 0x48; 3; 0; 0; 0; 0; 0] ++ ([9; 0x58; 16; 0] ++ zeros 12) ++ ([5; 0x70; 0x86; 1] ++ zeros 20) ++
  ([16; 0xb0; 2; 0; 0; 0; 0; 0x10] ++ zeros 56) ++ ([9; 0; 8; 7; 7; 7; 7; 7]) ++ zeros 72.
Definition ex_pm : pci_cap := mk_cap false 1 0x40 2 8 4.
Definition ex_vndr : pci_cap := mk_cap false 9 0x48 3 16 0.
Definition ex_msi : pci_cap := mk_cap false 5 0x58 2 24 0.
Definition ex_px : pci_cap := mk_cap false 16 0x70 2 60 0.
Definition ex_dev : pci_cap := mk_cap false 9 0xb0 3 8 2.
Definition ex_pci : pci := mk_pci ex_cfg [ex_pm; ex_vndr; ex_msi; ex_px; ex_dev] [] (Some 0x70).
Definition ex_env : pci_env := mk_env [4096; 0; 0; 0; 0; 0] [7; 0; 0; 0; 0; 0] true true.
Definition ex_ans : acc_oracle := fun _ _ n => AccOk n (repeat 0xee (N.to_nat n)).
Definition no_reset : nat -> cb_answer := fun _ => None.

Lemma ex_caps_ok : caps_ok ex_pci.
Proof.
  constructor.
  - apply Forall_forall. intros x Hx. assert (A : forallb (fun b => b <? 256) ex_cfg = true) by (vm_compute; reflexivity).
    rewrite forallb_forall in A. apply N.ltb_lt. apply A. exact Hx.
  - vm_compute. lia.
  - intros c [<-|[<-|[<-|[<-|[<-|[]]]]]]; unfold cap_wf; cbn; lia.
  - intros c [<-|[<-|[<-|[<-|[<-|[]]]]]]; cbn; lia.
  - intros c [<-|[<-|[<-|[<-|[<-|[]]]]]]; vm_compute; discriminate.
  - unfold all_caps, ex_pci. cbn [pc_caps pc_ext_caps app]. repeat constructor; vm_compute; discriminate.
Qed.
Lemma ex_full : full_callbacks ex_ans.
Proof. intros k off n m d H. now injection H. Qed.

(* ---------- C43 *)

(* Without a config region callback every in-range read returns exactly the bytes of config space,
   whatever capabilities are registered and wherever they are; no callback runs. *)
Theorem C43_read_returns_config_space : forall e p answers off count,
  pe_cfg_cb e = false -> off + count <= N.of_nat (length (pc_cfg p)) ->
  config_read e p answers off count = (Ok count, firstn (N.to_nat count) (skipn (N.to_nat off) (pc_cfg p)), []).
Proof.
  intros e p answers off count NC H. unfold config_read.
  destruct (cfg_read_plain (N.to_nat count) e p answers 0 count off 0 NC (le_n _) H) as (s & -> & Hs & L).
  rewrite N.add_0_l. repeat f_equal. destruct (N.eq_dec count 0) as [->|D].
  - destruct s; [reflexivity|discriminate].
  - specialize (Hs D). unfold slice in Hs. destruct (Nat.leb _ _); [|discriminate]. now injection Hs as <-.
Qed.
Print Assumptions C43_read_returns_config_space.
Example C43_read_nonvacuous :
  let e := mk_env [] [] false false in
  config_read e ex_pci ex_ans 0x30 0x60 = (Ok 0x60, firstn 0x60 (skipn 0x30 ex_cfg), []).
Proof. vm_compute. reflexivity. Qed.

(* With a callback: every byte of the header and of capabilities the library handles is read from config
   space, and the device is asked only about other bytes, for any range that does not start in the middle
   of a capability and run past its end (see C43_straddling_refuted). *)
Theorem C43_library_bytes_partial : forall e p answers off count o s ev,
  caps_ok p -> full_callbacks answers -> off + count <= N.of_nat (length (pc_cfg p)) ->
  (forall c, In c (all_caps p) -> ~ runs_past c off count) ->
  config_read e p answers off count = (o, s, ev) ->
  (forall r w o' n d, In (EvAccess r w o' n d) ev -> forall x, o' <= x < o' + n -> ~ library_byte p x) /\
  (o = Ok count -> length s = N.to_nat count /\
     forall x, off <= x < off + count -> library_byte p x -> nth (N.to_nat (x - off)) s 0 = byte_at p x).
Proof.
  intros e p answers off count o s ev K FC HL NR H.
  exact (cfg_read_routed _ _ _ _ _ _ _ 0 _ _ _ K FC HL NR H).
Qed.
Print Assumptions C43_library_bytes_partial.
Example C43_library_bytes_nonvacuous :
  (forall c, In c (all_caps ex_pci) -> ~ runs_past c 0 256) /\
  config_read ex_env ex_pci ex_ans 0 256 =
    (Ok 256, firstn 0xac ex_cfg ++ repeat 0xee 84, [EvAccess 7 false 0xac 4 []; EvAccess 7 false 0xb0 8 []; EvAccess 7 false 0xb8 72 []]).
Proof. split; [|vm_compute; reflexivity]. intros c H R. pose proof (co_low _ ex_caps_ok c H). unfold runs_past in R. lia. Qed.

(* A read that starts in the middle of a device-handled capability and runs past its end is handed to the
   device entirely, although it touches the header and registers of the next capability, which the library
   handles. *)
Theorem C43_straddling_refuted : exists e p answers off count o s ev,
  caps_ok p /\ full_callbacks answers /\ off + count <= N.of_nat (length (pc_cfg p)) /\
  config_read e p answers off count = (o, s, ev) /\
  exists x, off <= x < off + count /\ library_byte p x /\ o = Ok count /\ nth (N.to_nat (x - off)) s 0 <> byte_at p x.
Proof.
  set (p := mk_pci ex_cfg [mk_cap false 9 0x48 3 16 2; ex_msi] [] None).
  exists ex_env, p, ex_ans, 0x50, 16.
  do 3 eexists. split.
  { destruct ex_caps_ok as [A B _ _ _ _]. constructor; auto.
    - intros c [<-|[<-|[]]]; unfold cap_wf; cbn; lia.
    - intros c [<-|[<-|[]]]; cbn; lia.
    - intros c [<-|[<-|[]]]; vm_compute; discriminate.
    - unfold p, all_caps. cbn [pc_caps pc_ext_caps app]. repeat constructor; vm_compute; discriminate. }
  split; [exact ex_full|]. split; [vm_compute; discriminate|]. split; [vm_compute; reflexivity|].
  exists 0x58. split; [lia|]. split; [right; exists ex_msi; split; [right; left; reflexivity|]; split; [unfold in_cap, cap_end; cbn; lia|]; unfold by_callback; cbn; discriminate|].
  split; [reflexivity|]. vm_compute. discriminate.
Qed.
Print Assumptions C43_straddling_refuted.

(* Reading modifies nothing: config_read returns no new config space (the type says so). *)

(* ---------- C44 *)

(* Any client write changes only writable header bits and writable bits of capabilities that are neither
   read-only nor device-handled; and a write that reaches a byte of a read-only capability or the header of
   a library-handled one does not succeed.  Proved for ranges that do not start in the middle of a
   capability and run past its end, and capabilities in increasing order. *)
Theorem C44_protected_bytes_partial : forall e p answers rans off data o p' ev,
  caps_ok p -> bytes data -> full_callbacks answers ->
  (forall c, In c (all_caps p) -> ~ runs_past c off (N.of_nat (length data))) ->
  config_write e p answers rans off data = (o, p', ev) ->
  (forall x, protected p x -> byte_at p' x = byte_at p x) /\
  (forall x b, ~ client_may p x b -> N.testbit (byte_at p' x) b = N.testbit (byte_at p x) b) /\
  ((exists x, off <= x < off + N.of_nat (length data) /\ protected p x) -> o <> Ok (N.of_nat (length data))).
Proof.
  intros e p answers rans off data o p' ev K Bd FC NR H.
  destruct (cfg_write_frame _ _ _ _ _ _ _ _ 0 _ _ _ K Bd FC NR H) as (_ & (L & B & S) & PR). split; [|split].
  - intros x [c (I & A & Pc)]. apply N.bits_inj. intros b. apply S. intros [M|[c' (I' & NRO & NCB & R & _)]].
    + destruct M as [M _]. pose proof (co_low _ K c I). unfold in_cap in A. unfold header_writable in M. lia.
    + assert (c = c') by (apply (order_disjoint p c c' x K I I' A); unfold in_cap; lia). subst c'.
      destruct Pc as [Pc|[_ Pc]]; [contradiction|lia].
  - exact S.
  - intros [x [Hx P]] Q. rewrite N.add_0_l in PR. exact (PR Q x Hx P).
Qed.
Print Assumptions C44_protected_bytes_partial.
Example C44_nonvacuous :
  (forall c, In c (all_caps ex_pci) -> ~ runs_past c 0x40 4) /\ protected ex_pci 0x40 /\ protected ex_pci 0x58 /\
  config_write ex_env ex_pci ex_ans no_reset 0x44 [3; 0] = (Err EPERM, ex_pci, []) /\
  config_write ex_env ex_pci ex_ans no_reset 0x58 [1; 2] = (Err EPERM, ex_pci, []) /\
  fst (fst (config_write ex_env ex_pci ex_ans no_reset 0x4c [1; 2])) = Ok 2.
Proof.
  split; [intros c H R; pose proof (co_low _ ex_caps_ok c H); unfold runs_past in R; lia|].
  split. { exists ex_pm. split; [left; reflexivity|]. split; [unfold in_cap, cap_end; cbn; lia|]. left. reflexivity. }
  split. { exists ex_msi. split; [right; right; left; reflexivity|]. split; [unfold in_cap, cap_end; cbn; lia|]. right. split; [unfold by_callback; cbn; discriminate|cbn; lia]. }
  vm_compute. repeat split; reflexivity.
Qed.

(* A write that starts in the middle of a vendor capability and runs past its end is stored over the
   read-only capability behind it, and succeeds. *)
Theorem C44_straddling_refuted : exists e p answers rans off data o p' ev x,
  caps_ok p /\ bytes data /\ full_callbacks answers /\
  config_write e p answers rans off data = (o, p', ev) /\
  off <= x < off + N.of_nat (length data) /\ protected p x /\ o = Ok (N.of_nat (length data)) /\ byte_at p' x <> byte_at p x.
Proof.
  set (p := mk_pci ex_cfg [mk_cap false 9 0x48 3 16 0; mk_cap false 1 0x58 2 8 4] [] None).
  exists ex_env, p, ex_ans, no_reset, 0x50, (repeat 0x55 16).
  do 3 eexists. exists 0x58. split.
  { destruct ex_caps_ok as [A B _ _ _ _]. constructor; auto.
    - intros c [<-|[<-|[]]]; unfold cap_wf; cbn; lia.
    - intros c [<-|[<-|[]]]; cbn; lia.
    - intros c [<-|[<-|[]]]; vm_compute; discriminate.
    - unfold p, all_caps. cbn [pc_caps pc_ext_caps app]. repeat constructor; vm_compute; discriminate. }
  split; [repeat constructor|]. split; [exact ex_full|]. split; [vm_compute; reflexivity|]. split; [cbn; lia|].
  split. { exists (mk_cap false 1 0x58 2 8 4). split; [right; left; reflexivity|]. split; [unfold in_cap, cap_end; cbn; lia|]. left. reflexivity. }
  split; [reflexivity|]. vm_compute. discriminate.
Qed.
Print Assumptions C44_straddling_refuted.

(* With capabilities not in increasing order, a write of exactly the read-only capability's registers is
   handed to the device's callback instead of being refused (its start being the end of the write). *)
Theorem C44_unordered_refuted : exists e p answers rans off data p' ev c,
  bytes (pc_cfg p) /\ (forall a, In a (all_caps p) -> cap_wf a /\ 64 <= cp_off a /\ cap_end a <= N.of_nat (length (pc_cfg p))) /\
  ForallOrdPairs (fun a b => cap_end a <= cp_off b \/ cap_end b <= cp_off a) (all_caps p) /\
  In c (all_caps p) /\ read_only c /\ off = cp_off c /\ N.of_nat (length data) = cp_size c /\
  config_write e p answers rans off data = (Ok (N.of_nat (length data)), p', ev).
Proof.
  set (p := mk_pci ex_cfg [mk_cap false 9 0x48 3 16 0; ex_pm] [] None).
  exists ex_env, p, ex_ans, no_reset, 0x40, (repeat 0x55 8). do 2 eexists. exists ex_pm.
  split; [exact (co_bytes _ ex_caps_ok)|]. split.
  { intros c [<-|[<-|[]]]; (split; [unfold cap_wf; cbn; lia|]; split; [cbn; lia|vm_compute; discriminate]). }
  split. { unfold p, all_caps. cbn [pc_caps pc_ext_caps app]. repeat constructor; cbn; lia. }
  split; [right; left; reflexivity|]. repeat split. all: vm_compute; reflexivity.
Qed.
Print Assumptions C44_unordered_refuted.

(* ---------- C45 *)

(* Whatever the write (range, data, outcome, capabilities in any order), in the standard header only the
   writable registers can change, and of the command register only the supported bits. *)
Theorem C45_header_writes : forall e p answers rans off data o p' ev,
  bytes (pc_cfg p) -> bytes data -> (forall c, In c (all_caps p) -> cap_wf c /\ 64 <= cp_off c) ->
  config_write e p answers rans off data = (o, p', ev) ->
  (forall x, x < 64 -> ~ header_writable x -> byte_at p' x = byte_at p x) /\
  (forall b, b < 16 -> ~ command_supported b -> N.testbit (field p' 4 2) b = N.testbit (field p 4 2) b) /\
  length (pc_cfg p') = length (pc_cfg p).
Proof.
  intros e p answers rans off data o p' ev Bc Bd LOW H.
  destruct (cfg_write_header _ _ _ _ _ _ _ _ 0 _ _ _ Bc Bd LOW H) as (L & B & S). split; [|split; [|exact L]].
  - intros x Hx NW. apply N.bits_inj. intros b. apply S. intros [C|[C _]]; [lia|contradiction].
  - intros b Hb NS. unfold field.
    assert (F : forall (q : pci), bytes (pc_cfg q) -> forall k i, (k < 2)%nat -> i < 8 ->
              N.testbit (le_val (firstn 2 (skipn (N.to_nat 4) (pc_cfg q)))) (8 * N.of_nat k + i) = N.testbit (byte_at q (4 + N.of_nat k)) i).
    { intros q Bq k i Hk Hi. rewrite le_val_bit by (try exact Hi; apply bytes_firstn, bytes_skipn; exact Bq).
      rewrite nth_firstn by exact Hk. rewrite nth_skipn. unfold byte_at. do 2 f_equal. lia. }
    destruct (N.lt_ge_cases b 8) as [C|C].
    + replace b with (8 * N.of_nat 0 + b) by lia. rewrite !F by (try lia; auto). apply S. intros [D|[_ [D _]]]; [lia|]. apply NS. now apply D.
    + replace b with (8 * N.of_nat 1 + (b - 8)) by lia. rewrite !F by (try lia; auto). apply S. intros [D|[_ [_ D]]]; [lia|].
      apply NS. replace b with (8 + (b - 8)) by lia. now apply D.
Qed.
Print Assumptions C45_header_writes.
Example C45_nonvacuous :
  let r := config_write ex_env ex_pci ex_ans no_reset 0 [0xff] in
  let r2 := config_write ex_env ex_pci ex_ans no_reset 12 [0x10; 0x20] in
  fst (fst r) = Err EINVAL /\ snd (fst r) = ex_pci /\ fst (fst r2) = Ok 2 /\ byte_at (snd (fst r2)) 13 = 0x20 /\
  config_write ex_env ex_pci ex_ans no_reset 6 [0xff; 0xff] = (Ok 2, ex_pci, []).
Proof. vm_compute. repeat split; reflexivity. Qed.

(* A two-byte command register write copies exactly the supported bits, and fails if any other bit but
   palette snoop is set. *)
Theorem C45_command_write : forall e p answers rans lo hi,
  bytes (pc_cfg p) -> (64 <= length (pc_cfg p))%nat -> lo < 256 -> hi < 256 ->
  exists o p', config_write e p answers rans 4 [lo; hi] = (o, p', []) /\
    (forall b, b < 16 -> N.testbit (field p' 4 2) b = if N.testbit 0x517 b then N.testbit (lo + 256 * hi) b else N.testbit (field p 4 2) b) /\
    (forall x, x <> 4 -> x <> 5 -> byte_at p' x = byte_at p x) /\
    o = (if N.ldiff (lo + 256 * hi) (N.lor 0x517 0x20) =? 0 then Ok 2 else Err EINVAL).
Proof.
  intros e p answers rans lo hi B L Hlo Hhi.
  set (v := lo + 256 * hi).
  assert (Rv : rd [lo; hi] 0 2 = Some v) by (change (rd [lo; hi] 0 2) with (Some (lo + 256 * (hi + 256 * 0))); f_equal; unfold v; lia).
  destruct (rd_some (pc_cfg p) 4 2 ltac:(lia)) as [old Ro].
  destruct (wr_some (pc_cfg p) 4 2 (N.lor (N.ldiff old 1303) (N.land v 1303)) ltac:(lia)) as [c W].
  assert (HW : hdr_write e (pc_cfg p) 4 [lo; hi] = ((if N.ldiff v 1335 =? 0 then Ok tt else Err EINVAL), c)).
  { unfold hdr_write. change (4 =? 4) with true. cbv iota. unfold need. rewrite Rv, Ro, command_write_spec, W. reflexivity. }
  exists (if N.ldiff v (N.lor 0x517 0x20) =? 0 then Ok 2 else Err EINVAL), (set_cfg p c). change (N.lor 1303 32) with 1335.
  assert (Bn : bytes c) by (eapply wr_bytes; [exact B|exact W]).
  split; [|split; [|split; [|reflexivity]]].
  - destruct (N.ldiff v 1335 =? 0).
    + apply hdr_step_write; auto; try reflexivity; lia.
    + unfold config_write. cbn [length cfg_write]. unfold write_segment, next_segment.
      change (4 <? PCI_STD_HEADER_SIZEOF) with true. change (reg_size 4) with 2. change (2 =? 0) with false. cbv iota. rewrite HW. reflexivity.
  - assert (F : forall q, bytes (pc_cfg q) -> forall k i, (k < 2)%nat -> i < 8 ->
              N.testbit (field q 4 2) (8 * N.of_nat k + i) = N.testbit (nth (4 + k) (pc_cfg q) 0) i).
    { intros q Bq k i Hk Hi. unfold field. rewrite le_val_bit by (try exact Hi; apply bytes_firstn, bytes_skipn; exact Bq).
      rewrite nth_firstn by exact Hk. rewrite nth_skipn. reflexivity. }
    assert (G : forall k i, (k < 2)%nat -> i < 8 -> N.testbit (field (set_cfg p c) 4 2) (8 * N.of_nat k + i) =
        if N.testbit 1303 (8 * N.of_nat k + i) then N.testbit v (8 * N.of_nat k + i) else N.testbit (field p 4 2) (8 * N.of_nat k + i)).
    { intros k i Hk Hi. rewrite !F by (auto; exact Bn). cbn [set_cfg pc_cfg]. rewrite (wr_bit _ _ _ _ _ k i W Hk Hi).
      rewrite <- (rd_bit _ _ _ _ k i B Ro Hk Hi). rewrite N.lor_spec, N.ldiff_spec, N.land_spec.
      destruct (N.testbit 1303 (8 * N.of_nat k + i)), (N.testbit old (8 * N.of_nat k + i)), (N.testbit v (8 * N.of_nat k + i)); reflexivity. }
    intros b Hb. destruct (N.lt_ge_cases b 8) as [C|C].
    + specialize (G 0%nat b ltac:(lia) C). change (8 * N.of_nat 0 + b) with b in G. exact G.
    + specialize (G 1%nat (b - 8) ltac:(lia) ltac:(lia)). replace (8 * N.of_nat 1 + (b - 8)) with b in G by lia. exact G.
  - intros x H4 H5. unfold byte_at. cbn [set_cfg pc_cfg]. eapply wr_other; [exact W|]. lia.
Qed.
Print Assumptions C45_command_write.
Example C45_command_nonvacuous :
  fst (fst (config_write ex_env ex_pci ex_ans no_reset 4 [0x27; 4])) = Ok 2 /\
  field (snd (fst (config_write ex_env ex_pci ex_ans no_reset 4 [0x27; 4]))) 4 2 = 0x407 /\
  fst (fst (config_write ex_env ex_pci ex_ans no_reset 4 [0x40; 0])) = Err EINVAL.
Proof. vm_compute. repeat split; reflexivity. Qed.

(* BARs are not masked to their size: a client can set address bits below the BAR's size, and bits that
   describe the BAR (here a 32-bit memory BAR becomes a 64-bit one). *)
Theorem C45_bar_mask_refuted : exists e p answers rans i data p',
  caps_ok p /\ bytes data /\ config_write e p answers rans (16 + 4 * N.of_nat i) data = (Ok 4, p', []) /\
  nth i (pe_bar_size e) 0 = 4096 /\ field p (16 + 4 * N.of_nat i) 4 = 0 /\
  N.testbit (field p' (16 + 4 * N.of_nat i) 4) 8 = true /\ N.land (field p' (16 + 4 * N.of_nat i) 4) 15 = 4.
Proof.
  set (p := mk_pci (zeros 256) [] [] None).
  exists ex_env, p, ex_ans, no_reset, 0%nat, [4; 1; 0; 0]. eexists.
  split. { constructor; try (intros c []); [|cbn; lia|constructor].
    apply Forall_forall. intros x Hx. apply repeat_spec in Hx. subst x. unfold is_byte. lia. }
  split; [repeat constructor|]. split; [vm_compute; reflexivity|]. repeat split; vm_compute; reflexivity.
Qed.
Print Assumptions C45_bar_mask_refuted.

(* ---------- C46 *)

Lemma sub_pow2_bit k i : k < 32 -> N.testbit (2 ^ 32 - 2 ^ k) i = (k <=? i) && (i <? 32).
Proof.
  intros H. assert (E : 2 ^ 32 - 2 ^ k = N.shiftl (N.ones (32 - k)) k).
  { rewrite N.shiftl_mul_pow2, N.ones_equiv, <- N.sub_1_r, N.mul_sub_distr_r, N.mul_1_l, <- N.pow_add_r. f_equal. f_equal. lia. }
  rewrite E. destruct (N.lt_ge_cases i k) as [C|C].
  - rewrite N.shiftl_spec_low by exact C. lia.
  - rewrite N.shiftl_spec_high' by exact C. destruct (N.lt_ge_cases i 32) as [D|D].
    + rewrite N.ones_spec_low by lia. lia.
    + rewrite N.ones_spec_high by lia. lia.
Qed.

Lemma lt_pow2_bits x n : (forall i, n <= i -> N.testbit x i = false) -> x < 2 ^ n.
Proof.
  intros H. destruct (N.eq_dec x 0) as [->|Z]; [pose proof (N.pow_nonzero 2 n); lia|].
  apply N.log2_lt_pow2; [lia|]. destruct (N.lt_ge_cases (N.log2 x) n) as [C|C]; [exact C|]. pose proof (N.bit_log2 x Z). rewrite H in *; [discriminate|lia].
Qed.

Lemma below_pow2_bits x n i : x < 2 ^ n -> n <= i -> N.testbit x i = false.
Proof.
  intros H Hi. destruct (N.eq_dec x 0) as [->|Z]; [apply N.bits_0|]. apply N.bits_above_log2. apply N.log2_lt_pow2 in H; lia.
Qed.

Lemma low_bits e i k : (if N.testbit (nth i (pe_bar_flags e) 0) 2 then 4 <= k else 2 <= k) -> forall b, k <= b -> N.testbit (bar_type_bits e i) b = false.
Proof.
  unfold bar_type_bits. intros H b Hb. destruct (N.testbit _ 2); [apply (below_pow2_bits 15 4)|apply (below_pow2_bits 3 2)]; lia.
Qed.

Lemma bar_write_read e p answers rans answers' i size v : bytes (pc_cfg p) -> (64 <= length (pc_cfg p))%nat -> (i < 6)%nat ->
  nth i (pe_bar_size e) 0 = size -> size <> 0 -> v < 2 ^ 32 ->
  let off := 16 + 4 * N.of_nat i in
  let new := N.lor (if v =? 2 ^ 32 - 1 then sub32 0 size else v) (N.land (field p off 4) (bar_type_bits e i)) in
  exists p', config_write e p answers rans off (le_bytes 4 v) = (Ok 4, p', []) /\
    config_read e p' answers' off 4 = (Ok 4, le_bytes 4 new, []) /\
    (forall x, x < off \/ off + 4 <= x -> byte_at p' x = byte_at p x).
Proof.
  intros B L Hi Sz Nz Hv off new.
  assert (Rv : rd (le_bytes 4 v) 0 4 = Some v) by (rewrite <- (app_nil_r (le_bytes 4 v)); apply rd_front; exact Hv).
  destruct (rd_some (pc_cfg p) (N.to_nat off) 4 ltac:(unfold off; lia)) as [old Ro].
  assert (Fo : field p off 4 = old).
  { unfold rd, slice in Ro. destruct (Nat.leb _ _); [|discriminate]. injection Ro as <-. reflexivity. }
  destruct (wr_some (pc_cfg p) (N.to_nat off) 4 new ltac:(unfold off; lia)) as [c W].
  assert (HW : hdr_write e (pc_cfg p) off (le_bytes 4 v) = (Ok tt, c)).
  { assert (N : bar_write size (nth i (pe_bar_flags e) 0) old v = new).
    { unfold bar_write, new, bar_type_bits. change REGION_FLAG_MEM with (2 ^ 2). rewrite has_bit, Fo. reflexivity. }
    unfold hdr_write.
    assert (E1 : (off =? 4) = false) by (unfold off; lia).
    assert (E2 : (off =? 6) || (off =? 8) || (off =? 9) || (off =? 61) || (off =? 62) || (off =? 63) = false) by (unfold off; lia).
    assert (E3 : (off =? 60) || (off =? 12) || (off =? 13) = false) by (unfold off; lia).
    assert (E4 : (off =? 16) || (off =? 20) || (off =? 24) || (off =? 28) || (off =? 32) || (off =? 36) = true) by (unfold off; lia).
    rewrite E1, E2, E3, E4. replace ((off - 16) / 4) with (N.of_nat i).
    2: { unfold off. replace (16 + 4 * N.of_nat i - 16) with (N.of_nat i * 4) by lia. now rewrite N.div_mul. }
    rewrite Nat2N.id, Sz. replace (size =? 0) with false by lia. unfold need. rewrite Rv, Ro, N, W. reflexivity. }
  exists (set_cfg p c).
  assert (RS : reg_size off = 4).
  { unfold off. clear - Hi. do 6 (destruct i as [|i]; [reflexivity|]). lia. }
  split; [|split].
  - apply hdr_step_write; auto; try lia.
  - rewrite header_read; [|cbn [set_cfg pc_cfg]; rewrite (wr_length _ _ _ _ _ W); exact L|lia|unfold off; lia].
    f_equal. f_equal. cbn [set_cfg pc_cfg]. change (N.to_nat 4) with 4%nat. apply list_ext.
    + rewrite firstn_length_le; [now rewrite le_bytes_length|]. rewrite skipn_length, (wr_length _ _ _ _ _ W). unfold off. lia.
    + rewrite firstn_length_le; [|rewrite skipn_length, (wr_length _ _ _ _ _ W); unfold off; lia].
      intros j Hj. rewrite nth_firstn by exact Hj. rewrite nth_skipn, (wr_nth _ _ _ _ _ _ W).
      replace (Nat.leb (N.to_nat off) (N.to_nat off + j) && Nat.ltb (N.to_nat off + j) (N.to_nat off + 4)) with true by lia. f_equal. lia.
  - intros x Hx. unfold byte_at. cbn [set_cfg pc_cfg]. eapply wr_other; [exact W|]. lia.
Qed.

(* Writing all ones to a BAR of a region of 2^k bytes: reading it back gives 2^32 - 2^k in the address
   bits, and the type bits it had before; nothing else changes. *)
Theorem C46_bar_sizing : forall e p answers rans answers' i k,
  bytes (pc_cfg p) -> (64 <= length (pc_cfg p))%nat -> (i < 6)%nat ->
  nth i (pe_bar_size e) 0 = 2 ^ k -> k < 32 ->
  (if N.testbit (nth i (pe_bar_flags e) 0) 2 then 4 <= k else 2 <= k) ->
  let off := 16 + 4 * N.of_nat i in
  exists p' v, config_write e p answers rans off [255; 255; 255; 255] = (Ok 4, p', []) /\
    config_read e p' answers' off 4 = (Ok 4, le_bytes 4 v, []) /\ v < 2 ^ 32 /\
    N.ldiff v (bar_type_bits e i) = 2 ^ 32 - 2 ^ k /\
    N.land v (bar_type_bits e i) = N.land (field p off 4) (bar_type_bits e i) /\
    (forall x, x < off \/ off + 4 <= x -> byte_at p' x = byte_at p x).
Proof.
  intros e p answers rans answers' i k B L Hi Sz Hk Low off.
  assert (Nz : 2 ^ k <> 0) by (apply N.pow_nonzero; lia).
  assert (Sm : 2 ^ k < 2 ^ 32) by (apply N.pow_lt_mono_r; lia).
  destruct (bar_write_read e p answers rans answers' i (2 ^ k) (2 ^ 32 - 1) B L Hi Sz Nz ltac:(vm_compute; reflexivity)) as (p' & W & R & S).
  rewrite N.eqb_refl in R. change (le_bytes 4 (2 ^ 32 - 1)) with [255; 255; 255; 255] in W.
  assert (E : sub32 0 (2 ^ k) = 2 ^ 32 - 2 ^ k).
  { unfold sub32, w32. change two32 with (2 ^ 32). rewrite N.add_0_l, N.mod_small; [reflexivity|]. lia. }
  rewrite E in R. pose proof (low_bits e i k Low) as LB.
  eexists. eexists. split; [exact W|]. split; [exact R|]. fold off. split; [|split; [|split; [|exact S]]].
  - apply lt_pow2_bits. intros b Hb. rewrite N.lor_spec, N.land_spec, sub_pow2_bit, (LB b) by lia. rewrite andb_false_r, orb_false_r. lia.
  - apply N.bits_inj. intros b. rewrite N.ldiff_spec, N.lor_spec, N.land_spec, sub_pow2_bit by lia.
    destruct (N.lt_ge_cases b k) as [C|C].
    + replace (k <=? b) with false by lia. cbn [andb orb]. destruct (N.testbit (bar_type_bits e i) b); [now rewrite andb_false_r|].
      now rewrite andb_false_r.
    + rewrite (LB b C). now rewrite andb_false_r, orb_false_r, andb_true_r.
  - apply N.bits_inj. intros b. rewrite !N.land_spec, N.lor_spec, N.land_spec, sub_pow2_bit by lia.
    destruct (N.testbit (bar_type_bits e i) b) eqn:T; [|now rewrite !andb_false_r].
    assert (C : b < k) by (destruct (N.lt_ge_cases b k) as [C|C]; [exact C|rewrite (LB b C) in T; discriminate]).
    replace (k <=? b) with false by lia. cbn [andb orb]. now rewrite !andb_true_r.
Qed.
Print Assumptions C46_bar_sizing.
Example C46_sizing_nonvacuous : exists p',
  config_write ex_env ex_pci ex_ans no_reset 16 [255; 255; 255; 255] = (Ok 4, p', []) /\
  config_read ex_env p' ex_ans 16 4 = (Ok 4, [0x0c; 0xf0; 0xff; 0xff], []).
Proof. eexists. split; vm_compute; reflexivity. Qed.

(* An address aligned to the region's size is read back as written (next to the type bits). *)
Theorem C46_bar_address : forall e p answers rans answers' i k a,
  bytes (pc_cfg p) -> (64 <= length (pc_cfg p))%nat -> (i < 6)%nat ->
  nth i (pe_bar_size e) 0 = 2 ^ k -> k < 32 ->
  (if N.testbit (nth i (pe_bar_flags e) 0) 2 then 4 <= k else 2 <= k) ->
  a < 2 ^ 32 -> a mod 2 ^ k = 0 ->
  let off := 16 + 4 * N.of_nat i in
  exists p' v, config_write e p answers rans off (le_bytes 4 a) = (Ok 4, p', []) /\
    config_read e p' answers' off 4 = (Ok 4, le_bytes 4 v, []) /\ v < 2 ^ 32 /\
    N.ldiff v (bar_type_bits e i) = a /\ N.land v (bar_type_bits e i) = N.land (field p off 4) (bar_type_bits e i) /\
    (forall x, x < off \/ off + 4 <= x -> byte_at p' x = byte_at p x).
Proof.
  intros e p answers rans answers' i k a B L Hi Sz Hk Low Ha Al off.
  assert (Nz : 2 ^ k <> 0) by (apply N.pow_nonzero; lia).
  assert (AB : forall b, b < k -> N.testbit a b = false).
  { intros b Hb. rewrite <- (N.mod_pow2_bits_low a k b Hb), Al. apply N.bits_0. }
  assert (N1 : a <> 2 ^ 32 - 1).
  { intros ->. specialize (AB 0). assert (Q : N.testbit (2 ^ 32 - 1) 0 = true) by reflexivity. rewrite Q in AB.
    assert (k <> 0) by (destruct (N.testbit _ 2) in Low; lia). assert (true = false) by (apply AB; lia). discriminate. }
  destruct (bar_write_read e p answers rans answers' i (2 ^ k) a B L Hi Sz Nz Ha) as (p' & W & R & S).
  replace (a =? 2 ^ 32 - 1) with false in R by (symmetry; apply N.eqb_neq; exact N1). pose proof (low_bits e i k Low) as LB.
  eexists. eexists. split; [exact W|]. split; [exact R|]. fold off. split; [|split; [|split; [|exact S]]].
  - apply lt_pow2_bits. intros b Hb. rewrite N.lor_spec, N.land_spec, (LB b) by lia. rewrite andb_false_r, orb_false_r. now apply (below_pow2_bits a 32).
  - apply N.bits_inj. intros b. rewrite N.ldiff_spec, N.lor_spec, N.land_spec.
    destruct (N.lt_ge_cases b k) as [C|C].
    + rewrite (AB b C). cbn [orb]. destruct (N.testbit (bar_type_bits e i) b); now rewrite andb_false_r.
    + rewrite (LB b C). now rewrite andb_false_r, orb_false_r, andb_true_r.
  - apply N.bits_inj. intros b. rewrite !N.land_spec, N.lor_spec, N.land_spec.
    destruct (N.testbit (bar_type_bits e i) b) eqn:T; [|now rewrite !andb_false_r].
    assert (C : b < k) by (destruct (N.lt_ge_cases b k) as [C|C]; [exact C|rewrite (LB b C) in T; discriminate]).
    rewrite (AB b C). cbn [orb]. now rewrite !andb_true_r.
Qed.
Print Assumptions C46_bar_address.
Example C46_address_nonvacuous : exists p',
  config_write ex_env ex_pci ex_ans no_reset 16 (le_bytes 4 0xfeb04000) = (Ok 4, p', []) /\ 0xfeb04000 mod 4096 = 0 /\
  config_read ex_env p' ex_ans 16 4 = (Ok 4, le_bytes 4 0xfeb0400c, []).
Proof. eexists. repeat split; vm_compute; reflexivity. Qed.

(* ---------- C49 *)

(* A write inside the registers of a library-handled, writable capability: if it succeeds, every byte of
   the capability is its old value with the writable bits replaced by the data; whatever the outcome, no
   other bit of config space changes; and it never crashes. *)
Theorem C49_register_writes : forall e p answers rans c off data o p' ev,
  caps_ok p -> bytes data -> data <> [] -> In c (all_caps p) -> ~ read_only c -> ~ by_callback c ->
  cp_off c + cp_hdr_size c <= off -> off + N.of_nat (length data) <= cap_end c ->
  config_write e p answers rans off data = (o, p', ev) ->
  (o = Ok (N.of_nat (length data)) -> forall x, in_cap c x ->
     byte_at p' x = merged (cap_mask c (x - cp_off c)) (byte_at p x) (overlay (pc_cfg p) off data x)) /\
  (forall x b, ~ (in_cap c x /\ N.testbit (cap_mask c (x - cp_off c)) b = true) -> N.testbit (byte_at p' x) b = N.testbit (byte_at p x) b) /\
  (forall cr, o <> Crash cr).
Proof.
  intros e p answers rans c off data o p' ev K Bd ND I NR NC Ho Hn H.
  rewrite (single_cap_write e p answers rans c off data K I NR NC Ho Hn ND) in H.
  destruct (cap_write e (pc_cfg p) c off data (rans 0%nat)) as [[o1 cfg'] ev1] eqn:CW.
  destruct (cap_write_exact _ _ _ _ _ _ _ _ _ (co_wf _ K c I) (co_bytes _ K) Bd (co_high _ K c I) Ho Hn CW) as (NCr & Lc & Bc & m & Mb & Mm & MO & MT).
  assert (P : p' = set_cfg p cfg') by (destruct o1; injection H as <- <- <-; reflexivity). subst p'. unfold byte_at. cbn [set_cfg pc_cfg].
  split; [|split].
  - intros Q x A. destruct o1 as [u|er|cr]; [|injection H as <- _; discriminate|injection H as <- _; discriminate].
    rewrite (MT x). unfold in_cap, cap_end in A. replace ((cp_off c <=? x) && (x <? cp_off c + cp_size c)) with true by lia.
    destruct u. rewrite (MO eq_refl) by lia. reflexivity.
  - intros x b Nx. rewrite (MT x). destruct ((cp_off c <=? x) && (x <? cp_off c + cp_size c)) eqn:E; [|reflexivity]. rewrite merged_bit.
    destruct (N.testbit (m (x - cp_off c)) b) eqn:T; [|reflexivity]. exfalso. apply Nx. split; [unfold in_cap, cap_end; lia|now apply Mm].
  - intros cr ->. destruct o1 as [u|er|cr']; injection H as Q; try discriminate. now apply (NCr cr').
Qed.
Print Assumptions C49_register_writes.
Example C49_register_nonvacuous :
  let r := config_write ex_env ex_pci ex_ans no_reset 0x5a ([0xff - 0x40; 0xff; 0xff; 0xff; 0xff; 0xff]) in
  fst (fst r) = Ok 6 /\ firstn 8 (skipn 0x58 (pc_cfg (snd (fst r)))) = [5; 0x70; 0xb7; 1; 0xfc; 0xff; 0xff; 0xff] /\
  ~ read_only ex_msi /\ ~ by_callback ex_msi.
Proof. repeat split; try (vm_compute; reflexivity); vm_compute; discriminate. Qed.

(* The MSI capability accepts a write exactly when the number of enabled messages does not change or is
   allowed; otherwise it is EINVAL. *)
Theorem C49_msi_enable : forall e p answers rans c off data o p' ev,
  caps_ok p -> bytes data -> data <> [] -> In c (all_caps p) -> ~ read_only c -> ~ by_callback c -> cp_ext c = false -> cp_id c = 5 ->
  cp_off c + cp_hdr_size c <= off -> off + N.of_nat (length data) <= cap_end c ->
  config_write e p answers rans off data = (o, p', ev) ->
  ev = [] /\
  o = if mme_bad (byte_at p (cp_off c + 2)) (overlay (pc_cfg p) off data (cp_off c + 2)) then Err EINVAL else Ok (N.of_nat (length data)).
Proof.
  intros e p answers rans c off data o p' ev K Bd ND I NR NC X Id Ho Hn H.
  rewrite (single_cap_write e p answers rans c off data K I NR NC Ho Hn ND) in H.
  destruct (cap_write e (pc_cfg p) c off data (rans 0%nat)) as [[o1 cfg'] ev1] eqn:CW.
  unfold cap_write in CW. rewrite X, Id in CW. change (cap_write_msi (pc_cfg p) (cp_off c) (off - cp_off c) data = (o1, cfg', ev1)) in CW.
  pose proof (co_wf _ K c I) as W. unfold cap_wf in W. rewrite X in W. pose proof (co_high _ K c I) as HI. unfold cap_end in *.
  assert (Lb : cp_off c + 24 <= N.of_nat (length (pc_cfg p))) by lia.
  assert (Lr : off - cp_off c + N.of_nat (length data) <= 24) by lia.
  pose proof (msi_exact _ _ _ _ _ _ _ (co_bytes _ K) Bd Lb Lr CW) as Q. cbv zeta in Q. destruct Q as (-> & _ & _ & -> & _).
  replace (cp_off c + (off - cp_off c)) with off in H by lia. unfold byte_at.
  destruct (mme_bad (nth (N.to_nat (cp_off c + 2)) (pc_cfg p) 0) (overlay (pc_cfg p) off data (cp_off c + 2))); injection H as <- <- <-; auto.
Qed.
Print Assumptions C49_msi_enable.
Example C49_msi_nonvacuous : (* 8 messages capable: enabling 8 works, 16 does not *)
  fst (fst (config_write ex_env ex_pci ex_ans no_reset 0x5a [0x31; 0])) = Ok 2 /\
  fst (fst (config_write ex_env ex_pci ex_ans no_reset 0x5a [0x41; 0])) = Err EINVAL.
Proof. vm_compute. split; reflexivity. Qed.

(* Initiating a function level reset (bit 15 of device control): the reset callback runs exactly once if
   the device is capable of it (bit 28 of device capabilities) and registered one, and decides the result;
   without the capability it is EINVAL; without the bit nothing is reset. *)
Theorem C49_flr : forall e p answers rans c lo hi,
  caps_ok p -> In c (all_caps p) -> ~ read_only c -> ~ by_callback c -> cp_ext c = false -> cp_id c = 16 -> lo < 256 -> hi < 256 ->
  exists p',
  config_write e p answers rans (cp_off c + 8) [lo; hi] =
    (let capable := N.testbit (byte_at p (cp_off c + 7)) 4 in
     if N.testbit hi 7 then
       if capable then
         if pe_reset_cb e then (match rans 0%nat with None => Ok 2 | Some er => Err er end, p', [EvReset ResetPciFlr])
         else (Ok 2, p', [])
       else (Err EINVAL, p', [])
     else (Ok 2, p', [])).
Proof.
  intros e p answers rans c lo hi K I NR NC X Id Hlo Hhi.
  pose proof (co_wf _ K c I) as W. unfold cap_wf in W. rewrite X in W. pose proof (co_high _ K c I) as HI. unfold cap_end in *.
  assert (Bd : bytes [lo; hi]) by (repeat constructor; assumption).
  rewrite (single_cap_write e p answers rans c (cp_off c + 8) [lo; hi] K I NR NC) by (try discriminate; unfold cap_end; cbn [length]; lia).
  destruct (cap_write e (pc_cfg p) c (cp_off c + 8) [lo; hi] (rans 0%nat)) as [[o1 cfg'] ev1] eqn:CW. exists (set_cfg p cfg').
  unfold cap_write in CW. rewrite X, Id in CW. replace (cp_off c + 8 - cp_off c) with 8 in CW by lia.
  change (px_pxdc_write e (pc_cfg p) (cp_off c) (le_val [lo; hi]) (rans 0%nat) = (o1, cfg', ev1)) in CW.
  assert (Lb : cp_off c + 60 <= N.of_nat (length (pc_cfg p))) by lia.
  destruct (pxdc_exact _ _ _ _ _ _ _ _ (co_bytes _ K) Bd Lb eq_refl CW) as (_ & _ & _ & Q). cbn [nth] in Q. unfold byte_at. cbv zeta.
  change (N.of_nat (length [lo; hi])) with 2.
  destruct (N.testbit hi 7); [|injection Q as -> ->; reflexivity].
  destruct (N.testbit (nth (N.to_nat (cp_off c + 7)) (pc_cfg p) 0) 4); [|injection Q as -> ->; reflexivity].
  destruct (pe_reset_cb e); [|injection Q as -> ->; reflexivity]. destruct (rans 0%nat); injection Q as -> ->; reflexivity.
Qed.
Print Assumptions C49_flr.
Example C49_flr_nonvacuous :
  config_write ex_env ex_pci ex_ans no_reset 0x78 [0; 0x80] = (Ok 2, ex_pci, [EvReset ResetPciFlr]) /\
  config_write ex_env ex_pci ex_ans (fun _ => Some 5) 0x78 [0; 0x80] = (Err 5, ex_pci, [EvReset ResetPciFlr]) /\
  config_write ex_env ex_pci ex_ans no_reset 0x78 [0; 0] = (Ok 2, ex_pci, []).
Proof. vm_compute. repeat split; reflexivity. Qed.

(* Power management: the status bits the specification makes read-only (No_Soft_Reset, bit 3; the data
   scale, bits 13-14) are stored from the client's write. *)
Theorem C49_pm_refuted : exists e p answers rans c data p',
  caps_ok p /\ bytes data /\ In c (all_caps p) /\ ~ read_only c /\ cp_ext c = false /\ cp_id c = 1 /\
  config_write e p answers rans (cp_off c + 4) data = (Ok 2, p', []) /\
  N.testbit (byte_at p (cp_off c + 4)) 3 = false /\ N.testbit (byte_at p' (cp_off c + 4)) 3 = true /\
  N.testbit (byte_at p (cp_off c + 5)) 5 = false /\ N.testbit (byte_at p' (cp_off c + 5)) 5 = true.
Proof.
  set (c := mk_cap false 1 0x40 2 8 0). set (p := mk_pci ex_cfg [c] [] None).
  exists ex_env, p, ex_ans, no_reset, c, [8; 0x20]. eexists. split.
  { destruct ex_caps_ok as [A B _ _ _ _]. constructor; auto.
    - intros d [<-|[]]; unfold cap_wf; cbn; lia.
    - intros d [<-|[]]; cbn; lia.
    - intros d [<-|[]]; vm_compute; discriminate.
    - unfold p, all_caps. cbn [pc_caps pc_ext_caps app]. repeat constructor. }
  split; [repeat constructor|]. split; [left; reflexivity|]. split; [unfold read_only; cbn; discriminate|].
  repeat split; vm_compute; reflexivity.
Qed.
Print Assumptions C49_pm_refuted.

(* One-byte registers (cache line size, latency timer, interrupt line) take the byte written; the expansion
   ROM address can be cleared and answers the sizing writes, everything else is EINVAL and changes nothing. *)
Theorem C45_simple_registers : forall e p answers rans,
  bytes (pc_cfg p) -> (64 <= length (pc_cfg p))%nat ->
  (forall off b, off = 12 \/ off = 13 \/ off = 60 -> b < 256 ->
     exists p', config_write e p answers rans off [b] = (Ok 1, p', []) /\ byte_at p' off = b /\ forall x, x <> off -> byte_at p' x = byte_at p x) /\
  (forall v, v < two32 -> exists p',
     config_write e p answers rans 48 (le_bytes 4 v) =
       ((if (v =? 0) || (v =? 0xfffff800) || (v =? 0xfffffffe) || (v =? 0xffffffff) then Ok 4 else Err EINVAL), p', []) /\
     field p' 48 4 = (if v =? 0 then 0 else field p 48 4) /\ forall x, x < 48 \/ 52 <= x -> byte_at p' x = byte_at p x).
Proof.
  intros e p answers rans B L. split.
  - intros off b Ho Hb. destruct (wr_some (pc_cfg p) (N.to_nat off) 1 b ltac:(lia)) as [c W]. exists (set_cfg p c).
    split; [|split].
    + assert (Rb : rd [b] 0 1 = Some b) by (change (rd [b] 0 1) with (Some (b + 256 * 0)); f_equal; lia).
      destruct Ho as [->|[->| ->]]; (apply hdr_step_write; [lia|reflexivity|lia|reflexivity|]); unfold hdr_write; cbn [N.eqb Pos.eqb orb];
        unfold need; rewrite Rb, W; reflexivity.
    + unfold byte_at. cbn [set_cfg pc_cfg]. rewrite (wr_nth _ _ _ _ _ _ W).
      replace (Nat.leb (N.to_nat off) (N.to_nat off) && Nat.ltb (N.to_nat off) (N.to_nat off + 1)) with true by lia.
      rewrite Nat.sub_diag. cbn [le_bytes nth]. apply N.mod_small. exact Hb.
    + intros x Hx. unfold byte_at. cbn [set_cfg pc_cfg]. eapply wr_other; [exact W|]. lia.
  - intros v Hv.
    assert (Rv : rd (le_bytes 4 v) 0 4 = Some v) by (rewrite <- (app_nil_r (le_bytes 4 v)); apply rd_front; exact Hv).
    assert (Ln : N.of_nat (length (le_bytes 4 v)) = 4) by (rewrite le_bytes_length; reflexivity).
    assert (HW : hdr_write e (pc_cfg p) 48 (le_bytes 4 v) =
       match erom_write v with None => (Err EINVAL, pc_cfg p) | Some false => (Ok tt, pc_cfg p)
       | Some true => match wr (pc_cfg p) 48 4 0 with Some c => (Ok tt, c) | None => (Crash OutOfBounds, pc_cfg p) end end).
    { unfold hdr_write. cbn [N.eqb Pos.eqb orb]. unfold need. rewrite Rv. reflexivity. }
    destruct (wr_some (pc_cfg p) 48 4 0 ltac:(lia)) as [c W]. rewrite W in HW. unfold erom_write in HW.
    assert (Same : set_cfg p (pc_cfg p) = p) by (destruct p; reflexivity).
    destruct (v =? 0) eqn:E0.
    + assert (v = 0) by lia. subst v. exists (set_cfg p c). cbn [orb].
      split; [apply hdr_step_write; [lia|reflexivity|lia|exact Ln|exact HW]|]. split.
      * unfold field. cbn [set_cfg pc_cfg]. transitivity (le_val (le_bytes 4 0)); [f_equal|reflexivity].
        apply list_ext; [rewrite firstn_length, skipn_length, (wr_length _ _ _ _ _ W), le_bytes_length; change (N.to_nat 48) with 48%nat; lia|].
        intros i Hi. rewrite firstn_length in Hi. assert (Hi4 : (i < 4)%nat) by lia. rewrite nth_firstn by exact Hi4. rewrite nth_skipn, (wr_nth _ _ _ _ _ _ W).
        change (N.to_nat 48) with 48%nat. replace (Nat.leb 48 (48 + i) && Nat.ltb (48 + i) (48 + 4)) with true by lia. f_equal. lia.
      * intros x Hx. unfold byte_at. cbn [set_cfg pc_cfg]. eapply wr_other; [exact W|]. lia.
    + exists p. split; [|split; [reflexivity|reflexivity]]. cbn [orb]. change 0xfffff800 with 4294965248. change 0xfffffffe with 4294967294. change 0xffffffff with 4294967295.
      rewrite <- Same at 2.
      destruct (v =? 4294965248) eqn:E1; cbn [orb]; [apply hdr_step_write; [lia|reflexivity|lia|exact Ln|exact HW]|].
      destruct (v =? 4294967294) eqn:E2; cbn [orb]; [apply hdr_step_write; [lia|reflexivity|lia|exact Ln|exact HW]|].
      destruct (v =? 4294967295) eqn:E3; cbn [orb]; [apply hdr_step_write; [lia|reflexivity|lia|exact Ln|exact HW]|].
      unfold config_write. rewrite le_bytes_length. set (d := le_bytes 4 v) in *. assert (d <> []) by (unfold d; discriminate).
      destruct d as [|b0 d'] eqn:Ed; [congruence|]. cbn [cfg_write]. unfold write_segment, next_segment.
      change (48 <? PCI_STD_HEADER_SIZEOF) with true. change (reg_size 48) with 4. change (4 =? 0) with false. cbv iota. rewrite HW. reflexivity.
Qed.
Print Assumptions C45_simple_registers.
Example C45_simple_nonvacuous :
  bytes (pc_cfg ex_pci) /\ (64 <= length (pc_cfg ex_pci))%nat /\
  fst (fst (config_write ex_env ex_pci ex_ans no_reset 48 (le_bytes 4 0xfffff800))) = Ok 4 /\
  fst (fst (config_write ex_env ex_pci ex_ans no_reset 48 (le_bytes 4 0x1000))) = Err EINVAL.
Proof. split; [exact (co_bytes _ ex_caps_ok)|]. split; [exact (co_size _ ex_caps_ok)|]. vm_compute. split; reflexivity. Qed.

(* Which writes a PCI Express or power management capability accepts: two bytes at a control register. *)
Theorem C49_accepted_writes : forall e p answers rans c rel data,
  caps_ok p -> bytes data -> data <> [] -> In c (all_caps p) -> ~ read_only c -> ~ by_callback c -> cp_ext c = false ->
  2 <= rel -> rel + N.of_nat (length data) <= cp_size c ->
  let o := fst (fst (config_write e p answers rans (cp_off c + rel) data)) in
  (cp_id c = 16 -> rel <> 8 -> o = if (N.of_nat (length data) =? 2) && existsb (N.eqb rel) [16; 24; 28; 40; 48; 56] then Ok 2 else Err EINVAL) /\
  (cp_id c = 1 -> o = if (N.of_nat (length data) =? 2) && (rel =? 4) then Ok 2
                      else if (N.of_nat (length data) =? 2) && (rel =? 2) then Err ENOTSUP
                      else if (N.of_nat (length data) =? 1) && ((rel =? 6) || (rel =? 7)) then Err ENOTSUP else Err EINVAL).
Proof.
  intros e p answers rans c rel data K Bd ND I NR NC X Hr Hn. cbv zeta.
  pose proof (co_wf _ K c I) as W. unfold cap_wf in W. rewrite X in W. pose proof (co_high _ K c I) as HI. unfold cap_end in *.
  assert (Gen : cp_id c = 16 \/ cp_id c = 1 -> config_write e p answers rans (cp_off c + rel) data =
    match cap_write e (pc_cfg p) c (cp_off c + rel) data (rans 0%nat) with
    | (Ok _, cfg', ev) => (Ok (N.of_nat (length data)), set_cfg p cfg', ev)
    | (Err er, cfg', ev) => (Err er, set_cfg p cfg', ev)
    | (Crash cr, cfg', ev) => (Crash cr, set_cfg p cfg', ev)
    end).
  { intros Hid. apply single_cap_write; auto; unfold cap_end; lia. }
  assert (Put : forall b, b + N.of_nat (length data) <= cp_size c -> exists c', put_slice (pc_cfg p) (N.to_nat (cp_off c + b)) data = Some c').
  { intros b Hb. apply put_slice_some. lia. }
  split.
  - intros Hid H8. rewrite Gen by auto. unfold cap_write. rewrite X, Hid. cbn [N.eqb Pos.eqb PCI_CAP_ID_PM PCI_CAP_ID_EXP].
    replace (cp_off c + rel - cp_off c) with rel by lia. unfold cap_write_px.
    destruct (N.of_nat (length data) =? 2) eqn:E2; cbn [negb andb]; [|reflexivity].
    replace (rel =? 8) with false by lia. cbn [existsb]. destruct (Put rel Hn) as [c' Pc]. rewrite Pc. assert (N.of_nat (length data) = 2) as -> by lia.
    destruct (rel =? 16), (rel =? 24), (rel =? 28), (rel =? 40), (rel =? 48), (rel =? 56); reflexivity.
  - intros Hid. rewrite Gen by auto. unfold cap_write. rewrite X, Hid. cbn [N.eqb Pos.eqb PCI_CAP_ID_PM].
    replace (cp_off c + rel - cp_off c) with rel by lia. unfold cap_write_pm.
    destruct (rel =? 2) eqn:R2; [replace (rel =? 4) with false by lia; replace (rel =? 6) with false by lia; replace (rel =? 7) with false by lia;
      rewrite ?andb_false_r, ?andb_true_r; cbn [fst]; destruct (N.of_nat (length data) =? 2); reflexivity|].
    destruct (rel =? 4) eqn:R4.
    { replace (rel =? 6) with false by lia. replace (rel =? 7) with false by lia. rewrite ?andb_false_r, ?andb_true_r. cbn [orb]. rewrite ?andb_false_r.
      destruct (N.of_nat (length data) =? 2) eqn:E2; cbn [negb]; [|reflexivity]. assert (rel = 4) by lia. subst rel. destruct (Put 4 Hn) as [c' Pc]. rewrite Pc.
      assert (N.of_nat (length data) = 2) as -> by lia. reflexivity. }
    rewrite !andb_false_r. destruct ((rel =? 6) || (rel =? 7)); rewrite ?andb_false_r, ?andb_true_r; cbn [fst];
      destruct (N.of_nat (length data) =? 1); reflexivity.
Qed.
Print Assumptions C49_accepted_writes.
Example C49_accepted_nonvacuous :
  fst (fst (config_write ex_env ex_pci ex_ans no_reset 0x80 [0; 0])) = Ok 2 /\
  fst (fst (config_write ex_env ex_pci ex_ans no_reset 0x82 [0; 0])) = Err EINVAL /\
  exists c, In c (all_caps ex_pci) /\ ~ read_only c /\ ~ by_callback c /\ cp_ext c = false /\ cp_id c = 16 /\ cp_off c = 0x70.
Proof.
  split; [vm_compute; reflexivity|]. split; [vm_compute; reflexivity|].
  destruct (find (fun c => cp_id c =? 16) (all_caps ex_pci)) as [c|] eqn:F; [|vm_compute in F; discriminate F].
  exists c. vm_compute in F. injection F as <-. split; [vm_compute; tauto|]. repeat split; vm_compute; discriminate.
Qed.
