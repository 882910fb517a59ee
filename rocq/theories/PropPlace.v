(* C61: capabilities that the device puts at places of its own choice. *)
From Coq Require Import NArith ZArith List Bool Lia ZifyBool ZifyNat ZifyN.
From Verif Require Import Base Types Bytes BytesProofs Migr Pci SpecPci SpecCaps BufProofs PciProofs CapsProofs CapsAdd PropCaps SpecPlace CapsPlace.
Import ListNotations.
Open Scope N_scope.
Ltac Zify.zify_post_hook ::= idtac.

Lemma pinv_well_placed p0 p l : pinv p0 p l -> ForallOrdPairs apart l -> well_placed p0 p l.
Proof.
  intros I O. constructor.
  - exact O.
  - intros a Ha. pose proof (pv_each _ _ _ I a Ha) as P. pose proof (pl_low _ _ P). pose proof (pl_high _ _ P). pose proof (pv_256 _ _ _ I). destruct (ad_ext a); lia.
  - apply I.
  - apply I.
  - unfold all_caps. apply Forall2_app; [apply I|apply I].
  - intros a Ha. exact (pl_holds _ _ (pv_each _ _ _ I a Ha)).
  - exact (pv_frame _ _ _ I).
Qed.

(* Capabilities added at any positions, in any order: each one with a position is where it was asked for; none overlaps
   another or the header; both lists visit exactly the added capabilities, in the order of the requests; every
   capability holds its data; nothing else changed.  Provided that the places the library chose for requests without a
   position were free, which it does not check (C61_chosen_refuted), and that standard capabilities end in the first
   256 bytes (C47_past_256_refuted). *)
Theorem C61_placed_partial : forall e express p0 reqs l p, fresh p0 -> Forall (fun r => good_request (snd r)) reqs ->
  add_all_at e express p0 reqs = Some (l, p) -> (forall a, In a l -> ad_ext a = false -> ad_end a <= 256) -> chosen_free [] reqs l ->
  Forall2 granted reqs l /\ well_placed p0 p l.
Proof.
  intros e express p0 reqs l p F G A H C.
  destruct (add_all_at_inv e express p0 F reqs p0 [] l p (fresh_pinv _ F) G A H C ltac:(constructor)) as (I & Gr & O).
  split; [exact Gr|]. apply pinv_well_placed; assumption.
Qed.
Print Assumptions C61_placed_partial.

(* So if every request gives a position there is nothing to provide for. *)
Theorem C61_explicit : forall e express p0 reqs l p, fresh p0 -> Forall (fun r => good_request (snd r)) reqs ->
  (forall r, In r reqs -> fst r <> 0) -> add_all_at e express p0 reqs = Some (l, p) ->
  (forall a, In a l -> ad_ext a = false -> ad_end a <= 256) ->
  Forall2 granted reqs l /\ well_placed p0 p l.
Proof.
  intros e express p0 reqs l p F G NZ A H. eapply C61_placed_partial; eauto.
  clear - NZ. generalize (@nil added) as seen. revert l. induction reqs as [|r reqs IH]; intros l seen; [exact Logic.I|]. destruct l as [|a l]; [exact Logic.I|].
  cbn [chosen_free]. split; [intros E; destruct (NZ r (or_introl eq_refl) E)|]. apply IH. intros r' Hr. apply NZ. now right.
Qed.
Print Assumptions C61_explicit.

(* Nor if positions rise: then the places the library chooses are free, and what clients read and write is governed by
   the same rules as without positions (C43 to C46 and C49, which assume caps_ok). *)
Theorem C61_rising : forall e express p0 reqs l p, fresh p0 -> Forall (fun r => good_request (snd r)) reqs ->
  add_all_at e express p0 reqs = Some (l, p) -> (forall a, In a l -> ad_ext a = false -> ad_end a <= 256) -> rising [] reqs l ->
  Forall2 granted reqs l /\ well_placed p0 p l /\ caps_ok p.
Proof.
  intros e express p0 reqs l p F G A H R.
  destruct (rising_inv e express p0 F reqs p0 [] l p (fresh_pinv _ F) G A H R ltac:(constructor) ltac:(constructor)) as (C & O1 & O2). cbn [app] in O1, O2.
  destruct (add_all_at_inv e express p0 F reqs p0 [] l p (fresh_pinv _ F) G A H C ltac:(constructor)) as (I & Gr & O). cbn [app] in I, O.
  split; [exact Gr|]. split; [apply pinv_well_placed; assumption|].
  assert (From : forall c, In c (all_caps p) -> exists a, In a l /\ recorded a c).
  { intros c Hc. unfold all_caps in Hc. apply in_app_or in Hc.
    destruct Hc as [Hc|Hc]; [destruct (recorded_in _ _ _ (pv_caps _ _ _ I) Hc) as [a [Ha R']]; apply in_stds in Ha
                            |destruct (recorded_in _ _ _ (pv_exts _ _ _ I) Hc) as [a [Ha R']]; apply in_exts in Ha]; exists a; tauto. }
  constructor.
  - apply I.
  - pose proof (pv_256 _ _ _ I). lia.
  - apply I.
  - intros c Hc. destruct (From c Hc) as (a & Ha & (_ & _ & -> & _)). pose proof (pl_low _ _ (pv_each _ _ _ I a Ha)) as Q. destruct (ad_ext a); lia.
  - intros c Hc. destruct (From c Hc) as (a & Ha & (_ & _ & E1 & E2 & _)). pose proof (pl_high _ _ (pv_each _ _ _ I a Ha)) as Q. pose proof (pv_256 _ _ _ I).
    unfold cap_end. rewrite E1, E2. unfold ad_end in Q. destruct (ad_ext a); lia.
  - unfold all_caps. apply fop_app; [apply (recorded_order _ _ (pv_caps _ _ _ I)); exact O1|apply (recorded_order _ _ (pv_exts _ _ _ I)); exact O2|].
    intros c d Hc Hd. destruct (recorded_in _ _ _ (pv_caps _ _ _ I) Hc) as [a [Ha S]]. destruct (recorded_in _ _ _ (pv_exts _ _ _ I) Hd) as [b [Hb T]].
    apply in_stds in Ha. apply in_exts in Hb. destruct Ha as [Ha Ea]. destruct Hb as [Hb Eb].
    pose proof (pl_high _ _ (pv_each _ _ _ I a Ha)) as Q. pose proof (pl_low _ _ (pv_each _ _ _ I b Hb)) as Q'. rewrite Ea in Q. rewrite Eb in Q'.
    destruct S as [_ [_ [E1 [E2 _]]]]. destruct T as [_ [_ [E3 _]]]. unfold cap_end. rewrite E1, E2, E3. unfold ad_end in Q. lia.
Qed.
Print Assumptions C61_rising.

(* A position in the header, or on top of any capability that is there (whatever its kind), is not accepted, and a
   request that is not accepted changes nothing. *)
Theorem C61_not_on_top : forall e express p pos flags data off p', bytes data ->
  add_capability e express p pos flags data = (Ok off, p') -> pos <> 0 ->
  off = pos /\ 64 <= pos /\ (N.testbit flags 0 = true -> 256 <= pos) /\
  forall c, In c (all_caps p) -> cap_end c <= pos \/ pos + cap_bytes (N.testbit flags 0) data <= cp_off c.
Proof.
  intros e express p pos flags data off p' B A NZ.
  destruct (add_inversion _ _ _ _ _ _ _ _ B A) as (cfg' & c & x & _ & _ & _ & _ & _ & Pl).
  change (ad_size (mk_added flags data off)) with (cap_bytes (N.testbit flags 0) data) in Pl. change (ad_ext (mk_added flags data off)) with (N.testbit flags 0) in Pl.
  set (n := cap_bytes (N.testbit flags 0) data) in *.
  assert (P1 : forall prev o, cap_put (pc_cfg p) n data prev o = Ok (off, cfg') -> off = o).
  { intros prev o. unfold cap_put, need. repeat match goal with |- context [if ?b then _ else _] => destruct b; try discriminate | |- context [match ?t with _ => _ end] => destruct t; try discriminate end. congruence. }
  assert (P2 : forall prev o, ext_cap_put (pc_cfg p) n data prev o = Ok (off, cfg') -> off = o).
  { intros prev o. unfold ext_cap_put, need. repeat match goal with |- context [if ?b then _ else _] => destruct b; try discriminate | |- context [match ?t with _ => _ end] => destruct t; try discriminate end; congruence. }
  destruct (N.testbit flags 0).
  - unfold ext_cap_place in Pl. replace (negb (pos =? 0)) with true in Pl by lia. unfold need in Pl. cbv zeta in Pl.
    destruct (ext_hdr (pc_cfg p) PCI_CFG_SPACE_SIZE) as [h|]; [|discriminate]. destruct (pos <? PCI_CFG_SPACE_SIZE) eqn:E1; [discriminate|].
    destruct (cap_find_by_offset p pos n) eqn:E2; [discriminate|]. destruct ((fst h =? 0) && negb (pos =? PCI_CFG_SPACE_SIZE)); [discriminate|].
    destruct (last_ext_cap 4097 (pc_cfg p) PCI_CFG_SPACE_SIZE); try discriminate. change PCI_CFG_SPACE_SIZE with 256 in E1.
    split; [exact (P2 _ _ Pl)|]. split; [lia|]. split; [lia|]. intros c' Hc. destruct (CapsPlace.find_none _ _ _ E2 c' Hc); lia.
  - unfold cap_place in Pl. replace (negb (pos =? 0)) with true in Pl by lia. cbv zeta in Pl. destruct (pos <? PCI_STD_HEADER_SIZEOF) eqn:E1; [discriminate|].
    destruct (cap_find_by_offset p pos n) eqn:E2; [discriminate|]. destruct (last_cap 257 (pc_cfg p) 52 0) as [[pv lo]| |]; try discriminate. change PCI_STD_HEADER_SIZEOF with 64 in E1.
    split; [exact (P1 _ _ Pl)|]. split; [lia|]. split; [discriminate|]. intros c' Hc. destruct (CapsPlace.find_none _ _ _ E2 c' Hc); lia.
Qed.
Print Assumptions C61_not_on_top.
Theorem C61_refused_unchanged : forall e express p pos flags data er p', add_capability e express p pos flags data = (Err er, p') -> p' = p.
Proof.
  intros e express p pos flags data er p'. unfold add_capability, need.
  repeat match goal with
  | |- context [if ?b then (_, _) else _] => destruct b; [congruence|]
  | |- context [match rd ?d ?o ?n with _ => _ end] => destruct (rd d o n); [|congruence]
  | |- context [match cap_hdr_size ?a ?b with _ => _ end] => destruct (cap_hdr_size a b); [|congruence]
  | |- context [match cap_size ?a ?b with _ => _ end] => destruct (cap_size a b); try congruence
  end.
  match goal with |- context [match ?t with Ok _ => _ | Err _ => _ | Crash _ => _ end] => destruct t as [[o c]| |] end; congruence.
Qed.
Print Assumptions C61_refused_unchanged.

(* Examples. *)
Definition ex_at (n : nat) (reqs : list at_pos) : list added * pci :=
  match add_all_at ex_env47 true (ex_pci47 n) reqs with Some r => r | None => ([], ex_pci47 0) end.
(* Power management at 0x80, MSI-X below it at 0x50, two extended ones, the second below the third. *)
Definition ex_explicit : list at_pos := [(128, (0, ex_pm)); (80, (2, ex_msix)); (256, (1, ex_dsn)); (512, (1, ex_ext_vendor)); (400, (1, ex_dsn))].
Example C61_explicit_case : fresh (ex_pci47 4096) /\ Forall (fun r => good_request (snd r)) ex_explicit /\ (forall r, In r ex_explicit -> fst r <> 0) /\
  add_all_at ex_env47 true (ex_pci47 4096) ex_explicit = Some (ex_at 4096 ex_explicit) /\
  (forall a, In a (fst (ex_at 4096 ex_explicit)) -> ad_ext a = false -> ad_end a <= 256).
Proof.
  split; [apply ex_fresh; now right|]. split; [unfold ex_explicit; repeat constructor; discriminate|]. split.
  { intros r H. cbn [ex_explicit In] in H. decompose [or] H; subst; try contradiction; discriminate. }
  split; [vm_compute; reflexivity|].
  assert (V : forallb (fun a => ad_ext a || (ad_end a <=? 256)) (fst (ex_at 4096 ex_explicit)) = true) by (vm_compute; reflexivity).
  rewrite forallb_forall in V. intros a Ha E. specialize (V a Ha). rewrite E in V. cbn [orb] in V. lia.
Qed.
(* Positions that rise, and choices of the library in between. *)
Definition ex_rising : list at_pos := [(0, (0, ex_pm)); (96, (2, ex_msix)); (0, (4, ex_vendor)); (256, (1, ex_dsn)); (0, (1, ex_ext_vendor)); (1024, (1, ex_dsn))].
Example C61_rising_case : Forall (fun r => good_request (snd r)) ex_rising /\
  add_all_at ex_env47 true (ex_pci47 4096) ex_rising = Some (ex_at 4096 ex_rising) /\
  map ad_off (fst (ex_at 4096 ex_rising)) = [64; 96; 108; 256; 268; 1024] /\ rising [] ex_rising (fst (ex_at 4096 ex_rising)) /\ chosen_free [] ex_rising (fst (ex_at 4096 ex_rising)).
Proof.
  split; [unfold ex_rising; repeat constructor; discriminate|]. split; [vm_compute; reflexivity|]. split; [vm_compute; reflexivity|].
  split; vm_compute; repeat split; try congruence; repeat constructor; try (right; discriminate); try (left; discriminate); discriminate.
Qed.

(* ---------- where it fails *)

(* The library puts a capability behind the one that was added last, without checking what is there: after a position
   below an earlier capability it puts the next one on top of that. *)
Theorem C61_chosen_refuted : exists e p0 reqs l p a b, fresh p0 /\ Forall (fun r => good_request (snd r)) reqs /\
  add_all_at e false p0 reqs = Some (l, p) /\ (forall x, In x l -> ad_end x <= 256) /\ In a l /\ In b l /\ ad_ext a = false /\ ad_ext b = false /\
  ad_off a < ad_off b < ad_end a /\ ~ holds (pc_cfg p) b.
Proof.
  set (reqs := [(80, (0, ex_pm)); (64, (4, ex_vendor)); (0, (2, ex_msix))] : list at_pos).
  set (r := ex_at 256 reqs). exists ex_env47, (ex_pci47 256), reqs, (fst r), (snd r), (mk_added 2 ex_msix 72), (mk_added 0 ex_pm 80).
  split; [apply ex_fresh; now left|]. split; [unfold reqs; repeat constructor; discriminate|]. split; [vm_compute; reflexivity|]. split.
  { assert (V : forallb (fun a => ad_end a <=? 256) (fst r) = true) by (vm_compute; reflexivity).
    rewrite forallb_forall in V. intros a Ha. specialize (V a Ha). lia. }
  split; [vm_compute; auto|]. split; [vm_compute; auto|]. split; [reflexivity|]. split; [reflexivity|]. split; [vm_compute; split; reflexivity|].
  intros H. specialize (H 0 ltac:(reflexivity) ltac:(discriminate)). vm_compute in H. discriminate H.
Qed.
Print Assumptions C61_chosen_refuted.

(* A position whose capability would end exactly where another begins is refused, although they do not overlap. *)
Theorem C61_adjacent_refuted : exists e p flags data pos c, add_capability e false p pos flags data = (Err EINVAL, p) /\
  all_caps p = [c] /\ 64 <= pos /\ pos + cap_bytes false data = cp_off c /\
  exists off p', add_capability e false p (pos - 4) flags data = (Ok off, p').
Proof.
  exists ex_env47, (snd (ex_at 256 [(128, (0, ex_pm))])), 2, ex_msix, 116. eexists. split; [vm_compute; reflexivity|]. split; [vm_compute; reflexivity|].
  split; [vm_compute; discriminate|]. split; [vm_compute; reflexivity|]. eexists _, _. vm_compute. reflexivity.
Qed.
Print Assumptions C61_adjacent_refuted.

(* Two positions are not refused but fail an assertion: an extended capability that is not aligned to 4 bytes, and a
   position close to 2^64, whose end wraps around. *)
Theorem C61_assertions_refuted : exists e p, 
  fst (add_capability e true p 302 1 ex_dsn) = Crash AssertFailed /\ fst (add_capability e true p (2 ^ 64 - 4) 0 ex_pm) = Crash AssertFailed.
Proof. exists ex_env47, (snd (ex_at 4096 [(256, (1, ex_dsn))])). split; vm_compute; reflexivity. Qed.
Print Assumptions C61_assertions_refuted.
Example C61_not_on_top_case : exists off p', add_capability ex_env47 true (snd (ex_at 4096 [(128, (0, ex_pm))])) 80 2 ex_msix = (Ok off, p') /\
  bytes ex_msix /\ length (all_caps (snd (ex_at 4096 [(128, (0, ex_pm))]))) = 1%nat /\
  fst (add_capability ex_env47 true (snd (ex_at 4096 [(128, (0, ex_pm))])) 132 2 ex_msix) = Err EINVAL.
Proof. eexists _, _. split; [vm_compute; reflexivity|]. split; [repeat constructor|]. split; vm_compute; reflexivity. Qed.
