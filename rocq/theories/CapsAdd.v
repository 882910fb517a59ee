(* Adding capabilities keeps the lists well formed. *)
From Coq Require Import NArith ZArith List Bool Lia ZifyBool ZifyNat ZifyN Sorted.
From Verif Require Import Base Types Bytes BytesProofs Migr Pci SpecPci SpecCaps BufProofs PciProofs PciWrite CapsProofs.
Import ListNotations.
Open Scope N_scope.
Ltac Zify.zify_post_hook ::= idtac.

Definition stds (l : list added) := filter (fun a => negb (ad_ext a)) l.
Definition exts (l : list added) := filter ad_ext l.

Lemma in_stds a l : In a (stds l) <-> In a l /\ ad_ext a = false.
Proof. unfold stds. rewrite filter_In. destruct (ad_ext a); cbn [negb]; intuition congruence. Qed.
Lemma in_exts a l : In a (exts l) <-> In a l /\ ad_ext a = true.
Proof. unfold exts. rewrite filter_In. tauto. Qed.

(* Everything that holds of one added capability. *)
Record placed (cfg : list N) (a : added) : Prop := {
  pl_holds : holds cfg a;
  pl_bytes : bytes (ad_data a);
  pl_size : (if ad_ext a then 8 else 3) <= ad_size a;
  pl_known : known_id (ad_ext a) (ad_data a);
  pl_low : (if ad_ext a then 256 else 64) <= ad_off a;
  pl_high : ad_end a <= (if ad_ext a then N.of_nat (length cfg) else 256)
}.

Definition before (a b : added) : Prop := ad_end a <= ad_off b.

Record inv (p0 p : pci) (l : list added) : Prop := {
  iv_bytes : bytes (pc_cfg p);
  iv_len : length (pc_cfg p) = length (pc_cfg p0);
  iv_256 : (256 <= length (pc_cfg p))%nat;
  iv_4096 : (length (pc_cfg p) <= 4096)%nat;
  iv_std : std_list (pc_cfg p) (map ad_off (stds l));
  iv_ext : ext_list (pc_cfg p) (map ad_off (exts l));
  iv_each : forall a, In a l -> placed (pc_cfg p) a;
  iv_stdo : ForallOrdPairs before (stds l);
  iv_exto : ForallOrdPairs before (exts l);
  iv_stdn : (length (stds l) <= 128)%nat;
  iv_extn : (length (exts l) <= 128)%nat;
  iv_caps : Forall2 recorded (stds l) (pc_caps p);
  iv_exts : Forall2 recorded (exts l) (pc_ext_caps p);
  iv_wf : forall c, In c (all_caps p) -> cap_wf c;
  iv_frame : forall x, x <> 52 -> (forall a, In a l -> ~ (ad_off a <= x < ad_end a)) -> cfg_byte (pc_cfg p) x = cfg_byte (pc_cfg p0) x
}.

Lemma placed_known cfg a : bytes cfg -> placed cfg a -> ad_end a <= N.of_nat (length cfg) ->
  cap_size (skipn (N.to_nat (ad_off a)) cfg) (ad_ext a) = Ok (ad_size a).
Proof.
  intros B P He. set (d' := skipn (N.to_nat (ad_off a)) cfg).
  assert (S : forall i, (i < 8)%nat -> (if ad_ext a then i <> 2 /\ i <> 3 else i <> 1)%nat -> (ad_ext a = false -> i < 3)%nat -> nth i (ad_data a) 0 = nth i d' 0).
  { intros i Hi Hx H3. unfold d'. rewrite nth_skipn.
    pose proof (pl_holds _ _ P (N.of_nat i)) as H. unfold cfg_byte in H.
    replace (N.to_nat (ad_off a + N.of_nat i)) with (N.to_nat (ad_off a) + i)%nat in H by lia. rewrite Nat2N.id in H.
    symmetry. apply H.
    - pose proof (pl_size _ _ P). destruct (ad_ext a); [lia|]. specialize (H3 eq_refl). lia.
    - destruct (ad_ext a); lia. }
  destruct (cap_bytes_same _ _ _ S (pl_known _ _ P)) as [K E].
  unfold ad_size at 1. rewrite E. apply cap_size_of; [now apply bytes_skipn|exact K|].
  unfold d'. rewrite skipn_length. pose proof (pl_size _ _ P). unfold ad_end in He. destruct (ad_ext a); lia.
Qed.

Lemma before_last l a : ForallOrdPairs before l -> (forall b, In b l -> 1 <= ad_size b) -> l <> [] -> forall d, In a l -> a = last l d \/ ad_end a <= ad_off (last l d).
Proof.
  induction l as [|x l IH]; intros H Sz Hn d Ha; [congruence|]. inversion H as [|? ? F H']; subst.
  destruct l as [|y l].
  - destruct Ha as [<-|[]]. now left.
  - change (last (x :: y :: l) d) with (last (y :: l) d).
    destruct Ha as [<-|Ha].
    + right. rewrite Forall_forall in F. apply F. apply last_in. discriminate.
    + apply IH; auto; [|discriminate]. intros b Hb. apply Sz. now right.
Qed.

Lemma offs_nodup l : ForallOrdPairs before l -> (forall b, In b l -> 1 <= ad_size b) -> NoDup (map ad_off l).
Proof.
  induction l as [|x l IH]; intros H Sz; cbn [map]; constructor; inversion H as [|? ? F H']; subst.
  - intros Hin. apply in_map_iff in Hin. destruct Hin as [y [E Hy]]. rewrite Forall_forall in F. specialize (F y Hy).
    unfold before, ad_end in F. pose proof (Sz x ltac:(now left)). lia.
  - apply IH; auto. intros b Hb. apply Sz. now right.
Qed.

Lemma last_map {A B} (f : A -> B) l d : last (map f l) (f d) = f (last l d).
Proof. revert d. induction l as [|x l IH]; intros d; [reflexivity|]. cbn [map]. rewrite !last_cons. apply IH. Qed.

(* What putting a capability down does. *)
Lemma cap_put_spec cfg size data prevp o off c : bytes cfg -> bytes data -> cap_put cfg size data prevp o = Ok (off, c) ->
  off = o /\ off + size <= N.of_nat (length cfg) /\ (N.to_nat size <= length data)%nat /\ bytes c /\ length c = length cfg /\
  (forall j, cfg_byte c j = if j =? off + 1 then 0 else if j =? prevp then off mod 256
                            else if (off <=? j) && (j <? off + size) then nth (N.to_nat (j - off)) data 0 else cfg_byte cfg j).
Proof.
  intros B Bd.
  unfold cap_put, need. destruct (N.of_nat (length cfg) <? w64 (o + size)) eqn:E1; [discriminate|].
    destruct (slice data 0 (N.to_nat size)) as [d|] eqn:Sd; [|discriminate].
    destruct (N.of_nat (length cfg) <=? o) eqn:E2; [discriminate|].
    destruct (put_slice cfg (N.to_nat o) d) as [c1|] eqn:P1; [|discriminate].
    destruct (wr c1 (N.to_nat prevp) 1 o) as [c2|] eqn:P2; [|discriminate].
    destruct (N.of_nat (length cfg) <=? o + 1) eqn:E3; [discriminate|].
    destruct (wr c2 (N.to_nat (o + 1)) 1 0) as [c3|] eqn:P3; [|discriminate].
    intros H. injection H as <- <-. pose proof (slice_length _ _ _ _ Sd) as Ld. pose proof (slice_bound _ _ _ _ Sd).
    pose proof (put_slice_bound _ _ _ _ P1). split; [reflexivity|]. split; [lia|].
    split; [lia|]. pose proof (slice_bytes _ _ _ _ Bd Sd) as Bdd.
    split; [exact (wr_bytes _ _ _ _ _ (wr_bytes _ _ _ _ _ (put_slice_bytes _ _ _ _ B Bdd P1) P2) P3)|].
    split; [rewrite (wr_length _ _ _ _ _ P3), (wr_length _ _ _ _ _ P2); exact (put_slice_length _ _ _ _ P1)|].
    intros j. rewrite (wr1_byte _ _ _ _ j P3). destruct (j =? o + 1); [reflexivity|].
    rewrite (wr1_byte _ _ _ _ j P2). destruct (j =? prevp); [reflexivity|].
    rewrite (put_byte _ _ _ _ j P1). rewrite Ld, N2Nat.id.
    destruct ((o <=? j) && (j <? o + size)) eqn:E; [|reflexivity].
    apply (slice0_nth _ _ _ _ Sd). lia.
Qed.

(* What cap_place does. *)
Lemma place_std p size data off c (l : list added) : bytes (pc_cfg p) -> bytes data -> (256 <= length (pc_cfg p))%nat ->
  (length (pc_cfg p) <= 4096)%nat ->
  std_list (pc_cfg p) (map ad_off l) -> (length l <= 128)%nat -> (forall a, In a l -> ad_ext a = false /\ placed (pc_cfg p) a) ->
  cap_place p 0 size data = Ok (off, c) ->
  let z := last l (mk_added 0 [] 0) in
  exists prev, ((l = [] /\ prev = 52 /\ off = 64) \/ (l <> [] /\ prev = ad_off z + 1 /\ ad_end z <= off < ad_end z + 4)) /\
  off + size <= N.of_nat (length (pc_cfg p)) /\ (N.to_nat size <= length data)%nat /\
  bytes c /\ length c = length (pc_cfg p) /\
  (forall j, cfg_byte c j = if j =? off + 1 then 0 else if j =? prev then off mod 256
                            else if (off <=? j) && (j <? off + size) then nth (N.to_nat (j - off)) data 0 else cfg_byte (pc_cfg p) j).
Proof.
  intros B Bd L256 L4096 W Ln Hl. unfold cap_place. change (negb (0 =? 0)) with false. cbv iota zeta.
  rewrite (last_cap_walk (pc_cfg p) (map ad_off l) 257 52 0).
  2: exact W. 2: lia.
  2: { intros x Hx. apply in_map_iff in Hx. destruct Hx as [a [<- Ha]]. destruct (Hl a Ha) as [E P].
       pose proof (pl_high _ _ P) as Hh. pose proof (pl_size _ _ P). unfold ad_end in Hh. rewrite E in *. lia. }
  2: { rewrite map_length. lia. }
  set (pv := last (map (fun x => x + 1) (map ad_off l)) 52).
  match goal with |- context [last (map ad_off l) 0 =? 0] => set (lo := last (map ad_off l) 0) end.
  set (place := cap_put (pc_cfg p) size data).
  assert (PL : forall prevp o, place prevp o = Ok (off, c) ->
    off = o /\ off + size <= N.of_nat (length (pc_cfg p)) /\ (N.to_nat size <= length data)%nat /\ bytes c /\ length c = length (pc_cfg p) /\
    (forall j, cfg_byte c j = if j =? off + 1 then 0 else if j =? prevp then off mod 256
                            else if (off <=? j) && (j <? off + size) then nth (N.to_nat (j - off)) data 0 else cfg_byte (pc_cfg p) j)).
  { intros prevp o. now apply cap_put_spec. }
  clearbody place. intros H. exists pv. revert H.
  assert (C : l = [] \/ l <> []) by (destruct l; [now left|right; discriminate]). destruct C as [El|Hne].
  - assert (Elo : lo = 0) by (unfold lo; rewrite El; reflexivity). assert (Epv : pv = 52) by (unfold pv; rewrite El; reflexivity).
    rewrite Elo. change (0 =? 0) with true. cbv iota. intros H. destruct (PL _ _ H) as [E R].
    split; [left; auto|]. exact R.
  -
    assert (Elo : lo = ad_off (last l (mk_added 0 [] 0))).
    { unfold lo. change 0 with (ad_off (mk_added 0 [] 0)) at 1. apply last_map. }
    assert (Epv : pv = ad_off (last l (mk_added 0 [] 0)) + 1).
    { unfold pv. rewrite map_map. destruct l as [|a0 l0]; [congruence|]. cbn [map]. rewrite !last_cons. apply (last_map (fun a => ad_off a + 1)). }
    set (z := last l (mk_added 0 [] 0)) in *.
    assert (Hz : In z l) by (apply last_in; exact Hne). destruct (Hl z Hz) as [Ez Pz].
    pose proof (pl_low _ _ Pz) as Lz. pose proof (pl_high _ _ Pz) as Hzh. pose proof (pl_size _ _ Pz) as Sz. rewrite Ez in *.
    replace (lo =? 0) with false by lia. rewrite Elo.
    pose proof (placed_known _ _ B Pz ltac:(lia)) as Ks. rewrite Ez in Ks. rewrite Ks.
    change (ad_off z + ad_size z) with (ad_end z). intros H. destruct (PL _ _ H) as [E R].
    pose proof (round4 (ad_end z) ltac:(change (2 ^ 62) with 4611686018427387904; lia)) as [_ Rd].
    split; [right; split; [exact Hne|]; split; [exact Epv|rewrite E; lia]|]. exact R.
Qed.

Lemma ext_cap_put_spec cfg size data prev o off c : bytes cfg -> bytes data -> (length cfg <= 4096)%nat -> ext_cap_put cfg size data prev o = Ok (off, c) ->
  off = o /\ off + size <= N.of_nat (length cfg) /\ (N.to_nat size <= length data)%nat /\ bytes c /\ length c = length cfg /\
  ext_next c off = 0 /\ (forall h, prev = Some h -> h + 4 <= off \/ off + 4 <= h -> ext_next c h = off) /\
  (forall j, j <> off + 2 -> j <> off + 3 -> (forall h, prev = Some h -> j <> h + 2 /\ j <> h + 3) ->
   cfg_byte c j = if (off <=? j) && (j <? off + size) then nth (N.to_nat (j - off)) data 0 else cfg_byte cfg j).
Proof.
  intros B Bd L4096.
  unfold ext_cap_put, need. destruct (N.of_nat (length cfg) <? w64 (o + size)) eqn:E1; [discriminate|].
    destruct (slice data 0 (N.to_nat size)) as [d|] eqn:Sd; [|discriminate].
    destruct (N.of_nat (length cfg) <=? o) eqn:E2; [discriminate|].
    destruct (put_slice cfg (N.to_nat o) d) as [c1|] eqn:P1; [|discriminate].
    pose proof (slice_length _ _ _ _ Sd) as Ld. pose proof (slice_bound _ _ _ _ Sd) as Ls.
    pose proof (slice_bytes _ _ _ _ Bd Sd) as Bdd. pose proof (put_slice_bytes _ _ _ _ B Bdd P1) as B1.
    pose proof (put_slice_length _ _ _ _ P1) as L1.
    assert (D1 : forall j, cfg_byte c1 j = if (o <=? j) && (j <? o + size) then nth (N.to_nat (j - o)) data 0 else cfg_byte cfg j).
    { intros j. rewrite (put_byte _ _ _ _ j P1). rewrite Ld, N2Nat.id.
      destruct ((o <=? j) && (j <? o + size)) eqn:E; [|reflexivity]. apply (slice0_nth _ _ _ _ Sd). lia. }
    intros H. pose proof (put_slice_bound _ _ _ _ P1) as Hb.
    assert (Fin : exists c2, bytes c2 /\ length c2 = length c1 /\ (forall j, (forall h, prev = Some h -> j <> h + 2 /\ j <> h + 3) -> cfg_byte c2 j = cfg_byte c1 j) /\
                    (forall h, prev = Some h -> ext_next c2 h = o) /\
                    match set_ext_next c2 o 0 with Some c3 => Ok (o, c3) | None => Crash OutOfBounds end = Ok (off, c)).
    { destruct prev as [h|].
      - destruct (negb (N.land o 3 =? 0)); [discriminate|]. destruct (set_ext_next c1 h o) as [c2|] eqn:S1; [|discriminate].
        assert (O4 : o < 4096) by lia. destruct (set_next_spec _ _ _ _ B1 O4 S1) as [B2 [L2 [F2 N2]]].
        exists c2. split; [exact B2|]. split; [exact L2|]. split; [intros j Hj; apply F2; destruct (Hj h eq_refl); assumption|].
        split; [intros h' E; injection E as <-; exact N2|exact H].
      - exists c1. split; [exact B1|]. split; [reflexivity|]. split; [reflexivity|]. split; [discriminate|exact H]. }
    destruct Fin as [c2 [B2 [L2 [F2 [N2 H2]]]]].
    destruct (set_ext_next c2 o 0) as [c3|] eqn:S3; [|discriminate]. injection H2 as <- <-.
    destruct (set_next_spec _ _ _ _ B2 (eq_refl : 0 < 4096) S3) as [B3 [L3 [F3 N3]]].
    split; [reflexivity|]. split; [lia|]. split; [lia|]. split; [exact B3|]. split; [congruence|]. split; [exact N3|].
    split.
    - intros h E Hp. rewrite <- (N2 h E). unfold ext_next. rewrite !F3 by lia. reflexivity.
    - intros j J2 J3 Jh. rewrite F3 by assumption. rewrite F2 by assumption. apply D1.
Qed.

(* What ext_cap_place does. *)
Lemma place_ext p size data off c (l : list added) : bytes (pc_cfg p) -> bytes data -> (256 <= length (pc_cfg p))%nat ->
  (length (pc_cfg p) <= 4096)%nat -> 8 <= size ->
  ext_list (pc_cfg p) (map ad_off l) -> (length l <= 128)%nat -> (forall a, In a l -> ad_ext a = true /\ placed (pc_cfg p) a) ->
  ext_cap_place p 0 size data = Ok (off, c) ->
  let z := last l (mk_added 0 [] 0) in
  ((l = [] /\ off = 256) \/ (l <> [] /\ ad_end z <= off < ad_end z + 4 /\ ext_next c (ad_off z) = off)) /\
  off + size <= N.of_nat (length (pc_cfg p)) /\ (N.to_nat size <= length data)%nat /\
  bytes c /\ length c = length (pc_cfg p) /\ ext_next c off = 0 /\
  (forall j, j <> off + 2 -> j <> off + 3 -> (l <> [] -> j <> ad_off z + 2 /\ j <> ad_off z + 3) ->
     cfg_byte c j = if (off <=? j) && (j <? off + size) then nth (N.to_nat (j - off)) data 0 else cfg_byte (pc_cfg p) j).
Proof.
  intros B Bd L256 L4096 S8 W Ln Hl. unfold ext_cap_place. change (negb (0 =? 0)) with false. cbv iota zeta.
  set (place := ext_cap_put (pc_cfg p) size data).
  unfold need at 1. destruct (ext_hdr (pc_cfg p) PCI_CFG_SPACE_SIZE) as [h|] eqn:EH; [|discriminate].
  change PCI_CFG_SPACE_SIZE with 256 in *.
  assert (L260 : 256 + 4 <= N.of_nat (length (pc_cfg p))).
  { unfold ext_hdr in EH. destruct (N.of_nat (length (pc_cfg p)) <=? 256); [discriminate|].
    destruct (rd (pc_cfg p) (N.to_nat 256) 4) eqn:R; [|discriminate]. apply rd_inv in R. lia. }
  rewrite ext_hdr_fields in EH by assumption. injection EH as <-. cbn [fst].
  assert (PL : forall prev o, place prev o = Ok (off, c) -> (forall h, prev = Some h -> h + 4 <= o) ->
    off = o /\ off + size <= N.of_nat (length (pc_cfg p)) /\ (N.to_nat size <= length data)%nat /\ bytes c /\ length c = length (pc_cfg p) /\
    ext_next c off = 0 /\ (forall h, prev = Some h -> ext_next c h = off) /\
    (forall j, j <> off + 2 -> j <> off + 3 -> (forall h, prev = Some h -> j <> h + 2 /\ j <> h + 3) ->
     cfg_byte c j = if (off <=? j) && (j <? off + size) then nth (N.to_nat (j - off)) data 0 else cfg_byte (pc_cfg p) j)).
  { intros prev o Hp Hh. unfold place in Hp. destruct (ext_cap_put_spec _ _ _ _ _ _ _ B Bd ltac:(lia) Hp) as (E & R1 & R2 & R3 & R4 & R5 & R6 & R7).
    repeat (split; [assumption|]). split; [|exact R7]. intros h Eh. apply R6; [exact Eh|]. rewrite E. left. now apply Hh. }
  clearbody place.
  assert (C : l = [] \/ l <> []) by (destruct l; [now left|right; discriminate]). destruct C as [El|Hne].
  - destruct W as [[W0 _]|[W0 W]].
    + rewrite W0. change (0 =? 0) with true. cbv iota. intros H.
      destruct (PL _ _ H ltac:(discriminate)) as [E [R1 [R2 [R3 [R4 [R5 [_ R6]]]]]]].
      split; [left; auto|]. repeat (split; [assumption|]). intros j J2 J3 _. apply R6; [assumption..|discriminate].
    + rewrite El in W. inversion W.
  - destruct W as [[_ W]|[W0 W]]; [destruct l; [congruence|discriminate]|].
    replace (ext_id (pc_cfg p) 256 =? 0) with false by lia.
    assert (H4 : forall x, In x (map ad_off l) -> x + 4 <= N.of_nat (length (pc_cfg p))).
    { intros x Hx. apply in_map_iff in Hx. destruct Hx as [a [<- Ha]]. destruct (Hl a Ha) as [E P].
       pose proof (pl_high _ _ P) as Hh. pose proof (pl_size _ _ P). unfold ad_end in Hh. rewrite E in *. lia. }
    rewrite (last_ext_walk (pc_cfg p) B (map ad_off l) 4097 256 W ltac:(discriminate) H4) by (rewrite map_length; lia).
    replace (last (map ad_off l) 0) with (ad_off (last l (mk_added 0 [] 0))) by (symmetry; apply (last_map ad_off l (mk_added 0 [] 0))).
    set (z := last l (mk_added 0 [] 0)) in *.
    assert (Hz : In z l) by (apply last_in; exact Hne). destruct (Hl z Hz) as [Ez Pz].
    pose proof (pl_low _ _ Pz) as Lz. pose proof (pl_high _ _ Pz) as Hzh. pose proof (pl_size _ _ Pz) as Sz. rewrite Ez in *.
    pose proof (placed_known _ _ B Pz ltac:(lia)) as Ks. rewrite Ez in Ks. rewrite Ks.
    change (ad_off z + ad_size z) with (ad_end z).
    pose proof (round4 (ad_end z) ltac:(change (2 ^ 62) with 4611686018427387904; lia)) as [_ Rd].
    intros H. destruct (PL _ _ H) as [E [R1 [R2 [R3 [R4 [R5 [R6 R7]]]]]]].
    { intros h E. injection E as <-. unfold ad_end in Rd at 1. lia. }
    split; [right; split; [exact Hne|]; split; [rewrite E; lia|apply R6; reflexivity]|].
    repeat (split; [assumption|]). intros j J2 J3 J. apply R7; [assumption..|]. intros h E'. injection E' as <-. apply J. exact Hne.
Qed.

Lemma add_inversion e express p pos flags data off p' : bytes data -> add_capability e express p pos flags data = (Ok off, p') ->
  let a := mk_added flags data off in
  exists cfg' c x,
  p' = mk_pci cfg' (if ad_ext a then pc_caps p else pc_caps p ++ [c]) (if ad_ext a then pc_ext_caps p ++ [c] else pc_ext_caps p) x /\
  recorded a c /\ known_id (ad_ext a) data /\ ((if ad_ext a then 8 else 3) <= ad_size a -> cap_wf c) /\
  length (if ad_ext a then pc_ext_caps p else pc_caps p) <> 128%nat /\
  (if ad_ext a then ext_cap_place p pos (ad_size a) data else cap_place p pos (ad_size a) data) = Ok (off, cfg').
Proof.
  intros B. unfold add_capability.
  change (has flags CAP_FLAG_EXTENDED) with (has flags (2 ^ 0)). rewrite (has_bit flags 0).
  destruct (negb (N.ldiff flags 7 =? 0)); [discriminate|].
  destruct (has flags CAP_FLAG_CALLBACK && negb (pe_cfg_cb e)); [discriminate|].
  destruct (N.testbit flags 0 && negb express); [discriminate|].
  destruct (Nat.eqb (length (if N.testbit flags 0 then pc_ext_caps p else pc_caps p)) VFU_MAX_CAPS) eqn:E4; [discriminate|].
  unfold need. destruct (rd data 0 (if N.testbit flags 0 then 2 else 1)) as [id|] eqn:R; [|discriminate].
  destruct (cap_hdr_size (N.testbit flags 0) id) as [hsz|] eqn:Hs; [|discriminate].
  destruct (cap_size data (N.testbit flags 0)) as [size| |] eqn:Cs; try discriminate.
  destruct (N.of_nat (length (pc_cfg p)) <=? w64 (pos + size)); [discriminate|].
  destruct (if N.testbit flags 0 then ext_cap_place p pos size data else cap_place p pos size data) as [[o c']| |] eqn:Pl; try discriminate.
  intros H. injection H as <- <-. destruct (cap_size_inv _ _ _ B Cs) as [Es K].
  set (a := mk_added flags data o). exists c', (mk_cap (ad_ext a) id o hsz size flags). eexists.
  split; [reflexivity|].
  assert (Eid : id = if N.testbit flags 0 then nth 0 data 0 + 256 * nth 1 data 0 else nth 0 data 0).
  { pose proof (rd_inv _ _ _ _ R). destruct (N.testbit flags 0); [rewrite rd2 in R by lia|rewrite rd1 in R by lia]; injection R as <-; reflexivity. }
  split; [unfold recorded; cbn [cp_ext cp_id cp_off cp_size cp_flags]; repeat split; auto|].
  split; [exact K|]. split.
  { intros Hz. change (ad_size a) with (cap_bytes (N.testbit flags 0) data) in Hz. change (ad_ext a) with (N.testbit flags 0) in *. rewrite <- Es in Hz.
    unfold cap_wf. cbn [cp_ext cp_id cp_hdr_size cp_size]. unfold cap_hdr_size in Hs.
    unfold PCI_EXT_CAP_ID_DSN, PCI_EXT_CAP_ID_VNDR, PCI_CAP_ID_PM, PCI_CAP_ID_EXP, PCI_CAP_ID_MSI, PCI_CAP_ID_MSIX, PCI_CAP_ID_VNDR in Hs.
    unfold cap_bytes in Es. unfold known_id in K.
    destruct (N.testbit flags 0).
    - destruct K as [K K1]. destruct K as [K|K]; rewrite K, K1 in *; change (3 + 256 * 0) with 3 in *; change (11 + 256 * 0) with 11 in *;
        subst id; cbn in Hs; injection Hs as <-; [left|right]; repeat split; auto.
    - destruct K as [K|[K|[K|[K|K]]]]; rewrite K in *; subst id; cbn in Hs; injection Hs as <-; cbn in Es; subst size.
      + left; auto. + right; left; auto. + right; right; left; auto. + right; right; right; left; auto.
      + right; right; right; right; auto. }
  split; [apply Nat.eqb_neq; exact E4|].
  change (ad_size a) with (cap_bytes (N.testbit flags 0) data). rewrite <- Es. exact Pl.
Qed.

Lemma stds_snoc l a : stds (l ++ [a]) = if ad_ext a then stds l else stds l ++ [a].
Proof. unfold stds. rewrite filter_app. cbn [filter]. destruct (ad_ext a); cbn [negb]; now rewrite ?app_nil_r. Qed.
Lemma exts_snoc l a : exts (l ++ [a]) = if ad_ext a then exts l ++ [a] else exts l.
Proof. unfold exts. rewrite filter_app. cbn [filter]. destruct (ad_ext a); now rewrite ?app_nil_r. Qed.

Lemma forall2_len {A B} (R : A -> B -> Prop) l1 l2 : Forall2 R l1 l2 -> length l1 = length l2.
Proof. induction 1; cbn [length]; congruence. Qed.
Lemma forall2_snoc {A B} (R : A -> B -> Prop) l1 l2 x y : Forall2 R l1 l2 -> R x y -> Forall2 R (l1 ++ [x]) (l2 ++ [y]).
Proof. intros H Hx. apply Forall2_app; [exact H|]. constructor; [exact Hx|constructor]. Qed.

(* An added capability keeps its bytes when only other bytes and its own next pointer change. *)
Lemma placed_keep cfg c a : placed cfg a -> length c = length cfg ->
  (forall j, ad_off a <= j < ad_end a -> (if ad_ext a then j <> ad_off a + 2 /\ j <> ad_off a + 3 else j <> ad_off a + 1) -> cfg_byte c j = cfg_byte cfg j) ->
  placed c a.
Proof.
  intros P L H. destruct P as [P1 P2 P3 P4 P5 P6]. constructor; auto; [|now rewrite L].
  intros i Hi Hx. rewrite H; [apply P1; assumption|unfold ad_end; lia|]. destruct (ad_ext a); lia.
Qed.

Lemma add_step_std e express p0 p l flags data off p' : inv p0 p l -> good_request (flags, data) -> N.testbit flags 0 = false ->
  add_capability e express p 0 flags data = (Ok off, p') -> off + cap_bytes false data <= 256 ->
  inv p0 p' (l ++ [mk_added flags data off]).
Proof.
  intros I [Bd Gs] Fl H H256. cbn [fst snd] in *. set (a := mk_added flags data off).
  destruct (add_inversion _ _ _ _ _ _ _ _ Bd H) as [cfg' [c [x [-> [Rc [K [Wf [Ln Pl]]]]]]]].
  fold a in Rc, K, Wf, Ln, Pl |- *. assert (Ea : ad_ext a = false) by exact Fl. rewrite Ea in *. rewrite Fl in Gs.
  assert (Ls : length (stds l) = length (pc_caps p)) by (eapply forall2_len; exact (iv_caps _ _ _ I)).
  assert (Hp : forall b, In b (stds l) -> ad_ext b = false /\ placed (pc_cfg p) b).
  { intros b Hb. apply in_stds in Hb. destruct Hb as [Hb Eb]. split; [exact Eb|]. now apply (iv_each _ _ _ I). }
  destruct (place_std p (ad_size a) data off cfg' (stds l) (iv_bytes _ _ _ I) Bd (iv_256 _ _ _ I) (iv_4096 _ _ _ I) (iv_std _ _ _ I)
              (iv_stdn _ _ _ I) Hp Pl) as [prev [Cases [Hend [Hlen [Bc [Lc D]]]]]].
  assert (Es : ad_size a = cap_bytes false data) by (unfold ad_size; rewrite Ea; reflexivity).
  rewrite <- Es in *. set (z := last (stds l) (mk_added 0 [] 0)) in *.
  assert (Sz1 : forall b, In b (stds l) -> 1 <= ad_size b).
  { intros b Hb. destruct (Hp b Hb) as [Eb P]. pose proof (pl_size _ _ P) as Q. rewrite Eb in Q. lia. }
  assert (Bef : forall b, In b (stds l) -> ad_end b <= off).
  { intros b Hb. destruct Cases as [[E _]|[Hne [_ Hr]]]; [rewrite E in Hb; destruct Hb|].
    destruct (before_last _ b (iv_stdo _ _ _ I) Sz1 Hne (mk_added 0 [] 0) Hb) as [->|Q]; [fold z; lia|].
    fold z in Q. unfold ad_end in Hr. pose proof (Sz1 z (last_in _ _ Hne)). lia. }
  assert (O64 : 64 <= off).
  { destruct Cases as [[_ [_ ->]]|[Hne [_ Hr]]]; [lia|]. destruct (Hp z (last_in _ _ Hne)) as [Ez P].
    pose proof (pl_low _ _ P) as Q. rewrite Ez in Q. unfold ad_end in Hr. lia. }
  assert (Pv : prev = 52 \/ (stds l <> [] /\ prev = ad_off z + 1 /\ 64 < prev < off)).
  { destruct Cases as [[_ [-> _]]|[Hne [-> Hr]]]; [now left|right]. split; [exact Hne|]. split; [reflexivity|].
    destruct (Hp z (last_in _ _ Hne)) as [Ez P]. pose proof (pl_low _ _ P) as Q. pose proof (pl_size _ _ P) as Q'.
    rewrite Ez in *. unfold ad_end in Hr. lia. }
  assert (Om : off mod 256 = off) by (apply N.mod_small; lia).
  assert (Out : forall b, In b (stds l) -> forall j, ad_off b <= j < ad_end b -> j <> ad_off b + 1 -> cfg_byte cfg' j = cfg_byte (pc_cfg p) j).
  { intros b Hb j Hj Hj1. rewrite D. pose proof (Bef b Hb). pose proof (Hp b Hb) as [Eb P]. pose proof (pl_low _ _ P) as Lb. rewrite Eb in Lb.
    replace (j =? off + 1) with false by lia.
    assert (Hpv : j <> prev).
    { destruct Pv as [->|[Hne [-> _]]]; [lia|]. intros ->.
      destruct (before_last _ b (iv_stdo _ _ _ I) Sz1 Hne (mk_added 0 [] 0) Hb) as [->|Q]; [apply Hj1; reflexivity|fold z in Q; lia]. }
    replace (j =? prev) with false by lia. now replace ((off <=? j) && (j <? off + ad_size a)) with false by lia. }
  assert (Nxt : forall b, In b (stds l) -> ad_off b <> ad_off z -> std_next cfg' (ad_off b) = std_next (pc_cfg p) (ad_off b)).
  { intros b Hb Hz. unfold std_next. rewrite D. pose proof (Bef b Hb) as Q. pose proof (Hp b Hb) as [Eb P].
    pose proof (pl_low _ _ P) as Lb. pose proof (pl_size _ _ P) as Sb. rewrite Eb in *. unfold ad_end in Q.
    replace (ad_off b + 1 =? off + 1) with false by lia.
    replace (ad_off b + 1 =? prev) with false by (destruct Pv as [->|[_ [-> _]]]; lia).
    now replace ((off <=? ad_off b + 1) && (ad_off b + 1 <? off + ad_size a)) with false by lia. }
  constructor; cbn [pc_cfg pc_caps pc_ext_caps]; rewrite ?stds_snoc, ?exts_snoc, ?Ea.
  - exact Bc.
  - rewrite Lc. apply I.
  - rewrite Lc. apply I.
  - rewrite Lc. apply I.
  - rewrite map_app. cbn [map]. change (ad_off a) with off. unfold std_list.
    assert (Z0 : std_next cfg' off = 0) by (unfold std_next; rewrite D; now replace (off + 1 =? off + 1) with true by lia).
    destruct Cases as [[E [E1 E2]]|[Hne [E1 Hr]]].
    + rewrite E. cbn [map app]. replace (cfg_byte cfg' 52) with off.
      2: { rewrite D. replace (52 =? off + 1) with false by lia. rewrite E1. change (52 =? 52) with true. cbv iota. now symmetry. }
      constructor; [lia|]. rewrite Z0. constructor.
    + assert (Hzin : In z (stds l)) by (apply last_in; exact Hne).
      replace (cfg_byte cfg' 52) with (cfg_byte (pc_cfg p) 52).
      2: { symmetry. rewrite D. replace (52 =? off + 1) with false by lia.
           destruct (Hp z Hzin) as [Ez P]. pose proof (pl_low _ _ P) as Q. rewrite Ez in Q.
           replace (52 =? prev) with false by lia. now replace ((off <=? 52) && (52 <? off + ad_size a)) with false by lia. }
      assert (Lz : last (map ad_off (stds l)) 0 = ad_off z) by (exact (last_map ad_off (stds l) (mk_added 0 [] 0))).
      apply (walk_snoc (std_next (pc_cfg p))).
      * exact (iv_std _ _ _ I).
      * intros Q. apply Hne. destruct (stds l); [reflexivity|discriminate].
      * apply offs_nodup; [apply I|exact Sz1].
      * lia.
      * intros y Hy Hyz. apply in_map_iff in Hy. destruct Hy as [b [<- Hb]]. apply Nxt; [exact Hb|]. now rewrite Lz in Hyz.
      * rewrite Lz. unfold std_next. rewrite D. rewrite <- E1. replace (prev =? off + 1) with false by lia.
        replace (prev =? prev) with true by lia. exact Om.
      * exact Z0.
  - assert (Ext : forall o, 256 <= o -> cfg_byte cfg' o = cfg_byte (pc_cfg p) o).
    { intros o Ho. rewrite D. pose proof (pl_size (pc_cfg p)). replace (o =? off + 1) with false by lia.
      replace (o =? prev) with false by (destruct Pv as [->|[_ [_ Q]]]; lia).
      now replace ((off <=? o) && (o <? off + ad_size a)) with false by lia. }
    pose proof (iv_ext _ _ _ I) as W. unfold ext_list in *.
    replace (ext_id cfg' 256) with (ext_id (pc_cfg p) 256) by (unfold ext_id; rewrite !Ext by lia; reflexivity).
    destruct W as [W|[W0 W]]; [left; exact W|right; split; [exact W0|]].
    apply (walk_same (ext_next (pc_cfg p))); [exact W|]. intros y Hy. apply in_map_iff in Hy. destruct Hy as [b [<- Hb]].
    apply in_exts in Hb. destruct Hb as [Hb Eb]. pose proof (pl_low _ _ (iv_each _ _ _ I b Hb)) as Q. rewrite Eb in Q.
    unfold ext_next. rewrite !Ext by lia. reflexivity.
  - intros b Hb. apply in_app_or in Hb. destruct Hb as [Hb|[<-|[]]].
    + destruct (ad_ext b) eqn:Eb.
      * apply (placed_keep (pc_cfg p)); [now apply I|exact Lc|]. rewrite Eb. intros j Hj _.
        pose proof (pl_low _ _ (iv_each _ _ _ I b Hb)) as Q. rewrite Eb in Q.
        rewrite D. replace (j =? off + 1) with false by lia.
        replace (j =? prev) with false by (destruct Pv as [->|[_ [_ Q']]]; lia).
        now replace ((off <=? j) && (j <? off + ad_size a)) with false by lia.
      * apply (placed_keep (pc_cfg p)); [now apply I|exact Lc|]. rewrite Eb. intros j Hj Hj1.
        apply (Out b); [apply in_stds; auto|exact Hj|exact Hj1].
    + constructor; rewrite ?Ea; auto.
      * intros i Hi Hx. rewrite Ea in Hx. change (ad_off a) with off. rewrite D. replace (off + i =? off + 1) with false by lia.
        replace (off + i =? prev) with false by (destruct Pv as [->|[_ [_ Q']]]; lia).
        replace ((off <=? off + i) && (off + i <? off + ad_size a)) with true by lia.
        replace (off + i - off) with i by lia. reflexivity.
  - apply fop_snoc; [apply I|]. rewrite Forall_forall. intros b Hb. unfold before. now apply Bef.
  - apply I.
  - rewrite app_length. cbn [length]. pose proof (iv_stdn _ _ _ I). lia.
  - apply I.
  - apply forall2_snoc; [apply I|exact Rc].
  - apply I.
  - intros q Hq. unfold all_caps in Hq. cbn [pc_caps pc_ext_caps] in Hq. rewrite !in_app_iff in Hq.
    destruct Hq as [[Hq|[<-|[]]]|Hq]; [apply (iv_wf _ _ _ I); unfold all_caps; apply in_or_app; auto|apply Wf; exact Gs|
      apply (iv_wf _ _ _ I); unfold all_caps; apply in_or_app; auto].
  - intros y Hy Hn. rewrite D.
    assert (Na : ~ (off <= y < off + ad_size a)) by (apply (Hn a); apply in_or_app; right; now left).
    replace (y =? off + 1) with false by lia.
    assert (y <> prev).
    { destruct Pv as [->|[Hne [-> _]]]; [exact Hy|]. intros ->.
      assert (Hzin : In z (stds l)) by (apply last_in; exact Hne).
      apply (Hn z); [apply in_or_app; left; now apply in_stds in Hzin|]. destruct (Hp z Hzin) as [Ez P]. pose proof (pl_size _ _ P) as Q. rewrite Ez in Q.
      unfold ad_end. lia. }
    replace (y =? prev) with false by lia. replace ((off <=? y) && (y <? off + ad_size a)) with false by lia.
    apply (iv_frame _ _ _ I); [exact Hy|]. intros b Hb. apply Hn. apply in_or_app. now left.
Qed.

Lemma add_step_ext e express p0 p l flags data off p' : inv p0 p l -> good_request (flags, data) -> N.testbit flags 0 = true ->
  add_capability e express p 0 flags data = (Ok off, p') -> inv p0 p' (l ++ [mk_added flags data off]).
Proof.
  intros I [Bd Gs] Fl H. cbn [fst snd] in *. set (a := mk_added flags data off).
  destruct (add_inversion _ _ _ _ _ _ _ _ Bd H) as [cfg' [c [x [-> [Rc [K [Wf [Ln Pl]]]]]]]].
  fold a in Rc, K, Wf, Ln, Pl |- *. assert (Ea : ad_ext a = true) by exact Fl. rewrite Ea in *. rewrite Fl in Gs.
  assert (Ls : length (exts l) = length (pc_ext_caps p)) by (eapply forall2_len; exact (iv_exts _ _ _ I)).
  assert (Hp : forall b, In b (exts l) -> ad_ext b = true /\ placed (pc_cfg p) b).
  { intros b Hb. apply in_exts in Hb. destruct Hb as [Hb Eb]. split; [exact Eb|]. now apply (iv_each _ _ _ I). }
  assert (Es : ad_size a = cap_bytes true data) by (unfold ad_size; rewrite Ea; reflexivity).
  rewrite <- Es in *.
  destruct (place_ext p (ad_size a) data off cfg' (exts l) (iv_bytes _ _ _ I) Bd (iv_256 _ _ _ I) (iv_4096 _ _ _ I) Gs (iv_ext _ _ _ I)
              (iv_extn _ _ _ I) Hp Pl) as [Cases [Hend [Hlen [Bc [Lc [Z0 D]]]]]].
  set (z := last (exts l) (mk_added 0 [] 0)) in *.
  assert (Sz1 : forall b, In b (exts l) -> 8 <= ad_size b).
  { intros b Hb. destruct (Hp b Hb) as [Eb P]. pose proof (pl_size _ _ P) as Q. rewrite Eb in Q. lia. }
  assert (Sz2 : forall b, In b (exts l) -> 1 <= ad_size b) by (intros b Hb; specialize (Sz1 b Hb); lia).
  assert (Lo : forall b, In b (exts l) -> 256 <= ad_off b).
  { intros b Hb. destruct (Hp b Hb) as [Eb P]. pose proof (pl_low _ _ P) as Q. rewrite Eb in Q. lia. }
  assert (Bef : forall b, In b (exts l) -> ad_end b <= off).
  { intros b Hb. destruct Cases as [[E _]|[Hne [Hr _]]]; [rewrite E in Hb; destruct Hb|].
    destruct (before_last _ b (iv_exto _ _ _ I) Sz2 Hne (mk_added 0 [] 0) Hb) as [->|Q]; [fold z; lia|].
    fold z in Q. unfold ad_end in Hr. pose proof (Sz1 z (last_in _ _ Hne)). lia. }
  assert (O256 : 256 <= off).
  { destruct Cases as [[_ ->]|[Hne [Hr _]]]; [lia|]. pose proof (Lo z (last_in _ _ Hne)). unfold ad_end in Hr. lia. }
  assert (Zh : exts l <> [] -> 256 <= ad_off z /\ ad_off z + 8 <= off).
  { intros Hne. pose proof (Lo z (last_in _ _ Hne)). pose proof (Bef z (last_in _ _ Hne)) as Q. pose proof (Sz1 z (last_in _ _ Hne)).
    unfold ad_end in Q. lia. }
  assert (Low : forall j, j < 256 -> cfg_byte cfg' j = cfg_byte (pc_cfg p) j).
  { intros j Hj. rewrite D; [|lia|lia|intros Hne; specialize (Zh Hne); lia].
    now replace ((off <=? j) && (j <? off + ad_size a)) with false by lia. }
  assert (Hit : forall b, In b (exts l) -> forall j, ad_off b <= j < ad_end b -> (exts l <> [] -> j <> ad_off z + 2 /\ j <> ad_off z + 3) ->
     cfg_byte cfg' j = cfg_byte (pc_cfg p) j).
  { intros b Hb j Hj Hjz. pose proof (Bef b Hb). rewrite D; [|lia|lia|exact Hjz].
    now replace ((off <=? j) && (j <? off + ad_size a)) with false by lia. }
  assert (Far : forall b, In b (exts l) -> b <> z -> ad_end b <= ad_off z).
  { intros b Hb Hbz. assert (Hne : exts l <> []) by (intros Q; rewrite Q in Hb; destruct Hb).
    destruct (before_last _ b (iv_exto _ _ _ I) Sz2 Hne (mk_added 0 [] 0) Hb) as [Q|Q]; [exfalso; apply Hbz; exact Q|exact Q]. }
  constructor; cbn [pc_cfg pc_caps pc_ext_caps]; rewrite ?stds_snoc, ?exts_snoc, ?Ea.
  - exact Bc.
  - rewrite Lc. apply I.
  - rewrite Lc. apply I.
  - rewrite Lc. apply I.
  - unfold std_list. rewrite Low by lia. apply (walk_same (std_next (pc_cfg p))); [exact (iv_std _ _ _ I)|].
    intros y Hy. apply in_map_iff in Hy. destruct Hy as [b [<- Hb]]. apply in_stds in Hb. destruct Hb as [Hb Eb].
    pose proof (iv_each _ _ _ I b Hb) as P. pose proof (pl_high _ _ P) as Q. pose proof (pl_size _ _ P) as Q'. rewrite Eb in *.
    unfold std_next. unfold ad_end in Q. apply Low. lia.
  - rewrite map_app. cbn [map]. change (ad_off a) with off. right.
    destruct Cases as [[E ->]|[Hne [Hr Hz]]].
    + split.
      * unfold ext_id. rewrite (D 256), (D (256 + 1)); [|discriminate|discriminate|intros Q; now destruct (Q E)|discriminate|discriminate|intros Q; now destruct (Q E)].
        replace ((256 <=? 256) && (256 <? 256 + ad_size a)) with true by lia.
        replace ((256 <=? 256 + 1) && (256 + 1 <? 256 + ad_size a)) with true by lia.
        change (N.to_nat (256 - 256)) with 0%nat. unfold known_id in K. lia.
      * rewrite E. cbn [map app]. constructor; [discriminate|]. rewrite Z0. constructor.
    + assert (Hzin : In z (exts l)) by (apply last_in; exact Hne).
      assert (Lz : last (map ad_off (exts l)) 0 = ad_off z) by (exact (last_map ad_off (exts l) (mk_added 0 [] 0))).
      pose proof (iv_ext _ _ _ I) as W. destruct W as [[_ W]|[W0 W]]; [destruct (exts l); [congruence|discriminate]|].
      specialize (Zh Hne).
      split.
      * assert (forall j, 256 <= j < 258 -> cfg_byte cfg' j = cfg_byte (pc_cfg p) j) as Hj.
        { intros j Hj. rewrite D; [|lia|lia|lia]. now replace ((off <=? j) && (j <? off + ad_size a)) with false by lia. }
        unfold ext_id in *. rewrite !Hj by lia. exact W0.
      * apply (walk_snoc (ext_next (pc_cfg p))).
        -- exact W.
        -- intros Q. apply Hne. destruct (exts l); [reflexivity|discriminate].
        -- apply offs_nodup; [apply I|exact Sz2].
        -- lia.
        -- intros y Hy Hyz. apply in_map_iff in Hy. destruct Hy as [b [<- Hb]]. rewrite Lz in Hyz.
           assert (Hbz : b <> z) by congruence. pose proof (Far b Hb Hbz) as Q. pose proof (Sz1 b Hb). unfold ad_end in Q.
           unfold ext_next. rewrite !(Hit b Hb) by (unfold ad_end; lia). reflexivity.
        -- rewrite Lz. exact Hz.
        -- exact Z0.
  - intros b Hb. apply in_app_or in Hb. destruct Hb as [Hb|[<-|[]]].
    + apply (placed_keep (pc_cfg p)); [now apply I|exact Lc|]. intros j Hj Hx. destruct (ad_ext b) eqn:Eb.
      * assert (Hb' : In b (exts l)) by (apply in_exts; auto). apply (Hit b Hb'); [exact Hj|]. intros Hne.
        destruct (N.eq_dec (ad_off b) (ad_off z)) as [Q|Q]; [rewrite <- Q; exact Hx|].
        assert (b <> z) by congruence. pose proof (Far b Hb' ltac:(assumption)). lia.
      * apply Low. pose proof (pl_high _ _ (iv_each _ _ _ I b Hb)) as Q. rewrite Eb in Q. lia.
    + constructor; rewrite ?Ea; auto.
      * intros i Hi Hx. rewrite Ea in Hx. change (ad_off a) with off. rewrite D; [|lia|lia|intros Hne; specialize (Zh Hne); lia].
        replace ((off <=? off + i) && (off + i <? off + ad_size a)) with true by lia.
        replace (off + i - off) with i by lia. reflexivity.
      * rewrite Lc. exact Hend.
  - apply I.
  - apply fop_snoc; [apply I|]. rewrite Forall_forall. intros b Hb. unfold before. now apply Bef.
  - apply I.
  - rewrite app_length. cbn [length]. pose proof (iv_extn _ _ _ I). lia.
  - apply I.
  - apply forall2_snoc; [apply I|exact Rc].
  - intros q Hq. unfold all_caps in Hq. cbn [pc_caps pc_ext_caps] in Hq. rewrite !in_app_iff in Hq.
    destruct Hq as [Hq|[Hq|[<-|[]]]]; [apply (iv_wf _ _ _ I); unfold all_caps; apply in_or_app; auto| |apply Wf; exact Gs].
    apply (iv_wf _ _ _ I); unfold all_caps; apply in_or_app; auto.
  - intros y Hy Hn.
    assert (Na : ~ (off <= y < off + ad_size a)) by (apply (Hn a); apply in_or_app; right; now left).
    rewrite D; [|lia|lia|].
    + replace ((off <=? y) && (y <? off + ad_size a)) with false by lia.
      apply (iv_frame _ _ _ I); [exact Hy|]. intros b Hb. apply Hn. apply in_or_app. now left.
    + intros Hne. assert (Hzin : In z (exts l)) by (apply last_in; exact Hne).
      pose proof (Hn z ltac:(apply in_or_app; left; now apply in_exts in Hzin)) as Q. pose proof (Sz1 z Hzin). unfold ad_end in Q. lia.
Qed.

Lemma fresh_inv p : fresh p -> inv p p [].
Proof.
  intros [B S [C1 C2] F1 F2].
  constructor; [exact B|reflexivity|destruct S; lia|destruct S; lia|unfold std_list; rewrite F1; constructor
    |left; unfold ext_id; rewrite !F2 by lia; auto|intros a []|constructor|constructor|cbn; lia|cbn; lia|rewrite C1; constructor
    |rewrite C2; constructor|unfold all_caps; rewrite C1, C2; intros c []|reflexivity].
Qed.

Lemma add_all_inv e express p0 : forall reqs p l0 l p', inv p0 p l0 -> Forall good_request reqs -> add_all e express p reqs = Some (l, p') ->
  (forall a, In a l -> ad_ext a = false -> ad_end a <= 256) -> inv p0 p' (l0 ++ l) /\ map (fun a => (ad_flags a, ad_data a)) l = reqs.
Proof.
  induction reqs as [|[flags data] reqs IH]; intros p l0 l p' I G H He; cbn [add_all] in H.
  - injection H as <- <-. rewrite app_nil_r. auto.
  - inversion_clear G as [|? ? G1 G2]. destruct (add_capability e express p 0 flags data) as [[off| |] p1] eqn:A; try discriminate.
    destruct (add_all e express p1 reqs) as [[l1 p2]|] eqn:R; [|discriminate]. injection H as <- <-.
    assert (I1 : inv p0 p1 (l0 ++ [mk_added flags data off])).
    { destruct (N.testbit flags 0) eqn:Fl.
      - now apply (add_step_ext e express p0 p).
      - apply (add_step_std e express p0 p l0 flags data off p1 I G1 Fl A).
        pose proof (He (mk_added flags data off) ltac:(now left) Fl) as Q. unfold ad_end, ad_size, ad_ext in Q. cbn [ad_off ad_flags ad_data] in Q.
        rewrite Fl in Q. exact Q. }
    destruct (IH p1 _ l1 p2 I1 G2 R) as [I2 E]; [intros a Ha; apply He; now right|].
    rewrite <- app_assoc in I2. cbn [app] in I2. split; [exact I2|]. cbn [map]. f_equal. exact E.
Qed.

(* Whatever was added fits into config space. *)
Lemma add_fits e express p flags data off p' : bytes data -> add_capability e express p 0 flags data = (Ok off, p') ->
  off + cap_bytes (N.testbit flags 0) data <= N.of_nat (length (pc_cfg p)) /\ length (pc_cfg p') = length (pc_cfg p).
Proof.
  intros B H. destruct (add_inversion _ _ _ _ _ _ _ _ B H) as [cfg' [c [x [-> [_ [_ [_ [_ Pl]]]]]]]]. cbn [pc_cfg].
  change (ad_size (mk_added flags data off)) with (cap_bytes (N.testbit flags 0) data) in Pl.
  change (ad_ext (mk_added flags data off)) with (N.testbit flags 0) in Pl. set (n := cap_bytes (N.testbit flags 0) data) in *.
  assert (P1 : forall size prev o, cap_put (pc_cfg p) size data prev o = Ok (off, cfg') -> off + size <= N.of_nat (length (pc_cfg p)) /\ length cfg' = length (pc_cfg p)).
  { intros size prev o. unfold cap_put, need. destruct (N.of_nat (length (pc_cfg p)) <? w64 (o + size)) eqn:E1; [discriminate|].
    destruct (slice data 0 (N.to_nat size)) eqn:Q0; [|discriminate]. pose proof (slice_length _ _ _ _ Q0) as L0. destruct (N.of_nat (length (pc_cfg p)) <=? o); [discriminate|].
    destruct (put_slice (pc_cfg p) (N.to_nat o) l) as [c1|] eqn:Q1; [|discriminate]. pose proof (put_slice_bound _ _ _ _ Q1) as B1. destruct (wr c1 (N.to_nat prev) 1 o) as [c2|] eqn:Q2; [|discriminate].
    destruct (N.of_nat (length (pc_cfg p)) <=? o + 1); [discriminate|]. destruct (wr c2 (N.to_nat (o + 1)) 1 0) as [c3|] eqn:Q3; [|discriminate].
    intros Q. injection Q as <- <-. split; [lia|]. rewrite (wr_length _ _ _ _ _ Q3), (wr_length _ _ _ _ _ Q2). exact (put_slice_length _ _ _ _ Q1). }
  assert (P2 : forall size prev o, ext_cap_put (pc_cfg p) size data prev o = Ok (off, cfg') -> off + size <= N.of_nat (length (pc_cfg p)) /\ length cfg' = length (pc_cfg p)).
  { intros size prev o. unfold ext_cap_put, need. destruct (N.of_nat (length (pc_cfg p)) <? w64 (o + size)) eqn:E1; [discriminate|].
    destruct (slice data 0 (N.to_nat size)) eqn:Q0; [|discriminate]. pose proof (slice_length _ _ _ _ Q0) as L0. destruct (N.of_nat (length (pc_cfg p)) <=? o); [discriminate|].
    destruct (put_slice (pc_cfg p) (N.to_nat o) l) as [c1|] eqn:Q1; [|discriminate]. pose proof (put_slice_bound _ _ _ _ Q1) as B1.
    pose proof (put_slice_length _ _ _ _ Q1) as L1.
    assert (Sn : forall a b k d, set_ext_next a b k = Some d -> length d = length a).
    { intros a b k d. unfold set_ext_next. destruct (rd a (N.to_nat b) 4); [|discriminate]. apply wr_length. }
    destruct prev as [h|].
    - destruct (negb (N.land o 3 =? 0)); [discriminate|]. destruct (set_ext_next c1 h o) as [c2|] eqn:Q2; [|discriminate].
      destruct (set_ext_next c2 o 0) as [c3|] eqn:Q3; [|discriminate]. intros Q. injection Q as <- <-. split; [lia|].
      rewrite (Sn _ _ _ _ Q3), (Sn _ _ _ _ Q2). exact L1.
    - destruct (set_ext_next c1 o 0) as [c3|] eqn:Q3; [|discriminate]. intros Q. injection Q as <- <-. split; [lia|].
      rewrite (Sn _ _ _ _ Q3). exact L1. }
  destruct (N.testbit flags 0).
  - unfold ext_cap_place in Pl. change (negb (0 =? 0)) with false in Pl. cbv iota zeta in Pl.
    unfold need in Pl. destruct (ext_hdr (pc_cfg p) PCI_CFG_SPACE_SIZE) as [h|]; [|discriminate]. destruct (fst h =? 0); [exact (P2 _ _ _ Pl)|].
    destruct (last_ext_cap 4097 (pc_cfg p) PCI_CFG_SPACE_SIZE); try discriminate.
    destruct (cap_size (skipn (N.to_nat a) (pc_cfg p)) true); try discriminate. exact (P2 _ _ _ Pl).
  - unfold cap_place in Pl. change (negb (0 =? 0)) with false in Pl. cbv iota zeta in Pl.
    destruct (last_cap 257 (pc_cfg p) 52 0) as [[pv lo]| |]; try discriminate. destruct (lo =? 0); [exact (P1 _ _ _ Pl)|].
    destruct (cap_size (skipn (N.to_nat lo) (pc_cfg p)) false); try discriminate. exact (P1 _ _ _ Pl).
Qed.

Lemma add_all_fits e express : forall reqs p l p', Forall good_request reqs -> add_all e express p reqs = Some (l, p') ->
  forall a, In a l -> ad_end a <= N.of_nat (length (pc_cfg p)).
Proof.
  induction reqs as [|[flags data] reqs IH]; intros p l p' G H; cbn [add_all] in H.
  - injection H as <- <-. intros a [].
  - inversion_clear G as [|? ? G1 G2]. destruct (add_capability e express p 0 flags data) as [[off| |] p1] eqn:A; try discriminate.
    destruct (add_all e express p1 reqs) as [[l1 p2]|] eqn:R; [|discriminate]. injection H as <- <-.
    destruct (add_fits _ _ _ _ _ _ _ (proj1 G1) A) as [F L]. intros a [<-|Ha]; [exact F|]. rewrite <- L. exact (IH _ _ _ G2 R a Ha).
Qed.
