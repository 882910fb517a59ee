(* Adding capabilities at any positions keeps the lists well formed, as long as nothing overlaps. *)
From Coq Require Import NArith ZArith List Bool Lia ZifyBool ZifyNat ZifyN Sorted.
From Verif Require Import Base Types Bytes BytesProofs Migr Pci SpecPci SpecCaps BufProofs PciProofs PciWrite CapsProofs CapsAdd SpecPlace.
Import ListNotations.
Open Scope N_scope.
Ltac Zify.zify_post_hook ::= idtac.

Record pinv (p0 p : pci) (l : list added) : Prop := {
  pv_bytes : bytes (pc_cfg p);
  pv_len : length (pc_cfg p) = length (pc_cfg p0);
  pv_256 : (256 <= length (pc_cfg p))%nat;
  pv_4096 : (length (pc_cfg p) <= 4096)%nat;
  pv_std : std_list (pc_cfg p) (map ad_off (stds l));
  pv_ext : ext_list (pc_cfg p) (map ad_off (exts l));
  pv_each : forall a, In a l -> placed (pc_cfg p) a;
  pv_stdo : ForallOrdPairs apart (stds l);
  pv_exto : ForallOrdPairs apart (exts l);
  pv_stdn : (length (stds l) <= 128)%nat;
  pv_extn : (length (exts l) <= 128)%nat;
  pv_caps : Forall2 recorded (stds l) (pc_caps p);
  pv_exts : Forall2 recorded (exts l) (pc_ext_caps p);
  pv_wf : forall c, In c (all_caps p) -> cap_wf c;
  pv_frame : forall x, x <> 52 -> (forall a, In a l -> ~ (ad_off a <= x < ad_end a)) -> cfg_byte (pc_cfg p) x = cfg_byte (pc_cfg p0) x
}.

Lemma apart_sym a b : apart a b -> apart b a.
Proof. unfold apart. lia. Qed.
Lemma fop_in l : ForallOrdPairs apart l -> forall a b, In a l -> In b l -> a = b \/ apart a b.
Proof.
  induction 1 as [|x l F H IH]; intros a b Ha Hb; [destruct Ha|]. rewrite Forall_forall in F.
  destruct Ha as [<-|Ha], Hb as [<-|Hb]; auto. right. apply apart_sym. auto.
Qed.
Lemma apart_nodup l : ForallOrdPairs apart l -> (forall b, In b l -> 1 <= ad_size b) -> NoDup (map ad_off l).
Proof.
  induction l as [|x l IH]; intros H Sz; cbn [map]; constructor; inversion H as [|? ? F H']; subst.
  - intros Hin. apply in_map_iff in Hin. destruct Hin as [y [E Hy]]. rewrite Forall_forall in F. specialize (F y Hy).
    unfold apart, ad_end in F. pose proof (Sz x ltac:(now left)). pose proof (Sz y ltac:(now right)). lia.
  - apply IH; auto. intros b Hb. apply Sz. now right.
Qed.

(* A range in which cap_find_by_offset finds nothing. *)
Lemma find_none p off n : cap_find_by_offset p off n = None -> forall c, In c (all_caps p) -> cap_end c <= off \/ off + n < cp_off c.
Proof.
  unfold cap_find_by_offset, all_caps. destruct (find _ (pc_caps p)) eqn:F1; [discriminate|]. intros F2 c Hc. apply in_app_or in Hc.
  assert (Q : ranges_intersect off n (cp_off c) (cp_size c) = false) by (destruct Hc as [Hc|Hc]; [exact (find_none _ _ F1 _ Hc)|exact (find_none _ _ F2 _ Hc)]).
  unfold ranges_intersect in Q. unfold cap_end. lia.
Qed.

(* What cap_place does. *)
Lemma place_std_at p pos size data off c (l : list added) : bytes (pc_cfg p) -> bytes data -> (256 <= length (pc_cfg p))%nat ->
  (length (pc_cfg p) <= 4096)%nat ->
  std_list (pc_cfg p) (map ad_off l) -> (length l <= 128)%nat -> (forall a, In a l -> ad_ext a = false /\ placed (pc_cfg p) a) ->
  cap_place p pos size data = Ok (off, c) ->
  let z := last l (mk_added 0 [] 0) in
  exists prev, ((l = [] /\ prev = 52) \/ (l <> [] /\ prev = ad_off z + 1)) /\
  (pos = 0 -> l <> [] -> ad_end z <= off < ad_end z + 4) /\ 64 <= off /\
  (pos <> 0 -> off = pos /\ forall c, In c (all_caps p) -> cap_end c <= off \/ off + size <= cp_off c) /\
  off + size <= N.of_nat (length (pc_cfg p)) /\ (N.to_nat size <= length data)%nat /\
  bytes c /\ length c = length (pc_cfg p) /\
  (forall j, cfg_byte c j = if j =? off + 1 then 0 else if j =? prev then off mod 256
                            else if (off <=? j) && (j <? off + size) then nth (N.to_nat (j - off)) data 0 else cfg_byte (pc_cfg p) j).
Proof.
  intros B Bd L256 L4096 W Ln Hl. unfold cap_place. cbv zeta.
  rewrite (last_cap_walk (pc_cfg p) (map ad_off l) 257 52 0).
  2: exact W. 2: lia.
  2: { intros x Hx. apply in_map_iff in Hx. destruct Hx as [a [<- Ha]]. destruct (Hl a Ha) as [E P].
       pose proof (pl_high _ _ P) as Hh. pose proof (pl_size _ _ P). unfold ad_end in Hh. rewrite E in *. lia. }
  2: { rewrite map_length. lia. }
  set (pv := last (map (fun x => x + 1) (map ad_off l)) 52).
  match goal with |- context [last (map ad_off l) 0 =? 0] => set (lo := last (map ad_off l) 0) end.
  intros H. exists pv.
  assert (Epv : (l = [] /\ pv = 52) \/ (l <> [] /\ pv = ad_off (last l (mk_added 0 [] 0)) + 1)).
  { assert (C : l = [] \/ l <> []) by (destruct l; [now left|right; discriminate]). destruct C as [El|Hne].
    - left. split; [exact El|]. unfold pv. rewrite El. reflexivity.
    - right. split; [exact Hne|]. unfold pv. rewrite map_map. destruct l as [|a0 l0]; [congruence|]. cbn [map]. rewrite !last_cons. apply (last_map (fun a => ad_off a + 1)). }
  split; [exact Epv|].
  destruct (N.eqb_spec pos 0) as [->|Np]; cbn [negb] in H.
  - enough (Q : exists o, cap_put (pc_cfg p) size data pv o = Ok (off, c) /\ 64 <= o /\
       (l <> [] -> ad_end (last l (mk_added 0 [] 0)) <= o < ad_end (last l (mk_added 0 [] 0)) + 4)).
    { destruct Q as (o & Q & O64 & Qz). destruct (cap_put_spec _ _ _ _ _ _ _ B Bd Q) as (-> & R). split; [auto|]. split; [exact O64|].
      split; [lia|exact R]. }
    destruct Epv as [[El Epv]|[Hne Epv]].
    + assert (Elo : lo = 0) by (unfold lo; rewrite El; reflexivity). rewrite Elo in H. change (0 =? 0) with true in H. cbv iota in H.
      eexists. split; [exact H|]. split; [vm_compute; discriminate|]. congruence.
    + assert (Elo : lo = ad_off (last l (mk_added 0 [] 0))).
      { unfold lo. change 0 with (ad_off (mk_added 0 [] 0)) at 1. apply last_map. }
      set (z := last l (mk_added 0 [] 0)) in *.
      assert (Hz : In z l) by (apply last_in; exact Hne). destruct (Hl z Hz) as [Ez Pz].
      pose proof (pl_low _ _ Pz) as Lz. pose proof (pl_high _ _ Pz) as Hzh. pose proof (pl_size _ _ Pz) as Sz. rewrite Ez in *.
      replace (lo =? 0) with false in H by lia. rewrite Elo in H.
      pose proof (placed_known _ _ B Pz ltac:(lia)) as Ks. rewrite Ez in Ks. rewrite Ks in H.
      change (ad_off z + ad_size z) with (ad_end z) in H. eexists. split; [exact H|].
      pose proof (round4 (ad_end z) ltac:(change (2 ^ 62) with 4611686018427387904; lia)) as [_ Rd]. unfold ad_end in *. lia.
  - destruct (pos <? PCI_STD_HEADER_SIZEOF) eqn:P64; [discriminate|]. change PCI_STD_HEADER_SIZEOF with 64 in P64.
    destruct (cap_find_by_offset p pos size) eqn:F; [discriminate|].
    destruct (cap_put_spec _ _ _ _ _ _ _ B Bd H) as (-> & R). split; [lia|]. split; [lia|]. split; [|exact R]. intros _. split; [reflexivity|].
    intros c' Hc. destruct (find_none _ _ _ F c' Hc); lia.
Qed.

(* What ext_cap_place does. *)
Lemma place_ext_at p pos size data off c (l : list added) : bytes (pc_cfg p) -> bytes data -> (256 <= length (pc_cfg p))%nat ->
  (length (pc_cfg p) <= 4096)%nat -> 8 <= size ->
  ext_list (pc_cfg p) (map ad_off l) -> (length l <= 128)%nat -> (forall a, In a l -> ad_ext a = true /\ placed (pc_cfg p) a) ->
  (l = [] -> ext_id (pc_cfg p) 256 = 0 -> ext_next (pc_cfg p) 256 = 0) ->
  ext_cap_place p pos size data = Ok (off, c) ->
  let z := last l (mk_added 0 [] 0) in
  (l = [] -> off = 256) /\ (l <> [] -> ad_off z + 4 <= off \/ off + 4 <= ad_off z -> ext_next c (ad_off z) = off) /\
  (pos = 0 -> l <> [] -> ad_end z <= off < ad_end z + 4) /\ 256 <= off /\
  (pos <> 0 -> off = pos /\ forall c, In c (all_caps p) -> cap_end c <= off \/ off + size <= cp_off c) /\
  off + size <= N.of_nat (length (pc_cfg p)) /\ (N.to_nat size <= length data)%nat /\
  bytes c /\ length c = length (pc_cfg p) /\ ext_next c off = 0 /\
  (forall j, j <> off + 2 -> j <> off + 3 -> (l <> [] -> j <> ad_off z + 2 /\ j <> ad_off z + 3) ->
     cfg_byte c j = if (off <=? j) && (j <? off + size) then nth (N.to_nat (j - off)) data 0 else cfg_byte (pc_cfg p) j).
Proof.
  intros B Bd L256 L4096 S8 W Ln Hl Emp. unfold ext_cap_place. cbv zeta.
  unfold need at 1. destruct (ext_hdr (pc_cfg p) PCI_CFG_SPACE_SIZE) as [h|] eqn:EH; [|discriminate].
  change PCI_CFG_SPACE_SIZE with 256 in *.
  assert (L260 : 256 + 4 <= N.of_nat (length (pc_cfg p))).
  { unfold ext_hdr in EH. destruct (N.of_nat (length (pc_cfg p)) <=? 256); [discriminate|].
    destruct (rd (pc_cfg p) (N.to_nat 256) 4) eqn:R; [|discriminate]. apply rd_inv in R. lia. }
  rewrite ext_hdr_fields in EH by assumption. injection EH as <-. cbn [fst].
  assert (PL : forall prev o, ext_cap_put (pc_cfg p) size data prev o = Ok (off, c) ->
    (l = [] -> o = 256 /\ forall h, prev = Some h -> h = 256) -> (l <> [] -> prev = Some (ad_off (last l (mk_added 0 [] 0)))) ->
    (pos = 0 -> l <> [] -> ad_end (last l (mk_added 0 [] 0)) <= o < ad_end (last l (mk_added 0 [] 0)) + 4) -> 256 <= o ->
    (pos <> 0 -> o = pos /\ cap_find_by_offset p pos size = None) ->
    let z := last l (mk_added 0 [] 0) in
    (l = [] -> off = 256) /\ (l <> [] -> ad_off z + 4 <= off \/ off + 4 <= ad_off z -> ext_next c (ad_off z) = off) /\
    (pos = 0 -> l <> [] -> ad_end z <= off < ad_end z + 4) /\ 256 <= off /\
    (pos <> 0 -> off = pos /\ forall c, In c (all_caps p) -> cap_end c <= off \/ off + size <= cp_off c) /\
    off + size <= N.of_nat (length (pc_cfg p)) /\ (N.to_nat size <= length data)%nat /\
    bytes c /\ length c = length (pc_cfg p) /\ ext_next c off = 0 /\
    (forall j, j <> off + 2 -> j <> off + 3 -> (l <> [] -> j <> ad_off z + 2 /\ j <> ad_off z + 3) ->
     cfg_byte c j = if (off <=? j) && (j <? off + size) then nth (N.to_nat (j - off)) data 0 else cfg_byte (pc_cfg p) j)).
  { intros prev o Hp H0 H1 H2 H3 H4. destruct (ext_cap_put_spec _ _ _ _ _ _ _ B Bd L4096 Hp) as (-> & R1 & R2 & R3 & R4 & R5 & R6 & R7). cbv zeta.
    split; [intros E; exact (proj1 (H0 E))|]. split; [intros E; apply R6; auto|]. split; [exact H2|]. split; [exact H3|]. split.
    { intros P. destruct (H4 P) as (-> & F). split; [reflexivity|]. intros c' Hc. destruct (find_none _ _ _ F c' Hc); lia. }
    repeat (split; [assumption|]). intros j J2 J3 J. apply R7; [assumption..|]. intros h Eh.
    assert (C : l = [] \/ l <> []) by (destruct l; [now left|right; discriminate]). destruct C as [El|Hne].
    - destruct (H0 El) as (-> & Q). rewrite (Q _ Eh). auto.
    - rewrite (H1 Hne) in Eh. injection Eh as <-. auto. }
  assert (C : l = [] \/ l <> []) by (destruct l; [now left|right; discriminate]). destruct C as [El|Hne].
  - destruct W as [[W0 _]|[W0 W]]; [|rewrite El in W; inversion W].
    rewrite W0. change (0 =? 0) with true. cbn [andb].
    assert (LE : last_ext_cap 4097 (pc_cfg p) 256 = Ok 256).
    { change 4097%nat with (S 4096). cbn [last_ext_cap]. rewrite ext_hdr_fields by assumption. unfold need. cbn [snd]. rewrite (Emp El W0). reflexivity. }
    rewrite LE. destruct (N.eqb_spec pos 0) as [->|Np]; cbn [negb].
    + intros H. eapply PL; [exact H|split; [reflexivity|discriminate]|congruence|congruence|lia|congruence].
    + destruct (pos <? 256) eqn:P; [discriminate|]. destruct (cap_find_by_offset p pos size) eqn:F; [discriminate|].
      destruct (N.eqb_spec pos 256) as [P6|P6]; cbn [negb]; [|discriminate]. intros H.
      eapply PL; [exact H|split; [exact P6|intros h E; injection E as <-; reflexivity]|congruence|congruence|lia|auto].
  - destruct W as [[_ W]|[W0 W]]; [destruct l; [congruence|discriminate]|].
    replace (ext_id (pc_cfg p) 256 =? 0) with false by lia. cbn [andb].
    assert (H4 : forall x, In x (map ad_off l) -> x + 4 <= N.of_nat (length (pc_cfg p))).
    { intros x Hx. apply in_map_iff in Hx. destruct Hx as [a [<- Ha]]. destruct (Hl a Ha) as [E P].
       pose proof (pl_high _ _ P) as Hh. pose proof (pl_size _ _ P). unfold ad_end in Hh. rewrite E in *. lia. }
    rewrite (last_ext_walk (pc_cfg p) B (map ad_off l) 4097 256 W ltac:(discriminate) H4) by (rewrite map_length; lia).
    replace (last (map ad_off l) 0) with (ad_off (last l (mk_added 0 [] 0))) by (symmetry; apply (last_map ad_off l (mk_added 0 [] 0))).
    set (z := last l (mk_added 0 [] 0)) in *.
    assert (Hz : In z l) by (apply last_in; exact Hne). destruct (Hl z Hz) as [Ez Pz].
    pose proof (pl_low _ _ Pz) as Lz. pose proof (pl_high _ _ Pz) as Hzh. pose proof (pl_size _ _ Pz) as Sz. rewrite Ez in *.
    destruct (N.eqb_spec pos 0) as [->|Np]; cbn [negb].
    + pose proof (placed_known _ _ B Pz ltac:(lia)) as Ks. rewrite Ez in Ks. rewrite Ks.
      change (ad_off z + ad_size z) with (ad_end z).
      pose proof (round4 (ad_end z) ltac:(change (2 ^ 62) with 4611686018427387904; lia)) as [_ Rd].
      intros H. eapply PL; [exact H|congruence|reflexivity|auto|clear - Rd Lz; unfold ad_end in *; lia|congruence].
    + destruct (pos <? 256) eqn:P; [discriminate|]. destruct (cap_find_by_offset p pos size) eqn:F; [discriminate|].
      intros H. eapply PL; [exact H|congruence|reflexivity|congruence|lia|auto].
Qed.

(* In an empty list of extended capabilities the pointer is clear, too. *)
Lemma no_ext p0 p l : fresh p0 -> pinv p0 p l -> exts l = [] -> ext_next (pc_cfg p) 256 = 0.
Proof.
  intros F I E. assert (Q : forall o, 256 <= o < 260 -> cfg_byte (pc_cfg p) o = 0).
  { intros o Ho. rewrite (pv_frame _ _ _ I); [apply (fr_ext _ F); exact Ho|lia|]. intros a Ha Q. destruct (ad_ext a) eqn:Ea.
    - assert (In a (exts l)) by (apply in_exts; auto). rewrite E in *. contradiction.
    - pose proof (pl_high _ _ (pv_each _ _ _ I a Ha)) as H. rewrite Ea in H. lia. }
  unfold ext_next. rewrite !Q by lia. reflexivity.
Qed.

(* A recorded capability and the request it comes from. *)
Lemma recorded_of l cs a : Forall2 recorded l cs -> In a l -> exists c, In c cs /\ recorded a c.
Proof.
  induction 1 as [|x c l cs R F IH]; intros H; [destruct H|]. destruct H as [<-|H]; [exists c; split; [now left|exact R]|].
  destruct (IH H) as (c' & H1 & H2). exists c'. split; [now right|exact H2].
Qed.
Lemma recorded_all p0 p l a : pinv p0 p l -> In a l -> exists c, In c (all_caps p) /\ recorded a c.
Proof.
  intros I Ha. unfold all_caps. destruct (ad_ext a) eqn:E.
  - destruct (recorded_of _ _ a (pv_exts _ _ _ I)) as (c & H1 & H2); [apply in_exts; auto|]. exists c. split; [apply in_or_app; auto|exact H2].
  - destruct (recorded_of _ _ a (pv_caps _ _ _ I)) as (c & H1 & H2); [apply in_stds; auto|]. exists c. split; [apply in_or_app; auto|exact H2].
Qed.
Lemma free_apart p0 p l a : pinv p0 p l -> (forall c, In c (all_caps p) -> cap_end c <= ad_off a \/ ad_end a <= cp_off c) -> Forall (apart a) l.
Proof.
  intros I H. rewrite Forall_forall. intros b Hb. destruct (recorded_all _ _ _ _ I Hb) as (c & Hc & (_ & _ & R1 & R2 & _)).
  specialize (H c Hc). unfold cap_end in H. rewrite R1, R2 in H. unfold apart, ad_end in *. lia.
Qed.

Lemma at_step_std e express p0 p l pos flags data off p' : pinv p0 p l -> good_request (flags, data) -> N.testbit flags 0 = false ->
  add_capability e express p pos flags data = (Ok off, p') -> off + cap_bytes false data <= 256 ->
  (pos = 0 -> Forall (apart (mk_added flags data off)) l) ->
  pinv p0 p' (l ++ [mk_added flags data off]) /\ (pos <> 0 -> off = pos) /\ Forall (apart (mk_added flags data off)) l /\
  (pos = 0 -> stds l <> [] -> ad_end (last (stds l) (mk_added 0 [] 0)) <= off).
Proof.
  intros I [Bd Gs] Fl H H256 Ap0. cbn [fst snd] in *. set (a := mk_added flags data off) in *.
  destruct (add_inversion _ _ _ _ _ _ _ _ Bd H) as [cfg' [c [x [-> [Rc [K [Wf [Ln Pl]]]]]]]].
  fold a in Rc, K, Wf, Ln, Pl |- *. assert (Ea : ad_ext a = false) by exact Fl. rewrite Ea in *. rewrite Fl in Gs.
  assert (Ls : length (stds l) = length (pc_caps p)) by (eapply forall2_len; exact (pv_caps _ _ _ I)).
  assert (Hp : forall b, In b (stds l) -> ad_ext b = false /\ placed (pc_cfg p) b).
  { intros b Hb. apply in_stds in Hb. destruct Hb as [Hb Eb]. split; [exact Eb|]. now apply (pv_each _ _ _ I). }
  destruct (place_std_at p pos (ad_size a) data off cfg' (stds l) (pv_bytes _ _ _ I) Bd (pv_256 _ _ _ I) (pv_4096 _ _ _ I) (pv_std _ _ _ I)
              (pv_stdn _ _ _ I) Hp Pl) as [prev [Cases [Auto [O64 [Expl [Hend [Hlen [Bc [Lc D]]]]]]]]].
  assert (Es : ad_size a = cap_bytes false data) by (unfold ad_size; rewrite Ea; reflexivity).
  rewrite <- Es in *. set (z := last (stds l) (mk_added 0 [] 0)) in *.
  assert (Ap : Forall (apart a) l).
  { destruct (N.eq_dec pos 0) as [P0|P0]; [exact (Ap0 P0)|]. apply (free_apart p0 p); [exact I|]. intros k Hk. apply (proj2 (Expl P0)). exact Hk. }
  split; [|split; [intros P0; apply (Expl P0)|split; [exact Ap|intros P0 Hne; apply (Auto P0 Hne)]]].
  rewrite Forall_forall in Ap.
  assert (Far : forall b, In b (stds l) -> ad_end b <= off \/ off + ad_size a <= ad_off b).
  { intros b Hb. apply in_stds in Hb. pose proof (Ap b (proj1 Hb)) as Q. unfold apart in Q. change (ad_off a) with off in Q. unfold ad_end at 1 in Q. change (ad_off a) with off in Q. lia. }
  assert (Sz1 : forall b, In b (stds l) -> 3 <= ad_size b).
  { intros b Hb. destruct (Hp b Hb) as [Eb P]. pose proof (pl_size _ _ P) as Q. rewrite Eb in Q. lia. }
  assert (Sz2 : forall b, In b (stds l) -> 1 <= ad_size b) by (intros b Hb; specialize (Sz1 b Hb); lia).
  assert (Lo : forall b, In b (stds l) -> 64 <= ad_off b /\ ad_end b <= 256).
  { intros b Hb. destruct (Hp b Hb) as [Eb P]. pose proof (pl_low _ _ P) as Q. pose proof (pl_high _ _ P) as Q'. rewrite Eb in *. lia. }
  assert (Pv : prev = 52 \/ (In z (stds l) /\ prev = ad_off z + 1 /\ ~ (off <= prev < off + ad_size a) /\ 64 < prev < 256)).
  { destruct Cases as [[_ ->]|[Hne ->]]; [now left|right]. pose proof (last_in _ (mk_added 0 [] 0) Hne) as Hz. fold z in Hz. split; [exact Hz|]. split; [reflexivity|].
    pose proof (Far z Hz) as Q. pose proof (Sz1 z Hz). pose proof (Lo z Hz). unfold ad_end in *. lia. }
  assert (Om : off mod 256 = off) by (apply N.mod_small; lia).
  assert (Out : forall b, In b (stds l) -> forall j, ad_off b <= j < ad_end b -> j <> ad_off b + 1 -> cfg_byte cfg' j = cfg_byte (pc_cfg p) j).
  { intros b Hb j Hj Hj1. rewrite D. pose proof (Far b Hb). pose proof (Lo b Hb).
    replace (j =? off + 1) with false by lia.
    assert (Hpv : j <> prev).
    { destruct Pv as [->|(Hz & -> & _)]; [lia|]. intros ->.
      destruct (fop_in _ (pv_stdo _ _ _ I) b z Hb Hz) as [->|Q]; [apply Hj1; reflexivity|]. unfold apart in Q. pose proof (Sz1 z Hz). unfold ad_end in *. lia. }
    replace (j =? prev) with false by lia. now replace ((off <=? j) && (j <? off + ad_size a)) with false by lia. }
  assert (Nxt : forall b, In b (stds l) -> ad_off b <> ad_off z -> std_next cfg' (ad_off b) = std_next (pc_cfg p) (ad_off b)).
  { intros b Hb Hz. unfold std_next. rewrite D. pose proof (Far b Hb) as Q. pose proof (Lo b Hb). pose proof (Sz1 b Hb). unfold ad_end in Q.
    replace (ad_off b + 1 =? off + 1) with false by lia.
    replace (ad_off b + 1 =? prev) with false by (destruct Pv as [->|[_ [-> _]]]; lia).
    now replace ((off <=? ad_off b + 1) && (ad_off b + 1 <? off + ad_size a)) with false by lia. }
  constructor; cbn [pc_cfg pc_caps pc_ext_caps]; rewrite ?stds_snoc, ?exts_snoc, ?Ea.
  - exact Bc.
  - rewrite Lc. apply I.
  - rewrite Lc. apply I.
  - rewrite Lc. apply I.
  - rewrite map_app. cbn [map]. change (ad_off a) with off. unfold std_list.
    assert (Z0 : std_next cfg' off = 0) by (unfold std_next; rewrite D; now replace (off + 1 =? off + 1) with true by lia).
    destruct Cases as [[E E1]|[Hne E1]].
    + rewrite E. cbn [map app]. replace (cfg_byte cfg' 52) with off.
      2: { rewrite D. replace (52 =? off + 1) with false by lia. rewrite E1. change (52 =? 52) with true. cbv iota. now symmetry. }
      constructor; [lia|]. rewrite Z0. constructor.
    + assert (Hzin : In z (stds l)) by (apply last_in; exact Hne). pose proof (Lo z Hzin).
      replace (cfg_byte cfg' 52) with (cfg_byte (pc_cfg p) 52).
      2: { symmetry. rewrite D. replace (52 =? off + 1) with false by lia.
           replace (52 =? prev) with false by lia. now replace ((off <=? 52) && (52 <? off + ad_size a)) with false by lia. }
      assert (Lz : last (map ad_off (stds l)) 0 = ad_off z) by (exact (last_map ad_off (stds l) (mk_added 0 [] 0))).
      apply (walk_snoc (std_next (pc_cfg p))).
      * exact (pv_std _ _ _ I).
      * intros Q. apply Hne. destruct (stds l); [reflexivity|discriminate].
      * apply apart_nodup; [apply I|exact Sz2].
      * lia.
      * intros y Hy Hyz. apply in_map_iff in Hy. destruct Hy as [b [<- Hb]]. apply Nxt; [exact Hb|]. now rewrite Lz in Hyz.
      * rewrite Lz. unfold std_next. rewrite D. rewrite <- E1. pose proof (Far z Hzin) as Q. pose proof (Sz1 z Hzin). unfold ad_end in Q.
        replace (prev =? off + 1) with false by lia. replace (prev =? prev) with true by lia. exact Om.
      * exact Z0.
  - assert (Ext : forall o, 256 <= o -> cfg_byte cfg' o = cfg_byte (pc_cfg p) o).
    { intros o Ho. rewrite D. replace (o =? off + 1) with false by lia.
      replace (o =? prev) with false by (destruct Pv as [->|[_ [_ Q]]]; lia).
      now replace ((off <=? o) && (o <? off + ad_size a)) with false by lia. }
    pose proof (pv_ext _ _ _ I) as W. unfold ext_list in *.
    replace (ext_id cfg' 256) with (ext_id (pc_cfg p) 256) by (unfold ext_id; rewrite !Ext by lia; reflexivity).
    destruct W as [W|[W0 W]]; [left; exact W|right; split; [exact W0|]].
    apply (walk_same (ext_next (pc_cfg p))); [exact W|]. intros y Hy. apply in_map_iff in Hy. destruct Hy as [b [<- Hb]].
    apply in_exts in Hb. destruct Hb as [Hb Eb]. pose proof (pl_low _ _ (pv_each _ _ _ I b Hb)) as Q. rewrite Eb in Q.
    unfold ext_next. rewrite !Ext by lia. reflexivity.
  - intros b Hb. apply in_app_or in Hb. destruct Hb as [Hb|[<-|[]]].
    + destruct (ad_ext b) eqn:Eb.
      * apply (placed_keep (pc_cfg p)); [now apply I|exact Lc|]. rewrite Eb. intros j Hj _.
        pose proof (pl_low _ _ (pv_each _ _ _ I b Hb)) as Q. rewrite Eb in Q.
        rewrite D. replace (j =? off + 1) with false by lia.
        replace (j =? prev) with false by (destruct Pv as [->|[_ [_ Q']]]; lia).
        now replace ((off <=? j) && (j <? off + ad_size a)) with false by lia.
      * apply (placed_keep (pc_cfg p)); [now apply I|exact Lc|]. rewrite Eb. intros j Hj Hj1.
        apply (Out b); [apply in_stds; auto|exact Hj|exact Hj1].
    + constructor; rewrite ?Ea; auto.
      intros i Hi Hx. rewrite Ea in Hx. change (ad_off a) with off. rewrite D. replace (off + i =? off + 1) with false by lia.
      replace (off + i =? prev) with false by (destruct Pv as [->|[_ [_ Q']]]; lia).
      replace ((off <=? off + i) && (off + i <? off + ad_size a)) with true by lia.
      replace (off + i - off) with i by lia. reflexivity.
  - apply fop_snoc; [apply I|]. rewrite Forall_forall. intros b Hb. apply apart_sym. apply Ap. now apply in_stds in Hb.
  - apply I.
  - rewrite app_length. cbn [length]. pose proof (pv_stdn _ _ _ I). lia.
  - apply I.
  - apply forall2_snoc; [apply I|exact Rc].
  - apply I.
  - intros q Hq. unfold all_caps in Hq. cbn [pc_caps pc_ext_caps] in Hq. rewrite !in_app_iff in Hq.
    destruct Hq as [[Hq|[<-|[]]]|Hq]; [apply (pv_wf _ _ _ I); unfold all_caps; apply in_or_app; auto|apply Wf; exact Gs|
      apply (pv_wf _ _ _ I); unfold all_caps; apply in_or_app; auto].
  - intros y Hy Hn. rewrite D.
    assert (Na : ~ (off <= y < off + ad_size a)) by (apply (Hn a); apply in_or_app; right; now left).
    replace (y =? off + 1) with false by lia.
    assert (y <> prev).
    { destruct Pv as [->|(Hzin & -> & _)]; [exact Hy|]. intros ->.
      apply (Hn z); [apply in_or_app; left; now apply in_stds in Hzin|]. pose proof (Sz1 z Hzin). unfold ad_end. lia. }
    replace (y =? prev) with false by lia. replace ((off <=? y) && (y <? off + ad_size a)) with false by lia.
    apply (pv_frame _ _ _ I); [exact Hy|]. intros b Hb. apply Hn. apply in_or_app. now left.
Qed.

Lemma at_step_ext e express p0 p l pos flags data off p' : fresh p0 -> pinv p0 p l -> good_request (flags, data) -> N.testbit flags 0 = true ->
  add_capability e express p pos flags data = (Ok off, p') -> (pos = 0 -> Forall (apart (mk_added flags data off)) l) ->
  pinv p0 p' (l ++ [mk_added flags data off]) /\ (pos <> 0 -> off = pos) /\ Forall (apart (mk_added flags data off)) l /\
  (pos = 0 -> exts l <> [] -> ad_end (last (exts l) (mk_added 0 [] 0)) <= off).
Proof.
  intros F0 I [Bd Gs] Fl H Ap0. cbn [fst snd] in *. set (a := mk_added flags data off) in *.
  destruct (add_inversion _ _ _ _ _ _ _ _ Bd H) as [cfg' [c [x [-> [Rc [K [Wf [Ln Pl]]]]]]]].
  fold a in Rc, K, Wf, Ln, Pl |- *. assert (Ea : ad_ext a = true) by exact Fl. rewrite Ea in *. rewrite Fl in Gs.
  assert (Ls : length (exts l) = length (pc_ext_caps p)) by (eapply forall2_len; exact (pv_exts _ _ _ I)).
  assert (Hp : forall b, In b (exts l) -> ad_ext b = true /\ placed (pc_cfg p) b).
  { intros b Hb. apply in_exts in Hb. destruct Hb as [Hb Eb]. split; [exact Eb|]. now apply (pv_each _ _ _ I). }
  assert (Es : ad_size a = cap_bytes true data) by (unfold ad_size; rewrite Ea; reflexivity).
  rewrite <- Es in *.
  destruct (place_ext_at p pos (ad_size a) data off cfg' (exts l) (pv_bytes _ _ _ I) Bd (pv_256 _ _ _ I) (pv_4096 _ _ _ I) Gs (pv_ext _ _ _ I)
              (pv_extn _ _ _ I) Hp (fun E _ => no_ext _ _ _ F0 I E) Pl) as [C0 [C1 [Auto [O256 [Expl [Hend [Hlen [Bc [Lc [Z0 D]]]]]]]]]].
  set (z := last (exts l) (mk_added 0 [] 0)) in *.
  assert (Ap : Forall (apart a) l).
  { destruct (N.eq_dec pos 0) as [P0|P0]; [exact (Ap0 P0)|]. apply (free_apart p0 p); [exact I|]. intros k Hk. apply (proj2 (Expl P0)). exact Hk. }
  split; [|split; [intros P0; apply (Expl P0)|split; [exact Ap|intros P0 Hne; apply (Auto P0 Hne)]]].
  rewrite Forall_forall in Ap.
  assert (Far : forall b, In b (exts l) -> ad_end b <= off \/ off + ad_size a <= ad_off b).
  { intros b Hb. apply in_exts in Hb. pose proof (Ap b (proj1 Hb)) as Q. unfold apart in Q. change (ad_off a) with off in Q. unfold ad_end at 1 in Q. change (ad_off a) with off in Q. lia. }
  assert (Sz1 : forall b, In b (exts l) -> 8 <= ad_size b).
  { intros b Hb. destruct (Hp b Hb) as [Eb P]. pose proof (pl_size _ _ P) as Q. rewrite Eb in Q. lia. }
  assert (Sz2 : forall b, In b (exts l) -> 1 <= ad_size b) by (intros b Hb; specialize (Sz1 b Hb); lia).
  assert (Lo : forall b, In b (exts l) -> 256 <= ad_off b).
  { intros b Hb. destruct (Hp b Hb) as [Eb P]. pose proof (pl_low _ _ P) as Q. rewrite Eb in Q. lia. }
  assert (Zh : exts l <> [] -> In z (exts l) /\ 256 <= ad_off z /\ 8 <= ad_size z /\ (ad_off z + ad_size z <= off \/ off + ad_size a <= ad_off z)).
  { intros Hne. pose proof (last_in _ (mk_added 0 [] 0) Hne) as Hz. fold z in Hz. pose proof (Lo z Hz). pose proof (Far z Hz) as Q. pose proof (Sz1 z Hz).
    unfold ad_end in Q. auto. }
  assert (Low : forall j, j < 256 -> cfg_byte cfg' j = cfg_byte (pc_cfg p) j).
  { intros j Hj. rewrite D; [|lia|lia|intros Hne; specialize (Zh Hne); lia].
    now replace ((off <=? j) && (j <? off + ad_size a)) with false by lia. }
  assert (Hit : forall b, In b (exts l) -> forall j, ad_off b <= j < ad_end b -> (exts l <> [] -> j <> ad_off z + 2 /\ j <> ad_off z + 3) ->
     cfg_byte cfg' j = cfg_byte (pc_cfg p) j).
  { intros b Hb j Hj Hjz. pose proof (Far b Hb). rewrite D; [|lia|lia|exact Hjz].
    now replace ((off <=? j) && (j <? off + ad_size a)) with false by lia. }
  assert (Far2 : forall b, In b (exts l) -> b <> z -> ad_end b <= ad_off z \/ ad_end z <= ad_off b).
  { intros b Hb Hbz. assert (Hne : exts l <> []) by (intros Q; rewrite Q in Hb; destruct Hb).
    destruct (fop_in _ (pv_exto _ _ _ I) b z Hb (proj1 (Zh Hne))) as [Q|Q]; [exfalso; apply Hbz; exact Q|exact Q]. }
  constructor; cbn [pc_cfg pc_caps pc_ext_caps]; rewrite ?stds_snoc, ?exts_snoc, ?Ea.
  - exact Bc.
  - rewrite Lc. apply I.
  - rewrite Lc. apply I.
  - rewrite Lc. apply I.
  - unfold std_list. rewrite Low by lia. apply (walk_same (std_next (pc_cfg p))); [exact (pv_std _ _ _ I)|].
    intros y Hy. apply in_map_iff in Hy. destruct Hy as [b [<- Hb]]. apply in_stds in Hb. destruct Hb as [Hb Eb].
    pose proof (pv_each _ _ _ I b Hb) as P. pose proof (pl_high _ _ P) as Q. pose proof (pl_size _ _ P) as Q'. rewrite Eb in *.
    unfold std_next. unfold ad_end in Q. apply Low. lia.
  - rewrite map_app. cbn [map]. change (ad_off a) with off. right.
    assert (C : exts l = [] \/ exts l <> []) by (destruct (exts l); [now left|right; discriminate]). destruct C as [E|Hne].
    + rewrite (C0 E) in *. split.
      * unfold ext_id. rewrite (D 256), (D (256 + 1)); [|discriminate|discriminate|intros Q; now destruct (Q E)|discriminate|discriminate|intros Q; now destruct (Q E)].
        replace ((256 <=? 256) && (256 <? 256 + ad_size a)) with true by lia.
        replace ((256 <=? 256 + 1) && (256 + 1 <? 256 + ad_size a)) with true by lia.
        change (N.to_nat (256 - 256)) with 0%nat. unfold known_id in K. lia.
      * rewrite E. cbn [map app]. constructor; [discriminate|]. rewrite Z0. constructor.
    + destruct (Zh Hne) as (Hzin & Z1 & Z2 & Z3).
      assert (Lz : last (map ad_off (exts l)) 0 = ad_off z) by (exact (last_map ad_off (exts l) (mk_added 0 [] 0))).
      pose proof (pv_ext _ _ _ I) as W. destruct W as [[_ W]|[W0 W]]; [destruct (exts l); [congruence|discriminate]|].
      assert (H0 : exists b, In b (exts l) /\ ad_off b = 256).
      { destruct (exts l) as [|b t]; [congruence|]. exists b. split; [now left|]. cbn [map] in W. inversion W. reflexivity. }
      destruct H0 as (b0 & Hb0 & E0). pose proof (Far b0 Hb0) as F1. pose proof (Sz1 b0 Hb0) as F2. unfold ad_end in F1.
      split.
      * assert (forall j, 256 <= j < 258 -> cfg_byte cfg' j = cfg_byte (pc_cfg p) j) as Hj.
        { intros j Hj. rewrite D; [|lia|lia|].
          - now replace ((off <=? j) && (j <? off + ad_size a)) with false by lia.
          - intros _. destruct (N.eq_dec (ad_off z) 256); [lia|]. assert (Nz : b0 <> z) by congruence. pose proof (Far2 b0 Hb0 Nz) as Q. unfold ad_end in Q. lia. }
        unfold ext_id in *. rewrite !Hj by lia. exact W0.
      * apply (walk_snoc (ext_next (pc_cfg p))).
        -- exact W.
        -- intros Q. apply Hne. destruct (exts l); [reflexivity|discriminate].
        -- apply apart_nodup; [apply I|exact Sz2].
        -- lia.
        -- intros y Hy Hyz. apply in_map_iff in Hy. destruct Hy as [b [<- Hb]]. rewrite Lz in Hyz.
           assert (Hbz : b <> z) by congruence. pose proof (Far2 b Hb Hbz) as Q. pose proof (Sz1 b Hb). unfold ad_end in Q.
           unfold ext_next. rewrite !(Hit b Hb) by (unfold ad_end; lia). reflexivity.
        -- rewrite Lz. apply C1; [exact Hne|lia].
        -- exact Z0.
  - intros b Hb. apply in_app_or in Hb. destruct Hb as [Hb|[<-|[]]].
    + apply (placed_keep (pc_cfg p)); [now apply I|exact Lc|]. intros j Hj Hx. destruct (ad_ext b) eqn:Eb.
      * assert (Hb' : In b (exts l)) by (apply in_exts; auto). apply (Hit b Hb'); [exact Hj|]. intros Hne.
        destruct (N.eq_dec (ad_off b) (ad_off z)) as [Q|Q]; [rewrite <- Q; exact Hx|].
        assert (Nz : b <> z) by congruence. pose proof (Far2 b Hb' Nz) as Q2. destruct (Zh Hne) as (_ & _ & Q3 & _). unfold ad_end in *. lia.
      * apply Low. pose proof (pl_high _ _ (pv_each _ _ _ I b Hb)) as Q. rewrite Eb in Q. lia.
    + constructor; rewrite ?Ea; auto.
      * intros i Hi Hx. rewrite Ea in Hx. change (ad_off a) with off. rewrite D; [|lia|lia|intros Hne; specialize (Zh Hne); lia].
        replace ((off <=? off + i) && (off + i <? off + ad_size a)) with true by lia.
        replace (off + i - off) with i by lia. reflexivity.
      * rewrite Lc. exact Hend.
  - apply I.
  - apply fop_snoc; [apply I|]. rewrite Forall_forall. intros b Hb. apply apart_sym. apply Ap. now apply in_exts in Hb.
  - apply I.
  - rewrite app_length. cbn [length]. pose proof (pv_extn _ _ _ I). lia.
  - apply I.
  - apply forall2_snoc; [apply I|exact Rc].
  - intros q Hq. unfold all_caps in Hq. cbn [pc_caps pc_ext_caps] in Hq. rewrite !in_app_iff in Hq.
    destruct Hq as [Hq|[Hq|[<-|[]]]]; [apply (pv_wf _ _ _ I); unfold all_caps; apply in_or_app; auto| |apply Wf; exact Gs].
    apply (pv_wf _ _ _ I); unfold all_caps; apply in_or_app; auto.
  - intros y Hy Hn.
    assert (Na : ~ (off <= y < off + ad_size a)) by (apply (Hn a); apply in_or_app; right; now left).
    rewrite D; [|lia|lia|].
    + replace ((off <=? y) && (y <? off + ad_size a)) with false by lia.
      apply (pv_frame _ _ _ I); [exact Hy|]. intros b Hb. apply Hn. apply in_or_app. now left.
    + intros Hne. destruct (Zh Hne) as (Hzin & _ & Q1 & _).
      pose proof (Hn z ltac:(apply in_or_app; left; now apply in_exts in Hzin)) as Q. unfold ad_end in Q. lia.
Qed.

Lemma fresh_pinv p : fresh p -> pinv p p [].
Proof.
  intros [B S [C1 C2] F1 F2].
  constructor; [exact B|reflexivity|destruct S; lia|destruct S; lia|unfold std_list; rewrite F1; constructor
    |left; unfold ext_id; rewrite !F2 by lia; auto|intros a []|constructor|constructor|cbn; lia|cbn; lia|rewrite C1; constructor
    |rewrite C2; constructor|unfold all_caps; rewrite C1, C2; intros c []|reflexivity].
Qed.

Lemma add_all_at_inv e express p0 : fresh p0 -> forall reqs p l0 l p', pinv p0 p l0 -> Forall (fun r => good_request (snd r)) reqs ->
  add_all_at e express p reqs = Some (l, p') -> (forall a, In a l -> ad_ext a = false -> ad_end a <= 256) -> chosen_free l0 reqs l ->
  ForallOrdPairs apart l0 -> pinv p0 p' (l0 ++ l) /\ Forall2 granted reqs l /\ ForallOrdPairs apart (l0 ++ l).
Proof.
  intros F0. induction reqs as [|[pos [flags data]] reqs IH]; intros p l0 l p' I G H He Fr O; cbn [add_all_at] in H.
  - injection H as <- <-. rewrite app_nil_r. auto.
  - inversion_clear G as [|? ? G1 G2]. cbn [snd] in G1. destruct (add_capability e express p pos flags data) as [[off| |] p1] eqn:A; try discriminate.
    destruct (add_all_at e express p1 reqs) as [[l1 p2]|] eqn:R; [|discriminate]. injection H as <- <-.
    cbn [chosen_free fst] in Fr. destruct Fr as (Fr0 & Fr).
    assert (I1 : pinv p0 p1 (l0 ++ [mk_added flags data off]) /\ (pos <> 0 -> off = pos) /\ Forall (apart (mk_added flags data off)) l0).
    { destruct (N.testbit flags 0) eqn:Fl.
      - destruct (at_step_ext e express p0 p l0 pos flags data off p1 F0 I G1 Fl A Fr0) as (Q1 & Q2 & Q3 & _). auto.
      - destruct (at_step_std e express p0 p l0 pos flags data off p1 I G1 Fl A) as (Q1 & Q2 & Q3 & _); auto.
        pose proof (He (mk_added flags data off) ltac:(now left) Fl) as Q. unfold ad_end, ad_size, ad_ext in Q. cbn [ad_off ad_flags ad_data] in Q.
        rewrite Fl in Q. exact Q. }
    destruct I1 as (I1 & Gp & Ap).
    destruct (IH p1 _ l1 p2 I1 G2 R) as (I2 & E & O2); [intros a Ha; apply He; now right|exact Fr|apply fop_snoc; [exact O|eapply Forall_impl; [|exact Ap]; intros b; apply apart_sym]|].
    rewrite <- app_assoc in I2, O2. cbn [app] in I2, O2. split; [exact I2|]. split; [|exact O2]. constructor; [|exact E]. unfold granted. cbn [fst snd ad_flags ad_data ad_off]. auto.
Qed.

(* If positions rise, the library's own choices are free, and everything is in order. *)
Lemma rising_inv e express p0 : fresh p0 -> forall reqs p l0 l p', pinv p0 p l0 -> Forall (fun r => good_request (snd r)) reqs ->
  add_all_at e express p reqs = Some (l, p') -> (forall a, In a l -> ad_ext a = false -> ad_end a <= 256) -> rising l0 reqs l ->
  ForallOrdPairs before (stds l0) -> ForallOrdPairs before (exts l0) ->
  chosen_free l0 reqs l /\ ForallOrdPairs before (stds (l0 ++ l)) /\ ForallOrdPairs before (exts (l0 ++ l)).
Proof.
  intros F0. induction reqs as [|[pos [flags data]] reqs IH]; intros p l0 l p' I G H He Ri O1 O2; cbn [add_all_at] in H.
  - injection H as <- <-. rewrite app_nil_r. cbn [chosen_free]. auto.
  - inversion_clear G as [|? ? G1 G2]. cbn [snd] in G1. destruct (add_capability e express p pos flags data) as [[off| |] p1] eqn:A; try discriminate.
    destruct (add_all_at e express p1 reqs) as [[l1 p2]|] eqn:R; [|discriminate]. injection H as <- <-.
    cbn [rising fst] in Ri. destruct Ri as (Ri0 & Ri). set (a := mk_added flags data off) in *.
    assert (EA : ad_ext a = false -> off + cap_bytes false data <= 256).
    { intros Fl. pose proof (He a ltac:(now left) Fl) as Q. unfold ad_end, ad_size in Q. rewrite Fl in Q. exact Q. }
    assert (EachLow : forall b, In b l0 -> (if ad_ext b then 256 else 64) <= ad_off b /\ ad_end b <= (if ad_ext b then N.of_nat (length (pc_cfg p)) else 256) /\ 3 <= ad_size b).
    { intros b Hb. pose proof (pv_each _ _ _ I b Hb) as P. pose proof (pl_low _ _ P). pose proof (pl_high _ _ P). pose proof (pl_size _ _ P). destruct (ad_ext b); lia. }
    assert (BD : bytes data) by exact (proj1 G1).
    destruct (add_inversion _ _ _ _ _ _ _ _ BD A) as (cfg' & c & x & _ & _ & _ & _ & _ & Pl). fold a in Pl.
    (* everything of the same kind lies before, the rest apart *)
    assert (Bef : (forall b, In b l0 -> ad_ext b = ad_ext a -> ad_end b <= off) /\ (if ad_ext a then 256 else 64) <= off).
    { destruct (ad_ext a) eqn:Ea.
      - assert (Hp : forall b, In b (exts l0) -> ad_ext b = true /\ placed (pc_cfg p) b).
        { intros b Hb. apply in_exts in Hb. destruct Hb as [Hb Eb]. split; [exact Eb|]. now apply (pv_each _ _ _ I). }
        assert (S8 : 8 <= ad_size a).
        { destruct G1 as [_ Gs]. change (N.testbit (fst (flags, data)) 0) with (ad_ext a) in Gs. unfold ad_size. rewrite Ea in *. exact Gs. }
        destruct (place_ext_at p pos (ad_size a) data off cfg' (exts l0) (pv_bytes _ _ _ I) BD (pv_256 _ _ _ I) (pv_4096 _ _ _ I) S8 (pv_ext _ _ _ I)
              (pv_extn _ _ _ I) Hp (fun E _ => no_ext _ _ _ F0 I E) Pl) as [_ [_ [Auto [O256 _]]]]. split; [|exact O256].
        intros b Hb Eb. destruct (N.eq_dec pos 0) as [P0|P0]; [|pose proof (proj1 (Forall_forall _ _) (Ri0 P0) b Hb Eb) as Q; exact Q].
        assert (Hb' : In b (exts l0)) by (apply in_exts; auto). assert (Hne : exts l0 <> []) by (intros Q; rewrite Q in Hb'; destruct Hb').
        destruct (before_last _ b O2 ltac:(intros b' Hb2; apply in_exts in Hb2; destruct (EachLow b' (proj1 Hb2)) as (_ & _ & Q); lia) Hne (mk_added 0 [] 0) Hb') as [->|Q]; [apply (Auto P0 Hne)|].
        pose proof (Auto P0 Hne) as Q2. unfold ad_end in Q2 at 1. lia.
      - assert (Hp : forall b, In b (stds l0) -> ad_ext b = false /\ placed (pc_cfg p) b).
        { intros b Hb. apply in_stds in Hb. destruct Hb as [Hb Eb]. split; [exact Eb|]. now apply (pv_each _ _ _ I). }
        destruct (place_std_at p pos (ad_size a) data off cfg' (stds l0) (pv_bytes _ _ _ I) BD (pv_256 _ _ _ I) (pv_4096 _ _ _ I) (pv_std _ _ _ I)
              (pv_stdn _ _ _ I) Hp Pl) as [prev [_ [Auto [O64 _]]]]. split; [|exact O64].
        intros b Hb Eb. destruct (N.eq_dec pos 0) as [P0|P0]; [|pose proof (proj1 (Forall_forall _ _) (Ri0 P0) b Hb Eb) as Q; exact Q].
        assert (Hb' : In b (stds l0)) by (apply in_stds; auto). assert (Hne : stds l0 <> []) by (intros Q; rewrite Q in Hb'; destruct Hb').
        destruct (before_last _ b O1 ltac:(intros b' Hb2; apply in_stds in Hb2; destruct (EachLow b' (proj1 Hb2)) as (_ & _ & Q); lia) Hne (mk_added 0 [] 0) Hb') as [->|Q]; [apply (Auto P0 Hne)|].
        pose proof (Auto P0 Hne) as Q2. unfold ad_end in Q2 at 1. lia. }
    destruct Bef as (Bef & Low).
    assert (Ap : Forall (apart a) l0).
    { rewrite Forall_forall. intros b Hb. unfold apart. change (ad_off a) with off. destruct (EachLow b Hb) as (L1 & L2 & _).
      assert (AE : ad_end a = off + ad_size a) by reflexivity. assert (AS : ad_ext a = false -> ad_size a = cap_bytes false data) by (intros Q; unfold ad_size; rewrite Q; reflexivity).
      specialize (Bef b Hb). destruct (ad_ext b), (ad_ext a); try (right; apply Bef; reflexivity).
      - left. specialize (EA eq_refl). specialize (AS eq_refl). lia.
      - right. lia. }
    assert (I1 : pinv p0 p1 (l0 ++ [a])).
    { destruct (ad_ext a) eqn:Ea.
      - exact (proj1 (at_step_ext e express p0 p l0 pos flags data off p1 F0 I G1 Ea A (fun _ => Ap))).
      - exact (proj1 (at_step_std e express p0 p l0 pos flags data off p1 I G1 Ea A (EA eq_refl) (fun _ => Ap))). }
    destruct (IH p1 _ l1 p2 I1 G2 R) as (Q1 & Q2 & Q3); [intros b Hb; apply He; now right|exact Ri| | |].
    + rewrite stds_snoc. destruct (ad_ext a) eqn:Ea; [exact O1|]. apply fop_snoc; [exact O1|]. rewrite Forall_forall. intros b Hb. apply in_stds in Hb. unfold before. apply Bef; [tauto|]. tauto.
    + rewrite exts_snoc. destruct (ad_ext a) eqn:Ea; [|exact O2]. apply fop_snoc; [exact O2|]. rewrite Forall_forall. intros b Hb. apply in_exts in Hb. unfold before. apply Bef; [tauto|]. tauto.
    + rewrite <- app_assoc in Q2, Q3. cbn [app] in Q2, Q3. cbn [chosen_free]. auto.
Qed.
