(* C47: exactly when a capability is accepted, and where it is put. *)
From Coq Require Import NArith ZArith List Bool Lia ZifyBool ZifyNat ZifyN.
From Verif Require Import Base Types Bytes BytesProofs Migr Pci SpecPci SpecCaps BufProofs PciProofs PciWrite DmaMap CapsProofs CapsAdd PropCaps.
Import ListNotations.
Open Scope N_scope.
Ltac Zify.zify_post_hook ::= idtac.

(* The ids the library knows: power management, PCI Express, MSI, MSI-X and vendor capabilities; device serial
   number and vendor extended capabilities. *)
Definition supported (ext : bool) (data : list N) : bool :=
  if ext then (nth 1 data 0 =? 0) && ((nth 0 data 0 =? 3) || (nth 0 data 0 =? 11))
  else existsb (N.eqb (nth 0 data 0)) [1; 16; 5; 17; 9].

(* Where the next capability of a kind goes: at the start of the area, or at the first multiple of four behind
   the one of that kind added last. *)
Definition next_place (ext : bool) (l : list added) : N :=
  match rev (filter (fun a => Bool.eqb (ad_ext a) ext) l) with
  | [] => if ext then 256 else 64
  | z :: _ => 4 * ((ad_end z + 3) / 4)
  end.

(* The answer to a request to add a capability, after the capabilities l were added. *)
Definition add_answer (cfg_cb express : bool) (room : N) (l : list added) (flags : N) (data : list N) : outcome N :=
  let ext := N.testbit flags 0 in
  if (8 <=? flags) || (N.testbit flags 1 && negb cfg_cb) || (ext && negb express) then Err EINVAL
  else if Nat.eqb (length (filter (fun a => Bool.eqb (ad_ext a) ext) l)) 128 then Err ENOSPC
  else if negb (supported ext data) then Err ENOTSUP
  else if room <=? cap_bytes ext data then Err EINVAL
  else if room <? next_place ext l + cap_bytes ext data then Err ENOSPC
  else Ok (next_place ext l).

Lemma supported_known (ext : bool) data : bytes data -> supported ext data = true <-> known_id ext data.
Proof.
  intros B. unfold supported, known_id. destruct ext.
  - lia.
  - cbn [existsb]. lia.
Qed.

Lemma hdr_known (ext : bool) (id : N) (data : list N) : bytes data -> (2 <= length data)%nat -> rd data 0 (if ext then 2 else 1)%nat = Some id ->
  (cap_hdr_size ext id = None <-> supported ext data = false).
Proof.
  intros B L R. pose proof (bytes_nth data 0 B) as B0. pose proof (bytes_nth data 1 B) as B1.
  assert (E : id = if ext then nth 0 data 0 + 256 * nth 1 data 0 else nth 0 data 0).
  { destruct ext; [rewrite rd2 in R by lia|rewrite rd1 in R by lia]; injection R as <-; reflexivity. }
  unfold cap_hdr_size, supported, PCI_EXT_CAP_ID_DSN, PCI_EXT_CAP_ID_VNDR, PCI_CAP_ID_PM, PCI_CAP_ID_EXP, PCI_CAP_ID_MSI, PCI_CAP_ID_MSIX, PCI_CAP_ID_VNDR.
  set (a := nth 0 data 0) in *. set (b := nth 1 data 0) in *. clearbody a b. destruct ext; subst id; cbn [existsb].
  - destruct (a + 256 * b =? 3) eqn:E1.
    + replace ((b =? 0) && ((a =? 3) || (a =? 11))) with true by lia. split; discriminate.
    + destruct (a + 256 * b =? 11) eqn:E2.
      * replace ((b =? 0) && ((a =? 3) || (a =? 11))) with true by lia. split; discriminate.
      * replace ((b =? 0) && ((a =? 3) || (a =? 11))) with false by lia. split; reflexivity.
  - destruct ((a =? 1) || (a =? 16) || (a =? 5) || (a =? 17)) eqn:E1.
    + replace ((a =? 1) || ((a =? 16) || ((a =? 5) || ((a =? 17) || ((a =? 9) || false))))) with true by lia. split; discriminate.
    + destruct (a =? 9) eqn:E2.
      * replace ((a =? 1) || ((a =? 16) || ((a =? 5) || ((a =? 17) || (true || false))))) with true by lia. split; discriminate.
      * replace ((a =? 1) || ((a =? 16) || ((a =? 5) || ((a =? 17) || (false || false))))) with false by lia. split; reflexivity.
Qed.

Lemma round4_val x : x < 2 ^ 62 -> round_up x 4 = 4 * ((x + 3) / 4).
Proof.
  intros H. change (round_up x 4) with (round_up x (2 ^ 2)). rewrite round_up_pow2; [|lia|].
  2: { change (2 ^ 2) with 4. change two64 with (4 * 2 ^ 62). lia. }
  change (2 ^ 2) with 4. replace (x + 4 - 1) with (x + 3) by lia. lia.
Qed.

Lemma cap_put_fits cfg size data prevp o : o + size < 2 ^ 63 -> 3 <= size -> (N.to_nat size <= length data)%nat -> prevp < N.of_nat (length cfg) ->
  if N.of_nat (length cfg) <? o + size then cap_put cfg size data prevp o = Err ENOSPC
  else exists c, cap_put cfg size data prevp o = Ok (o, c).
Proof.
  intros Hw Hs Hd Hp. unfold cap_put, need.
  replace (w64 (o + size)) with (o + size) by (symmetry; apply N.mod_small; change two64 with (2 * 2 ^ 63); lia).
  destruct (N.of_nat (length cfg) <? o + size) eqn:E; [reflexivity|].
  destruct (slice_some data 0 (N.to_nat size)) as [d Ed]; [lia|]. rewrite Ed. pose proof (slice_length _ _ _ _ Ed) as Ld.
  replace (N.of_nat (length cfg) <=? o) with false by lia.
  destruct (put_slice_some cfg (N.to_nat o) d) as [c1 E1]; [lia|]. rewrite E1. pose proof (put_slice_length _ _ _ _ E1) as L1.
  destruct (wr_some c1 (N.to_nat prevp) 1 o) as [c2 E2]; [lia|]. rewrite E2. pose proof (wr_length _ _ _ _ _ E2) as L2.
  replace (N.of_nat (length cfg) <=? o + 1) with false by lia.
  destruct (wr_some c2 (N.to_nat (o + 1)) 1 0) as [c3 E3]; [lia|]. rewrite E3. eauto.
Qed.

Lemma set_next_some cfg o v : (N.to_nat o + 4 <= length cfg)%nat -> exists c, set_ext_next cfg o v = Some c /\ length c = length cfg.
Proof.
  intros H. unfold set_ext_next. destruct (rd_some cfg (N.to_nat o) 4 H) as [x ->].
  destruct (wr_some cfg (N.to_nat o) 4 (bf_set x 20 12 v) H) as [c E]. exists c. split; [exact E|]. exact (wr_length _ _ _ _ _ E).
Qed.

Lemma ext_cap_put_fits cfg size data prev o : o + size < 2 ^ 63 -> 8 <= size -> (N.to_nat size <= length data)%nat ->
  (forall h, prev = Some h -> h + 4 <= N.of_nat (length cfg) /\ N.land o 3 = 0) ->
  if N.of_nat (length cfg) <? o + size then ext_cap_put cfg size data prev o = Err ENOSPC
  else exists c, ext_cap_put cfg size data prev o = Ok (o, c).
Proof.
  intros Hw Hs Hd Hp. unfold ext_cap_put, need.
  replace (w64 (o + size)) with (o + size) by (symmetry; apply N.mod_small; change two64 with (2 * 2 ^ 63); lia).
  destruct (N.of_nat (length cfg) <? o + size) eqn:E; [reflexivity|].
  destruct (slice_some data 0 (N.to_nat size)) as [d Ed]; [lia|]. rewrite Ed. pose proof (slice_length _ _ _ _ Ed) as Ld.
  replace (N.of_nat (length cfg) <=? o) with false by lia.
  destruct (put_slice_some cfg (N.to_nat o) d) as [c1 E1]; [lia|]. rewrite E1. pose proof (put_slice_length _ _ _ _ E1) as L1.
  destruct prev as [h|].
  - destruct (Hp h eq_refl) as [H4 Ha]. rewrite Ha. cbn [negb]. change (0 =? 0) with true. cbn [negb].
    destruct (set_next_some c1 h o) as [c2 [E2 L2]]; [lia|]. rewrite E2.
    destruct (set_next_some c2 o 0) as [c3 [E3 L3]]; [lia|]. rewrite E3. eauto.
  - destruct (set_next_some c1 o 0) as [c3 [E3 L3]]; [lia|]. rewrite E3. eauto.
Qed.

Lemma rev_last {A} (l : list A) d : l <> [] -> exists r, rev l = last l d :: r.
Proof.
  intros H. destruct (exists_last H) as [l0 [z E]]. subst l. rewrite rev_app_distr, last_last. cbn [rev app]. eauto.
Qed.

Lemma next_place_of ext l : let k := filter (fun a => Bool.eqb (ad_ext a) ext) l in
  (k = [] /\ next_place ext l = if ext then 256 else 64) \/
  (k <> [] /\ next_place ext l = 4 * ((ad_end (last k (mk_added 0 [] 0)) + 3) / 4)).
Proof.
  intros k. unfold next_place. fold k. assert (C : k = [] \/ k <> []) by (destruct k; [now left|right; discriminate]).
  destruct C as [E|E]; [left; rewrite E; auto|right; split; [exact E|]]. destruct (rev_last k (mk_added 0 [] 0) E) as [r ->]. reflexivity.
Qed.

Lemma kind_stds l : filter (fun a => Bool.eqb (ad_ext a) false) l = stds l.
Proof. unfold stds. induction l as [|a l IH]; [reflexivity|]. cbn [filter]. rewrite IH. now destruct (ad_ext a). Qed.
Lemma kind_exts l : filter (fun a => Bool.eqb (ad_ext a) true) l = exts l.
Proof. unfold exts. induction l as [|a l IH]; [reflexivity|]. cbn [filter]. rewrite IH. now destruct (ad_ext a). Qed.

Lemma next_place_bound p0 p l ext : inv p0 p l -> next_place ext l < 8192 /\ N.land (next_place ext l) 3 = 0 /\
  (filter (fun a => Bool.eqb (ad_ext a) ext) l <> [] -> next_place ext l = round_up (ad_end (last (filter (fun a => Bool.eqb (ad_ext a) ext) l) (mk_added 0 [] 0))) 4).
Proof.
  intros I. destruct (next_place_of ext l) as [[E N]|[E N]].
  - rewrite N. split; [destruct ext; reflexivity|]. split; [destruct ext; reflexivity|]. congruence.
  - set (k := filter _ l) in *. set (z := last k _) in *. assert (Hz : In z k) by (apply last_in; exact E).
    unfold k in Hz. apply filter_In in Hz. destruct Hz as [Hz _]. pose proof (pl_high _ _ (iv_each _ _ _ I z Hz)) as Hh. pose proof (iv_4096 _ _ _ I) as L.
    assert (Hb : ad_end z <= 4096) by (destruct (ad_ext z); lia). clear - N Hb.
    pose proof (round4_val (ad_end z) ltac:(change (2 ^ 62) with 4611686018427387904; lia)) as R.
    pose proof (N.div_le_mono (ad_end z + 3) 4099 4 ltac:(discriminate) ltac:(lia)) as D. change (4099 / 4) with 1024 in D.
    split; [lia|]. split; [|intros _; congruence]. rewrite N. change 3 with (N.ones 2) at 2. rewrite N.land_ones. change (2 ^ 2) with 4.
    rewrite N.mul_comm. apply N.mod_mul. discriminate.
Qed.

Lemma place_std_fits p0 p l size data : inv p0 p l -> 3 <= size -> size < 65536 -> (N.to_nat size <= length data)%nat ->
  if N.of_nat (length (pc_cfg p)) <? next_place false l + size then cap_place p 0 size data = Err ENOSPC
  else exists c, cap_place p 0 size data = Ok (next_place false l, c).
Proof.
  intros I Hs Hs' Hd. destruct (next_place_bound p0 p l false I) as [Nb [_ Nr]]. rewrite kind_stds in Nr.
  pose proof (next_place_of false l) as No. cbv zeta in No. rewrite kind_stds in No.
  pose proof (iv_256 _ _ _ I) as L256. pose proof (iv_4096 _ _ _ I) as L4096. pose proof (iv_stdn _ _ _ I) as Ln.
  assert (Hl : forall a, In a (stds l) -> ad_ext a = false /\ placed (pc_cfg p) a).
  { intros b Hb. apply in_stds in Hb. destruct Hb as [Hb Eb]. split; [exact Eb|]. now apply (iv_each _ _ _ I). }
  unfold cap_place. change (negb (0 =? 0)) with false. cbv iota zeta.
  assert (Hx1 : forall x, In x (map ad_off (stds l)) -> x + 1 < N.of_nat (length (pc_cfg p))).
  { intros x Hx. apply in_map_iff in Hx. destruct Hx as [a [<- Ha]]. destruct (Hl a Ha) as [E P].
       pose proof (pl_high _ _ P) as Hh. pose proof (pl_size _ _ P). unfold ad_end in Hh. rewrite E in *. lia. }
  rewrite (last_cap_walk (pc_cfg p) (map ad_off (stds l)) 257 52 0 (iv_std _ _ _ I) ltac:(lia) Hx1) by (rewrite map_length; lia).
  set (pv := last (map (fun x => x + 1) (map ad_off (stds l))) 52).
  set (lo := last (map ad_off (stds l)) 0).
  assert (Pv : pv < N.of_nat (length (pc_cfg p))).
  { assert (C : stds l = [] \/ stds l <> []) by (destruct (stds l); [now left|right; discriminate]). destruct C as [C|C].
    - unfold pv. rewrite C. cbn [map last]. lia.
    - unfold pv. rewrite map_map. assert (Q : In (last (map (fun x => ad_off x + 1) (stds l)) 52) (map (fun x => ad_off x + 1) (stds l))).
      { apply last_in. intros E. apply map_eq_nil in E. congruence. }
      apply in_map_iff in Q. destruct Q as [a [<- Ha]]. apply Hx1. now apply in_map. }
  destruct No as [[El N]|[El N]].
  - assert (Elo : lo = 0) by (unfold lo; rewrite El; reflexivity). rewrite Elo. change (0 =? 0) with true. cbv iota.
    rewrite N. change PCI_STD_HEADER_SIZEOF with 64. apply cap_put_fits; [change (2 ^ 63) with 9223372036854775808; lia|exact Hs|exact Hd|exact Pv].
  - assert (Elo : lo = ad_off (last (stds l) (mk_added 0 [] 0))).
    { unfold lo. change 0 with (ad_off (mk_added 0 [] 0)) at 1. apply last_map. }
    specialize (Nr El). set (z := last (stds l) (mk_added 0 [] 0)) in *.
    assert (Hz : In z (stds l)) by (apply last_in; exact El). destruct (Hl z Hz) as [Ez Pz].
    pose proof (pl_low _ _ Pz) as Lz. pose proof (pl_high _ _ Pz) as Hzh. rewrite Ez in *.
    replace (lo =? 0) with false by lia. rewrite Elo.
    pose proof (placed_known _ _ (iv_bytes _ _ _ I) Pz ltac:(lia)) as Ks. rewrite Ez in Ks. rewrite Ks.
    change (ad_off z + ad_size z) with (ad_end z). rewrite <- Nr.
    apply cap_put_fits; [change (2 ^ 63) with 9223372036854775808; lia|exact Hs|exact Hd|exact Pv].
Qed.

Lemma place_ext_fits p0 p l size data : inv p0 p l -> 260 <= N.of_nat (length (pc_cfg p)) -> 8 <= size -> size < 65536 -> (N.to_nat size <= length data)%nat ->
  if N.of_nat (length (pc_cfg p)) <? next_place true l + size then ext_cap_place p 0 size data = Err ENOSPC
  else exists c, ext_cap_place p 0 size data = Ok (next_place true l, c).
Proof.
  intros I L260 Hs Hs' Hd. destruct (next_place_bound p0 p l true I) as [Nb [Na Nr]]. rewrite kind_exts in Nr.
  pose proof (next_place_of true l) as No. cbv zeta in No. rewrite kind_exts in No.
  pose proof (iv_4096 _ _ _ I) as L4096. pose proof (iv_extn _ _ _ I) as Ln. pose proof (iv_bytes _ _ _ I) as B.
  assert (Hl : forall a, In a (exts l) -> ad_ext a = true /\ placed (pc_cfg p) a).
  { intros b Hb. apply in_exts in Hb. destruct Hb as [Hb Eb]. split; [exact Eb|]. now apply (iv_each _ _ _ I). }
  unfold ext_cap_place. change (negb (0 =? 0)) with false. cbv iota zeta. change PCI_CFG_SPACE_SIZE with 256.
  rewrite ext_hdr_fields by (assumption || lia). unfold need. cbn [fst].
  destruct No as [[El N]|[El N]].
  - destruct (iv_ext _ _ _ I) as [[W0 _]|[W0 W]]; [|rewrite El in W; inversion W].
    rewrite W0. change (0 =? 0) with true. cbv iota. rewrite N.
    apply ext_cap_put_fits; [change (2 ^ 63) with 9223372036854775808; lia|exact Hs|exact Hd|discriminate].
  - destruct (iv_ext _ _ _ I) as [[_ W]|[W0 W]]; [destruct (exts l); [congruence|discriminate]|].
    replace (ext_id (pc_cfg p) 256 =? 0) with false by lia.
    assert (H4 : forall x, In x (map ad_off (exts l)) -> x + 4 <= N.of_nat (length (pc_cfg p))).
    { intros x Hx. apply in_map_iff in Hx. destruct Hx as [a [<- Ha]]. destruct (Hl a Ha) as [E P].
       pose proof (pl_high _ _ P) as Hh. pose proof (pl_size _ _ P). unfold ad_end in Hh. rewrite E in *. lia. }
    rewrite (last_ext_walk (pc_cfg p) B (map ad_off (exts l)) 4097 256 W ltac:(discriminate) H4) by (rewrite map_length; lia).
    replace (last (map ad_off (exts l)) 0) with (ad_off (last (exts l) (mk_added 0 [] 0))) by (symmetry; apply (last_map ad_off (exts l) (mk_added 0 [] 0))).
    specialize (Nr El). set (z := last (exts l) (mk_added 0 [] 0)) in *.
    assert (Hz : In z (exts l)) by (apply last_in; exact El). destruct (Hl z Hz) as [Ez Pz].
    pose proof (pl_high _ _ Pz) as Hzh. rewrite Ez in *.
    pose proof (placed_known _ _ B Pz ltac:(lia)) as Ks. rewrite Ez in Ks. rewrite Ks.
    change (ad_off z + ad_size z) with (ad_end z). rewrite <- Nr.
    apply ext_cap_put_fits; [change (2 ^ 63) with 9223372036854775808; lia|exact Hs|exact Hd|].
    intros h E. injection E as <-. split; [|exact Na]. apply H4. now apply in_map.
Qed.

Lemma flags_seven flags : (N.ldiff flags 7 =? 0) = (flags <? 8).
Proof.
  change 7 with (N.ones 3). rewrite N.ldiff_ones_r, N.shiftl_mul_pow2, N.shiftr_div_pow2. change (2 ^ 3) with 8.
  destruct (flags <? 8) eqn:E.
  - rewrite N.div_small by lia. reflexivity.
  - pose proof (N.div_le_mono 8 flags 8 ltac:(discriminate) ltac:(lia)) as D. change (8 / 8) with 1 in D. lia.
Qed.

(* After any capabilities were added at places the library chooses, the next such request is answered exactly as
   add_answer says, and a refused one changes nothing.  The data the device passes is long enough for its kind,
   a vendor capability is at least as long as its header, and a PCI Express device has an extended config space. *)
Theorem C47_accepted : forall e express p0 reqs l p flags data,
  fresh p0 -> Forall good_request reqs -> add_all e express p0 reqs = Some (l, p) ->
  (length (pc_cfg p0) = 256%nat \/ forall a, In a l -> ad_ext a = false -> ad_end a <= 256) ->
  (express = true -> length (pc_cfg p0) = 4096%nat) ->
  bytes data -> (2 <= length data)%nat ->
  (supported (N.testbit flags 0) data = true -> good_request (flags, data) /\ cap_bytes (N.testbit flags 0) data <= N.of_nat (length data)) ->
  fst (add_capability e express p 0 flags data) = add_answer (pe_cfg_cb e) express (N.of_nat (length (pc_cfg p0))) l flags data /\
  ((forall off, fst (add_capability e express p 0 flags data) <> Ok off) -> snd (add_capability e express p 0 flags data) = p).
Proof.
  intros e express p0 reqs l p flags data F G A H X B L2 S.
  assert (He : forall a, In a l -> ad_ext a = false -> ad_end a <= 256).
  { destruct H as [H|H]; [|exact H]. intros a Ha _. pose proof (add_all_fits _ _ _ _ _ _ G A a Ha). lia. }
  destruct (add_all_inv e express p0 reqs p0 [] l p (fresh_inv _ F) G A He) as [I _]. cbn [app] in I.
  pose proof (iv_len _ _ _ I) as Len. rewrite <- Len in *. clear H He.
  unfold add_capability, add_answer. rewrite flags_seven.
  change (has flags CAP_FLAG_EXTENDED) with (has flags (2 ^ 0)). rewrite (has_bit flags 0).
  change (has flags CAP_FLAG_CALLBACK) with (has flags (2 ^ 1)). rewrite (has_bit flags 1).
  set (ext := N.testbit flags 0) in *.
  destruct (flags <? 8) eqn:E8; cbn [negb].
  2: { replace (8 <=? flags) with true by lia. cbn [orb fst snd]. auto. }
  replace (8 <=? flags) with false by lia. cbn [orb].
  destruct (N.testbit flags 1 && negb (pe_cfg_cb e)) eqn:Ecb; cbn [orb]; [cbn [fst snd]; auto|].
  destruct (ext && negb express) eqn:Eex; [cbn [fst snd]; auto|].
  assert (Ek : length (filter (fun a => Bool.eqb (ad_ext a) ext) l) = length (if ext then pc_ext_caps p else pc_caps p)).
  { destruct ext; [rewrite kind_exts; eapply forall2_len; exact (iv_exts _ _ _ I)|rewrite kind_stds; eapply forall2_len; exact (iv_caps _ _ _ I)]. }
  rewrite Ek. change VFU_MAX_CAPS with 128%nat.
  destruct (Nat.eqb (length (if ext then pc_ext_caps p else pc_caps p)) 128); [cbn [fst snd]; auto|].
  destruct (rd_some data 0 (if ext then 2 else 1)) as [id R]; [destruct ext; lia|]. rewrite R. unfold need.
  pose proof (hdr_known ext id data B L2 R) as K.
  destruct (supported ext data) eqn:Es; cbn [negb].
  2: { destruct K as [_ K]. rewrite (K eq_refl). cbn [fst snd]. auto. }
  destruct (cap_hdr_size ext id) as [hsz|]; [|destruct K as [K _]; specialize (K eq_refl); discriminate].
  destruct (S eq_refl) as [[_ Gs] Sl]. cbn [fst snd] in Gs. fold ext in Gs.
  rewrite (cap_size_of data ext B); [|now apply supported_known|destruct ext; lia].
  set (n := cap_bytes ext data) in *.
  assert (Hn : n < 65536).
  { unfold n, cap_bytes. pose proof (bytes_nth data 2 B). pose proof (bytes_nth data 6 B). pose proof (bytes_nth data 7 B).
    pose proof (N.div_le_mono (nth 6 data 0) 255 16 ltac:(discriminate) ltac:(lia)) as D. change (255 / 16) with 15 in D.
    repeat match goal with |- context [if ?b then _ else _] => destruct b end; lia. }
  replace (w64 (0 + n)) with n by (symmetry; apply N.mod_small; change two64 with 18446744073709551616; lia).
  destruct (N.of_nat (length (pc_cfg p)) <=? n) eqn:El; [cbn [fst snd]; auto|].
  destruct ext.
  - assert (L4 : 260 <= N.of_nat (length (pc_cfg p))) by (rewrite X; [lia|destruct express; [reflexivity|discriminate]]).
    pose proof (place_ext_fits p0 p l n data I L4 Gs Hn ltac:(lia)) as P.
    destruct (N.of_nat (length (pc_cfg p)) <? next_place true l + n).
    + rewrite P. cbn [fst snd]. auto.
    + destruct P as [c ->]. cbn [fst snd]. split; [reflexivity|]. intros Q. destruct (Q _ eq_refl).
  - pose proof (place_std_fits p0 p l n data I Gs Hn ltac:(lia)) as P.
    destruct (N.of_nat (length (pc_cfg p)) <? next_place false l + n).
    + rewrite P. cbn [fst snd]. auto.
    + destruct P as [c ->]. cbn [fst snd]. split; [reflexivity|]. intros Q. destruct (Q _ eq_refl).
Qed.
Print Assumptions C47_accepted.

(* After five capabilities a further vendor capability is put at 92, an extended one at 280; a PCI-X bridge is not
   supported, an unknown flag refused; in 256 bytes there is room for a vendor capability of 192 bytes and not for
   one of 193, and an extended capability is refused. *)
Example C47_accepted_nonvacuous :
  fst (add_capability ex_env47 true (snd ex_result) 0 0 ex_vendor) = Ok 92 /\
  add_answer true true 4096 (fst ex_result) 0 ex_vendor = Ok 92 /\
  add_answer true true 4096 (fst ex_result) 1 ex_ext_vendor = Ok 280 /\
  add_answer true true 4096 (fst ex_result) 0 [8; 0; 0; 0] = Err ENOTSUP /\
  add_answer true true 4096 (fst ex_result) 8 ex_vendor = Err EINVAL /\
  add_answer false true 4096 (fst ex_result) 2 ex_vendor = Err EINVAL /\
  (forall x, add_answer true false 256 [] 0 (9 :: 0 :: 192 :: x) = Ok 64) /\
  (forall x, add_answer true false 256 [] 0 (9 :: 0 :: 193 :: x) = Err ENOSPC) /\
  add_answer true false 256 [] 1 ex_ext_vendor = Err EINVAL /\
  supported true ex_ext_vendor = true /\ good_request (1, ex_ext_vendor) /\ cap_bytes true ex_ext_vendor <= N.of_nat (length ex_ext_vendor).
Proof.
  assert (G : good_request (1, ex_ext_vendor)) by (pose proof ex_good as G; rewrite Forall_forall in G; apply G; right; right; now left).
  repeat (split; [first [vm_compute; reflexivity | exact G]|]). vm_compute. discriminate.
Qed.
