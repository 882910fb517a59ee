(* C61: exactly when a capability is accepted at the position the device asks for. *)
From Coq Require Import NArith ZArith List Bool Lia ZifyBool ZifyNat ZifyN.
From Verif Require Import Base Types Bytes BytesProofs Migr Pci SpecPci SpecCaps BufProofs PciProofs PciWrite DmaMap CapsProofs CapsAdd PropCaps SpecPlace CapsPlace PropPlace PropCapsExact.
Import ListNotations.
Open Scope N_scope.
Ltac Zify.zify_post_hook ::= idtac.

(* A capability is in the way of n bytes at pos: it overlaps them or starts right behind them. *)
Definition in_the_way (pos n : N) (a : added) : bool := (pos <? ad_end a) && (ad_off a <=? pos + n).

(* The answer to a request to add a capability at position pos, after the capabilities l were added. *)
Definition at_answer (cfg_cb express : bool) (room : N) (l : list added) (pos flags : N) (data : list N) : outcome N :=
  let ext := N.testbit flags 0 in
  let n := cap_bytes ext data in
  if (8 <=? flags) || (N.testbit flags 1 && negb cfg_cb) || (ext && negb express) then Err EINVAL
  else if Nat.eqb (length (filter (fun a => Bool.eqb (ad_ext a) ext) l)) 128 then Err ENOSPC
  else if negb (supported ext data) then Err ENOTSUP
  else if (room <=? pos + n) || (pos <? if ext then 256 else 64) || existsb (in_the_way pos n) l then Err EINVAL
  else if ext && negb (existsb ad_ext l) && negb (pos =? 256) then Err EINVAL
  else Ok pos.

Lemma existsb_find {A} (f : A -> bool) l : existsb f l = match find f l with Some _ => true | None => false end.
Proof. induction l as [|a l IH]; [reflexivity|]. cbn [existsb find]. destruct (f a); [reflexivity|exact IH]. Qed.

Lemma existsb_kinds f l : existsb f l = existsb f (stds l) || existsb f (exts l).
Proof.
  unfold stds, exts. induction l as [|a l IH]; [reflexivity|]. cbn [existsb filter]. rewrite IH.
  destruct (ad_ext a); cbn [negb existsb]; destruct (f a); cbn [orb]; try reflexivity; now rewrite orb_true_r.
Qed.

Lemma existsb_recorded pos n l cs : Forall2 recorded l cs ->
  existsb (in_the_way pos n) l = existsb (fun c => ranges_intersect pos n (cp_off c) (cp_size c)) cs.
Proof.
  induction 1 as [|a c l cs R F IH]; [reflexivity|]. cbn [existsb]. rewrite IH. f_equal.
  destruct R as (_ & _ & E1 & E2 & _). unfold in_the_way, ranges_intersect, ad_end. now rewrite E1, E2.
Qed.

Lemma find_way p0 p l pos n : pinv p0 p l ->
  match cap_find_by_offset p pos n with Some _ => true | None => false end = existsb (in_the_way pos n) l.
Proof.
  intros I. rewrite existsb_kinds, (existsb_recorded _ _ _ _ (pv_caps _ _ _ I)), (existsb_recorded _ _ _ _ (pv_exts _ _ _ I)), !existsb_find.
  unfold cap_find_by_offset. destruct (find _ (pc_caps p)); reflexivity.
Qed.

Lemma no_exts l : existsb ad_ext l = false <-> exts l = [].
Proof.
  unfold exts. induction l as [|a l IH]; [now split|]. cbn [existsb filter]. destruct (ad_ext a); cbn [orb]; [split; discriminate|exact IH].
Qed.

Lemma std_at_fits p0 p l pos size data : pinv p0 p l -> pos <> 0 -> 3 <= size -> pos + size < N.of_nat (length (pc_cfg p)) -> (N.to_nat size <= length data)%nat ->
  if (pos <? 64) || existsb (in_the_way pos size) l then cap_place p pos size data = Err EINVAL
  else exists c, cap_place p pos size data = Ok (pos, c).
Proof.
  intros I NZ Hs Hr Hd. pose proof (pv_256 _ _ _ I) as L256. pose proof (pv_4096 _ _ _ I) as L4096. pose proof (pv_stdn _ _ _ I) as Ln.
  unfold cap_place. replace (negb (pos =? 0)) with true by lia. cbv zeta. change PCI_STD_HEADER_SIZEOF with 64.
  destruct (pos <? 64) eqn:E1; cbn [orb]; [reflexivity|]. rewrite <- (find_way p0 p l pos size I).
  destruct (cap_find_by_offset p pos size); [reflexivity|].
  assert (Hx1 : forall x, In x (map ad_off (stds l)) -> x + 1 < N.of_nat (length (pc_cfg p))).
  { intros x Hx. apply in_map_iff in Hx. destruct Hx as [a [<- Ha]]. apply in_stds in Ha. destruct Ha as [Ha E].
    pose proof (pv_each _ _ _ I a Ha) as P. pose proof (pl_high _ _ P) as Hh. pose proof (pl_size _ _ P). unfold ad_end in Hh. rewrite E in *. lia. }
  rewrite (last_cap_walk (pc_cfg p) (map ad_off (stds l)) 257 52 0 (pv_std _ _ _ I) ltac:(lia) Hx1) by (rewrite map_length; lia).
  set (pv := last (map (fun x => x + 1) (map ad_off (stds l))) 52).
  assert (Pv : pv < N.of_nat (length (pc_cfg p))).
  { assert (C : stds l = [] \/ stds l <> []) by (destruct (stds l); [now left|right; discriminate]). destruct C as [C|C].
    - unfold pv. rewrite C. cbn [map last]. lia.
    - unfold pv. rewrite map_map. assert (Q : In (last (map (fun x => ad_off x + 1) (stds l)) 52) (map (fun x => ad_off x + 1) (stds l))).
      { apply last_in. intros E. apply map_eq_nil in E. congruence. }
      apply in_map_iff in Q. destruct Q as [a [<- Ha]]. apply Hx1. now apply in_map. }
  assert (Hw : pos + size < 2 ^ 63) by (change (2 ^ 63) with 9223372036854775808; lia).
  pose proof (cap_put_fits (pc_cfg p) size data pv pos Hw Hs Hd Pv) as Q.
  replace (N.of_nat (length (pc_cfg p)) <? pos + size) with false in Q by lia. exact Q.
Qed.

Lemma ext_at_fits p0 p l pos size data : fresh p0 -> pinv p0 p l -> 260 <= N.of_nat (length (pc_cfg p)) -> pos <> 0 -> N.land pos 3 = 0 -> 8 <= size ->
  pos + size < N.of_nat (length (pc_cfg p)) -> (N.to_nat size <= length data)%nat ->
  if (pos <? 256) || existsb (in_the_way pos size) l then ext_cap_place p pos size data = Err EINVAL
  else if negb (existsb ad_ext l) && negb (pos =? 256) then ext_cap_place p pos size data = Err EINVAL
  else exists c, ext_cap_place p pos size data = Ok (pos, c).
Proof.
  intros F I L260 NZ Al Hs Hr Hd. pose proof (pv_4096 _ _ _ I) as L4096. pose proof (pv_extn _ _ _ I) as Ln. pose proof (pv_bytes _ _ _ I) as B.
  assert (Hw : pos + size < 2 ^ 63) by (change (2 ^ 63) with 9223372036854775808; lia).
  unfold ext_cap_place. change PCI_CFG_SPACE_SIZE with 256. rewrite ext_hdr_fields by (assumption || lia). unfold need. cbn [fst].
  replace (negb (pos =? 0)) with true by lia. cbv zeta.
  destruct (pos <? 256) eqn:E1; cbn [orb]; [reflexivity|]. rewrite <- (find_way p0 p l pos size I).
  destruct (cap_find_by_offset p pos size); [reflexivity|].
  assert (Put : forall h, h + 4 <= N.of_nat (length (pc_cfg p)) -> exists c, ext_cap_put (pc_cfg p) size data (Some h) pos = Ok (pos, c)).
  { intros h Hh. pose proof (ext_cap_put_fits (pc_cfg p) size data (Some h) pos Hw Hs Hd) as Q.
    replace (N.of_nat (length (pc_cfg p)) <? pos + size) with false in Q by lia. apply Q. intros h' E. injection E as <-. auto. }
  destruct (existsb ad_ext l) eqn:Ex; cbn [negb andb].
  - assert (El : exts l <> []) by (intros Q; apply no_exts in Q; congruence).
    destruct (pv_ext _ _ _ I) as [[_ W]|[W0 W]]; [destruct (exts l); [congruence|discriminate]|].
    replace (ext_id (pc_cfg p) 256 =? 0) with false by lia. cbn [andb].
    assert (H4 : forall x, In x (map ad_off (exts l)) -> x + 4 <= N.of_nat (length (pc_cfg p))).
    { intros x Hx. apply in_map_iff in Hx. destruct Hx as [a [<- Ha]]. apply in_exts in Ha. destruct Ha as [Ha E].
      pose proof (pv_each _ _ _ I a Ha) as P. pose proof (pl_high _ _ P) as Hh. pose proof (pl_size _ _ P). unfold ad_end in Hh. rewrite E in *. lia. }
    rewrite (last_ext_walk (pc_cfg p) B (map ad_off (exts l)) 4097 256 W ltac:(discriminate) H4) by (rewrite map_length; lia).
    apply Put. apply H4. apply last_in. intros Q. apply map_eq_nil in Q. congruence.
  - apply no_exts in Ex. destruct (pv_ext _ _ _ I) as [[W0 _]|[_ W]]; [|rewrite Ex in W; inversion W].
    rewrite W0. change (0 =? 0) with true. cbn [andb]. destruct (pos =? 256) eqn:E2; cbn [negb]; [|reflexivity].
    cbn [last_ext_cap]. rewrite ext_hdr_fields by (assumption || lia). unfold need. cbn [snd]. rewrite (no_ext p0 p l F I Ex). change (0 =? 0) with true. cbv iota.
    apply Put. lia.
Qed.

(* After any capabilities were added, at any positions, a request with a position is answered exactly as at_answer
   says, and a refused one changes nothing.  As in C61_placed_partial, the places that the library chose were free and
   standard capabilities end in the first 256 bytes; as in C47_accepted, the data is long enough for its kind and a
   PCI Express device has an extended config space; an extended capability's position is a multiple of four
   (C61_assertions_refuted). *)
Theorem C61_accepted : forall e express p0 reqs l p pos flags data,
  fresh p0 -> Forall (fun r => good_request (snd r)) reqs -> add_all_at e express p0 reqs = Some (l, p) ->
  (forall a, In a l -> ad_ext a = false -> ad_end a <= 256) -> chosen_free [] reqs l ->
  (express = true -> length (pc_cfg p0) = 4096%nat) ->
  0 < pos < 2 ^ 63 -> (N.testbit flags 0 = true -> pos mod 4 = 0) ->
  bytes data -> (2 <= length data)%nat ->
  (supported (N.testbit flags 0) data = true -> good_request (flags, data) /\ cap_bytes (N.testbit flags 0) data <= N.of_nat (length data)) ->
  fst (add_capability e express p pos flags data) = at_answer (pe_cfg_cb e) express (N.of_nat (length (pc_cfg p0))) l pos flags data /\
  ((forall off, fst (add_capability e express p pos flags data) <> Ok off) -> snd (add_capability e express p pos flags data) = p).
Proof.
  intros e express p0 reqs l p pos flags data F G A H C X [NZ Hpos] Al B L2 S.
  destruct (add_all_at_inv e express p0 F reqs p0 [] l p (fresh_pinv _ F) G A H C ltac:(constructor)) as (I & _ & _). cbn [app] in I.
  pose proof (pv_len _ _ _ I) as Len. rewrite <- Len in *. clear H C A G.
  unfold add_capability, at_answer. rewrite flags_seven.
  change (has flags CAP_FLAG_EXTENDED) with (has flags (2 ^ 0)). rewrite (has_bit flags 0).
  change (has flags CAP_FLAG_CALLBACK) with (has flags (2 ^ 1)). rewrite (has_bit flags 1).
  set (ext := N.testbit flags 0) in *.
  destruct (flags <? 8) eqn:E8; cbn [negb].
  2: { replace (8 <=? flags) with true by lia. cbn [orb fst snd]. auto. }
  replace (8 <=? flags) with false by lia. cbn [orb].
  destruct (N.testbit flags 1 && negb (pe_cfg_cb e)) eqn:Ecb; cbn [orb]; [cbn [fst snd]; auto|].
  destruct (ext && negb express) eqn:Eex; [cbn [fst snd]; auto|].
  assert (Ek : length (filter (fun a => Bool.eqb (ad_ext a) ext) l) = length (if ext then pc_ext_caps p else pc_caps p)).
  { destruct ext; [rewrite kind_exts; eapply forall2_len; exact (pv_exts _ _ _ I)|rewrite kind_stds; eapply forall2_len; exact (pv_caps _ _ _ I)]. }
  rewrite Ek. change VFU_MAX_CAPS with 128%nat.
  destruct (Nat.eqb (length (if ext then pc_ext_caps p else pc_caps p)) 128); [cbn [fst snd]; auto|].
  destruct (rd_some data 0 (if ext then 2 else 1)) as [id R]; [destruct ext; lia|]. rewrite R. unfold need.
  pose proof (hdr_known ext id data B L2 R) as K.
  destruct (supported ext data) eqn:Es; cbn [negb].
  2: { destruct K as [_ K]. rewrite (K eq_refl). cbn [fst snd]. auto. }
  destruct (cap_hdr_size ext id) as [hsz|]; [|destruct K as [K _]; specialize (K eq_refl); discriminate].
  destruct (S eq_refl) as [[_ Gs] Sl]. cbn [fst snd] in Gs. fold ext in Gs.
  rewrite (cap_size_of data ext B); [|now apply supported_known|destruct ext; lia].
  set (n := cap_bytes ext data) in *.
  assert (Hn : n < 65536).
  { unfold n, cap_bytes. pose proof (bytes_nth data 2 B). pose proof (bytes_nth data 6 B). pose proof (bytes_nth data 7 B).
    pose proof (N.div_le_mono (nth 6 data 0) 255 16 ltac:(discriminate) ltac:(lia)) as D. change (255 / 16) with 15 in D.
    repeat match goal with |- context [if ?b then _ else _] => destruct b end; lia. }
  replace (w64 (pos + n)) with (pos + n) by (symmetry; apply N.mod_small; change two64 with (2 ^ 63 + 9223372036854775808); lia).
  destruct (N.of_nat (length (pc_cfg p)) <=? pos + n) eqn:El; [cbn [fst snd orb]; auto|]. cbn [orb].
  destruct ext.
  - assert (L4 : 260 <= N.of_nat (length (pc_cfg p))) by (rewrite X; [lia|destruct express; [reflexivity|discriminate]]).
    assert (Al3 : N.land pos 3 = 0) by (change 3 with (N.ones 2); rewrite N.land_ones; change (2 ^ 2) with 4; auto).
    pose proof (ext_at_fits p0 p l pos n data F I L4 ltac:(lia) Al3 Gs ltac:(lia) ltac:(lia)) as P. cbn [andb].
    destruct ((pos <? 256) || existsb (in_the_way pos n) l); [rewrite P; cbn [fst snd]; auto|].
    destruct (negb (existsb ad_ext l) && negb (pos =? 256)); [rewrite P; cbn [fst snd]; auto|].
    destruct P as [c ->]. cbn [fst snd]. split; [reflexivity|]. intros Q. destruct (Q _ eq_refl).
  - pose proof (std_at_fits p0 p l pos n data I ltac:(lia) Gs ltac:(lia) ltac:(lia)) as P. cbn [andb].
    destruct ((pos <? 64) || existsb (in_the_way pos n) l); [rewrite P; cbn [fst snd]; auto|].
    destruct P as [c ->]. cbn [fst snd]. split; [reflexivity|]. intros Q. destruct (Q _ eq_refl).
Qed.
Print Assumptions C61_accepted.

(* After the capabilities of ex_explicit (standard ones at 80 and 128, extended ones at 256, 400 and 512), a power
   management capability of 8 bytes is accepted at 136; not on top of one, nor right before one, nor in the header. *)
Example C61_accepted_nonvacuous :
  (let l := fst (ex_at 4096 ex_explicit) in
   at_answer true true 4096 l 136 0 ex_pm = Ok 136 /\ at_answer true true 4096 l 132 0 ex_pm = Err EINVAL /\
   at_answer true true 4096 l 120 0 ex_pm = Err EINVAL /\ at_answer true true 4096 l 116 0 ex_pm = Ok 116 /\
   at_answer true true 4096 l 60 0 ex_pm = Err EINVAL /\ at_answer true true 4096 l 1024 1 ex_dsn = Ok 1024 /\
   at_answer true true 4096 l 4084 1 ex_dsn = Err EINVAL /\ at_answer true true 4096 l 4080 1 ex_dsn = Ok 4080) /\
  at_answer true true 4096 [] 512 1 ex_dsn = Err EINVAL /\ at_answer true true 4096 [] 256 1 ex_dsn = Ok 256.
Proof. vm_compute. repeat split. Qed.
