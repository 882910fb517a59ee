(* C47, C48: adding and finding capabilities. *)
From Coq Require Import NArith ZArith List Bool Lia ZifyBool ZifyNat ZifyN.
From Verif Require Import Base Types Bytes BytesProofs Migr Pci SpecPci SpecCaps BufProofs PciProofs CapsProofs CapsAdd.
Import ListNotations.
Open Scope N_scope.
Ltac Zify.zify_post_hook ::= idtac.

Lemma fop_app {A} (R : A -> A -> Prop) l1 l2 : ForallOrdPairs R l1 -> ForallOrdPairs R l2 -> (forall x y, In x l1 -> In y l2 -> R x y) ->
  ForallOrdPairs R (l1 ++ l2).
Proof.
  induction l1 as [|x l1 IH]; intros H1 H2 H; [exact H2|]. cbn [app]. inversion H1 as [|? ? F H1']; subst. constructor.
  - apply Forall_app. split; [exact F|]. rewrite Forall_forall. intros y Hy. apply H; [now left|exact Hy].
  - apply IH; auto. intros y z Hy. apply H. now right.
Qed.
Lemma recorded_in l : forall cs c, Forall2 recorded l cs -> In c cs -> exists a, In a l /\ recorded a c.
Proof.
  induction l as [|a l IH]; intros cs c F Hc; inversion F as [|? c0 ? cs0 R F']; subst; [destruct Hc|].
  destruct Hc as [<-|Hc]; [exists a; split; [now left|exact R]|]. destruct (IH _ _ F' Hc) as [b [Hb Rb]]. exists b. split; [now right|exact Rb].
Qed.
Lemma recorded_order l : forall cs, Forall2 recorded l cs -> ForallOrdPairs before l -> ForallOrdPairs (fun a b => cap_end a <= cp_off b) cs.
Proof.
  induction l as [|a l IH]; intros cs F O; inversion F as [|? c ? cs' R F']; subst; [constructor|].
  inversion O as [|? ? Fa O']; subst. constructor; [|auto]. rewrite Forall_forall in *. intros d Hd.
  destruct (recorded_in _ _ _ F' Hd) as [b [Hb [_ [_ [Eo _]]]]]. specialize (Fa b Hb). unfold before, ad_end in Fa.
  destruct R as [_ [_ [E1 [E2 _]]]]. unfold cap_end. rewrite E1, E2, Eo. exact Fa.
Qed.

(* Adding capabilities at places the library chooses: they lie behind the header and inside config space,
   one after the other without overlap (caps_ok), the two linked lists visit exactly the added capabilities
   in the order of the requests, every capability holds the data it was given and is recorded with its id, size
   and flags, and no other byte of config space changed except the capability pointer.
   In a config space of 256 bytes this always holds; in an extended one as long as no standard capability
   goes past the first 256 bytes (C47_past_256_refuted). *)
Theorem C47_capabilities : forall e express p0 reqs l p,
  fresh p0 -> Forall good_request reqs -> add_all e express p0 reqs = Some (l, p) ->
  (length (pc_cfg p0) = 256%nat \/ forall a, In a l -> ad_ext a = false -> ad_end a <= 256) ->
  map (fun a => (ad_flags a, ad_data a)) l = reqs /\
  std_list (pc_cfg p) (map ad_off (filter (fun a => negb (ad_ext a)) l)) /\
  ext_list (pc_cfg p) (map ad_off (filter ad_ext l)) /\
  caps_ok p /\
  Forall2 recorded (filter (fun a => negb (ad_ext a)) l ++ filter ad_ext l) (all_caps p) /\
  (forall a, In a l -> holds (pc_cfg p) a) /\
  (forall x, x <> 52 -> (forall a, In a l -> ~ (ad_off a <= x < ad_end a)) -> byte_at p x = byte_at p0 x).
Proof.
  intros e express p0 reqs l p F G A H.
  assert (He : forall a, In a l -> ad_ext a = false -> ad_end a <= 256).
  { destruct H as [H|H]; [|exact H]. intros a Ha _. pose proof (add_all_fits _ _ _ _ _ _ G A a Ha). lia. }
  destruct (add_all_inv e express p0 reqs p0 [] l p (fresh_inv _ F) G A He) as [I E]. cbn [app] in I.
  split; [exact E|]. split; [apply I|]. split; [apply I|]. split; [|split; [|split]].
  - constructor.
    + apply I.
    + pose proof (iv_256 _ _ _ I). lia.
    + apply I.
    + intros c Hc. unfold all_caps in Hc. apply in_app_or in Hc.
      destruct Hc as [Hc|Hc]; [destruct (recorded_in _ _ _ (iv_caps _ _ _ I) Hc) as [a [Ha R]]; apply in_stds in Ha
                              |destruct (recorded_in _ _ _ (iv_exts _ _ _ I) Hc) as [a [Ha R]]; apply in_exts in Ha];
        destruct Ha as [Ha Ea]; pose proof (pl_low _ _ (iv_each _ _ _ I a Ha)) as Q; rewrite Ea in Q; destruct R as [_ [_ [-> _]]]; lia.
    + intros c Hc. unfold all_caps in Hc. apply in_app_or in Hc. pose proof (iv_256 _ _ _ I).
      destruct Hc as [Hc|Hc]; [destruct (recorded_in _ _ _ (iv_caps _ _ _ I) Hc) as [a [Ha R]]; apply in_stds in Ha
                              |destruct (recorded_in _ _ _ (iv_exts _ _ _ I) Hc) as [a [Ha R]]; apply in_exts in Ha];
        destruct Ha as [Ha Ea]; pose proof (pl_high _ _ (iv_each _ _ _ I a Ha)) as Q; rewrite Ea in Q; destruct R as [_ [_ [Eo [Es _]]]];
        unfold cap_end; rewrite Eo, Es; unfold ad_end in Q; lia.
    + unfold all_caps. apply fop_app; [apply (recorded_order _ _ (iv_caps _ _ _ I)); apply I|apply (recorded_order _ _ (iv_exts _ _ _ I)); apply I|].
      intros c d Hc Hd. destruct (recorded_in _ _ _ (iv_caps _ _ _ I) Hc) as [a [Ha R]]. destruct (recorded_in _ _ _ (iv_exts _ _ _ I) Hd) as [b [Hb S]].
      apply in_stds in Ha. apply in_exts in Hb. destruct Ha as [Ha Ea]. destruct Hb as [Hb Eb].
      pose proof (pl_high _ _ (iv_each _ _ _ I a Ha)) as Q. pose proof (pl_low _ _ (iv_each _ _ _ I b Hb)) as Q'. rewrite Ea in Q. rewrite Eb in Q'.
      destruct R as [_ [_ [E1 [E2 _]]]]. destruct S as [_ [_ [E3 _]]]. unfold cap_end. rewrite E1, E2, E3. unfold ad_end in Q. lia.
  - unfold all_caps. apply Forall2_app; [apply I|apply I].
  - intros a Ha. exact (pl_holds _ _ (iv_each _ _ _ I a Ha)).
  - exact (iv_frame _ _ _ I).
Qed.
Print Assumptions C47_capabilities.

Definition ex_env47 : pci_env := mk_env [] [] true false.
Definition ex_pci47 (n : nat) : pci := mk_pci ([244; 26; 1; 16] ++ zeros (n - 4)) [] [] None.
(* Power management, a vendor capability of 7 bytes, an extended vendor capability of 9 bytes, MSI-X, a
   device serial number. *)
Definition ex_pm : list N := 1 :: 77 :: zeros 6.
Definition ex_vendor : list N := [9; 0; 7; 1; 2; 3; 4].
Definition ex_ext_vendor : list N := [11; 0; 1; 0; 5; 0; 144; 0; 99].
Definition ex_msix : list N := 17 :: 0 :: zeros 10.
Definition ex_dsn : list N := 3 :: 0 :: 1 :: 0 :: repeat 200 8.
Definition ex_reqs : list (N * list N) := [(0, ex_pm); (4, ex_vendor); (1, ex_ext_vendor); (2, ex_msix); (1, ex_dsn)].

Lemma zeros_bytes n : bytes (zeros n).
Proof. unfold zeros, bytes. rewrite Forall_forall. intros x Hx. apply repeat_spec in Hx. subst x. reflexivity. Qed.
Lemma ex_fresh n : n = 256%nat \/ n = 4096%nat -> fresh (ex_pci47 n).
Proof.
  intros H. constructor; unfold ex_pci47; cbn [pc_cfg pc_caps pc_ext_caps].
  - apply bytes_app. split; [repeat constructor|apply zeros_bytes].
  - rewrite app_length. unfold zeros. rewrite repeat_length. cbn [length]. lia.
  - auto.
  - destruct H as [-> | ->]; vm_compute; reflexivity.
  - intros o Ho. unfold cfg_byte. rewrite app_nth2 by (cbn [length]; lia). cbn [length].
    destruct (Nat.lt_ge_cases (N.to_nat o - 4) (n - 4)) as [L|L]; [|apply nth_overflow; unfold zeros; rewrite repeat_length; lia].
    unfold zeros. apply nth_repeat.
Qed.

Definition ex_result : list added * pci :=
  match add_all ex_env47 true (ex_pci47 4096) ex_reqs with Some r => r | None => ([], ex_pci47 0) end.
Lemma ex_added : add_all ex_env47 true (ex_pci47 4096) ex_reqs = Some ex_result.
Proof. vm_compute. reflexivity. Qed.
Lemma ex_offs : map ad_off (fst ex_result) = [64; 72; 256; 80; 268].
Proof. vm_compute. reflexivity. Qed.
Lemma ex_good : Forall good_request ex_reqs.
Proof. unfold ex_reqs. repeat constructor; discriminate. Qed.
Lemma ex_low : forall a, In a (fst ex_result) -> ad_ext a = false -> ad_end a <= 256.
Proof.
  assert (V : forallb (fun a => ad_ext a || (ad_end a <=? 256)) (fst ex_result) = true) by (vm_compute; reflexivity).
  rewrite forallb_forall in V. intros a Ha E. specialize (V a Ha). rewrite E in V. cbn [orb] in V. lia.
Qed.
Example C47_nonvacuous :
  fresh (ex_pci47 4096) /\ Forall good_request ex_reqs /\ add_all ex_env47 true (ex_pci47 4096) ex_reqs = Some ex_result /\
  (forall a, In a (fst ex_result) -> ad_ext a = false -> ad_end a <= 256) /\
  map ad_off (fst ex_result) = [64; 72; 256; 80; 268] /\
  std_list (pc_cfg (snd ex_result)) [64; 72; 80] /\ ext_list (pc_cfg (snd ex_result)) [256; 268] /\
  add_all ex_env47 false (ex_pci47 256) [(0, ex_pm); (4, ex_vendor)] <> None /\ fresh (ex_pci47 256).
Proof.
  assert (F : fresh (ex_pci47 4096)) by (apply ex_fresh; now right).
  split; [exact F|]. split; [exact ex_good|]. split; [exact ex_added|]. split; [exact ex_low|]. split; [exact ex_offs|].
  assert (P : ex_result = (fst ex_result, snd ex_result)) by (destruct ex_result; reflexivity).
  pose proof ex_added as A. rewrite P in A.
  destruct (C47_capabilities _ _ _ _ _ _ F ex_good A (or_intror ex_low)) as [_ [S [X _]]].
  split; [|split].
  - replace [64; 72; 80] with (map ad_off (filter (fun a => negb (ad_ext a)) (fst ex_result))) by (vm_compute; reflexivity). exact S.
  - replace [256; 268] with (map ad_off (filter ad_ext (fst ex_result))) by (vm_compute; reflexivity). exact X.
  - split; [vm_compute; discriminate|]. apply ex_fresh. now left.
Qed.

(* In an extended config space the library also puts standard capabilities behind the first 256 bytes: the
   8-bit pointer to such a capability is cut off (here to 0), so it is not in the list, and it lies on top of the
   extended capabilities. *)
Theorem C47_past_256_refuted : exists e express p0 reqs l p a b,
  fresh p0 /\ Forall good_request reqs /\ add_all e express p0 reqs = Some (l, p) /\
  In a l /\ ad_ext a = false /\ In b l /\ ad_ext b = true /\ ad_off b <= ad_off a < ad_end b /\
  ~ std_list (pc_cfg p) (map ad_off (filter (fun a => negb (ad_ext a)) l)) /\ ~ holds (pc_cfg p) b.
Proof.
  set (reqs := [(1, ex_dsn); (0, 9 :: 0 :: 192 :: zeros 189); (0, ex_pm)]).
  set (r := match add_all ex_env47 true (ex_pci47 4096) reqs with Some r => r | None => ([], ex_pci47 0) end).
  exists ex_env47, true, (ex_pci47 4096), reqs, (fst r), (snd r), (mk_added 0 ex_pm 256), (mk_added 1 ex_dsn 256).
  split; [apply ex_fresh; now right|].
  split.
  { unfold reqs. constructor; [repeat constructor; discriminate|]. constructor; [|repeat constructor; discriminate].
    split; [|discriminate]. change (snd (0, 9 :: 0 :: 192 :: zeros 189)) with ([9; 0; 192] ++ zeros 189).
    apply bytes_app. split; [repeat constructor|apply zeros_bytes]. }
  split; [vm_compute; reflexivity|].
  split; [vm_compute; auto|]. split; [reflexivity|]. split; [vm_compute; auto|]. split; [reflexivity|].
  split; [vm_compute; split; [discriminate|reflexivity]|]. split.
  - intros H. unfold std_list in H.
    assert (E1 : cfg_byte (pc_cfg (snd r)) 52 = 64) by (vm_compute; reflexivity).
    assert (E2 : std_next (pc_cfg (snd r)) 64 = 0) by (vm_compute; reflexivity).
    assert (E3 : map ad_off (filter (fun a => negb (ad_ext a)) (fst r)) = [64; 256]) by (vm_compute; reflexivity).
    rewrite E1, E3 in H. inversion H as [|? ? _ W]. rewrite E2 in W. inversion W.
  - intros H. specialize (H 0). assert (Q : cfg_byte (pc_cfg (snd r)) 256 = 3) by (apply H; [reflexivity|split; discriminate]).
    assert (Q' : cfg_byte (pc_cfg (snd r)) 256 = 1) by (vm_compute; reflexivity). rewrite Q' in Q. discriminate Q.
Qed.
Print Assumptions C47_past_256_refuted.

(* A vendor capability that claims to be shorter than its header is accepted, and the next capability is put
   on top of it. *)
Theorem C47_short_vendor_refuted : exists e p0 reqs l p,
  fresh p0 /\ add_all e false p0 reqs = Some (l, p) /\ Forall (fun r => bytes (snd r)) reqs /\ map ad_off l = [64; 64].
Proof.
  set (reqs := [(0, [9; 0; 1]); (0, ex_pm)]).
  set (r := match add_all ex_env47 false (ex_pci47 256) reqs with Some r => r | None => ([], ex_pci47 0) end).
  exists ex_env47, (ex_pci47 256), reqs, (fst r), (snd r).
  split; [apply ex_fresh; now left|]. split; [vm_compute; reflexivity|]. split; [unfold reqs; repeat constructor|vm_compute; reflexivity].
Qed.
Print Assumptions C47_short_vendor_refuted.

(* ---------- C48 *)
Lemma walk_fun next o l1 : walk next o l1 -> forall l2, walk next o l2 -> l1 = l2.
Proof.
  induction 1 as [|o l Ho W IH]; intros l2 H2; inversion H2; subst; auto; try congruence. f_equal. now apply IH.
Qed.
Lemma walk_suffix next o l : walk next o l -> forall l1 x l2, l = l1 ++ x :: l2 -> walk next x (x :: l2).
Proof.
  induction 1 as [|o l Ho W IH]; intros l1 x l2 E; [destruct l1; discriminate|].
  destruct l1 as [|y l1]; injection E as <- E; [subst l; now constructor|exact (IH _ _ _ E)].
Qed.
Lemma walk_nodup next o l : walk next o l -> NoDup l.
Proof.
  induction 1 as [|o l Ho W IH]; constructor; auto. intros Hin. destruct (in_split _ _ Hin) as [l1 [l2 E]].
  pose proof (walk_suffix _ _ _ W _ _ _ E) as W2.
  assert (W1 : walk next o (o :: l)) by now constructor. pose proof (walk_fun _ _ _ W1 _ W2) as Q. injection Q as Q.
  rewrite Q in E at 1. apply (f_equal (@length N)) in E. rewrite app_length in E. cbn [length] in E. lia.
Qed.
Lemma walk_bound next o l m : walk next o l -> 1 <= m -> (forall x, In x l -> x < m) -> (length l < N.to_nat m)%nat.
Proof.
  intros W Hm H.
  assert (Inc : incl l (map N.of_nat (seq 1 (N.to_nat m - 1)))).
  { intros x Hx. apply in_map_iff. exists (N.to_nat x). split; [lia|]. apply in_seq.
    pose proof (walk_nonzero _ _ _ W x Hx). specialize (H x Hx). lia. }
  pose proof (NoDup_incl_length (walk_nodup _ _ _ W) Inc) as L. rewrite map_length, seq_length in L. lia.
Qed.
Lemma walk_elems next o l m : walk next o l -> (o = 0 \/ o < m) -> (forall x, next x < m) -> forall x, In x l -> x < m.
Proof.
  induction 1 as [|o l Ho W IH]; intros H0 Hn x Hx; [destruct Hx|]. destruct Hx as [<-|Hx]; [destruct H0; [congruence|assumption]|].
  apply IH; auto.
Qed.

Definition first_or_none (l : list N) : outcome N := match l with o :: _ => Ok o | [] => Err ENOENT end.

Lemma find_loop_walk cfg id : forall l fuel o, walk (std_next cfg) o l -> o <> 0 -> (length l <= fuel)%nat ->
  (forall x, In x l -> x + 1 < N.of_nat (length cfg)) ->
  find_loop fuel cfg o id = first_or_none (with_id (std_id cfg) id l).
Proof.
  induction l as [|o' l IH]; intros fuel o W Ho Hf Hl; inversion W as [|? ? Ho' W' E1]; [congruence|]. subst.
  destruct fuel as [|fuel]; [cbn [length] in Hf; lia|]. cbn [find_loop].
  pose proof (Hl o' ltac:(now left)) as L. replace (N.of_nat (length cfg) <=? o' + 1) with false by lia.
  rewrite !rd1 by lia. unfold need. change (nth (N.to_nat o') cfg 0) with (std_id cfg o').
  change (nth (N.to_nat (o' + 1)) cfg 0) with (std_next cfg o'). cbn [with_id filter].
  destruct (std_id cfg o' =? id) eqn:E; [reflexivity|]. change (filter (fun o => std_id cfg o =? id) l) with (with_id (std_id cfg) id l).
  destruct l as [|x l].
  - pose proof (walk_head _ _ _ W') as Q. cbn [hd] in Q. rewrite Q. reflexivity.
  - assert (Nz : std_next cfg o' <> 0) by (inversion W'; congruence). replace (std_next cfg o' =? 0) with false by lia.
    apply IH; [exact W'|exact Nz|cbn [length] in *; lia|]. intros y Hy. apply Hl. now right.
Qed.

Lemma std_bound cfg l : bytes cfg -> std_list cfg l -> (length l < 256)%nat.
Proof.
  intros B W. change 256%nat with (N.to_nat 256). apply (walk_bound _ _ _ _ W); [lia|].
  apply (walk_elems _ _ _ _ W); [right; now apply bytes_nth|]. intros x. now apply bytes_nth.
Qed.

(* Looking for a standard capability gives the first one with that id in list order; looking for the next
   one after a capability of the list gives the first behind it; ENOENT if there is none. *)
Theorem C48_standard : forall cfg l id,
  bytes cfg -> (256 <= length cfg)%nat -> std_list cfg l ->
  (forall o, In o l -> o + 2 <= N.of_nat (length cfg)) ->
  find_capability cfg false id = first_or_none (with_id (std_id cfg) id l) /\
  (forall l1 o l2, l = l1 ++ o :: l2 -> find_next_capability cfg o id = first_or_none (with_id (std_id cfg) id l2)).
Proof.
  intros cfg l id B L W Hl. pose proof (std_bound _ _ B W) as Lb. split.
  - unfold find_capability, find_next_capability. replace (N.of_nat (length cfg) <=? 0 + 1) with false by lia.
    change (if 0 =? 0 then 52%nat else N.to_nat (0 + 1)) with 52%nat. rewrite rd1 by lia. unfold need.
    change (nth 52 cfg 0) with (cfg_byte cfg 52). unfold std_list in W.
    destruct l as [|x l].
    + pose proof (walk_head _ _ _ W) as Q. cbn [hd] in Q. rewrite Q. reflexivity.
    + assert (Nz : cfg_byte cfg 52 <> 0) by (inversion W; congruence). replace (cfg_byte cfg 52 =? 0) with false by lia.
      apply find_loop_walk; [exact W|exact Nz|lia|]. intros y Hy. specialize (Hl y Hy). lia.
  - intros l1 o l2 E. unfold find_next_capability. pose proof (walk_suffix _ _ _ W _ _ _ E) as W2.
    pose proof (Hl o ltac:(rewrite E; apply in_elt)) as Lo. replace (N.of_nat (length cfg) <=? o + 1) with false by lia.
    inversion W2 as [|? ? Ho W3]; subst. replace (o =? 0) with false by lia. rewrite rd1 by lia. unfold need.
    change (nth (N.to_nat (o + 1)) cfg 0) with (std_next cfg o).
    destruct l2 as [|x l2].
    + pose proof (walk_head _ _ _ W3) as Q. cbn [hd] in Q. rewrite Q. reflexivity.
    + assert (Nz : std_next cfg o <> 0) by (inversion W3; congruence). replace (std_next cfg o =? 0) with false by lia.
      apply find_loop_walk; [exact W3|exact Nz|rewrite app_length in Lb; cbn [length] in *; lia|].
      intros y Hy. pose proof (Hl y ltac:(apply in_or_app; right; now right)). lia.
Qed.
Print Assumptions C48_standard.

(* Asking again and again enumerates exactly the capabilities with that id, in list order, and then says
   ENOENT. *)
Theorem C48_enumerate : forall cfg l id,
  bytes cfg -> (256 <= length cfg)%nat -> std_list cfg l ->
  (forall o, In o l -> o + 2 <= N.of_nat (length cfg)) ->
  enumerate 257 (fun off => find_next_capability cfg off id) 0 = (with_id (std_id cfg) id l, Some (Err ENOENT)).
Proof.
  intros cfg l id B L W Hl. pose proof (std_bound _ _ B W) as Lb.
  destruct (C48_standard cfg l id B L W Hl) as [H0 Hn]. unfold find_capability in H0.
  assert (G : forall l2 l1 fuel off, l = l1 ++ l2 -> find_next_capability cfg off id = first_or_none (with_id (std_id cfg) id l2) -> (length l2 < fuel)%nat ->
    enumerate fuel (fun off => find_next_capability cfg off id) off = (with_id (std_id cfg) id l2, Some (Err ENOENT))).
  { intros l2. remember (length l2) as n eqn:En. revert l2 En. induction n as [n IH] using lt_wf_ind. intros l2 En l1 fuel off E Hoff Hf.
    destruct fuel as [|fuel]; [lia|]. cbn [enumerate]. rewrite Hoff.
    destruct (with_id (std_id cfg) id l2) as [|o r] eqn:Wi; [reflexivity|]. cbn [first_or_none].
    assert (Sp : exists a b, l2 = a ++ o :: b /\ r = with_id (std_id cfg) id b).
    { clear - Wi. revert o r Wi. induction l2 as [|x l2 IHl]; intros o r Wi; cbn [with_id filter] in Wi; [discriminate|].
      destruct (std_id cfg x =? id).
      - injection Wi as <- <-. exists [], l2. auto.
      - destruct (IHl _ _ Wi) as [a [b [-> ->]]]. exists (x :: a), b. auto. }
    destruct Sp as [a [b [E2 Er]]]. subst r. rewrite E2 in E. rewrite app_assoc in E.
    rewrite (IH (length b)) with (l2 := b) (l1 := (l1 ++ a) ++ [o]).
    - reflexivity.
    - subst n. rewrite E2, app_length. cbn [length]. lia.
    - reflexivity.
    - rewrite <- app_assoc. exact E.
    - exact (Hn _ _ _ E).
    - subst n. rewrite E2, app_length in Hf. cbn [length] in Hf. lia. }
  apply (G l []); [reflexivity|exact H0|lia].
Qed.
Print Assumptions C48_enumerate.

Lemma ext_next_bound cfg x : bytes cfg -> ext_next cfg x < 4096.
Proof.
  intros B. unfold ext_next, cfg_byte. pose proof (bytes_nth cfg (N.to_nat (x + 2)) B). pose proof (bytes_nth cfg (N.to_nat (x + 3)) B).
  assert (nth (N.to_nat (x + 2)) cfg 0 / 16 < 16) by (apply N.div_lt_upper_bound; lia). lia.
Qed.

Lemma find_ext_walk cfg id : bytes cfg -> forall l fuel o, walk (ext_next cfg) o l -> o <> 0 -> (length l <= fuel)%nat ->
  (forall x, In x l -> x + 4 < N.of_nat (length cfg)) ->
  find_ext_loop fuel cfg o id = first_or_none (with_id (ext_id cfg) id l).
Proof.
  intros B. induction l as [|o' l IH]; intros fuel o W Ho Hf Hl; inversion W as [|? ? Ho' W' E1]; [congruence|]. subst.
  destruct fuel as [|fuel]; [cbn [length] in Hf; lia|]. cbn [find_ext_loop].
  pose proof (Hl o' ltac:(now left)) as L. replace (N.of_nat (length cfg) <=? o') with false by lia.
  replace (N.of_nat (length cfg) <=? o' + 4) with false by lia.
  rewrite ext_hdr_fields by (auto; lia). unfold need. cbn [fst snd with_id filter].
  destruct (ext_id cfg o' =? id) eqn:E; [reflexivity|]. change (filter (fun o => ext_id cfg o =? id) l) with (with_id (ext_id cfg) id l).
  destruct l as [|x l].
  - pose proof (walk_head _ _ _ W') as Q. cbn [hd] in Q. rewrite Q. reflexivity.
  - assert (Nz : ext_next cfg o' <> 0) by (inversion W'; congruence). replace (ext_next cfg o' =? 0) with false by lia.
    apply IH; [exact W'|exact Nz|cbn [length] in *; lia|]. intros y Hy. apply Hl. now right.
Qed.

Lemma find_ext_empty cfg id fuel : bytes cfg -> (260 < length cfg)%nat -> ext_id cfg 256 = 0 -> ext_next cfg 256 = 0 -> id <> 0 -> (1 <= fuel)%nat ->
  find_ext_loop fuel cfg 256 id = Err ENOENT.
Proof.
  intros B L W0 Hz Hid Hf. destruct fuel as [|fuel]; [lia|]. cbn [find_ext_loop].
  replace (N.of_nat (length cfg) <=? 256) with false by lia. replace (N.of_nat (length cfg) <=? 256 + 4) with false by lia.
  rewrite ext_hdr_fields by (auto; lia). unfold need. cbn [fst snd]. rewrite W0, Hz. replace (0 =? id) with false by lia. reflexivity.
Qed.

(* The same for extended capabilities, but not for the next one after the last of the list
   (C48_ext_last_refuted). *)
Theorem C48_extended_partial : forall cfg l id,
  bytes cfg -> (260 < length cfg)%nat -> ext_list cfg l -> (ext_id cfg 256 = 0 -> ext_next cfg 256 = 0) -> id <> 0 ->
  (forall o, In o l -> o + 4 < N.of_nat (length cfg)) ->
  find_capability cfg true id = first_or_none (with_id (ext_id cfg) id l) /\
  (forall l1 o l2, l = l1 ++ o :: l2 -> l2 <> [] ->
     find_next_ext_capability cfg o id = first_or_none (with_id (ext_id cfg) id l2)).
Proof.
  intros cfg l id B L W Hz Hid Hl. destruct W as [[W0 ->]|[W0 W]].
  - split; [|intros l1 o l2 E; destruct l1; discriminate].
    unfold find_capability, find_next_ext_capability. replace (N.of_nat (length cfg) <=? 0 + 4) with false by lia.
    change (0 =? 0) with true. cbv iota. apply find_ext_empty; auto. lia.
  - assert (Lb : (length l < N.to_nat 4096)%nat).
    { apply (walk_bound _ _ _ _ W); [lia|]. apply (walk_elems _ _ _ _ W); [right; lia|].
      intros x. now apply ext_next_bound. }
    split.
    + unfold find_capability, find_next_ext_capability. replace (N.of_nat (length cfg) <=? 0 + 4) with false by lia.
      change (0 =? 0) with true. cbv iota. apply find_ext_walk; auto; [discriminate|lia].
    + intros l1 o l2 E Hne. unfold find_next_ext_capability. pose proof (walk_suffix _ _ _ W _ _ _ E) as W2.
      pose proof (Hl o ltac:(rewrite E; apply in_elt)) as Lo. replace (N.of_nat (length cfg) <=? o + 4) with false by lia.
      inversion W2 as [|? ? Ho W3]; subst. replace (o =? 0) with false by lia. rewrite ext_hdr_fields by (auto; lia). unfold need. cbn [snd].
      apply find_ext_walk; auto.
      * destruct l2; [congruence|]. inversion W3; congruence.
      * rewrite app_length in Lb. cbn [length] in Lb. lia.
      * intros y Hy. apply Hl. apply in_or_app. right. now right.
Qed.
Print Assumptions C48_extended_partial.

Example C48_nonvacuous :
  let cfg := pc_cfg (snd ex_result) in
  bytes cfg /\ length cfg = 4096%nat /\ std_list cfg [64; 72; 80] /\ ext_list cfg [256; 268] /\
  find_capability cfg false 17 = Ok 80 /\ find_next_capability cfg 64 9 = Ok 72 /\ find_next_capability cfg 72 9 = Err ENOENT /\
  find_capability cfg true 3 = Ok 268 /\ find_next_ext_capability cfg 256 3 = Ok 268.
Proof.
  assert (F : fresh (ex_pci47 4096)) by (apply ex_fresh; now right).
  assert (P : ex_result = (fst ex_result, snd ex_result)) by (destruct ex_result; reflexivity).
  pose proof ex_added as A. rewrite P in A.
  destruct (C47_capabilities _ _ _ _ _ _ F ex_good A (or_intror ex_low)) as [_ [_ [_ [C _]]]].
  destruct C47_nonvacuous as [_ [_ [_ [_ [_ [S [X _]]]]]]].
  cbv zeta. split; [exact (co_bytes _ C)|]. split; [vm_compute; reflexivity|]. split; [exact S|]. split; [exact X|].
  repeat split; vm_compute; reflexivity.
Qed.

(* Asking for the next extended capability after the last one goes on at the start of config space, taking
   vendor and device id for a capability header.  With device id 0x1001 that "header" points back to 0x100:
   the last capability is its own successor and an enumeration never ends. *)
Theorem C48_ext_last_refuted : exists e p0 reqs l p id l1 o,
  fresh p0 /\ Forall good_request reqs /\ add_all e true p0 reqs = Some (l, p) /\
  ext_list (pc_cfg p) (l1 ++ [o]) /\ find_next_ext_capability (pc_cfg p) o id = Ok o.
Proof.
  assert (P : ex_result = (fst ex_result, snd ex_result)) by (destruct ex_result; reflexivity).
  exists ex_env47, (ex_pci47 4096), ex_reqs, (fst ex_result), (snd ex_result), 3, [256], 268.
  pose proof ex_added as A. rewrite P in A.
  split; [apply ex_fresh; now right|]. split; [exact ex_good|]. split; [exact A|]. split; [|vm_compute; reflexivity].
  apply C47_nonvacuous.
Qed.
Print Assumptions C48_ext_last_refuted.
