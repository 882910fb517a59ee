(* What devices do in the callbacks made for configuration space. *)
From Coq Require Import NArith ZArith List Bool Lia ZifyBool ZifyNat ZifyN.
From Verif Require Import Base Types Bytes BytesProofs BufProofs Dma Dirty Migr Irq Pci Handlers Server SpecServer Reenter SpecReenter ReenterProofs ReenterCfg.
Import ListNotations.
Open Scope N_scope.
Ltac Zify.zify_post_hook ::= idtac.

Definition is_poke (a : act) : bool := match a with APoke _ _ => true | _ => false end.
Definition no_pokes (i : inside) : Prop := forall k a, In a (in_cb i k) -> is_poke a = false.

(* ---------- the length of configuration space *)
Ltac len_crush :=
  repeat (cbn [need] in *; match goal with
  | H : (_, _) = (_, _) |- _ => injection H as <- <-
  | H : (_, _, _) = (_, _, _) |- _ => injection H as <- <- <-
  | H : context [need ?x _ _] |- _ => destruct x eqn:?E
  | H : context [match ?x with _ => _ end] |- _ => destruct x eqn:?E
  end); repeat match goal with
  | E : put_slice _ _ _ = Some _ |- _ => apply put_slice_length in E
  | E : wr _ _ _ _ = Some _ |- _ => apply wr_length in E
  end; try congruence; try reflexivity.
Lemma hdr_len e cfg off buf o cfg' : hdr_write e cfg off buf = (o, cfg') -> length cfg' = length cfg.
Proof. unfold hdr_write. intros H. len_crush. Qed.
Lemma pm_len cfg base rel data o cfg' ev : cap_write_pm cfg base rel data = (o, cfg', ev) -> length cfg' = length cfg.
Proof. unfold cap_write_pm. intros H. len_crush. Qed.
Lemma px_len e cfg base rel data ans o cfg' ev : cap_write_px e cfg base rel data ans = (o, cfg', ev) -> length cfg' = length cfg.
Proof. unfold cap_write_px, px_pxdc_write. intros H. len_crush. Qed.
Lemma msi_len cfg base rel data o cfg' ev : cap_write_msi cfg base rel data = (o, cfg', ev) -> length cfg' = length cfg.
Proof.
  unfold cap_write_msi. intros H.
  repeat (match type of H with need ?x _ _ = _ => destruct x eqn:?E; cbn [need] in H; [|injection H as <- <- <-] | (if ?b then _ else _) = _ => destruct b; [injection H as <- <- <-|] end; len_crush).
Qed.
Lemma msix_len cfg base rel data o cfg' ev : cap_write_msix cfg base rel data = (o, cfg', ev) -> length cfg' = length cfg.
Proof.
  unfold cap_write_msix. intros H.
  repeat (match type of H with need ?x _ _ = _ => destruct x eqn:?E; cbn [need] in H; [|injection H as <- <- <-] end; len_crush).
Qed.
Lemma cap_write_len e cfg c off data ans o cfg' ev : cap_write e cfg c off data ans = (o, cfg', ev) -> length cfg' = length cfg.
Proof.
  unfold cap_write. intros H. destruct (cp_ext c); [len_crush|].
  destruct (cp_id c =? PCI_CAP_ID_PM); [exact (pm_len _ _ _ _ _ _ _ H)|]. destruct (cp_id c =? PCI_CAP_ID_EXP); [exact (px_len _ _ _ _ _ _ _ _ _ H)|].
  destruct (cp_id c =? PCI_CAP_ID_MSI); [exact (msi_len _ _ _ _ _ _ _ H)|]. destruct (cp_id c =? PCI_CAP_ID_MSIX); [exact (msix_len _ _ _ _ _ _ _ H)|]. len_crush.
Qed.
Lemma segment_len e p off buf ans rans o cfg' ev : write_segment e p off buf ans rans = Some (o, cfg', ev) -> length cfg' = length (pc_cfg p).
Proof.
  unfold write_segment. destruct (next_segment _ _ _ _) as [n| |n|c n]; try discriminate.
  - destruct (hdr_write e (pc_cfg p) off buf) as [[u|er|cr] cf] eqn:E; intros H; injection H as <- <- <-; exact (hdr_len _ _ _ _ _ _ E).
  - destruct (nonstd_write _ _ _ _). intros H. injection H as <- <- <-. reflexivity.
  - destruct (has _ _); [intros H; injection H as <- <- <-; reflexivity|]. destruct (has _ _); [destruct (nonstd_write _ _ _ _); intros H; injection H as <- <- <-; reflexivity|].
    destruct (_ <? _); [intros H; injection H as <- <- <-; reflexivity|]. destruct (cap_write _ _ _ _ _ _) as [[[u|er|cr] cf] ev0] eqn:E; intros H; injection H as <- <- <-; exact (cap_write_len _ _ _ _ _ _ _ _ _ E).
Qed.

(* ---------- every state reached in the course of an access is reached by stores and the device's calls *)
Lemma put_all (a b : list N) : length b = length a -> put_slice a 0 b = Some b.
Proof.
  intros L. unfold put_slice. replace (Nat.leb (0 + length b) (length a)) with true by (symmetry; apply Nat.leb_le; lia).
  cbn [firstn app]. rewrite skipn_all2 by lia. now rewrite app_nil_r.
Qed.
Lemma store_acts s cfg' : length cfg' = length (pc_cfg (cx_pci (sv_ctx s))) ->
  do_acts s [APoke 0 cfg'] = (Ok tt, set_ctx s (set_pci (sv_ctx s) (set_cfg (cx_pci (sv_ctx s)) cfg')), []).
Proof. intros L. cbn [do_acts step_of sv_step]. unfold dev_poke. cbn [N.to_nat]. rewrite put_all by exact L. reflexivity. Qed.
Lemma acts_cat l1 l2 s s1 ev1 s2 ev2 : do_acts s l1 = (Ok tt, s1, ev1) -> do_acts s1 l2 = (Ok tt, s2, ev2) -> do_acts s (l1 ++ l2) = (Ok tt, s2, ev1 ++ ev2).
Proof.
  rewrite !acts_frame. destruct (acts_ctx (sv_ctx s) l1) as [[o c1] e1] eqn:A. intros H. injection H as -> <- <-. rewrite (acts_app _ _ l2 _ _ A). cbn [sv_ctx set_ctx].
  destruct (acts_ctx c1 l2) as [[o2 c2] e2]. intros H. injection H as -> <- <-. reflexivity.
Qed.
Lemma part_ok s k ev i oa s1 eva : part_acts s k ev i = (oa, s1, eva) -> (forall c, oa <> Crash c) -> do_acts s (match ev with [] => [] | _ => in_cb i k end) = (Ok tt, s1, eva).
Proof.
  unfold part_acts. destruct ev as [|e ev]; [intros H _; injection H as <- <- <-; reflexivity|]. intros H NC. destruct (do_acts_ok _ _ _ _ _ H NC) as (-> & _). exact H.
Qed.

Lemma read_acts i fuel : forall s answers k count off done o bs s' ev, cfg_read_in fuel s answers k count off done i = (o, bs, s', ev) -> (forall c, o <> Crash c) ->
  exists l evl, do_acts s l = (Ok tt, s', evl).
Proof.
  induction fuel as [|fuel IH]; intros s answers k count off done o bs s' ev; cbn [cfg_read_in].
  - destruct (count =? 0); intros H NC; injection H as <- <- <- <-; [exists [], []; reflexivity|destruct (NC _ eq_refl)].
  - destruct (count =? 0); [intros H NC; injection H as <- <- <- <-; exists [], []; reflexivity|].
    destruct (read_segment _ _ _ _ _) as [[x ev1]|]; [|intros H NC; injection H as <- <- <- <-; exists [], []; reflexivity].
    destruct (part_acts s k ev1 i) as [[oa s1] eva] eqn:P. intros H NC.
    assert (NA : forall c, oa <> Crash c) by (intros c ->; injection H as <- <- <- <-; exact (NC _ eq_refl)). pose proof (part_ok _ _ _ _ _ _ _ P NA) as A.
    destruct oa as [[]|e|c]; [| |destruct (NA _ eq_refl)]; (destruct x as [[n b]|er|cr]; [|injection H as <- <- <- <-; eauto|injection H as <- <- <- <-; destruct (NC _ eq_refl)]);
      (destruct (cfg_read_in fuel s1 answers (k + length ev1) (count - n) (off + n) (done + n) i) as [[[o2 b2] s2] ev2] eqn:E; injection H as -> <- <- <-;
       destruct (IH _ _ _ _ _ _ _ _ _ _ E NC) as (l & evl & L); do 2 eexists; exact (acts_cat _ _ _ _ _ _ _ A L)).
Qed.
Lemma write_acts i fuel : forall s answers rans k off buf done o s' ev, cfg_write_in fuel s answers rans k off buf done i = (o, s', ev) -> (forall c, o <> Crash c) ->
  exists l evl, do_acts s l = (Ok tt, s', evl).
Proof.
  induction fuel as [|fuel IH]; intros s answers rans k off buf done o s' ev; cbn [cfg_write_in].
  - destruct buf; intros H NC; injection H as <- <- <-; [exists [], []; reflexivity|destruct (NC _ eq_refl)].
  - destruct buf as [|b0 buf0]; [intros H NC; injection H as <- <- <-; exists [], []; reflexivity|]. set (buf := b0 :: buf0). clearbody buf.
    destruct (write_segment _ _ _ _ _ _) as [[[x cfg'] ev1]|] eqn:W; [|intros H NC; injection H as <- <- <-; exists [], []; reflexivity].
    apply segment_len in W. pose proof (store_acts s cfg' W) as A0. set (sm := set_ctx s (set_pci (sv_ctx s) (set_cfg (cx_pci (sv_ctx s)) cfg'))) in *.
    destruct (part_acts sm k ev1 i) as [[oa s1] eva] eqn:P. intros H NC.
    assert (NA : forall c, oa <> Crash c) by (intros c ->; injection H as <- <- <-; exact (NC _ eq_refl)). pose proof (acts_cat _ _ _ _ _ _ _ A0 (part_ok _ _ _ _ _ _ _ P NA)) as A.
    destruct oa as [[]|e|c]; [| |destruct (NA _ eq_refl)]; (destruct x as [n|er|cr]; [|injection H as <- <- <-; eauto|injection H as <- <- <-; destruct (NC _ eq_refl)]);
      (destruct (cfg_write_in fuel s1 answers rans (k + length ev1) (off + n) (skipn (N.to_nat n) buf) (done + n) i) as [[o2 s2] ev2] eqn:E; injection H as -> <- <-;
       destruct (IH _ _ _ _ _ _ _ _ _ _ E NC) as (l & evl & L); do 2 eexists; exact (acts_cat _ _ _ _ _ _ _ A L)).
Qed.
Lemma access_in_acts s o region w off count data i res buf s' ev : region_access_in s o region w off count data i = (res, buf, s', ev) -> (forall c, res <> Crash c) ->
  ((region =? CFG_REGION) && negb (match nth_error (cx_regs (sv_ctx s)) (N.to_nat region) with Some r => has (ri_flags r) REGION_FLAG_ALWAYS_CB | None => false end)) = false ->
  exists l evl, do_acts s l = (Ok tt, s', evl).
Proof.
  unfold region_access_in. intros H NC C. destruct (nth_error (cx_regs (sv_ctx s)) (N.to_nat region)) as [r|]; [|injection H as <- <- <- <-; destruct (NC _ eq_refl)]. rewrite C in H.
  destruct (negb (ri_cb r)); [injection H as <- <- <- <-; exists [], []; reflexivity|]. destruct (do_acts s (in_cb i 0)) as [[oa s1] eva] eqn:A.
  assert (NA : forall c, oa <> Crash c) by (intros c ->; injection H as <- <- <- <-; exact (NC _ eq_refl)). destruct (do_acts_ok _ _ _ _ _ A NA) as (-> & _).
  destruct (or_access o 0%nat off count); injection H as <- <- <- <-; eauto.
Qed.
Lemma handle_access_acts s o w body i r s' ev : handle_region_access_all s o w body i = (r, s', ev) -> (forall c, r <> HCrash c) -> exists l evl, do_acts s l = (Ok tt, s', evl).
Proof.
  intros H NC. assert (Z : s' = s -> exists l evl, do_acts s l = (Ok tt, s', evl)) by (intros ->; exists [], []; reflexivity). unfold handle_region_access_all in H.
  destruct (_ <? 16); [injection H as <- <- <-; exact (Z eq_refl)|].
  destruct (rd body 0 8) as [off|]; cbn [need] in *; [|injection H as <- <- <-; destruct (NC _ eq_refl)].
  destruct (rd body 8 4) as [region|]; cbn [need] in *; [|injection H as <- <- <-; destruct (NC _ eq_refl)].
  destruct (rd body 12 4) as [count|]; cbn [need] in *; [|injection H as <- <- <-; destruct (NC _ eq_refl)].
  destruct (negb (valid_region_access _ _ _ _ _ _)); [injection H as <- <- <-; exact (Z eq_refl)|].
  destruct (count =? 0); [injection H as <- <- <-; exact (Z eq_refl)|]. clear Z.
  destruct (region_access_all s o region w off count (if w then skipn 16 body else []) i) as [[[res buf] s1] ev1] eqn:RA.
  assert (NR : forall c, res <> Crash c) by (intros c ->; injection H as <- <- <-; destruct (NC _ eq_refl)).
  assert (G : exists l evl, do_acts s l = (Ok tt, s1, evl)).
  { unfold region_access_all in RA. destruct (nth_error (cx_regs (sv_ctx s)) (N.to_nat region)) as [rg|] eqn:RG; [|injection RA as <- <- <- <-; destruct (NR _ eq_refl)].
    destruct ((region =? CFG_REGION) && negb (has (ri_flags rg) REGION_FLAG_ALWAYS_CB)) eqn:C.
    - destruct w.
      + destruct (cfg_write_in _ _ _ _ _ _ _ _ _) as [[o2 s2] ev2] eqn:E. injection RA as <- <- <- <-. exact (write_acts _ _ _ _ _ _ _ _ _ _ _ _ E NR).
      + exact (read_acts _ _ _ _ _ _ _ _ _ _ _ _ RA NR).
    - apply (access_in_acts _ _ _ _ _ _ _ _ _ _ _ _ RA NR). rewrite RG. exact C. }
  destruct res as [n|e|c]; [destruct (n =? count)| |destruct (NR _ eq_refl)]; injection H as <- <- <-; exact G.
Qed.
Definition accesses (cmd : N) : bool := (cmd =? CMD_REGION_READ) || (cmd =? CMD_REGION_WRITE).
Lemma dispatch_all_acts s o cmd body fds i r s' fds' ev : accesses cmd = true -> dispatch_all s o cmd body fds i = (r, s', fds', ev) -> (forall c, r <> HCrash c) ->
  exists l evl, do_acts s l = (Ok tt, s', evl).
Proof.
  unfold accesses, dispatch_all. intros A H NC. destruct (cmd =? CMD_REGION_READ).
  - destruct (handle_region_access_all s o false body i) as [[r1 s1] ev1] eqn:E. injection H as <- <- <- <-. exact (handle_access_acts _ _ _ _ _ _ _ _ E NC).
  - destruct (cmd =? CMD_REGION_WRITE); [|discriminate A]. destruct (handle_region_access_all s o true body i) as [[r1 s1] ev1] eqn:E. injection H as <- <- <- <-. exact (handle_access_acts _ _ _ _ _ _ _ _ E NC).
Qed.
Lemma dispatch_all_other s o cmd body fds i : accesses cmd = false -> dispatch_all s o cmd body fds i = dispatch_in s o cmd body fds i.
Proof. unfold accesses, dispatch_all. intros A. apply orb_false_elim in A. destruct A as (-> & ->). reflexivity. Qed.

(* ---------- a device that does not itself store to configuration space in these callbacks *)
Lemma act_pci c p a : is_poke a = false -> act_ctx (set_pci c p) a = let '(o, c', ev) := act_ctx c a in (o, set_pci c' p, ev).
Proof.
  intros NP. unfold act_ctx. destruct a as [l|h|v x|off data]; [..|discriminate NP]; cbn [step_of sv_step sv_ctx].
  - unfold dev_mark. cbn [sv_ctx cx_dma set_pci]. destruct (cx_dma c); [|reflexivity]. destruct (sgl_mark_dirty _ _); reflexivity.
  - unfold dev_hint. cbn [sv_ctx cx_dma set_pci]. destruct (cx_dma c); reflexivity.
  - cbn [cx_irqs cx_irq_cfg set_pci]. destruct (cx_irqs c); [|reflexivity]. destruct (irq_trigger _ _ _) as [[u|e|cr] ev]; reflexivity.
Qed.
Definition calm (l : list act) : Prop := forall a, In a l -> is_poke a = false.
Lemma acts_pci p l : forall c, calm l -> acts_ctx (set_pci c p) l = let '(o, c', ev) := acts_ctx c l in (o, set_pci c' p, ev).
Proof.
  induction l as [|a l IH]; intros c NP; cbn [acts_ctx]; [reflexivity|]. rewrite act_pci by (apply NP; left; reflexivity).
  assert (NL : calm l) by (intros x X; apply NP; right; exact X). destruct (act_ctx c a) as [[[u|e|cr] c1] ev1]; [| |reflexivity];
    rewrite IH by exact NL; destruct (acts_ctx c1 l) as [[o2 c2] ev2]; reflexivity.
Qed.
Lemma set_pci_eta c : set_pci c (cx_pci c) = c. Proof. destruct c; reflexivity. Qed.
Lemma acts_keep_pci l c o c' ev : calm l -> acts_ctx c l = (o, c', ev) -> cx_pci c' = cx_pci c.
Proof.
  intros NP H. pose proof (acts_pci (cx_pci c) l c NP) as X. rewrite set_pci_eta, H in X. injection X as X. rewrite X. reflexivity.
Qed.
Lemma env_same c c' : same c c' -> env_of c' = env_of c.
Proof. intros S. unfold env_of. rewrite (sm_regs _ _ S), (sm_reset _ _ S). reflexivity. Qed.

Definition one_cb (ev : list event) : Prop := ev = [] \/ exists e, ev = [e] /\ callback e = true.
Lemma read_one e p count off ans x ev : read_segment e p count off ans = Some (x, ev) -> one_cb ev.
Proof.
  assert (NS : forall n, one_cb (snd (nonstd_read e p off n ans))).
  { intros n. unfold nonstd_read. destruct (pe_cfg_cb e); [right; eexists; split; reflexivity|left; destruct (cfg_copy _ _ _); reflexivity]. }
  unfold read_segment. destruct (next_segment _ _ _ _) as [n| |n|c n]; try discriminate.
  - intros H. injection H as <- <-. left. reflexivity.
  - intros H. specialize (NS n). destruct (nonstd_read e p off n ans). injection H as <- <-. exact NS.
  - destruct (has _ _); intros H; [|injection H as <- <-; left; reflexivity]. specialize (NS n). destruct (nonstd_read e p off n ans). injection H as <- <-. exact NS.
Qed.
Ltac one_crush :=
  repeat (cbn [need] in *; match goal with
  | H : (_, _, _) = (_, _, _) |- _ => injection H as <- <- <-
  | H : context [need ?x _ _] |- _ => destruct x eqn:?E
  | H : context [match ?x with _ => _ end] |- _ => destruct x eqn:?E
  end); try (left; reflexivity); try (right; eexists; split; reflexivity).
Lemma cap_one e cfg c off data ans o cfg' ev : cap_write e cfg c off data ans = (o, cfg', ev) -> one_cb ev.
Proof.
  unfold cap_write. intros H. destruct (cp_ext c); [one_crush|].
  destruct (cp_id c =? PCI_CAP_ID_PM); [unfold cap_write_pm in H; one_crush|]. destruct (cp_id c =? PCI_CAP_ID_EXP); [unfold cap_write_px, px_pxdc_write in H; one_crush|].
  assert (ND : forall (A : Type) (x : option A) (d : wres) f, snd d = [] -> (forall a, snd (f a) = []) -> snd (need x d f) = []) by (intros A [a|] d f D F; [apply F|exact D]).
  destruct (cp_id c =? PCI_CAP_ID_MSI).
  { left. apply (f_equal snd) in H. cbn [snd] in H. rewrite <- H. unfold cap_write_msi. repeat first [apply ND; [reflexivity|intros ?]|match goal with |- snd (if ?b then _ else _) = [] => destruct b end|progress cbv zeta|reflexivity]. }
  destruct (cp_id c =? PCI_CAP_ID_MSIX).
  { left. apply (f_equal snd) in H. cbn [snd] in H. rewrite <- H. unfold cap_write_msix. repeat first [apply ND; [reflexivity|intros ?]|progress cbv zeta|reflexivity]. }
  one_crush.
Qed.
Lemma write_one e p off buf ans rans o cfg' ev : write_segment e p off buf ans rans = Some (o, cfg', ev) -> one_cb ev.
Proof.
  assert (NS : forall d, one_cb (snd (nonstd_write e off d ans))).
  { intros d. unfold nonstd_write. destruct (pe_cfg_cb e); [right; eexists; split; reflexivity|left; reflexivity]. }
  unfold write_segment. destruct (next_segment _ _ _ _) as [n| |n|c n]; try discriminate.
  - destruct (hdr_write e (pc_cfg p) off buf) as [[u|er|cr] cf]; intros H; injection H as <- <- <-; left; reflexivity.
  - match goal with |- context [nonstd_write e off ?d ans] => specialize (NS d); destruct (nonstd_write e off d ans) end. intros H. injection H as <- <- <-. exact NS.
  - destruct (has _ _); [intros H; injection H as <- <- <-; left; reflexivity|].
    destruct (has _ _); [match goal with |- context [nonstd_write e off ?d ans] => specialize (NS d); destruct (nonstd_write e off d ans) end; intros H; injection H as <- <- <-; exact NS|].
    destruct (_ <? _); [intros H; injection H as <- <- <-; left; reflexivity|].
    destruct (cap_write _ _ _ _ _ _) as [[[u|er|cr] cf] ev0] eqn:E; intros H; injection H as <- <- <-; exact (cap_one _ _ _ _ _ _ _ _ _ E).
Qed.

Definition cbs (i : inside) (k n : nat) : list act := concat (map (in_cb i) (seq k n)).
Lemma cbs_split i k ev n : one_cb ev -> cbs i k (length ev + n) = (match ev with [] => [] | _ => in_cb i k end) ++ cbs i (k + length ev) n.
Proof.
  intros [->|(e & -> & _)]; cbn [length]; [rewrite Nat.add_0_r; reflexivity|]. unfold cbs. cbn [Nat.add seq map concat]. replace (k + 1)%nat with (S k) by lia. reflexivity.
Qed.
Lemma one_filter ev : one_cb ev -> filter callback ev = ev.
Proof. intros [->|(e & -> & C)]; [reflexivity|]. cbn [filter]. rewrite C. reflexivity. Qed.
Lemma cbs_one i k ev : one_cb ev -> cbs i k (length ev) = match ev with [] => [] | _ => in_cb i k end.
Proof. intros O. pose proof (cbs_split i k ev 0 O) as X. rewrite Nat.add_0_r in X. rewrite X. unfold cbs. cbn [seq map concat]. apply app_nil_r. Qed.

Lemma read_after i fuel : no_pokes i -> forall s answers k count off done o bs s' ev', cfg_read_in fuel s answers k count off done i = (o, bs, s', ev') -> (forall c, o <> Crash c) ->
  exists ev eva, cfg_read fuel (env_of (sv_ctx s)) (cx_pci (sv_ctx s)) answers k count off done = (o, bs, ev) /\ filter callback ev = ev /\
    do_acts s (cbs i k (length ev)) = (Ok tt, s', eva) /\ interleaved ev eva ev'.
Proof.
  intros NP. induction fuel as [|fuel IH]; intros s answers k count off done o bs s' ev'; cbn [cfg_read_in cfg_read].
  - destruct (count =? 0); intros H NC; injection H as <- <- <- <-; [exists [], []; repeat split; constructor|destruct (NC _ eq_refl)].
  - destruct (count =? 0); [intros H NC; injection H as <- <- <- <-; exists [], []; repeat split; constructor|].
    destruct (read_segment _ _ _ _ _) as [[x ev1]|] eqn:RS; [|intros H NC; injection H as <- <- <- <-; exists [], []; repeat split; constructor].
    pose proof (read_one _ _ _ _ _ _ _ RS) as O1. destruct (part_acts s k ev1 i) as [[oa s1] eva] eqn:P. intros H NC.
    assert (NA : forall c, oa <> Crash c) by (intros c ->; injection H as <- <- <- <-; exact (NC _ eq_refl)). pose proof (part_ok _ _ _ _ _ _ _ P NA) as A.
    assert (KP : calm (match ev1 with [] => [] | _ => in_cb i k end)) by (destruct ev1; [intros a []|intros a; apply NP]).
    destruct (do_acts_ok _ _ _ _ _ A ltac:(discriminate)) as (_ & A1 & S1 & SM). pose proof (acts_keep_pci _ _ _ _ _ KP A1) as PE. pose proof (env_same _ _ SM) as EE.
    assert (FE : (exists er, x = Err er /\ o = Err er /\ bs = [] /\ s' = s1 /\ ev' = ev1 ++ eva) \/
      exists n b bs2 ev2, x = Ok (n, b) /\ cfg_read_in fuel s1 answers (k + length ev1) (count - n) (off + n) (done + n) i = (o, bs2, s', ev2) /\ bs = b ++ bs2 /\ ev' = ev1 ++ eva ++ ev2).
    { destruct oa as [[]|e|c]; [| |destruct (NA _ eq_refl)]; (destruct x as [[n b]|er|cr]; [right|left; injection H as <- <- <- <-; exists er; auto 10|injection H as <- <- <- <-; destruct (NC _ eq_refl)]);
        (destruct (cfg_read_in fuel s1 answers (k + length ev1) (count - n) (off + n) (done + n) i) as [[[o2 b2] s2] ev2] eqn:E; injection H as <- <- <- <-; exists n, b, b2, ev2; auto). }
    destruct FE as [(er & -> & -> & -> & -> & ->)|(n & b & bs2 & ev2 & -> & E & -> & ->)].
    + exists ev1, eva. split; [reflexivity|]. split; [exact (one_filter _ O1)|]. split; [rewrite (cbs_one _ _ _ O1); exact A|apply il_then].
    + destruct (IH _ _ _ _ _ _ _ _ _ _ E NC) as (ev3 & evb & E3 & F3 & A3 & I3). rewrite EE, PE in E3. rewrite E3.
      exists (ev1 ++ ev3), (eva ++ evb). split; [reflexivity|]. split; [rewrite filter_app, (one_filter _ O1), F3; reflexivity|].
      split; [rewrite app_length, (cbs_split _ _ _ _ O1); exact (acts_cat _ _ _ _ _ _ _ A A3)|]. rewrite app_assoc. apply il_app; [apply il_then|exact I3].
Qed.
Lemma write_after i fuel : no_pokes i -> forall s answers rans k off buf done o s' ev', cfg_write_in fuel s answers rans k off buf done i = (o, s', ev') -> (forall c, o <> Crash c) ->
  exists p ev eva, cfg_write fuel (env_of (sv_ctx s)) (cx_pci (sv_ctx s)) answers rans k off buf done = (o, p, ev) /\ filter callback ev = ev /\
    do_acts (set_ctx s (set_pci (sv_ctx s) p)) (cbs i k (length ev)) = (Ok tt, s', eva) /\ interleaved ev eva ev'.
Proof.
  intros NP.
  assert (Z : forall s k p, p = cx_pci (sv_ctx s) -> do_acts (set_ctx s (set_pci (sv_ctx s) p)) (cbs i k 0) = (Ok tt, s, [])) by (intros s k p ->; rewrite set_pci_eta, set_ctx_eta; reflexivity).
  induction fuel as [|fuel IH]; intros s answers rans k off buf done o s' ev'; cbn [cfg_write_in cfg_write].
  - destruct buf; intros H NC; injection H as <- <- <-; [|destruct (NC _ eq_refl)]. do 3 eexists. split; [reflexivity|]. split; [reflexivity|]. split; [apply Z; reflexivity|constructor].
  - destruct buf as [|b0 buf0]; [intros H NC; injection H as <- <- <-; do 3 eexists; split; [reflexivity|]; split; [reflexivity|]; split; [apply Z; reflexivity|constructor]|]. set (buf := b0 :: buf0). clearbody buf.
    destruct (write_segment _ _ _ _ _ _) as [[[x cfg'] ev1]|] eqn:W; [|intros H NC; injection H as <- <- <-; do 3 eexists; split; [reflexivity|]; split; [reflexivity|]; split; [apply Z; reflexivity|constructor]].
    pose proof (write_one _ _ _ _ _ _ _ _ _ W) as O1. set (p := cx_pci (sv_ctx s)) in *. set (sm := set_ctx s (set_pci (sv_ctx s) (set_cfg p cfg'))) in *.
    destruct (part_acts sm k ev1 i) as [[oa s1] eva] eqn:P. intros H NC.
    assert (NA : forall c, oa <> Crash c) by (intros c ->; injection H as <- <- <-; exact (NC _ eq_refl)). pose proof (part_ok _ _ _ _ _ _ _ P NA) as A.
    assert (KP : calm (match ev1 with [] => [] | _ => in_cb i k end)) by (destruct ev1; [intros a []|intros a; apply NP]).
    destruct (do_acts_ok _ _ _ _ _ A ltac:(discriminate)) as (_ & A1 & S1 & SM). pose proof (acts_keep_pci _ _ _ _ _ KP A1) as PE. pose proof (env_same _ _ SM) as EE.
    change (cx_pci (sv_ctx sm)) with (set_cfg p cfg') in PE. change (env_of (sv_ctx sm)) with (env_of (sv_ctx s)) in EE.
    assert (FE : (exists er, x = Err er /\ o = Err er /\ s' = s1 /\ ev' = ev1 ++ eva) \/
      exists n ev2, x = Ok n /\ cfg_write_in fuel s1 answers rans (k + length ev1) (off + n) (skipn (N.to_nat n) buf) (done + n) i = (o, s', ev2) /\ ev' = ev1 ++ eva ++ ev2).
    { destruct oa as [[]|e|c]; [| |destruct (NA _ eq_refl)]; (destruct x as [n|er|cr]; [right|left; injection H as <- <- <-; exists er; auto 10|injection H as <- <- <-; destruct (NC _ eq_refl)]);
        (destruct (cfg_write_in fuel s1 answers rans (k + length ev1) (off + n) (skipn (N.to_nat n) buf) (done + n) i) as [[o2 s2] ev2] eqn:E; injection H as <- <- <-; exists n, ev2; auto). }
    destruct FE as [(er & -> & -> & -> & ->)|(n & ev2 & -> & E & ->)].
    + exists (set_cfg p cfg'), ev1, eva. split; [reflexivity|]. split; [exact (one_filter _ O1)|]. split; [rewrite (cbs_one _ _ _ O1); exact A|apply il_then].
    + destruct (IH _ _ _ _ _ _ _ _ _ _ E NC) as (p3 & ev3 & evb & E3 & F3 & A3 & I3). rewrite EE, PE in E3. rewrite E3.
      exists p3, (ev1 ++ ev3), (eva ++ evb). split; [reflexivity|]. split; [rewrite filter_app, (one_filter _ O1), F3; reflexivity|].
      split; [|rewrite app_assoc; apply il_app; [apply il_then|exact I3]]. rewrite app_length, (cbs_split _ _ _ _ O1). refine (acts_cat _ _ _ _ _ _ _ _ A3).
      rewrite acts_frame. cbn [sv_ctx set_ctx]. change (set_pci (sv_ctx s) p3) with (set_pci (sv_ctx sm) p3). rewrite (acts_pci p3 _ _ KP), A1. rewrite set_ctx_twice, S1. reflexivity.
Qed.

Lemma access_all_after s o region w off count data i res buf s' ev' : region_access_all s o region w off count data i = (res, buf, s', ev') -> (forall c, res <> Crash c) ->
  ((region =? 7) && negb (match nth_error (cx_regs (sv_ctx s)) 7 with Some r => has (ri_flags r) 8 | None => false end) = true -> no_pokes i) ->
  exists c1 ev, region_access (sv_ctx s) o region w off count data = (res, buf, c1, ev) /\ after i s ev c1 s' ev' (all_acts i ev).
Proof.
  unfold region_access_all. destruct (nth_error (cx_regs (sv_ctx s)) (N.to_nat region)) as [r|] eqn:RG; [|intros H NC; injection H as <- <- <- <-; destruct (NC _ eq_refl)].
  assert (Q : (region =? 7) && negb (match nth_error (cx_regs (sv_ctx s)) 7 with Some r => has (ri_flags r) 8 | None => false end)
    = (region =? CFG_REGION) && negb (has (ri_flags r) REGION_FLAG_ALWAYS_CB)).
  { unfold CFG_REGION, REGION_FLAG_ALWAYS_CB. destruct (N.eqb_spec region 7) as [E|NE]; [|reflexivity]. rewrite E in RG. change (N.to_nat 7) with 7%nat in RG. rewrite RG. reflexivity. }
  destruct ((region =? CFG_REGION) && negb (has (ri_flags r) REGION_FLAG_ALWAYS_CB)) eqn:C.
  - intros H NC NP. rewrite Q in NP. specialize (NP eq_refl). unfold region_access. rewrite RG, C. destruct w.
    + destruct (cfg_write_in _ _ _ _ _ _ _ _ _) as [[o2 s2] ev2] eqn:E. injection H as <- <- <- <-. destruct (write_after _ _ NP _ _ _ _ _ _ _ _ _ _ E NC) as (p & ev & eva & E1 & F & A & I).
      unfold config_write. rewrite E1. do 2 eexists. split; [reflexivity|]. unfold all_acts. rewrite F. destruct (do_acts_ok _ _ _ _ _ A ltac:(discriminate)) as (_ & A1 & A2 & _).
      exists eva. split; [exact A1|]. split; [rewrite A2 at 1; rewrite set_ctx_twice; reflexivity|exact I].
    + destruct (read_after _ _ NP _ _ _ _ _ _ _ _ _ _ H NC) as (ev & eva & E1 & F & A & I).
      unfold config_read. rewrite E1. do 2 eexists. split; [reflexivity|]. unfold all_acts. rewrite F. destruct (do_acts_ok _ _ _ _ _ A ltac:(discriminate)) as (_ & A1 & A2 & _).
      exists eva. split; [exact A1|]. split; [exact A2|exact I].
  - intros H NC _. destruct (region_access_after _ _ _ _ _ _ _ _ _ _ _ _ H NC) as (c1 & ev & E & AF). rewrite Q in AF. eauto.
Qed.
Lemma handle_access_all_after s o w body i r s' ev' : handle_region_access_all s o w body i = (r, s', ev') -> (forall c, r <> HCrash c) ->
  (library_access s (if w then 10 else 9) body = true -> no_pokes i) ->
  exists c1 ev, handle_region_access (sv_ctx s) o w body = (r, c1, ev) /\ after i s ev c1 s' ev' (all_acts i ev).
Proof.
  intros H NC NP. unfold handle_region_access_all in H. unfold handle_region_access, library_access in *.
  assert (Z : after i s [] (sv_ctx s) s [] (all_acts i [])) by apply after_self.
  destruct (_ <? 16); [injection H as <- <- <-; exists (sv_ctx s), []; split; [reflexivity|apply Z]|].
  destruct (rd body 0 8) as [off|]; cbn [need] in *; [|injection H as <- <- <-; destruct (NC _ eq_refl)].
  destruct (rd body 8 4) as [region|]; cbn [need] in *; [|injection H as <- <- <-; destruct (NC _ eq_refl)].
  destruct (rd body 12 4) as [count|]; cbn [need] in *; [|injection H as <- <- <-; destruct (NC _ eq_refl)].
  destruct (negb (valid_region_access _ _ _ _ _ _)); [injection H as <- <- <-; exists (sv_ctx s), []; split; [reflexivity|apply Z]|].
  destruct (count =? 0); [injection H as <- <- <-; exists (sv_ctx s), []; split; [reflexivity|apply Z]|].
  set (data := if w then skipn 16 body else []) in *.
  destruct (region_access_all s o region w off count data i) as [[[res buf] s1] ev1] eqn:RA.
  assert (NR : forall c, res <> Crash c) by (intros c ->; injection H as <- <- <-; destruct (NC _ eq_refl)).
  replace (((if w then 10 else 9) =? 9) || ((if w then 10 else 9) =? 10)) with true in NP by (destruct w; reflexivity). cbn [andb] in NP.
  destruct (access_all_after _ _ _ _ _ _ _ _ _ _ _ _ RA NR NP) as (c1 & ev & E & AF). rewrite E.
  destruct res as [n|e|c]; [destruct (n =? count)| |destruct (NR _ eq_refl)]; injection H as <- <- <-; exists c1, ev; (split; [reflexivity|exact AF]).
Qed.

(* What is done in the callbacks of a request, done after it: as done_after, with no exception for accesses that the library
   carries out. *)
Definition done_always (s : server) (cmd : N) (body : list N) (i : inside) (ev : list event) (l : list act) : Prop :=
  (cmd = 3 /\ exists idx, removes s body idx /\ l = map (moved_act idx) (all_acts i ev)) \/
  ((cmd <> 3 \/ forall idx, ~ removes s body idx) /\ l = all_acts i ev).
Lemma dispatch_all_done s o cmd body fds i r s' fds' ev' : dispatch_all s o cmd body fds i = (r, s', fds', ev') -> (forall c, r <> HCrash c) ->
  (library_access s cmd body = true -> no_pokes i) ->
  exists c1 ev l, dispatch (sv_ctx s) o cmd body fds = (r, c1, fds', ev) /\ after i s ev c1 s' ev' l /\ done_always s cmd body i ev l.
Proof.
  intros H NC NP. destruct (accesses cmd) eqn:AC.
  - unfold dispatch_all, accesses in *. destruct (cmd =? CMD_REGION_READ) eqn:K1.
    + assert (cmd = 9) by (unfold CMD_REGION_READ in K1; lia). subst cmd. cbn -[all_acts handle_region_access_all handle_region_access rd library_access].
      destruct (handle_region_access_all s o false body i) as [[r0 s0] ev0] eqn:E. injection H as <- <- <- <-.
      destruct (handle_access_all_after _ _ _ _ _ _ _ _ E NC NP) as (c1 & ev & E1 & AF). rewrite E1. exists c1, ev, (all_acts i ev). split; [reflexivity|]. split; [exact AF|]. right. split; [left; discriminate|reflexivity].
    + destruct (cmd =? CMD_REGION_WRITE) eqn:K2; [|discriminate AC].
      assert (cmd = 10) by (unfold CMD_REGION_WRITE in K2; lia). subst cmd. cbn -[all_acts handle_region_access_all handle_region_access rd library_access].
      destruct (handle_region_access_all s o true body i) as [[r0 s0] ev0] eqn:E. injection H as <- <- <- <-.
      destruct (handle_access_all_after _ _ _ _ _ _ _ _ E NC NP) as (c1 & ev & E1 & AF). rewrite E1. exists c1, ev, (all_acts i ev). split; [reflexivity|]. split; [exact AF|]. right. split; [left; discriminate|reflexivity].
  - rewrite (dispatch_all_other _ _ _ _ _ _ AC) in H. destruct (dispatch_done _ _ _ _ _ _ _ _ _ _ H NC) as (c1 & ev & l & E & A & L). exists c1, ev, l. split; [exact E|]. split; [exact A|].
    unfold done_after, library_access in L. unfold accesses, CMD_REGION_READ, CMD_REGION_WRITE in AC. rewrite AC in L. exact L.
Qed.
