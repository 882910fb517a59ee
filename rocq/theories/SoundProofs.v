(* A device that is set up in a plain way is sound once it is realized. *)
From Coq Require Import NArith ZArith List Bool Lia ZifyBool ZifyNat ZifyN.
From Verif Require Import Base Types Bytes BytesProofs BufProofs Spec Dma Migr Irq Pci SpecPci SpecCaps PciProofs PciWrite CapsProofs CapsAdd PropCaps
  Handlers SpecHandlers Server SpecServer ServerProofs Setup SpecSetup PropSetup SpecSafe.
Import ListNotations.
Open Scope N_scope.
Ltac Zify.zify_post_hook ::= idtac.

Lemma inv_caps_ok p0 p l : inv p0 p l -> caps_ok p.
Proof.
  intros I. constructor.
  + apply I.
  + pose proof (iv_256 _ _ _ I). lia.
  + apply I.
  + intros c Hc. unfold all_caps in Hc. apply in_app_or in Hc.
    destruct Hc as [Hc|Hc]; [destruct (recorded_in _ _ _ (iv_caps _ _ _ I) Hc) as [a [Ha R]]; apply in_stds in Ha
                            |destruct (recorded_in _ _ _ (iv_exts _ _ _ I) Hc) as [a [Ha R]]; apply in_exts in Ha];
      destruct Ha as [Ha Ea]; pose proof (pl_low _ _ (iv_each _ _ _ I a Ha)) as Q; rewrite Ea in Q; destruct R as [_ [_ [-> _]]]; lia.
  + intros c Hc. unfold all_caps in Hc. apply in_app_or in Hc. pose proof (iv_256 _ _ _ I).
    destruct Hc as [Hc|Hc]; [destruct (recorded_in _ _ _ (iv_caps _ _ _ I) Hc) as [a [Ha R]]; apply in_stds in Ha
                            |destruct (recorded_in _ _ _ (iv_exts _ _ _ I) Hc) as [a [Ha R]]; apply in_exts in Ha];
      destruct Ha as [Ha Ea]; pose proof (pl_high _ _ (iv_each _ _ _ I a Ha)) as Q; rewrite Ea in Q; destruct R as [_ [_ [Eo [Es _]]]];
      unfold cap_end; rewrite Eo, Es; unfold ad_end in Q; lia.
  + unfold all_caps. apply fop_app; [apply (recorded_order _ _ (iv_caps _ _ _ I)); apply I|apply (recorded_order _ _ (iv_exts _ _ _ I)); apply I|].
    intros c d Hc Hd. destruct (recorded_in _ _ _ (iv_caps _ _ _ I) Hc) as [a [Ha R]]. destruct (recorded_in _ _ _ (iv_exts _ _ _ I) Hd) as [b [Hb S]].
    apply in_stds in Ha. apply in_exts in Hb. destruct Ha as [Ha Ea]. destruct Hb as [Hb Eb].
    pose proof (pl_high _ _ (iv_each _ _ _ I a Ha)) as Q. pose proof (pl_low _ _ (iv_each _ _ _ I b Hb)) as Q'. rewrite Ea in Q. rewrite Eb in Q'.
    destruct R as [_ [_ [E1 [E2 _]]]]. destruct S as [_ [_ [E3 _]]]. unfold cap_end. rewrite E1, E2, E3. unfold ad_end in Q. lia.
Qed.

(* Stores into the header leave the capabilities alone. *)
Lemma inv_header p0 p l cfg : inv p0 p l -> bytes cfg -> length cfg = length (pc_cfg p) ->
  (forall x, x = 52 \/ 64 <= x -> cfg_byte cfg x = cfg_byte (pc_cfg p) x) -> inv (set_cfg p cfg) (set_cfg p cfg) l.
Proof.
  intros I B L S. pose proof I as [I1 I2 I3 I4 I5 I6 I7 I8 I9 I10 I11 I12 I13 I14 I15].
  constructor; cbn [set_cfg pc_cfg pc_caps pc_ext_caps]; rewrite ?L; auto.
  - unfold std_list in *. rewrite S by lia. apply walk_same with (next := std_next (pc_cfg p)); [exact I5|]. intros x Hx. unfold std_next. apply S.
    apply in_map_iff in Hx. destruct Hx as (a & <- & Ha). apply in_stds in Ha. destruct Ha as (Ha & Ea). pose proof (pl_low _ _ (I7 a Ha)) as Q. rewrite Ea in Q. lia.
  - unfold ext_list in *. unfold ext_id in *. rewrite !S by lia. destruct I6 as [I6|(I6 & W)]; [left; exact I6|right]. split; [exact I6|].
    apply walk_same with (next := ext_next (pc_cfg p)); [exact W|]. intros x Hx. unfold ext_next.
    apply in_map_iff in Hx. destruct Hx as (a & <- & Ha). apply in_exts in Ha. destruct Ha as (Ha & Ea). pose proof (pl_low _ _ (I7 a Ha)) as Q. rewrite Ea in Q.
    now rewrite !S by lia.
  - intros a Ha. destruct (I7 a Ha) as [P1 P2 P3 P4 P5 P6]. constructor; auto; [|now rewrite L].
    intros i Hi Hx. rewrite S; [now apply P1|]. destruct (ad_ext a); lia.
Qed.

Lemma stores_frame l : forall cfg cfg', Forall (fun s => (fst (fst s) + snd (fst s) <= 48)%nat) l -> bytes cfg -> stores cfg l = Some cfg' ->
  bytes cfg' /\ length cfg' = length cfg /\ forall x, 48 <= x -> cfg_byte cfg' x = cfg_byte cfg x.
Proof.
  induction l as [|[[off n] v] l IH]; intros cfg cfg' F B H; cbn [stores] in H; [injection H as <-; auto|].
  inversion_clear F as [|? ? F1 F2]. cbn [fst snd] in F1. destruct (wr cfg off n v) as [c1|] eqn:W; [|discriminate].
  destruct (IH c1 cfg' F2 (wr_bytes _ _ _ _ _ B W) H) as (A & L & S). split; [exact A|]. split; [rewrite L; exact (wr_length _ _ _ _ _ W)|].
  intros x Hx. rewrite S by lia. unfold cfg_byte. rewrite (wr_nth _ _ _ _ _ _ W).
  now replace (Nat.leb off (N.to_nat x) && Nat.ltb (N.to_nat x) (off + n)) with false by lia.
Qed.

(* The capabilities of a device being set up. *)
Definition low (p : pci) : Prop := length (pc_cfg p) = 256%nat \/ forall c, In c (pc_caps p) -> cap_end c <= 256.
Definition caps_inv (p : pci) : Prop :=
  (pc_cfg p = [] /\ pc_caps p = [] /\ pc_ext_caps p = []) \/ (pc_cfg p <> [] /\ (low p -> exists p0 l, inv p0 p l)).

Lemma not_nil {A} (l : list A) n : (n < length l)%nat -> l <> [].
Proof. intros H ->. cbn in H. lia. Qed.

Lemma add_caps_inv e ex p flags data o p' : caps_inv p -> good_request (flags, data) -> add_capability e ex p 0 flags data = (o, p') ->
  (forall cr, o <> Crash cr) -> caps_inv p'.
Proof.
  intros I G H NC. destruct o as [off|er|cr]; [|apply add_capability_refused in H; subst p'; exact I|now destruct (NC cr)].
  destruct G as [G1 G2]. cbn [fst snd] in G1, G2. destruct (add_fits _ _ _ _ _ _ _ G1 H) as (Fi & Le).
  destruct (add_inversion _ _ _ _ _ _ _ _ G1 H) as (cfg' & c & x & E & Rc & _).
  destruct I as [(Z & _)|(NZ & I)].
  { rewrite Z in Fi. cbn [length] in Fi. destruct (N.testbit flags 0); lia. }
  right. split.
  { intros Z. rewrite Z in Le. destruct (pc_cfg p); [now apply NZ|discriminate Le]. }
  intros Lw. assert (Lp : low p).
  { destruct Lw as [Lw|Lw]; [left; lia|right]. intros c' Hc. apply Lw. rewrite E. cbn [pc_caps]. destruct (ad_ext _); [exact Hc|apply in_or_app; now left]. }
  destruct (I Lp) as (p0 & l & J). exists p0, (l ++ [mk_added flags data off]).
  destruct (N.testbit flags 0) eqn:Fl.
  - apply (add_step_ext e ex p0 p); auto. split; cbn [fst snd]; [exact G1|]. now rewrite Fl.
  - apply (add_step_std e ex p0 p); auto; [split; cbn [fst snd]; [exact G1|now rewrite Fl]|].
    destruct Lw as [Lw|Lw]; [lia|]. specialize (Lw c). rewrite E in Lw. cbn [pc_caps] in Lw.
    change (ad_ext (mk_added flags data off)) with (N.testbit flags 0) in Lw. rewrite Fl in Lw.
    specialize (Lw ltac:(apply in_or_app; right; now left)). destruct Rc as (_ & _ & Ro & Rs & _). unfold cap_end in Lw. rewrite Ro, Rs in Lw.
    cbn [ad_off] in Lw. unfold ad_size, ad_ext in Lw. cbn [ad_flags ad_data] in Lw. now rewrite Fl in Lw.
Qed.

Lemma hdr_caps_inv d l : Forall (fun s => (fst (fst s) + snd (fst s) <= 48)%nat) l -> (exists s r, l = s :: r /\ (0 < snd (fst s))%nat) ->
  caps_inv (cx_pci (dv_ctx d)) -> (forall cr, fst (set_hdr d l) <> Crash cr) -> caps_inv (cx_pci (dv_ctx (snd (set_hdr d l)))).
Proof.
  intros F (s & r & -> & Ps) I NC. unfold set_hdr in *. destruct (stores (pc_cfg (cx_pci (dv_ctx d))) (s :: r)) as [cfg|] eqn:E; [|now destruct (NC OutOfBounds)].
  cbn [snd]. change (cx_pci (dv_ctx (on_ctx d (set_pci (dv_ctx d) (set_cfg (cx_pci (dv_ctx d)) cfg))))) with (set_cfg (cx_pci (dv_ctx d)) cfg).
  destruct I as [(Z & _)|(NZ & I)].
  { exfalso. rewrite Z in E. destruct s as [[off n] v]. cbn [stores] in E. cbn [fst snd] in Ps.
    destruct (wr [] off n v) as [c|] eqn:W; [|discriminate]. unfold wr, put_slice in W.
    rewrite le_bytes_length in W. cbn [length] in W. destruct (Nat.leb (off + n) 0) eqn:Q; [lia|discriminate]. }
  right.
  assert (Ln : forall l cfg cfg', stores cfg l = Some cfg' -> length cfg' = length cfg).
  { clear. induction l as [|[[off n] v] l IH]; intros cfg cfg' H; cbn [stores] in H; [now injection H as <-|].
    destruct (wr cfg off n v) as [c|] eqn:W; [|discriminate]. rewrite (IH _ _ H). exact (wr_length _ _ _ _ _ W). }
  specialize (Ln _ _ _ E). cbn [set_cfg pc_cfg]. split; [intros ->; cbn [length] in Ln; destruct (pc_cfg (cx_pci (dv_ctx d))); [now apply NZ|discriminate Ln]|].
  intros Lw. assert (Lp : low (cx_pci (dv_ctx d))). { unfold low in *. cbn [set_cfg pc_cfg pc_caps] in Lw. now rewrite Ln in Lw. }
  destruct (I Lp) as (p0 & ad & J). destruct (stores_frame _ _ _ F (iv_bytes _ _ _ J) E) as (B & L & S). exists (set_cfg (cx_pci (dv_ctx d)) cfg), ad.
  apply inv_header with (p0 := p0); auto. intros x Hx. apply S. lia.
Qed.

Lemma poke_caps_inv d off data : SpecCaps.header_store off data -> caps_inv (cx_pci (dv_ctx d)) ->
  (forall cr, fst (dev_call d (CPoke off data)) <> Crash cr) -> caps_inv (cx_pci (dv_ctx (snd (dev_call d (CPoke off data))))).
Proof.
  intros (BD & H) I NC. cbn [dev_call] in *. unfold dev_poke in *. fold (dv_ctx d) in *. cbv zeta in *.
  destruct (put_slice (pc_cfg (cx_pci (dv_ctx d))) (N.to_nat off) data) as [cfg|] eqn:E; cbn [fst snd ans] in *; [|now destruct (NC OutOfBounds)].
  change (caps_inv (set_cfg (cx_pci (dv_ctx d)) cfg)). pose proof (put_slice_length _ _ _ _ E) as Ln.
  destruct I as [(Z & C)|(NZ & I)].
  { left. cbn [set_cfg pc_cfg pc_caps pc_ext_caps]. rewrite Z in Ln. destruct cfg; [auto|discriminate Ln]. }
  right. cbn [set_cfg pc_cfg]. split; [intros ->; cbn [length] in Ln; destruct (pc_cfg (cx_pci (dv_ctx d))); [now apply NZ|discriminate Ln]|].
  intros Lw. assert (Lp : low (cx_pci (dv_ctx d))). { unfold low in *. cbn [set_cfg pc_cfg pc_caps] in Lw. now rewrite Ln in Lw. }
  destruct (I Lp) as (p0 & ad & J). exists (set_cfg (cx_pci (dv_ctx d)) cfg), ad. apply inv_header with (p0 := p0); auto.
  - exact (put_slice_bytes _ _ _ _ (iv_bytes _ _ _ J) BD E).
  - intros x Hx. unfold cfg_byte. rewrite (put_slice_nth _ _ _ _ _ E).
    replace (Nat.leb (N.to_nat off) (N.to_nat x) && Nat.ltb (N.to_nat x) (N.to_nat off + length data)) with false by lia. reflexivity.
Qed.

Lemma zeros_nth n i : nth i (zeros n) 0 = 0.
Proof. unfold zeros. revert i. induction n as [|n IH]; intros [|i]; cbn; auto. Qed.

Lemma call_caps d k : careful k -> plain k -> caps_inv (cx_pci (dv_ctx d)) -> (forall cr, fst (dev_call d k) <> Crash cr) ->
  caps_inv (cx_pci (dv_ctx (snd (dev_call d k)))).
Proof.
  intros K P I NC. destruct k as [m a|b|b|r u|t n|t b|v t r w|t h|v i sv si|b s p|pos fl data|sh i io| |poff pdata]; [..|now apply poke_caps_inv]; cbn [dev_call] in *; cbn [fst snd] in *; try exact I.
  - unfold setup_migration. destruct (negb (v =? 2)%Z); [exact I|]. destruct (negb (t && r && w)); exact I.
  - unfold pci_init in *. destruct (4 <=? t); [exact I|]. destruct (negb (h =? 0)); [exact I|].
    destruct (pc_cfg (cx_pci (dv_ctx d))) as [|x y] eqn:Z; [|exact I]. destruct (nth_error (cx_regs (dv_ctx d)) 7); [|exact I]. cbn [snd]. cbv zeta.
    unfold dv_ctx. cbn [dv_sv set_ctx sv_ctx set_regs set_pci cx_pci]. fold (dv_ctx d).
    destruct I as [(_ & C1 & C2)|(NZ & _)]; [|now destruct NZ]. right. cbn [set_cfg pc_cfg].
    set (size := if 2 <=? t then PCI_CFG_SPACE_EXP_SIZE else PCI_CFG_SPACE_SIZE).
    assert (S : size = 256 \/ size = 4096) by (subst size; destruct (2 <=? t); auto).
    assert (Ls : length (zeros (N.to_nat size)) = N.to_nat size) by apply repeat_length.
    split; [apply not_nil with (n := 0%nat); rewrite Ls; lia|]. intros _. exists (set_cfg (cx_pci (dv_ctx d)) (zeros (N.to_nat size))), [].
    apply CapsAdd.fresh_inv. constructor; cbn [set_cfg pc_cfg pc_caps pc_ext_caps]; auto.
    + apply Forall_forall. intros x Hx. apply repeat_spec in Hx. subst x. reflexivity.
    + rewrite Ls. lia.
    + apply zeros_nth.
    + intros o _. apply zeros_nth.
  - apply hdr_caps_inv; auto; [repeat constructor|]. unfold id_stores. eexists _, _. split; [reflexivity|]. cbn. lia.
  - apply hdr_caps_inv; auto; [repeat constructor|]. unfold class_stores. eexists _, _. split; [reflexivity|]. cbn. lia.
  - destruct P as (-> & G). destruct (nth_error (cx_regs (dv_ctx d)) 7) as [r|]; [|exact I]. destruct (negb _); [exact I|].
    destruct (add_capability (env_of (dv_ctx d)) (dv_express d) (cx_pci (dv_ctx d)) 0 fl data) as [o p'] eqn:A. cbn [fst snd] in *.
    change (cx_pci (dv_ctx (on_ctx d (set_pci (dv_ctx d) p')))) with p'. apply (add_caps_inv _ _ _ _ _ _ _ I G A). unfold ans in NC. cbn [fst] in NC.
    intros cr ->. now apply (NC cr).
  - now destruct K.
Qed.

Lemma calls_caps l : forall d d' os, Forall careful l -> Forall plain l -> caps_inv (cx_pci (dv_ctx d)) -> dev_calls d l = (Some d', os) ->
  caps_inv (cx_pci (dv_ctx d')).
Proof.
  induction l as [|k l IH]; intros d d' os F G I H; cbn [dev_calls] in H; [injection H as <- _; exact I|].
  inversion_clear F as [|? ? K Fl]. inversion_clear G as [|? ? P Gl].
  pose proof (call_caps d k K P I) as C. destruct (dev_call d k) as [o d1]. cbn [fst snd] in C.
  destruct o as [u|e|cr]; [| |discriminate H]; destruct (dev_calls d1 l) as [r os1] eqn:R; injection H as -> <-;
    (apply (IH d1 d' os1); [exact Fl|exact Gl|apply C; discriminate|exact R]).
Qed.

(* Region sizes have 32 bits. *)
Definition small (d : device) : Prop := Forall (fun r => ri_size r < 2 ^ 32) (cx_regs (dv_ctx d)).
Lemma call_small d k : careful k -> small d -> small (snd (dev_call d k)).
Proof.
  intros K I. destruct k as [m a|b|b|r u|t n|t b|v t r w|t h|v i sv si|b s p|pos fl data|sh i io| |poff pdata]; cbn [dev_call]; cbn [snd]; try exact I.
  - unfold small. change (cx_regs (dv_ctx (on_ctx d (set_regs (dv_ctx d) (snd (setup_region m (cx_regs (dv_ctx d)) a)))))) with (snd (setup_region m (cx_regs (dv_ctx d)) a)).
    unfold setup_region. cbv zeta. unfold small in I. revert I. generalize (cx_regs (dv_ctx d)). intros regs I.
    repeat match goal with
    | |- context [if ?X then _ else _] => destruct X
    | |- context [match ?X with _ => _ end] => destruct X
    end; cbn [snd]; try exact I; apply DmaProofs.Forall_set_nth; try exact I; cbn [ri_size]; try reflexivity; unfold w32; apply N.mod_lt; discriminate.
  - unfold setup_migration. destruct (negb (v =? 2)%Z); [exact I|]. destruct (negb (t && r && w)); exact I.
  - unfold pci_init. destruct (4 <=? t); [exact I|]. destruct (negb (h =? 0)); [exact I|].
    destruct (pc_cfg (cx_pci (dv_ctx d))) as [|x y]; [|exact I]. destruct (nth_error (cx_regs (dv_ctx d)) 7); [|exact I]. cbn [snd].
    unfold small. match goal with |- Forall _ (cx_regs (dv_ctx (mk_device _ _))) => idtac end. unfold dv_ctx. cbn [dv_sv set_ctx sv_ctx set_regs cx_regs].
    apply DmaProofs.Forall_set_nth; [exact I|]. cbn [ri_size]. destruct (2 <=? t); reflexivity.
  - unfold set_hdr. destruct (stores _ _); exact I.
  - unfold set_hdr. destruct (stores _ _); exact I.
  - destruct (nth_error (cx_regs (dv_ctx d)) 7); [|exact I]. destruct (negb _); exact I.
  - unfold small. change (cx_regs (dv_ctx (on_ctx d (set_regs (dv_ctx d) (snd (create_ioeventfd sh (cx_regs (dv_ctx d)) i io)))))) with (snd (create_ioeventfd sh (cx_regs (dv_ctx d)) i io)).
    unfold create_ioeventfd. destruct (_ && _); [exact I|]. destruct (9 <=? i); [exact I|]. destruct (nth_error (cx_regs (dv_ctx d)) (N.to_nat i)) as [r|] eqn:E; [|exact I].
    destruct (_ <? _); [exact I|]. cbn [snd]. apply DmaProofs.Forall_set_nth; [exact I|]. cbn [ri_size]. unfold small in I. rewrite Forall_forall in I. apply I. eapply nth_error_In; eauto.
  - now destruct K.
  - unfold dev_poke. cbv zeta. destruct (put_slice _ _ _); exact I.
Qed.
Lemma calls_small l : forall d d' os, Forall careful l -> small d -> dev_calls d l = (Some d', os) -> small d'.
Proof.
  induction l as [|k l IH]; intros d d' os F I H; cbn [dev_calls] in H; [injection H as <- _; exact I|].
  inversion_clear F as [|? ? K Fl]. pose proof (call_small d k K I) as C. destruct (dev_call d k) as [o d1]. cbn [snd] in C.
  destruct o as [u|e|cr]; [| |discriminate H]; destruct (dev_calls d1 l) as [r os1] eqn:R; injection H as -> <-; (apply (IH d1 d' os1); auto).
Qed.

Lemma bars_bytes fl : forall cfg off cfg', bytes cfg -> realize_bars cfg off fl = Some cfg' -> bytes cfg'.
Proof.
  induction fl as [|f fl IH]; intros cfg off cfg' B H; cbn [realize_bars] in H; [injection H as <-; exact B|].
  destruct (rd cfg off 1); [|discriminate]. destruct (wr cfg off 1 _) as [c|] eqn:W; [|discriminate]. exact (IH _ _ _ (wr_bytes _ _ _ _ _ B W) H).
Qed.

Lemma caps_ok_cfg p cfg : caps_ok p -> bytes cfg -> length cfg = length (pc_cfg p) -> caps_ok (set_cfg p cfg).
Proof. intros [A B C D E F] G L. constructor; cbn [set_cfg pc_cfg]; rewrite ?L; auto. Qed.

Lemma in_set_nth {A} (x : A) n v l : In x (set_nth n v l) -> x = v \/ In x l.
Proof. revert l. induction n as [|n IH]; intros [|y l] H; cbn in H; try tauto; [destruct H as [<-|H]; auto; right; now right|]. destruct H as [<-|H]; [right; now left|]. destruct (IH _ H); auto. right. now right. Qed.

Lemma set_up_sound d0 l d os d' : create_ctx 0 0 0 None = Ok d0 -> dev_calls d0 l = (Some d, os) -> Forall careful l -> Forall plain l ->
  sensible (dv_ctx d) -> realize_ctx d = (Ok tt, d') -> sound (dv_ctx d').
Proof.
  intros C0 H F G (S1 & S2 & S3) R.
  assert (SI : setup_inv d) by (apply in_setup_inv; exists d0, l, os; auto).
  injection C0 as <-.
  assert (CI : caps_inv (cx_pci (dv_ctx d))) by (apply (calls_caps _ _ _ _ F G) in H; [exact H|left; auto]).
  assert (SM : small d) by (apply (calls_small _ _ _ _ F) in H; [exact H|unfold small; cbn; repeat constructor]).
  destruct (realize_inv d d' SI R) as (r & cfg1 & cfg2 & cfg3 & Hr & B1 & B2 & B3 & ->).
  specialize (S1 r Hr). pose proof (nth_error_In _ _ Hr) as Ir. unfold small in SM. rewrite Forall_forall in SM. pose proof (SM r Ir) as Sr.
  set (c := dv_ctx d) in *. set (p := cx_pci c) in *. set (cfg0 := config_before c) in *.
  assert (K0 : caps_ok (set_cfg p cfg0) /\ N.of_nat (length cfg0) = ri_size (config_region r) /\ N.of_nat (length cfg0) < 2 ^ 32).
  { unfold cfg0, config_before. fold p. rewrite Hr. unfold config_region. unfold low in CI. destruct CI as [(Z & Z1 & Z2)|(NZ & CI)].
    - rewrite Z in S1 |- *. destruct S1 as (S1 & _). specialize (S1 eq_refl).
      assert (RL : N.of_nat (length (repeat 0 (if N.eq_dec (ri_size r) 0 then 256%nat else N.to_nat (ri_size r)))) = if N.eq_dec (ri_size r) 0 then 256 else ri_size r).
      { rewrite repeat_length. destruct (N.eq_dec (ri_size r) 0); lia. }
      split; [|rewrite RL; destruct (N.eq_dec (ri_size r) 0); cbn [ri_size]; lia].
      assert (NC : forall c, ~ In c (all_caps (set_cfg p (repeat 0 (if N.eq_dec (ri_size r) 0 then 256%nat else N.to_nat (ri_size r)))))).
      { intros q Q. unfold all_caps in Q. cbn [set_cfg pc_caps pc_ext_caps] in Q. rewrite Z1, Z2 in Q. destruct Q. }
      constructor; try (intros q Q; now destruct (NC q Q)); cbn [set_cfg pc_cfg].
      + apply Forall_forall. intros x Hx. apply repeat_spec in Hx. subst x. reflexivity.
      + rewrite repeat_length. destruct (N.eq_dec (ri_size r) 0); lia.
      + unfold all_caps. cbn [set_cfg pc_caps pc_ext_caps]. rewrite Z1, Z2. constructor.
    - assert (NZ' : 0 < N.of_nat (length (pc_cfg p))) by (destruct (pc_cfg p); [now destruct NZ|cbn [length]; lia]).
      assert (EN : match pc_cfg p with [] => 0 | l => N.of_nat (length l) end = N.of_nat (length (pc_cfg p))) by (destruct (pc_cfg p); reflexivity).
      rewrite EN in S1, S2. assert (EC : (match pc_cfg p with [] => repeat 0 (if N.eq_dec (ri_size r) 0 then 256%nat else N.to_nat (ri_size r)) | l => l end) = pc_cfg p) by (destruct (pc_cfg p); [now destruct NZ|reflexivity]).
      rewrite EC. destruct S1 as (_ & S1). specialize (S1 ltac:(lia)). destruct (N.eq_dec (ri_size r) 0); [lia|]. rewrite S1. split; [|lia].
      destruct CI as (p0 & ad & J). { destruct (N.eq_dec (N.of_nat (length (pc_cfg p))) 256) as [Q|Q]; [left; lia|right; exact (S2 Q)]. }
      apply caps_ok_cfg; [exact (inv_caps_ok _ _ _ J)|exact (iv_bytes _ _ _ J)|reflexivity]. }
  destruct K0 as (K0 & E0 & L0).
  assert (Bc : bytes cfg3 /\ length cfg3 = length cfg0).
  { pose proof (co_bytes _ K0) as Q0. cbn [set_cfg pc_cfg] in Q0. pose proof (bars_bytes _ _ _ _ Q0 B1) as Q1. destruct (realize_bars_spec _ _ _ _ B1) as (L1 & _).
    assert (Q2 : bytes cfg2 /\ length cfg2 = length cfg1).
    { destruct (negb _); [split; [exact (wr_bytes _ _ _ _ _ Q1 B2)|exact (wr_length _ _ _ _ _ B2)]|injection B2 as <-; auto]. }
    destruct Q2 as (Q2 & L2). fold p in B3. destruct (pc_caps p); [subst cfg3; split; [exact Q2|congruence]|].
    destruct B3 as (_ & B3). split; [exact (wr_bytes _ _ _ _ _ Q2 B3)|]. rewrite (wr_length _ _ _ _ _ B3). congruence. }
  destruct Bc as (Bb & Lb).
  unfold sound, dv_ctx. cbn [dv_sv sv_ctx set_pci set_irqt set_regs cx_pci cx_regs set_cfg pc_cfg]. fold p.
  split; [|split; [rewrite Lb; exact L0|split]].
  - change (set_cfg p cfg3) with (set_cfg (set_cfg p cfg0) cfg3). apply caps_ok_cfg; auto.
  - exists (config_region r). split; [|now rewrite Lb].
    rewrite DmaProofs.set_nth_eq; [reflexivity|]. apply nth_error_Some. now rewrite Hr.
  - intros q Q. apply in_set_nth in Q.
    assert (KEY : exists q0, In q0 (cx_regs c) /\ ri_areas q = ri_areas q0 /\ ri_subs q = ri_subs q0).
    { destruct Q as [->|Q]; [exists r; split; [exact Ir|]; unfold config_region; destruct (N.eq_dec _ _); auto|exists q; auto]. }
    destruct KEY as (q0 & I0 & Ea & Es). destruct (S3 q0 I0) as (T1 & T2 & T3). unfold region_info_size. rewrite Ea, Es. split; [|split; [|exact T3]].
    + destruct (_ || _); lia.
    + lia.
Qed.
