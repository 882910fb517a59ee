(* C67: configuration space keeps what was written to it. *)
From Coq Require Import NArith ZArith String List Bool Lia ZifyBool ZifyNat ZifyN.
From Verif Require Import Base Types Bytes BytesProofs Spec Migr Pci SpecPci BufProofs PciProofs PciWrite PciLoop PropPci CfgPieces CfgFrame PropCfg
  Handlers SpecHandlers HandlersProofs PropHandlers Server SpecServer SpecMsg ServerProofs PropServer PropDmaMsg Setup SpecSetup PropSetup SpecIdent IdentProofs PropIdent SpecReg CfgHist.
Import ListNotations.
Open Scope N_scope.
Ltac Zify.zify_post_hook ::= idtac.

(* A write to configuration space changes no byte it does not cover, whether it succeeds or fails half-way, and
   whatever the callbacks answer. *)
Theorem C67_untouched : forall e p answers rans off data o p' ev x,
  bytes (pc_cfg p) -> bytes data -> (forall c, In c (all_caps p) -> cap_wf c /\ 64 <= cp_off c) ->
  config_write e p answers rans off data = (o, p', ev) ->
  x < off \/ off + N.of_nat (length data) <= x -> byte_at p' x = byte_at p x.
Proof. intros e p answers rans off data o p' ev x B BD LOW W O. unfold config_write in W. eapply write_outside; eauto. Qed.
Print Assumptions C67_untouched.
(* A write of 12 bytes at 4 that fails half-way: the bytes before the failing register may have changed, those around
   the write have not. *)
Example C67_untouched_case : exists p' ev,
  bytes (pc_cfg PropPci.ex_pci) /\ (forall c, In c (all_caps PropPci.ex_pci) -> cap_wf c /\ 64 <= cp_off c) /\
  config_write PropPci.ex_env PropPci.ex_pci PropPci.ex_ans no_reset 4 [6; 0; 1; 1; 1; 1; 1; 1; 1; 1; 1; 1] = (Err EINVAL, p', ev) /\
  byte_at p' 4 = 6 /\ byte_at p' 12 = 1 /\ byte_at PropPci.ex_pci 4 = 0.
Proof. do 2 eexists. split; [apply PropPci.ex_caps_ok|]. split; [intros c I; split; [now apply (co_wf _ PropPci.ex_caps_ok)|now apply (co_low _ PropPci.ex_caps_ok)]|]. split; [vm_compute; reflexivity|]. repeat split; vm_compute; reflexivity. Qed.


(* Along any history of a device - requests of any kind that succeed or fail, resets, disconnections, further clients,
   migration - a byte of configuration space keeps its value until a write that covers it arrives. *)
Theorem C67_persists : forall l d s hist s' arr ev x, life l d s -> history s hist s' arr ev -> Forall sends_bytes hist ->
  ~ waiting_over s x -> Forall (fun st => ~ writes_over st x) hist ->
  byte_at (cx_pci (sv_ctx s')) x = byte_at (cx_pci (sv_ctx s)) x.
Proof.
  intros l d s hist s' arr ev x L H SB NW NO. destruct (life_pending _ _ _ L) as (PB & SI).
  pose proof (life_facts _ _ _ L) as (_ & _ & _ & _ & _ & _ & _ & _ & _ & HD).
  assert (K : keeps (cx_pci (dv_ctx d)) x (byte_at (cx_pci (sv_ctx s)) x) s') by (eapply history_keeps; eauto; split; [split; auto|auto]).
  apply K.
Qed.
Print Assumptions C67_persists.

(* n bytes at off that the library keeps itself: in the header, or in one capability without a callback. *)
Definition kept_by_library (p : pci) (off n : N) : Prop :=
  off + n <= 64 \/ exists c, In c (all_caps p) /\ ~ by_callback c /\ cp_off c <= off /\ off + n <= cap_end c.

Lemma kept_same p p' off n : pc_caps p' = pc_caps p -> pc_ext_caps p' = pc_ext_caps p -> kept_by_library p off n -> kept_by_library p' off n.
Proof. intros E1 E2 H. unfold kept_by_library, all_caps in *. now rewrite E1, E2. Qed.

(* A client that reads such bytes gets what configuration space holds. *)
Theorem C67_read : forall l d s en id off n r, life l d s -> request s en id 9 (read_req off 7 n) [] ->
  nth_error (cx_regs (dv_ctx d)) 7 = Some r -> N.testbit (ri_flags r) 3 = false -> (64 <= length (pc_cfg (cx_pci (dv_ctx d))))%nat ->
  0 < n -> n <= 1048576 -> off + n <= ri_size r -> kept_by_library (cx_pci (sv_ctx s)) off n ->
  responds s en id 9 0 (read_req off 7 n ++ map (fun i => byte_at (cx_pci (sv_ctx s)) (off + N.of_nat i)) (seq 0 (N.to_nat n))) s [].
Proof.
  intros l d s en id off n r L RQ R7 FL LEN P M HS KL. pose proof (life_facts _ _ _ L) as (d1 & _ & _ & _ & _ & _ & _ & RE & (RG & _) & H).
  pose proof (ho_len _ _ H) as HL. pose proof (life_caps _ _ _ L ltac:(lia)) as K. pose proof (life_regs _ _ _ L) as RW.
  rewrite <- RG in R7. assert (SM : ri_size r < 2 ^ 32) by (unfold regs_wf in RW; rewrite Forall_forall in RW; apply RW; eapply nth_error_In; eauto).
  assert (W : off + n <= N.of_nat (length (pc_cfg (cx_pci (sv_ctx s))))).
  { destruct KL as [KL|(c & I & _ & _ & KL)]; [lia|]. pose proof (co_high _ K c I). lia. }
  assert (CR : forall e an, config_read e (cx_pci (sv_ctx s)) an off n = (Ok n, firstn (N.to_nat n) (skipn (N.to_nat off) (pc_cfg (cx_pci (sv_ctx s)))), [])).
  { intros e an. destruct KL as [KL|(c & I & NB & LO & HI)]; [apply header_read; auto; lia|]. eapply cap_read_back; eauto. }
  assert (IR : in_range off 7 n) by (unfold in_range; change (2 ^ 64) with 18446744073709551616; change (2 ^ 32) with 4294967296 in *; lia).
  assert (AO : access_ok (sv_ctx s) false off 7 n []).
  { split; [exists r; auto|]. split; [exact M|]. split; [discriminate|apply RQ]. }
  pose proof (C66_read_request (sv_ctx s) (en_or en) off n [] r RW IR AO P R7 FL) as D. rewrite CR in D. destruct D as (_ & _ & D). rewrite N.eqb_refl in D.
  assert (F : fit (N.to_nat n) (firstn (N.to_nat n) (skipn (N.to_nat off) (pc_cfg (cx_pci (sv_ctx s))))) = firstn (N.to_nat n) (skipn (N.to_nat off) (pc_cfg (cx_pci (sv_ctx s))))).
  { unfold fit. apply fit_exact. rewrite firstn_length, skipn_length. lia. }
  rewrite F, window in D by exact W.
  assert (E1 : access_req off 7 n [] = read_req off 7 n) by (unfold access_req, read_req; now rewrite app_nil_r).
  assert (E2 : forall t, access_req off 7 n t = read_req off 7 n ++ t) by (intros; unfold access_req, read_req; now rewrite <- !app_assoc).
  rewrite E1, E2 in D. eapply request_responds in D; eauto. rewrite same_ctx in D. exact D.
Qed.
Print Assumptions C67_read.

(* So what was in such bytes is read back later, by this client or another, as long as no write that covers any of them
   has arrived. *)
Theorem C67_read_back : forall l d s hist s' arr ev en id off n r, life l d s -> history s hist s' arr ev -> Forall sends_bytes hist ->
  (forall x, off <= x < off + n -> ~ waiting_over s x /\ Forall (fun st => ~ writes_over st x) hist) ->
  request s' en id 9 (read_req off 7 n) [] ->
  nth_error (cx_regs (dv_ctx d)) 7 = Some r -> N.testbit (ri_flags r) 3 = false -> (64 <= length (pc_cfg (cx_pci (dv_ctx d))))%nat ->
  0 < n -> n <= 1048576 -> off + n <= ri_size r -> kept_by_library (cx_pci (sv_ctx s)) off n ->
  responds s' en id 9 0 (read_req off 7 n ++ map (fun i => byte_at (cx_pci (sv_ctx s)) (off + N.of_nat i)) (seq 0 (N.to_nat n))) s' [].
Proof.
  intros l d s hist s' arr ev en id off n r L H SB NO RQ R7 FL LEN P M HS KL. pose proof (life_then _ _ _ _ _ _ _ L H SB) as L'.
  assert (KL' : kept_by_library (cx_pci (sv_ctx s')) off n).
  { pose proof (life_facts _ _ _ L) as (_ & _ & _ & _ & _ & _ & _ & _ & _ & H1). pose proof (life_facts _ _ _ L') as (_ & _ & _ & _ & _ & _ & _ & _ & _ & H2).
    destruct H1 as [_ _ (A1 & A2) _ _], H2 as [_ _ (B1 & B2) _ _]. eapply kept_same; [| |exact KL]; congruence. }
  pose proof (C67_read _ _ _ _ _ _ _ _ L' RQ R7 FL LEN P M HS KL') as Q.
  replace (map (fun i => byte_at (cx_pci (sv_ctx s)) (off + N.of_nat i)) (seq 0 (N.to_nat n)))
    with (map (fun i => byte_at (cx_pci (sv_ctx s')) (off + N.of_nat i)) (seq 0 (N.to_nat n))); [exact Q|].
  apply map_ext_in. intros i Hi. apply in_seq in Hi. destruct (NO (off + N.of_nat i)) as (W & O); [lia|]. eapply C67_persists; eauto.
Qed.
Print Assumptions C67_read_back.

Lemma only_reply q ev closes q' ev' closes' r r' : (q = [] \/ q = [EvQuiesce None]) -> (forall e, In e closes -> exists fd, e = EvClose fd) -> (forall x, ~ In (EvReply x) ev) ->
  q ++ ev ++ EvReply r :: closes = q' ++ ev' ++ EvReply r' :: closes' -> r' = r.
Proof.
  intros Q C NE E. assert (I : In (EvReply r') (q ++ ev ++ EvReply r :: closes)) by (rewrite E; apply in_or_app; right; apply in_or_app; right; now left).
  apply in_app_or in I. destruct I as [I|I]; [destruct Q as [-> | ->]; [destruct I|destruct I as [I|[]]; discriminate I]|].
  apply in_app_or in I. destruct I as [I|[I|I]]; [now destruct (NE _ I)|congruence|]. destruct (C _ I) as (fd & X). discriminate X.
Qed.

Lemma cap_write_errno e cfg c off data ans o cfg' ev : cap_write e cfg c off data ans = (o, cfg', ev) ->
  (o = Err 0 -> ans = Some 0) /\ forall r, ~ In (EvReply r) ev.
Proof.
  assert (V : forall (x : option (list N)) (w : wres), match x with Some c' => (Ok tt, c', []) | None => (Crash OutOfBounds, cfg, []) end = w ->
      (fst (fst w) = Err 0 -> ans = Some 0) /\ forall r, ~ In (EvReply r) (snd w)) by (intros [x|] w <-; split; cbn; auto; discriminate).
  assert (Z : forall (w : wres), (fst (fst w) = Err 0 -> ans = Some 0) /\ (forall r, ~ In (EvReply r) (snd w)) -> w = (o, cfg', ev) ->
      (o = Err 0 -> ans = Some 0) /\ forall r, ~ In (EvReply r) ev) by (intros w W ->; exact W).
  intros H. apply (Z _) in H; [exact H|]. clear Z H. unfold cap_write.
  destruct (cp_ext c); [destruct (cp_id c =? _); [split; cbn; auto; discriminate|]; eapply V; reflexivity|].
  destruct (cp_id c =? PCI_CAP_ID_PM).
  { unfold cap_write_pm. repeat match goal with |- context [if ?b then _ else _] => destruct b end; try (split; cbn; auto; discriminate); eapply V; reflexivity. }
  destruct (cp_id c =? PCI_CAP_ID_EXP).
  { unfold cap_write_px. destruct (negb _); [split; cbn; auto; discriminate|]. destruct (_ =? 8).
    - unfold px_pxdc_write, need. repeat match goal with |- context [match ?b with _ => _ end] => destruct b end; cbn [fst snd In]; split; try discriminate; try (intros; intuition discriminate); try (intros E; injection E as ->; reflexivity).
    - repeat match goal with |- context [if ?b then _ else _] => destruct b end; try (split; cbn; auto; discriminate); eapply V; reflexivity. }
  destruct (cp_id c =? PCI_CAP_ID_MSI).
  { unfold cap_write_msi, need. repeat match goal with |- context [match ?b with _ => _ end] => destruct b; try (split; cbn; auto; discriminate) end. }
  destruct (cp_id c =? PCI_CAP_ID_MSIX).
  { unfold cap_write_msix, need. repeat match goal with |- context [match ?b with _ => _ end] => destruct b; try (split; cbn; auto; discriminate) end. }
  eapply V; reflexivity.
Qed.

(* A client writes to registers of one capability that the library keeps, and the write is answered with success.  Then
   whatever happens, until a write that covers any of these bytes arrives: a client that reads them gets, in the bits
   that a client may change (cap_mask), the bits written, and in the others what was there before.
   (The reset callback, if it fails, gives an error number.) *)
Theorem C67_register : forall l d s en id c off data out s1 ev1 hist s2 arr ev en2 id2 r,
  life l d s -> request s en id 10 (access_req off 7 (N.of_nat (length data)) data) [] -> bytes data -> data <> [] ->
  nth_error (cx_regs (dv_ctx d)) 7 = Some r -> N.testbit (ri_flags r) 3 = false -> off + N.of_nat (length data) <= ri_size r ->
  (64 <= length (pc_cfg (cx_pci (dv_ctx d))))%nat -> N.of_nat (length data) <= 1048576 ->
  In c (all_caps (cx_pci (sv_ctx s))) -> ~ read_only c -> ~ by_callback c ->
  cp_off c + cp_hdr_size c <= off -> off + N.of_nat (length data) <= cap_end c ->
  or_reset (en_or en) 0%nat <> Some 0 ->
  responds s en id 10 0 out s1 ev1 ->
  history s1 hist s2 arr ev -> Forall sends_bytes hist ->
  (forall x, off <= x < off + N.of_nat (length data) -> Forall (fun st => ~ writes_over st x) hist) ->
  request s2 en2 id2 9 (read_req off 7 (N.of_nat (length data))) [] ->
  exists values, responds s2 en2 id2 9 0 (read_req off 7 (N.of_nat (length data)) ++ values) s2 [] /\ length values = length data /\
    forall i, (i < length data)%nat ->
      nth i values 0 = merged (cap_mask c (off + N.of_nat i - cp_off c)) (byte_at (cx_pci (sv_ctx s)) (off + N.of_nat i)) (nth i data 0).
Proof.
  intros l d s en id c off data out s1 ev1 hist s2 arr ev en2 id2 r L RQ BD ND R7 FL HS LEN M I NR NB LO HI NZ RS H SB NO RQ2.
  pose proof (life_facts _ _ _ L) as (d1 & _ & _ & _ & _ & _ & _ & RE & (RG & _) & HD).
  pose proof (ho_len _ _ HD) as HL. pose proof (life_caps _ _ _ L ltac:(lia)) as K. pose proof (life_regs _ _ _ L) as RW.
  assert (P : 0 < N.of_nat (length data)) by (destruct data; [congruence|cbn [length]; lia]).
  pose proof R7 as R7'. rewrite <- RG in R7'. assert (SM : ri_size r < 2 ^ 32) by (unfold regs_wf in RW; rewrite Forall_forall in RW; apply RW; eapply nth_error_In; eauto).
  assert (IR : in_range off 7 (N.of_nat (length data))) by (unfold in_range; change (2 ^ 64) with 18446744073709551616; change (2 ^ 32) with 4294967296 in *; lia).
  assert (AO : access_ok (sv_ctx s) true off 7 (N.of_nat (length data)) data).
  { split; [exists r; auto|]. split; [exact M|]. split; [auto|apply RQ]. }
  pose proof (C66_write_request (sv_ctx s) (en_or en) off data [] r RW IR AO ND R7' FL) as D.
  destruct (config_write (env_of (sv_ctx s)) (cx_pci (sv_ctx s)) (or_access (en_or en)) (or_reset (en_or en)) off data) as [[res p'] ev'] eqn:CW.
  pose proof (C49_register_writes _ _ _ _ _ _ _ _ _ _ K BD ND I NR NB LO HI CW) as (OKV & _ & NCR).
  pose proof CW as CW'. rewrite (single_cap_write _ _ _ _ c off data K I NR NB LO HI ND) in CW'.
  assert (NE : forall x, ~ In (EvReply x) ev').
  { destruct (cap_write _ _ _ _ _ _) as [[o1 cfg'] evc] eqn:Z. apply cap_write_errno in Z. destruct o1; injection CW' as <- <- <-; apply Z. }
  assert (S1 : res = Ok (N.of_nat (length data)) /\ s1 = set_ctx s (set_pci (sv_ctx s) p')).
  { destruct RS as (q & closes & Q & C & NEV & ST).
    assert (G : exists er out', dispatch (sv_ctx s) (en_or en) 10 (access_req off 7 (N.of_nat (length data)) data) [] = (HReply er out' [], set_pci (sv_ctx s) p', [], ev') /\
       (er = 0 -> res = Ok (N.of_nat (length data)))).
    { destruct (cap_write _ _ _ _ _ _) as [[[u|er|cr] cfg'] evc] eqn:Z; injection CW' as <- <- <-.
      - rewrite N.eqb_refl in D. eauto.
      - do 2 eexists. split; [exact D|]. intros ->. apply cap_write_errno in Z. destruct (NZ (proj1 Z eq_refl)).
      - now destruct (NCR cr). }
    destruct G as (er & out' & G & G0). apply (request_responds _ _ _ _ _ _ _ _ _ _ _ RE RQ) in G; [|exact NE].
    destruct G as (q' & closes' & Q' & C' & NEV' & ST'). rewrite ST in ST'. injection ST' as E1 E2.
    apply only_reply in E2; auto. injection E2 as -> _. auto. }
  destruct S1 as (-> & ->). specialize (OKV eq_refl).
  assert (L1 : life l d (set_ctx s (set_pci (sv_ctx s) p'))).
  { destruct RS as (q & closes & _ & _ & _ & ST). eapply (life_then _ _ _ [SRun en]); [exact L| |].
    - eapply h_cons; [exact ST|discriminate|constructor].
    - constructor; [|constructor]. unfold sends_bytes. destruct RQ as [_ (h & -> & _) _ _ _]. unfold access_req. repeat (apply Forall_app; split; [apply le_bytes_bytes|]). exact BD. }
  assert (W1 : forall x, ~ waiting_over (set_ctx s (set_pci (sv_ctx s) p')) x).
  { intros x. unfold waiting_over. cbn [set_ctx sv_pending]. destruct RQ as [(_ & -> & _) _ _ _ _]. intros []. }
  eexists. split; [eapply C67_read_back; [exact L1|exact H|exact SB|intros x X; split; [apply W1|apply NO; exact X]|exact RQ2|exact R7|exact FL|exact LEN|exact P|exact M|exact HS|]|].
  - right. exists c. split; [|split; [exact NB|split; [clear - LO; lia|exact HI]]]. cbn [set_ctx sv_ctx set_pci cx_pci].
    unfold config_write in CW. pose proof (cfg_write_exts _ _ _ _ _ _ _ _ _ _ _ _ CW) as E2. apply cfg_write_caps in CW. destruct CW as (E1 & _).
    unfold all_caps. rewrite E1, E2. exact I.
  - split; [rewrite map_length, seq_length; lia|]. intros i Hi.
    cbn [set_ctx sv_ctx set_pci cx_pci].
    rewrite (nth_indep _ 0 (byte_at p' (off + N.of_nat 0))) by (rewrite map_length, seq_length; lia).
    rewrite (map_nth (fun i => byte_at p' (off + N.of_nat i)) (seq 0 (N.to_nat (N.of_nat (length data)))) 0%nat i), seq_nth by lia. cbn [Nat.add].
    rewrite OKV by (unfold in_cap; clear - LO HI Hi; lia). f_equal. unfold overlay.
    replace ((off <=? off + N.of_nat i) && (off + N.of_nat i <? off + N.of_nat (length data))) with true by (clear - Hi; lia). f_equal. clear; lia.
Qed.
Print Assumptions C67_register.

(* ---------- a device, and a client that meets all of this *)

(* The client sets the power state of ex_id's device (the two bytes at 68, behind the header of the power management
   capability at 64); it resets the device and goes away; another client comes and writes the command register. *)
Definition ex_power : env := ex_ask 10 (access_req 68 7 2 [3; 1]) [].
Definition ex_powered : server := snd (fst (sv_step ex_id (SRun ex_power))).
Definition ex_later : list step :=
  [SRun (ex_ask 13 [] []); SRun (PropServer.ex_env (RxErr ENOMSG)); SAttach 65536; SRun (ex_ask 10 (access_req 4 7 2 [6; 0]) [])].
Definition ex_then : server := fst (sv_run ex_powered ex_later).

Lemma ex_apart x : 60 <= x -> Forall (fun st => ~ writes_over st x) ex_later.
Proof.
  intros X. unfold ex_later. repeat apply Forall_cons; try apply Forall_nil; cbn [writes_over]; try (intros []; fail).
  - intros (E & _). discriminate E.
  - intros (_ & off & count & data & IR & E & A & B). assert (O : rd (access_req off 7 count data) 0 8 = Some 4) by (rewrite <- E; vm_compute; reflexivity).
    rewrite access_req_off in O by apply IR. injection O as ->. assert (L : length data = 2%nat); [|lia].
    assert (E' : length (access_req 4 7 count data) = 18%nat) by (rewrite <- E; vm_compute; reflexivity). rewrite access_req_length in E'. lia.
Qed.

Lemma ex_then_request body : N.of_nat (length body) <= 1024 -> body <> [] -> request ex_then (ex_ask 9 body []) 7 9 body [].
Proof.
  intros L NE. constructor; try reflexivity.
  - vm_compute; auto.
  - exists (mk_header 7 9 (16 + N.of_nat (length body)) 0 0). split; [reflexivity|]. split.
    + unfold valid_hdr. cbn [hd_flags hd_size hd_cmd]. split; [reflexivity|]. split; [lia|]. intros E. destruct body; [congruence|]. cbn [length] in E. lia.
    + repeat split.
  - vm_compute; split; discriminate.
Qed.

Example C67_register_case : exists c r,
  life ex_calls ex_real ex_id /\ request ex_id ex_power 7 10 (access_req 68 7 2 [3; 1]) [] /\
  nth_error (cx_regs (dv_ctx ex_real)) 7 = Some r /\ N.testbit (ri_flags r) 3 = false /\ ri_size r = 256 /\ length (pc_cfg (cx_pci (dv_ctx ex_real))) = 256%nat /\
  In c (all_caps (cx_pci (sv_ctx ex_id))) /\ ~ read_only c /\ ~ by_callback c /\ cp_off c + cp_hdr_size c <= 68 /\ 70 <= cap_end c /\
  or_reset (en_or ex_power) 0%nat <> Some 0 /\
  (exists out ev, responds ex_id ex_power 7 10 0 out ex_powered ev) /\
  (exists arr ev, history ex_powered ex_later ex_then arr ev) /\ Forall sends_bytes ex_later /\
  (forall x, 68 <= x < 70 -> Forall (fun st => ~ writes_over st x) ex_later) /\
  request ex_then (ex_ask 9 (read_req 68 7 2) []) 7 9 (read_req 68 7 2) [] /\
  snd (sv_step ex_then (SRun (ex_ask 9 (read_req 68 7 2) []))) = [EvReply (mk_reply 7 9 0 (read_req 68 7 2 ++ [3; 1]) [])] /\
  byte_at (cx_pci (sv_ctx ex_id)) 68 = 8 /\ byte_at (cx_pci (sv_ctx ex_then)) 4 = 6.
Proof.
  exists (mk_cap false 1 64 2 8 0). eexists. split; [exact ex_life|]. split; [apply ex_id_request; vm_compute; discriminate|].
  split; [vm_compute; reflexivity|]. split; [reflexivity|]. split; [reflexivity|]. split; [vm_compute; reflexivity|].
  split; [vm_compute; now left|]. split; [vm_compute; discriminate|]. split; [vm_compute; discriminate|]. split; [vm_compute; discriminate|]. split; [vm_compute; discriminate|].
  split; [vm_compute; discriminate|]. split.
  { eexists. exists [], []. eexists. split; [now left|]. split; [|split; [intros r []|vm_compute; reflexivity]]. intros e []. }
  split.
  { destruct (history_run ex_powered ex_later ex_then (snd (sv_run ex_powered ex_later))) as (arr & H); [vm_compute; reflexivity|vm_compute; repeat constructor|].
    exists arr. eexists. exact H. }
  split; [repeat apply Forall_cons; try apply Forall_nil; vm_compute; auto; repeat constructor|].
  split; [intros x X; apply ex_apart; lia|]. split; [apply ex_then_request; vm_compute; discriminate|].
  split; [vm_compute; reflexivity|]. split; vm_compute; reflexivity.
Qed.
