(* C53, the other way: which unmap and feature requests do crash the server. *)
From Coq Require Import NArith ZArith List Bool Lia ZifyBool ZifyNat ZifyN.
From Verif Require Import Base Types Bytes BytesProofs Spec Dma DmaOps SpecDma Migr SpecMigr Irq SpecIrq Pci SpecPci Handlers SpecHandlers Server SpecServer ServerProofs PropServer
  SpecMsg SpecSafe SafeProofs SafeDispatch Setup SpecSetup PropSetup SoundProofs PropSafe.
Import ListNotations.
Open Scope N_scope.
Ltac Zify.zify_post_hook ::= idtac.

Lemma run_keeps_safe : forall l s, safe_state s -> harmless_run s l -> safe_state (fst (sv_run s l)).
Proof.
  induction l as [|st l IH]; intros s S H; [exact S|].
  cbn [harmless_run] in H. destruct H as (H & R). cbn [sv_run].
  destruct (sv_step s st) as [[o s'] ev] eqn:E. cbn [fst snd] in R.
  pose proof (step_no_crash _ _ _ _ _ S H E) as N. pose proof (step_safe _ _ _ _ _ S H E) as S'.
  specialize (IH s' S' R). destruct (sv_run s' l) as [s'' t]. destruct o as [v|v|cr]; [exact IH|exact IH|now destruct (N cr)].
Qed.

(* A request that is handled: a crash of its handler is one of vfu_run_ctx. *)
Lemma request_crashes s en id cmd body fds cr c' fds' ev : request s en id cmd body fds ->
  dispatch (sv_ctx s) (en_or en) cmd body fds = (HCrash cr, c', fds', ev) -> fst (fst (sv_step s (SRun en))) = Crash cr.
Proof.
  intros [(R & P & C) (h & X & V & W & <- & <- & Z) Q S (M1 & M3)] D.
  assert (SE : should_exec (cx_mig (sv_ctx s)) (hd_cmd h) = true).
  { unfold should_exec, is_stopped_and_copying, is_stopped, ST_STOP, ST_STOP_COPY. destruct (cx_mig (sv_ctx s)) as [m|]; [|reflexivity].
    replace (m =? 1) with false by (symmetry; apply N.eqb_neq; congruence). replace (m =? 3) with false by (symmetry; apply N.eqb_neq; congruence). reflexivity. }
  assert (B : (if hd_size h =? 16 then Ok [] else recv_body (hd_size h - 16) (inr body)) = Ok body).
  { rewrite Z. destruct body as [|b body]; [reflexivity|]. set (l := b :: body). assert (L : N.of_nat (length l) <> 0) by (unfold l; cbn [length]; lia).
    replace (16 + N.of_nat (length l) =? 16) with false by lia. unfold recv_body. replace (16 + N.of_nat (length l) - 16) with (N.of_nat (length l)) by lia.
    rewrite Nat2N.id, firstn_all. replace (N.of_nat (length l) =? 0) with false by lia. rewrite N.eqb_refl. reflexivity. }
  cbn [sv_step]. rewrite R, P. cbn [negb]. unfold run_iter, get_request. rewrite C, X. cbn [negb]. apply valid_hdr_iff in V. rewrite V. cbn [negb].
  rewrite B, SE. cbn [negb].
  destruct (needs_quiesce (sv_ctx s) (hd_cmd h) body); [rewrite Q|]; unfold handle_request; cbn [mg_hdr mg_body mg_fds set_quiesced sv_ctx]; rewrite D; reflexivity.
Qed.

Lemma unmap_overruns c d o body : (length body < 8)%nat \/ (word body 4 4 = 1 /\ (length body < 40)%nat) \/
  (word body 4 4 = 2 /\ ((length body < 16)%nat \/ (word body 8 8 = 0 /\ (length body < 24)%nat))) ->
  handle_dma_unmap c d o body = (HCrash OutOfBounds, c, []).
Proof.
  intros H. unfold handle_dma_unmap. destruct (Nat.lt_ge_cases (length body) 8) as [L|L]; [now rewrite rd_none by lia|].
  destruct (rd_some body 4 4 ltac:(lia)) as [fl F]. rewrite F. cbn [need]. rewrite <- (rd_word _ _ _ _ F) in H.
  destruct H as [H|[(-> & H)|(-> & H)]]; [lia|..].
  - change (1 =? UNMAP_DIRTY) with true. cbv iota. now rewrite rd_none by lia.
  - change (2 =? UNMAP_DIRTY) with false. change (2 =? UNMAP_ALL) with true. cbv iota.
    destruct (Nat.lt_ge_cases (length body) 16) as [L2|L2]; [now rewrite rd_none by lia|]. destruct H as [H|(A & H)]; [lia|].
    destruct (rd_some body 8 8 ltac:(lia)) as [ad Fa]. rewrite Fa. cbn [need]. rewrite <- (rd_word _ _ _ _ Fa) in A. subst ad. change (negb (0 =? 0)) with false. cbv iota.
    now rewrite rd_none by lia.
Qed.

Lemma to_state_8 answers m : migration_set_state answers (wire m) 8 = (Crash OutOfBounds, wire m, []).
Proof. destruct m; reflexivity. Qed.

Lemma feature_overruns c m o body : cx_mig c = Some (wire m) -> (8 <= length body)%nat ->
  (word body 4 4 = 2 + 2 ^ 17 /\ N.of_nat (length body) <= word body 0 4 /\ ((length body < 12)%nat \/ word body 8 4 = 8)) \/
  (word body 4 4 = 6 + 2 ^ 17 /\ N.of_nat (length body) <= word body 0 4 /\ ((length body < 16)%nat \/ cx_dma c = None)) \/
  (word body 4 4 = 7 + 2 ^ 17 /\ N.of_nat (length body) <= word body 0 4 /\ cx_dma c = None) \/
  (word body 4 4 = 8 + 2 ^ 16 /\ cx_dma c <> None /\ (length body < 32)%nat) ->
  exists cr c' ev, handle_device_feature c o body = (HCrash cr, c', ev).
Proof.
  intros Em L H. unfold handle_device_feature. replace (N.of_nat (length body) <? 8) with false by lia.
  destruct (rd_some body 0 4 ltac:(lia)) as [az Fz]. rewrite Fz. cbn [need]. rewrite <- (rd_word _ _ _ _ Fz) in H.
  destruct (rd_some body 4 4 ltac:(lia)) as [fl F]. rewrite F. cbn [need]. rewrite <- (rd_word _ _ _ _ F) in H. rewrite Em.
  destruct H as [(-> & A & H)|[(-> & A & H)|[(-> & A & H)|(-> & D & H)]]].
  - change (N.ldiff (2 + 2 ^ 17) FEATURE_MASK) with FEATURE_SET. change (N.land (2 + 2 ^ 17) FEATURE_MASK) with 2.
    change (negb _ || _) with false. cbv iota. change (FEATURE_SET =? FEATURE_GET) with false. change (FEATURE_SET =? FEATURE_SET) with true. cbv iota.
    replace (az <? N.of_nat (length body)) with false by (clear - A; lia). change (is_migration_feature 2) with true. cbv iota.
    unfold migration_feature_set. change (negb (2 =? FEATURE_MIG_DEVICE_STATE)) with false. cbv iota.
    destruct (Nat.lt_ge_cases (length body) 12) as [L2|L2]; [rewrite rd_none by lia; cbn [need]; eauto|]. destruct H as [H|H]; [lia|].
    destruct (rd_some body 8 4 ltac:(lia)) as [st Fs]. rewrite Fs. cbn [need]. rewrite <- (rd_word _ _ _ _ Fs) in H. subst st. rewrite Em, to_state_8. eauto.
  - change (N.ldiff (6 + 2 ^ 17) FEATURE_MASK) with FEATURE_SET. change (N.land (6 + 2 ^ 17) FEATURE_MASK) with 6.
    change (negb _ || _) with false. cbv iota. change (FEATURE_SET =? FEATURE_GET) with false. change (FEATURE_SET =? FEATURE_SET) with true. cbv iota.
    replace (az <? N.of_nat (length body)) with false by (clear - A; lia). change (is_migration_feature 6) with false. change (is_dma_feature 6) with true. cbv iota.
    unfold dma_feature_set. destruct (cx_dma c) as [d|]; [|eauto]. destruct H as [H|H]; [|discriminate H]. change (6 =? FEATURE_DMA_LOGGING_START) with true. cbv iota.
    rewrite rd_none by lia. cbn [need]. eauto.
  - change (N.ldiff (7 + 2 ^ 17) FEATURE_MASK) with FEATURE_SET. change (N.land (7 + 2 ^ 17) FEATURE_MASK) with 7.
    change (negb _ || _) with false. cbv iota. change (FEATURE_SET =? FEATURE_GET) with false. change (FEATURE_SET =? FEATURE_SET) with true. cbv iota.
    replace (az <? N.of_nat (length body)) with false by (clear - A; lia). change (is_migration_feature 7) with false. change (is_dma_feature 7) with true. cbv iota.
    unfold dma_feature_set. rewrite H. eauto.
  - change (N.ldiff (8 + 2 ^ 16) FEATURE_MASK) with FEATURE_GET. change (N.land (8 + 2 ^ 16) FEATURE_MASK) with 8.
    change (negb _ || _) with false. cbv iota. change (FEATURE_GET =? FEATURE_GET) with true. change (is_migration_feature 8) with false. change (is_dma_feature 8) with true. cbv iota.
    unfold dma_feature_get. destruct (cx_dma c) as [d|]; [|congruence].
    destruct (Nat.lt_ge_cases (length body) 24) as [L2|L2]; [rewrite rd_none by lia; cbn [need]; eauto|].
    destruct (rd_some body 16 8 ltac:(lia)) as [n Fn]. rewrite Fn. cbn [need]. rewrite rd_none by lia. cbn [need]. eauto.
Qed.

Lemma dispatch_overruns c o cmd body fds : mig_known c -> overruns c cmd body -> exists cr c' fds' ev, dispatch c o cmd body fds = (HCrash cr, c', fds', ev).
Proof.
  intros MK [(-> & D & H)|(-> & M & L & H)].
  - destruct (cx_dma c) as [d|] eqn:E; [|congruence].
    assert (U : handle_dma_unmap c d o body = (HCrash OutOfBounds, c, [])).
    { apply unmap_overruns. destruct H as [H|[(A & H)|(A & [H|(B & H)])]]; [left; lia|right; left; split; [exact A|lia]| |];
        right; right; (split; [exact A|]); [left; lia|right; split; [exact B|lia]]. }
    unfold dispatch. change (3 =? CMD_DMA_MAP) with false. change (3 =? CMD_DMA_UNMAP) with true. cbv iota. rewrite E, U. eauto.
  - destruct MK as [M0|(m & Em)]; [congruence|].
    destruct (feature_overruns c m o body Em ltac:(lia)) as (cr & c' & ev & F).
    { destruct H as [(A & B & H)|[(A & B & H)|[(A & B & H)|(A & B & H)]]];
        [left; split; [exact A|]; split; [exact B|]; destruct H; [left; lia|right; assumption]
        |right; left; split; [exact A|]; split; [exact B|]; destruct H; [left; lia|right; assumption]|right; right; left; auto|right; right; right; repeat split; auto; lia]. }
    change (dispatch c o 16 body fds) with (let '(r, c', ev) := handle_device_feature c o body in (r, c', fds, ev)). rewrite F. eauto 6.
Qed.

(* Exactly which of them crash, whatever happened before as long as nothing crashed: apart from requests for a report of
   dirty pages (C53_reports_refuted shows that some of those crash, C53_no_crash_partial that others do not), those that
   overrun, and no others. *)
Theorem C53_requests_exact : forall s0 l en id cmd body fds, fresh s0 -> sound (sv_ctx s0) -> harmless_run s0 l ->
  let s := fst (sv_run s0 l) in
  request s en id cmd body fds -> full_callbacks (or_access (en_or en)) -> delivered en -> cmd = 3 \/ cmd = 16 -> ~ reports cmd body ->
  ((exists cr, fst (fst (sv_step s (SRun en))) = Crash cr) <-> overruns (sv_ctx s) cmd body).
Proof.
  intros s0 l en id cmd body fds F S H s RQ FC DL CM NR. pose proof (run_keeps_safe l s0 (fresh_safe s0 F S) H) as SS. fold s in SS. clearbody s.
  split; intros X.
  - assert (D : overruns (sv_ctx s) cmd body \/ harmless (sv_ctx s) cmd body).
    { unfold overruns, harmless, harmless_unmap, harmless_feature. unfold reports in NR.
      destruct CM as [-> | ->].
      - destruct (cx_dma (sv_ctx s)) as [d|] eqn:E; [|right; split; [congruence|split; discriminate]].
        destruct (N.lt_ge_cases (N.of_nat (length body)) 8) as [L|L]; [left; left; split; [reflexivity|]; split; [discriminate|]; left; exact L|].
        destruct (N.eq_dec (word body 4 4) 1) as [F1|F1].
        { assert (L40 : N.of_nat (length body) < 40) by (destruct (N.lt_ge_cases (N.of_nat (length body)) 40); [assumption|exfalso; apply NR; auto]).
          left; left; split; [reflexivity|]; split; [discriminate|]; right; left; auto. }
        destruct (N.eq_dec (word body 4 4) 2) as [F2|F2].
        + destruct (N.lt_ge_cases (N.of_nat (length body)) 16) as [L16|L16]; [left; left; split; [reflexivity|]; split; [discriminate|]; right; right; auto|].
          destruct (N.lt_ge_cases (N.of_nat (length body)) 24) as [L24|L24].
          * destruct (N.eq_dec (word body 8 8) 0) as [A0|A0]; [left; left; split; [reflexivity|]; split; [discriminate|]; right; right; auto|].
            right. split; [intros _ _|split; discriminate]. split; [lia|]. split; [congruence|]. intros _. split; [lia|congruence].
          * right. split; [intros _ _|split; discriminate]. split; [lia|]. split; [congruence|]. intros _. split; lia.
        + right. split; [intros _ _|split; discriminate]. split; [lia|]. split; congruence.
      - destruct (cx_mig (sv_ctx s)) as [m|] eqn:Em; [|right; split; [discriminate|split; [congruence|discriminate]]].
        destruct (N.lt_ge_cases (N.of_nat (length body)) 8) as [L8|L8]; [right; split; [discriminate|split; [intros _ _ Q; lia|discriminate]]|].
        assert (LEFT : forall A P : Prop, P -> (16 = 3 /\ A) \/ (16 = 16 /\ Some m <> None /\ 8 <= N.of_nat (length body) /\ P)).
        { intros A P p. right. split; [reflexivity|]. split; [discriminate|]. auto. }
        assert (RIGHT : forall A B P : Prop, P -> (16 = 3 -> A) /\ (16 = 16 -> Some m <> None -> (8 <= length body)%nat -> P) /\ (16 = 10 -> B)).
        { intros A B P p. split; [discriminate|]. split; [auto|discriminate]. }
        destruct (N.lt_ge_cases (word body 0 4) (N.of_nat (length body))) as [Az|Az].
        { destruct (N.eq_dec (word body 4 4) (8 + 2 ^ 16)) as [F8|F8].
          - assert (L32 : N.of_nat (length body) < 32) by (destruct (N.lt_ge_cases (N.of_nat (length body)) 32); [assumption|exfalso; apply NR; auto]).
            destruct (cx_dma (sv_ctx s)) as [d|] eqn:Ed.
            + left. apply LEFT. right; right; right. split; [exact F8|]. split; [discriminate|exact L32].
            + right. apply RIGHT. split; [intros _ Q; lia|]. split; [intros _ Q; lia|]. split; [intros _ Q; lia|]. congruence.
          - right. apply RIGHT. split; [intros _ Q; lia|]. split; [intros _ Q; lia|]. split; [intros _ Q; lia|]. congruence. }
        destruct (N.eq_dec (word body 4 4) (2 + 2 ^ 17)) as [F2|F2].
        { rewrite F2. destruct (N.lt_ge_cases (N.of_nat (length body)) 12) as [L12|L12]; [left; apply LEFT; left; auto|].
          destruct (N.eq_dec (word body 8 4) 8) as [S8|S8]; [left; apply LEFT; left; auto|].
          right. apply RIGHT. split; [intros _ _; split; [lia|exact S8]|]. split; [intros Q; discriminate Q|]. split; intros Q; discriminate Q. }
        destruct (N.eq_dec (word body 4 4) (6 + 2 ^ 17)) as [F6|F6].
        { rewrite F6. destruct (N.lt_ge_cases (N.of_nat (length body)) 16) as [L12|L12]; [left; apply LEFT; right; left; auto|].
          destruct (cx_dma (sv_ctx s)) as [d|] eqn:Ed; [|left; apply LEFT; right; left; auto].
          right. apply RIGHT. split; [intros Q; discriminate Q|]. split; [intros _ _; split; [lia|discriminate]|]. split; intros Q; discriminate Q. }
        destruct (N.eq_dec (word body 4 4) (7 + 2 ^ 17)) as [F7|F7].
        { rewrite F7. destruct (cx_dma (sv_ctx s)) as [d|] eqn:Ed; [|left; apply LEFT; right; right; left; auto].
          right. apply RIGHT. split; [intros Q; discriminate Q|]. split; [intros Q; discriminate Q|]. split; [intros _ _; discriminate|intros Q; discriminate Q]. }
        destruct (N.eq_dec (word body 4 4) (8 + 2 ^ 16)) as [F8|F8]; [|right; apply RIGHT; split; [congruence|]; split; [congruence|]; split; congruence].
        assert (L32 : N.of_nat (length body) < 32) by (destruct (N.lt_ge_cases (N.of_nat (length body)) 32); [assumption|exfalso; apply NR; auto]).
        destruct (cx_dma (sv_ctx s)) as [d|] eqn:Ed.
        + left. apply LEFT. right; right; right. split; [exact F8|]. split; [discriminate|exact L32].
        + right. apply RIGHT. split; [congruence|]. split; [congruence|]. split; congruence. }
    destruct D as [D|D]; [exact D|]. exfalso. destruct X as [cr X].
    destruct (sv_step s (SRun en)) as [[o s'] ev] eqn:E. cbn [fst] in X. refine (step_no_crash s (SRun en) o s' ev SS _ E cr X).
    destruct RQ as [_ (h & Rx & _ & _ & _ & <- & Z) _ _ _]. split; [exact FC|]. split; [exact DL|]. rewrite Rx, Z.
    replace (N.to_nat (16 + N.of_nat (length body) - 16)) with (length body) by lia. now rewrite firstn_all.
  - destruct SS as (_ & G & _). destruct (dispatch_overruns (sv_ctx s) (en_or en) cmd body fds (g_mig _ G) X) as (cr & c' & fds' & ev & D).
    exists cr. exact (request_crashes _ _ _ _ _ _ _ _ _ _ RQ D).
Qed.
Print Assumptions C53_requests_exact.

(* After attaching, the device of PropSafe: unmap requests for everything that end after the address (16 bytes).  With the
   address 0 it crashes, since the size is read; with the address 1 it does not. *)
Definition short_body (addr : N) : list N := le_bytes 4 24 ++ le_bytes 4 2 ++ le_bytes 8 addr.
Definition short_env (addr : N) : env := ex_env (RxMsg (mk_header 7 3 32 0 0) [] (inr (short_body addr))).
Definition attached : server := snd (fst (sv_step (dv_sv safe_dev) (SAttach 1048576))).

Lemma dev_sound d : sound (dv_ctx d) -> sound (sv_ctx (dv_sv d)).
Proof. intros S. exact S. Qed.

Lemma short_request s addr : serving s -> cx_mig (sv_ctx s) = Some 2 ->
  request s (short_env addr) 7 3 (short_body addr) [] /\ full_callbacks (or_access (en_or (short_env addr))) /\ delivered (short_env addr) /\ ~ reports 3 (short_body addr).
Proof.
  intros V M. assert (L : length (short_body addr) = 16%nat) by (unfold short_body; rewrite !app_length, !le_bytes_length; reflexivity).
  assert (B : bytes (short_body addr)) by (unfold short_body; repeat (apply Forall_app; split); apply le_bytes_bytes).
  unfold short_env. set (body := short_body addr) in *. clearbody body. split; [|split; [exact full_ex_or|split]].
  - split; [exact V|exists (mk_header 7 3 32 0 0)|reflexivity|reflexivity|rewrite M; split; discriminate].
    cbn [hd_flags hd_size hd_cmd hd_id]. rewrite L. repeat split; try reflexivity; discriminate.
  - split; [exact B|constructor].
  - unfold reports. rewrite L. intros [(_ & _ & H)|(H & _)]; [vm_compute in H; now apply H|discriminate H].
Qed.

Example C53_requests_exact_case : fresh (dv_sv safe_dev) /\ sound (sv_ctx (dv_sv safe_dev)) /\ harmless_run (dv_sv safe_dev) [SAttach 1048576] /\
  fst (sv_run (dv_sv safe_dev) [SAttach 1048576]) = attached /\
  (forall addr, request attached (short_env addr) 7 3 (short_body addr) [] /\ full_callbacks (or_access (en_or (short_env addr))) /\
    delivered (short_env addr) /\ ~ reports 3 (short_body addr)) /\
  fst (fst (sv_step attached (SRun (short_env 0)))) = Crash OutOfBounds /\ overruns (sv_ctx attached) 3 (short_body 0) /\
  fst (fst (sv_step attached (SRun (short_env 1)))) = Ok 1 /\ ~ overruns (sv_ctx attached) 3 (short_body 1).
Proof.
  destruct C53_set_up_no_crash_case as (_ & _ & _ & _ & _ & _ & F & S & _).
  split; [exact F|]. split; [exact (dev_sound _ S)|]. split; [cbn [harmless_run harmless_step]; auto|]. split; [vm_compute; reflexivity|].
  assert (V : serving attached) by (vm_compute; auto). assert (M : cx_mig (sv_ctx attached) = Some 2) by (vm_compute; reflexivity).
  assert (D : cx_dma (sv_ctx attached) <> None) by (vm_compute; discriminate).
  split; [intros addr; exact (short_request attached addr V M)|]. split; [vm_compute; reflexivity|].
  split; [left; split; [reflexivity|]; split; [exact D|]; right; right; split; [reflexivity|]; right; split; reflexivity|].
  split; [vm_compute; reflexivity|].
  intros [(_ & _ & [H|[(H & _)|(_ & [H|(H & _)])]])|(H & _)]; vm_compute in H; discriminate H.
Qed.
