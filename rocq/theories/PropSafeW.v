(* C53, the other way: writes to configuration space that crash the server, whatever the device. *)
From Coq Require Import NArith ZArith List Bool Lia ZifyBool ZifyNat ZifyN.
From Verif Require Import Base Types Bytes BytesProofs BufProofs Spec Dma DmaOps SpecDma Migr SpecMigr Irq SpecIrq Pci SpecPci PciProofs PciWrite PciLoop Handlers SpecHandlers HandlersProofs
  Server SpecServer ServerProofs PropServer SpecMsg SpecSafe SafeProofs SafeDispatch Setup SpecSetup PropSetup SoundProofs PropSafe PropSafeX.
Import ListNotations.
Open Scope N_scope.
Ltac Zify.zify_post_hook ::= idtac.

(* A write of n bytes at off into configuration space that starts with a part of a register that is read whole: the
   command register, a base address register with something behind it, the expansion ROM register; or in the middle of
   an MSI or MSI-X capability that the library handles itself, behind the two bytes of its header, and runs past its end. *)
Definition overrunning_write (c : ctx) (off n : N) : Prop :=
  (off = 4 /\ n < 2) \/ (off = 48 /\ n < 4) \/
  (exists i r, i < 6 /\ off = 16 + 4 * i /\ nth_error (cx_regs c) (N.to_nat i) = Some r /\ ri_size r <> 0 /\ n < 4) \/
  (exists cap, In cap (all_caps (cx_pci c)) /\ cp_ext cap = false /\ (cp_id cap = 5 \/ cp_id cap = 17) /\ ~ read_only cap /\ ~ by_callback cap /\
    cp_off cap + 2 <= off /\ runs_past cap off n).

Lemma short_register e p off buf ans rans n : (length buf < n)%nat -> (0 < length buf)%nat ->
  (off = 4 /\ n = 2%nat) \/ (off = 48 /\ n = 4%nat) \/ (exists i, i < 6 /\ off = 16 + 4 * i /\ nth (N.to_nat i) (pe_bar_size e) 0 <> 0 /\ n = 4%nat) ->
  exists cfg', write_segment e p off buf ans rans = Some (Crash OutOfBounds, cfg', []).
Proof.
  intros L L0 H. unfold write_segment, next_segment. change PCI_STD_HEADER_SIZEOF with 64.
  destruct H as [(-> & ->)|[(-> & ->)|(i & Li & -> & Z & ->)]].
  - change (4 <? 64) with true. change (reg_size 4 =? 0) with false. cbv iota. unfold hdr_write. change (4 =? 4) with true. cbv iota. rewrite rd_none by lia. cbn [need]. eauto.
  - change (48 <? 64) with true. change (reg_size 48 =? 0) with false. cbv iota. unfold hdr_write.
    change (48 =? 4) with false. change ((48 =? 6) || (48 =? 8) || (48 =? 9) || (48 =? 61) || (48 =? 62) || (48 =? 63)) with false.
    change ((48 =? 60) || (48 =? 12) || (48 =? 13)) with false. change ((48 =? 16) || (48 =? 20) || (48 =? 24) || (48 =? 28) || (48 =? 32) || (48 =? 36)) with false.
    change (48 =? 48) with true. cbv iota. rewrite rd_none by lia. cbn [need]. eauto.
  - assert (C : i = 0 \/ i = 1 \/ i = 2 \/ i = 3 \/ i = 4 \/ i = 5) by lia.
    assert (Zb : (nth (N.to_nat i) (pe_bar_size e) 0 =? 0) = false) by lia.
    destruct C as [-> |[-> |[-> |[-> |[-> | ->]]]]];
      match goal with |- context [16 + 4 * ?i] => let v := eval vm_compute in (16 + 4 * i) in change (16 + 4 * i) with v;
        change (v <? 64) with true; change (reg_size v =? 0) with false; cbv iota; unfold hdr_write;
        change (v =? 4) with false; change ((v =? 6) || (v =? 8) || (v =? 9) || (v =? 61) || (v =? 62) || (v =? 63)) with false;
        change ((v =? 60) || (v =? 12) || (v =? 13)) with false; change ((v =? 16) || (v =? 20) || (v =? 24) || (v =? 28) || (v =? 32) || (v =? 36)) with true; cbv iota;
        change ((v - 16) / 4) with i; cbv zeta; rewrite Zb, rd_none by lia; cbn [need]; eauto end.
Qed.

Lemma past_capability e p off buf ans rans c : caps_ok p -> In c (all_caps p) -> cp_ext c = false -> cp_id c = 5 \/ cp_id c = 17 -> ~ read_only c -> ~ by_callback c ->
  cp_off c + 2 <= off -> runs_past c off (N.of_nat (length buf)) -> exists cfg', write_segment e p off buf ans rans = Some (Crash OutOfBounds, cfg', []).
Proof.
  intros K I X ID RO CB O2 (_ & B & R). pose proof (co_low _ K c I) as LO. pose proof (co_wf _ K c I) as WF. pose proof (co_high _ K c I) as HI.
  assert (S : cp_hdr_size c = 2 /\ (cp_id c = 5 /\ cp_size c = 24 \/ cp_id c = 17 /\ cp_size c = 12)) by (unfold cap_wf in WF; rewrite X in WF; clear - WF ID; lia).
  destruct S as [HS S]. unfold cap_end in *.
  unfold write_segment, next_segment. change PCI_STD_HEADER_SIZEOF with 64. replace (off <? 64) with false by lia.
  rewrite (find_cap_at p c off (N.of_nat (length buf)) K I) by (unfold in_cap, cap_end; lia). replace (off <? cp_off c) with false by lia.
  rewrite has_readonly, has_callback. unfold read_only in RO. unfold by_callback in CB. apply not_true_is_false in RO. apply not_true_is_false in CB. rewrite RO, CB.
  rewrite HS. replace (off - cp_off c <? 2) with false by lia. unfold cap_write. rewrite X.
  set (data := firstn (N.to_nat (N.min (N.of_nat (length buf)) (cp_size c))) buf).
  assert (LD : length data = N.to_nat (N.min (N.of_nat (length buf)) (cp_size c))) by (unfold data; rewrite firstn_length; lia).
  destruct S as [(E & Z)|(E & Z)]; rewrite E, Z in *.
  - change (5 =? PCI_CAP_ID_PM) with false. change (5 =? PCI_CAP_ID_EXP) with false. change (5 =? PCI_CAP_ID_MSI) with true. cbv iota. unfold cap_write_msi.
    destruct (slice (pc_cfg p) (N.to_nat (cp_off c)) 24) as [old|] eqn:SL; cbn [need]; [|eauto].
    destruct (put_slice old (N.to_nat (off - cp_off c)) data) eqn:P; cbn [need]; [|eauto]. exfalso. apply put_slice_bound in P. apply slice_length in SL. lia.
  - change (17 =? PCI_CAP_ID_PM) with false. change (17 =? PCI_CAP_ID_EXP) with false. change (17 =? PCI_CAP_ID_MSI) with false. change (17 =? PCI_CAP_ID_MSIX) with true. cbv iota. unfold cap_write_msix.
    destruct (slice (pc_cfg p) (N.to_nat (cp_off c)) 12) as [old|] eqn:SL; cbn [need]; [|eauto].
    destruct (put_slice old (N.to_nat (off - cp_off c)) data) eqn:P; cbn [need]; [|eauto]. exfalso. apply put_slice_bound in P. apply slice_length in SL. lia.
Qed.

Lemma nth_firstn {A} n : forall (l : list A) i, (i < n)%nat -> nth_error (firstn n l) i = nth_error l i.
Proof.
  induction n as [|n IH]; intros l i L; [lia|]. destruct l as [|x l]; [reflexivity|]. destruct i as [|i]; [reflexivity|]. cbn [firstn nth_error]. apply IH. lia.
Qed.

Lemma bar_size c i r : i < 6 -> nth_error (cx_regs c) (N.to_nat i) = Some r -> nth (N.to_nat i) (pe_bar_size (env_of c)) 0 = ri_size r.
Proof.
  intros L E. cbn [env_of pe_bar_size]. apply nth_error_nth. apply map_nth_error. rewrite nth_firstn; [exact E|lia].
Qed.

(* Whatever happened before, as long as nothing crashed: such a write to configuration space, inside it and of at most
   1 MiB, crashes the server. *)
Theorem C53_writes_crash : forall s0 l en id off data fds r, fresh s0 -> sound (sv_ctx s0) -> harmless_run s0 l ->
  let s := fst (sv_run s0 l) in
  let n := N.of_nat (length data) in
  request s en id 10 (access_req off 7 n data) fds ->
  nth_error (cx_regs (sv_ctx s)) 7 = Some r -> N.testbit (ri_flags r) 3 = false ->
  0 < n <= 1024 * 1024 -> off + n <= ri_size r -> overrunning_write (sv_ctx s) off n ->
  fst (fst (sv_step s (SRun en))) = Crash OutOfBounds.
Proof.
  intros s0 l en id off data fds r F S H s n RQ R7 FL (N0 & N1) En OW. pose proof (run_keeps_safe l s0 (fresh_safe s0 F S) H) as SS. fold s in SS. clearbody s.
  destruct SS as (_ & G & _). pose proof (g_sound _ G) as (K & Lc & (r' & R7' & Z7) & _). rewrite R7 in R7'. injection R7' as <-.
  assert (WS : exists cfg', write_segment (env_of (sv_ctx s)) (cx_pci (sv_ctx s)) off data (or_access (en_or en) 0%nat) (or_reset (en_or en) 0%nat) = Some (Crash OutOfBounds, cfg', [])).
  { destruct OW as [(-> & Q)|[(-> & Q)|[(i & rb & Li & -> & Rb & Sb & Q)|(cap & I & X & ID & RO & CB & O2 & P)]]].
    - apply (short_register _ _ _ _ _ _ 2%nat); [unfold n in *; lia|unfold n in *; lia|auto].
    - apply (short_register _ _ _ _ _ _ 4%nat); [unfold n in *; lia|unfold n in *; lia|auto].
    - apply (short_register _ _ _ _ _ _ 4%nat); [unfold n in *; lia|unfold n in *; lia|]. right; right. exists i. rewrite (bar_size _ _ _ Li Rb). auto.
    - exact (past_capability _ _ _ _ _ _ cap K I X ID RO CB O2 P). }
  destruct WS as [cfg' WS].
  assert (D : exists c' ev, dispatch (sv_ctx s) (en_or en) 10 (access_req off 7 n data) fds = (HCrash OutOfBounds, c', fds, ev)).
  { change (dispatch (sv_ctx s) (en_or en) 10 (access_req off 7 n data) fds) with (let '(r, c', ev) := handle_region_access (sv_ctx s) (en_or en) true (access_req off 7 n data) in (r, c', fds, ev)).
    unfold handle_region_access. rewrite access_req_length. replace (N.of_nat (16 + length data) <? 16) with false by lia.
    assert (O64 : off < 2 ^ 64) by (change (2 ^ 64) with 18446744073709551616; lia).
    rewrite access_req_off, access_req_region, access_req_count by (change (2 ^ 32) with 4294967296; first [exact O64|lia]). cbn [need].
    destruct RQ as [_ _ _ _ (_ & M3)].
    assert (V : valid_region_access (sv_ctx s) (N.of_nat (16 + length data)) true off 7 n = true).
    { unfold valid_region_access. change (N.to_nat 7) with 7%nat. rewrite R7. replace (MAX_XFER <? n) with false by (change MAX_XFER with (1024 * 1024); lia).
      replace (N.of_nat (16 + length data) - 16 =? n) with true by (unfold n; lia). cbn [andb negb].
      unfold satadd_u64, w64. rewrite N.mod_small by (unfold two64; lia). replace (off + n <? off) with false by lia. replace (ri_size r <? off + n) with false by lia.
      unfold is_stopped_and_copying. destruct (cx_mig (sv_ctx s)) as [m|]; [|reflexivity]. replace (m =? ST_STOP_COPY) with false; [reflexivity|]. symmetry. apply N.eqb_neq.
      change ST_STOP_COPY with 3. congruence. }
    rewrite V. cbn [negb]. replace (n =? 0) with false by lia. rewrite access_req_data.
    unfold region_access. change (N.to_nat 7) with 7%nat. rewrite R7. change (7 =? CFG_REGION) with true. change REGION_FLAG_ALWAYS_CB with (2 ^ 3). rewrite has_pow2, FL. cbn [andb negb].
    unfold Pci.config_write. destruct data as [|b data]; [unfold n in N0; cbn in N0; lia|]. cbn [length cfg_write]. rewrite WS. eauto. }
  destruct D as (c' & ev & D). exact (request_crashes _ _ _ _ _ _ _ _ _ _ RQ D).
Qed.
Print Assumptions C53_writes_crash.

(* The device of PropSafe, with its MSI capability at 64 and its MSI-X capability at 88: writes of 24 bytes at 68, of 12 at
   90, of one byte to the command register and of three to the expansion ROM register. *)
Definition write_body (off : N) (k : nat) : list N := access_req off 7 (N.of_nat (length (repeat 0 k))) (repeat 0 k).
Definition write_env (off : N) (k : nat) : env := ex_env (RxMsg (mk_header 7 10 (32 + N.of_nat k) 0 0) [] (inr (write_body off k))).
Lemma write_request s off k : serving s -> cx_mig (sv_ctx s) = Some 2 -> (k < 100)%nat -> request s (write_env off k) 7 10 (write_body off k) [].
Proof.
  intros V M L. assert (Ln : length (write_body off k) = (16 + k)%nat) by (unfold write_body; rewrite access_req_length, repeat_length; reflexivity).
  unfold write_env. set (body := write_body off k) in *. clearbody body.
  split; [exact V|exists (mk_header 7 10 (32 + N.of_nat k) 0 0)|reflexivity|reflexivity|rewrite M; split; discriminate].
  cbn [hd_flags hd_size hd_cmd hd_id]. rewrite Ln. split; [reflexivity|]. split; [unfold valid_hdr; cbn [hd_flags hd_size hd_cmd]; split; [reflexivity|split; lia]|].
  split; [reflexivity|]. split; [reflexivity|]. split; [reflexivity|lia].
Qed.

Example C53_writes_crash_case : fresh (dv_sv safe_dev) /\ sound (sv_ctx (dv_sv safe_dev)) /\ harmless_run (dv_sv safe_dev) [SAttach 1048576] /\
  fst (sv_run (dv_sv safe_dev) [SAttach 1048576]) = attached /\
  (exists r, nth_error (cx_regs (sv_ctx attached)) 7 = Some r /\ N.testbit (ri_flags r) 3 = false /\ ri_size r = 256) /\
  (forall off k, In (off, k) [(68, 24%nat); (90, 12%nat); (4, 1%nat); (48, 3%nat)] ->
    request attached (write_env off k) 7 10 (write_body off k) [] /\ overrunning_write (sv_ctx attached) off (N.of_nat k) /\
    fst (fst (sv_step attached (SRun (write_env off k)))) = Crash OutOfBounds).
Proof.
  destruct C53_requests_exact_case as (F & S & H & A & _).
  split; [exact F|]. split; [exact S|]. split; [exact H|]. split; [exact A|]. split; [eexists; split; [vm_compute; reflexivity|split; vm_compute; reflexivity]|].
  assert (V : serving attached) by (vm_compute; auto). assert (M : cx_mig (sv_ctx attached) = Some 2) by (vm_compute; reflexivity).
  assert (C : exists a b, all_caps (cx_pci (sv_ctx attached)) = [a; b] /\ cp_off a = 64 /\ cp_size a = 24 /\ cp_id a = 5 /\ cp_ext a = false /\ cp_flags a = 0 /\
    cp_off b = 88 /\ cp_size b = 12 /\ cp_id b = 17 /\ cp_ext b = false /\ cp_flags b = 0) by (do 2 eexists; split; [vm_compute; reflexivity|repeat split]).
  destruct C as (a & b & E & A1 & A2 & A3 & A4 & A5 & B1 & B2 & B3 & B4 & B5).
  intros off k I. cbn [In] in I. destruct I as [I|[I|[I|[I|[]]]]]; injection I as <- <-; (split; [apply write_request; [exact V|exact M|lia]|]);
    (split; [|vm_compute; reflexivity]).
  - right; right; right. exists a. rewrite E. split; [now left|]. unfold read_only, by_callback, runs_past, cap_end. rewrite A1, A2, A5. repeat split; auto; discriminate.
  - right; right; right. exists b. rewrite E. split; [right; now left|]. unfold read_only, by_callback, runs_past, cap_end. rewrite B1, B2, B5. repeat split; auto; discriminate.
  - left. split; reflexivity.
  - right; left. split; reflexivity.
Qed.
