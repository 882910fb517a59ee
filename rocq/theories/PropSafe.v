(* C53: what a client can and cannot do to crash the server. *)
From Coq Require Import NArith ZArith List Bool Lia ZifyBool ZifyNat ZifyN.
From Verif Require Import Base Types Bytes BytesProofs Spec Dma DmaOps SpecDma Migr Irq SpecIrq Pci SpecPci Handlers SpecHandlers Server SpecServer PropServer
  SpecSafe SafeProofs SafeDispatch Setup SpecSetup PropSetup SoundProofs.
Import ListNotations.
Open Scope N_scope.
Ltac Zify.zify_post_hook ::= idtac.

Lemma run_safe : forall l s, safe_state s -> harmless_run s l ->
  Forall (fun r => forall cr, fst r <> Crash cr) (snd (sv_run s l)) /\ length (snd (sv_run s l)) = length l.
Proof.
  induction l as [|st l IH]; intros s S H; [split; [constructor|reflexivity]|].
  cbn [harmless_run] in H. destruct H as (H & R). cbn [sv_run].
  destruct (sv_step s st) as [[o s'] ev] eqn:E. cbn [fst snd] in R.
  pose proof (step_no_crash _ _ _ _ _ S H E) as N. pose proof (step_safe _ _ _ _ _ S H E) as S'.
  destruct (IH s' S' R) as (A & B). destruct (sv_run s' l) as [s'' t]. cbn [snd] in A, B.
  destruct o as [v|v|cr]; [| |exfalso; exact (N cr eq_refl)]; cbn [snd length]; (split; [constructor; [exact N|exact A]|now rewrite B]).
Qed.

(* A server of a sound device, from the moment it is realized: whatever clients connect, send, disconnect and whatever
   the device does in between, for ever, no call crashes, so long as the messages are harmless.
   Partial: the harmless messages are not all messages.  Of each kind of exception, some do crash (below); those kept out
   that do not are writes that run past the end of other capabilities than MSI and MSI-X, and some reports.  For unmap
   and feature requests that ask for no report, C53_requests_exact (PropSafeX.v) says exactly which crash. *)
Theorem C53_no_crash_partial : forall s l, fresh s -> sound (sv_ctx s) -> harmless_run s l ->
  Forall (fun r => forall cr, fst r <> Crash cr) (snd (sv_run s l)) /\ length (snd (sv_run s l)) = length l.
Proof. intros s l F S H. exact (run_safe l s (fresh_safe s F S) H). Qed.
Print Assumptions C53_no_crash_partial.

(* A device with a configuration space of 256 bytes, DMA, migration, 16 MSI-X vectors and both capabilities for them. *)
Definition ex_msi : list N := [5; 0; 0; 0] ++ zeros 20.
Definition ex_msix : list N := [17; 0; 15; 0; 0; 0; 0; 0; 0; 0; 0; 0].
Definition safe_calls : list call :=
  [CPciInit 0 0; CRegion true (mk_rargs 7 256 true 3 None 0 (-1) 0); CDma true true; CMigration 2 true true true; CNrIrqs 2 16;
   CCap 0 0 ex_msi; CCap 0 0 ex_msix; CRealize].
Definition safe_dev : device := match dev_calls ex_dev safe_calls with (Some d, _) => d | _ => ex_dev end.
Lemma safe_set_up : set_up safe_calls safe_dev.
Proof. exists ex_dev. split; vm_compute; reflexivity. Qed.

(* Its messages. *)
Definition msg (cmd : N) (body : list N) (fds : list Z) : step :=
  SRun (ex_env (RxMsg (mk_header 7 cmd (16 + N.of_nat (length body)) 0 0) fds (inr body))).
Definition map_msg (base len : N) : step := msg 2 (le_bytes 4 32 ++ le_bytes 4 3 ++ le_bytes 8 0 ++ le_bytes 8 base ++ le_bytes 8 len) [5%Z].
Definition unmap_msg (base len pg : N) : step :=
  msg 3 (le_bytes 4 64 ++ le_bytes 4 1 ++ le_bytes 8 base ++ le_bytes 8 len ++ le_bytes 8 pg ++ le_bytes 8 8) [].
Definition feature (flags : N) (rest : list N) : list N := le_bytes 4 64 ++ le_bytes 4 flags ++ rest.
Definition start_msg (pg : N) : step := msg 16 (feature (6 + 2 ^ 17) (le_bytes 8 pg ++ zeros 8)) [].
Definition report_msg (base len pg : N) : step := msg 16 (feature (8 + 2 ^ 16) (le_bytes 8 base ++ le_bytes 8 len ++ le_bytes 8 pg)) [].
Definition state_msg (n : N) : step := msg 16 (feature (2 + 2 ^ 17) (le_bytes 8 n)) [].
Definition config_write (off : N) (data : list N) : list N := le_bytes 8 off ++ le_bytes 4 7 ++ le_bytes 4 (N.of_nat (length data)) ++ data.

(* Map, start logging, enable MSI-X and bus mastering, mark pages, report, unmap with a report, stop and copy. *)
Definition safe_steps : list step :=
  [SAttach 1048576; map_msg 65536 65536; start_msg 8192; msg 10 (config_write 90 [0; 128]) [];
   msg 10 (config_write 4 [4; 0]) []; report_msg 65536 65536 4096; unmap_msg 65536 65536 16384; state_msg 1; state_msg 3; msg 13 [] []].

Lemma full_ex_or : full_callbacks (or_access ex_or).
Proof. intros k off n m d H. injection H as <- _. reflexivity. Qed.
Lemma harmless_cons s st l o s' ev : harmless_step s st -> sv_step s st = (o, s', ev) -> harmless_run s' l -> harmless_run s (st :: l).
Proof. intros H E R. cbn [harmless_run]. rewrite E. cbn [fst snd]. auto. Qed.

(* One step of a concrete run: what is left is that its message is harmless. *)
Ltac run_step :=
  eapply harmless_cons; [cbn [harmless_step msg map_msg unmap_msg start_msg report_msg state_msg en_rx ex_env]|vm_compute; reflexivity|].
Ltac plain_msg :=
  split; [exact full_ex_or|split; [split; [repeat (constructor; [vm_compute; reflexivity|]); constructor|repeat (constructor; [vm_compute; discriminate|]); constructor]|]];
  split; [|split]; cbn [hd_cmd]; intros E; try discriminate E; clear E.
Ltac other_flags := let E := fresh in intros E; vm_compute in E; discriminate E.
Ltac by_cases := repeat match goal with H : _ \/ _ |- _ => destruct H | H : False |- _ => destruct H end.
Ltac plain_write :=
  unfold harmless_write; vm_compute word; vm_compute N.of_nat; intros _; split;
  [intros cap I; vm_compute in I; by_cases; subst cap; intros (A & B & C); vm_compute in A, B, C; (discriminate A || discriminate B || discriminate C)
  |intros reg size I (A & B); cbn [In header_registers] in I; by_cases;
   match goal with H : (_, _) = (reg, size) |- _ => injection H as <- <- end; vm_compute in A, B |- *; first [discriminate|exfalso; now apply A|discriminate B]].

Lemma safe_run : harmless_run (dv_sv safe_dev) safe_steps.
Proof.
  unfold safe_steps.
  run_step; [exact Logic.I|].
  run_step; [plain_msg|].
  run_step; [plain_msg|].
  { unfold harmless_feature. intros _ _. split; [other_flags|]. split; [|split; other_flags]. intros _ _. split; [vm_compute; repeat constructor|vm_compute; discriminate]. }
  run_step; [plain_msg; plain_write|].
  run_step; [plain_msg; plain_write|].
  run_step; [plain_msg|].
  { unfold harmless_feature. intros _ _. split; [other_flags|]. split; [other_flags|]. split; [other_flags|]. intros _ _. split; [vm_compute; repeat constructor|].
    vm_compute word. vm_compute logged_pages. split; [reflexivity|]. intros _ n (p & A & B & C & D). change (8192 / 4096) with 2. lia. }
  run_step; [plain_msg|].
  { intros _. split; [vm_compute; repeat constructor|]. split; [|other_flags]. intros _. split; [vm_compute; repeat constructor|]. intros _.
    vm_compute word. vm_compute logged_pages. split; [reflexivity|]. intros E. discriminate E. }
  run_step; [plain_msg|].
  { unfold harmless_feature. intros _ _. split; [|split; [|split]]; try other_flags. intros _ _. split; [vm_compute; repeat constructor|vm_compute; discriminate]. }
  run_step; [plain_msg|].
  { unfold harmless_feature. intros _ _. split; [|split; [|split]]; try other_flags. intros _ _. split; [vm_compute; repeat constructor|vm_compute; discriminate]. }
  run_step; [plain_msg|]. exact Logic.I.
Qed.

(* In particular: any device that is created, set up by careful and plain calls (of which any may be refused), found
   sensible and realized. *)
Theorem C53_set_up_no_crash_partial : forall d0 l d os d' steps,
  create_ctx 0 0 0 None = Ok d0 -> dev_calls d0 l = (Some d, os) -> Forall careful l -> Forall plain l -> sensible (dv_ctx d) ->
  realize_ctx d = (Ok tt, d') -> harmless_run (dv_sv d') steps ->
  Forall (fun r => forall cr, fst r <> Crash cr) (snd (sv_run (dv_sv d') steps)) /\ length (snd (sv_run (dv_sv d') steps)) = length steps.
Proof.
  intros d0 l d os d' steps C H F G S R W. apply C53_no_crash_partial; [|exact (set_up_sound _ _ _ _ _ C H F G S R)|exact W].
  apply (C52_realized_fresh d d'); [|exact R]. exists d0, l, os. auto.
Qed.
Print Assumptions C53_set_up_no_crash_partial.

Definition ready_calls : list call := removelast safe_calls.
Definition ready_dev : device := match dev_calls ex_dev ready_calls with (Some d, _) => d | _ => ex_dev end.
Example C53_set_up_no_crash_case : dev_calls ex_dev ready_calls = (Some ready_dev, repeat (Ok tt) 7) /\ Forall careful ready_calls /\ Forall plain ready_calls /\
  sensible (dv_ctx ready_dev) /\ realize_ctx ready_dev = (Ok tt, safe_dev) /\ harmless_run (dv_sv safe_dev) safe_steps /\
  fresh (dv_sv safe_dev) /\ sound (dv_ctx safe_dev) /\ map fst (snd (sv_run (dv_sv safe_dev) safe_steps)) = [Ok 0; Ok 1; Ok 1; Ok 1; Ok 1; Ok 1; Ok 1; Ok 1; Ok 1; Ok 0].
Proof.
  assert (A : dev_calls ex_dev ready_calls = (Some ready_dev, repeat (Ok tt) 7)) by (vm_compute; reflexivity).
  assert (B : Forall careful ready_calls).
  { repeat (apply Forall_cons || apply Forall_nil); cbn [careful]; try exact Logic.I. split; [reflexivity|intros [E|E]; discriminate E]. }
  assert (C : Forall plain ready_calls).
  { repeat (apply Forall_cons || apply Forall_nil); cbn [plain]; try exact Logic.I; (split; [reflexivity|]);
      (split; [repeat (constructor; [vm_compute; reflexivity|]); constructor|vm_compute; discriminate]). }
  assert (D : sensible (dv_ctx ready_dev)).
  { split; [|split].
    - intros r H. vm_compute in H. injection H as <-. vm_compute. split; [discriminate|reflexivity].
    - intros H. exfalso. apply H. vm_compute. reflexivity.
    - intros r H. assert (Q : ri_areas r = [] /\ ri_subs r = []) by (vm_compute in H; by_cases; subst r; auto). destruct Q as (-> & ->).
      cbn [length]. split; [reflexivity|]. split; [reflexivity|]. intros s []. }
  assert (E : realize_ctx ready_dev = (Ok tt, safe_dev)) by (vm_compute; reflexivity).
  split; [exact A|]. split; [exact B|]. split; [exact C|]. split; [exact D|]. split; [exact E|]. split; [exact safe_run|].
  split; [apply (C52_realized_fresh ready_dev safe_dev); [exists ex_dev, ready_calls; eexists; split; [reflexivity|]; split; [exact A|exact B]|exact E]|].
  split; [exact (set_up_sound _ _ _ _ _ eq_refl A B C D E)|]. vm_compute. reflexivity.
Qed.

(* ---------- False: no message crashes the server.  safe_dev is realized, its callbacks always succeed, and the message
   is the client's first. *)

(* DMA unmap with a payload shorter than its flags: they are read all the same (as is the rest of a longer one). *)
Theorem C53_short_unmap_refuted : exists l d, set_up l d /\ sv_realized (dv_sv d) = true /\
  first_request d 3 (le_bytes 4 24) [] ex_or = Crash OutOfBounds.
Proof. exists safe_calls, safe_dev. split; [exact safe_set_up|]. split; vm_compute; reflexivity. Qed.
Print Assumptions C53_short_unmap_refuted.

(* Device feature requests without the data they announce: set the migration state, start logging, report. *)
Theorem C53_short_feature_refuted : exists l d, set_up l d /\ sv_realized (dv_sv d) = true /\
  first_request d 16 (feature (2 + 2 ^ 17) []) [] ex_or = Crash OutOfBounds /\
  first_request d 16 (feature (6 + 2 ^ 17) []) [] ex_or = Crash OutOfBounds /\
  first_request d 16 (feature (8 + 2 ^ 16) []) [] ex_or = Crash OutOfBounds.
Proof. exists safe_calls, safe_dev. split; [exact safe_set_up|]. repeat split; vm_compute; reflexivity. Qed.
Print Assumptions C53_short_feature_refuted.

(* Migration state 8: past the end of the table of transitions. *)
Theorem C53_state_8_refuted : exists l d, set_up l d /\ sv_realized (dv_sv d) = true /\
  first_request d 16 (feature (2 + 2 ^ 17) (le_bytes 8 8)) [] ex_or = Crash OutOfBounds.
Proof. exists safe_calls, safe_dev. split; [exact safe_set_up|]. split; vm_compute; reflexivity. Qed.
Print Assumptions C53_state_8_refuted.

(* Start and stop logging on a device without DMA. *)
Definition bare_calls : list call := [CPciInit 0 0; CMigration 2 true true true; CRealize].
Definition bare_dev : device := match dev_calls ex_dev bare_calls with (Some d, _) => d | _ => ex_dev end.
Theorem C53_logging_without_dma_refuted : exists l d, set_up l d /\ sv_realized (dv_sv d) = true /\ cx_dma (dv_ctx d) = None /\
  first_request d 16 (feature (6 + 2 ^ 17) (le_bytes 8 4096 ++ zeros 8)) [] ex_or = Crash AssertFailed /\
  first_request d 16 (feature (7 + 2 ^ 17) (zeros 16)) [] ex_or = Crash AssertFailed.
Proof. exists bare_calls, bare_dev. split; [exists ex_dev; split; vm_compute; reflexivity|]. repeat split; vm_compute; reflexivity. Qed.
Print Assumptions C53_logging_without_dma_refuted.

(* A write of one byte to the command register: two are read. *)
Theorem C53_partial_register_refuted : exists l d, set_up l d /\ sv_realized (dv_sv d) = true /\
  first_request d 10 (config_write 4 [0]) [] ex_or = Crash OutOfBounds.
Proof. exists safe_calls, safe_dev. split; [exact safe_set_up|]. split; vm_compute; reflexivity. Qed.
Print Assumptions C53_partial_register_refuted.

(* A write that starts in an MSI or MSI-X capability (at 64 and 88) and runs past its end: all of it is copied into a
   local copy of the capability. *)
Theorem C53_past_capability_refuted : exists l d, set_up l d /\ sv_realized (dv_sv d) = true /\
  first_request d 10 (config_write 68 (zeros 24)) [] ex_or = Crash OutOfBounds /\
  first_request d 10 (config_write 90 (zeros 12)) [] ex_or = Crash OutOfBounds.
Proof. exists safe_calls, safe_dev. split; [exact safe_set_up|]. repeat split; vm_compute; reflexivity. Qed.
Print Assumptions C53_past_capability_refuted.

(* A report in smaller pages than logged: one never ends, one writes past the end of the bitmap.  One of a range that wraps
   around the address space reads past the end of the log.  Each after mapping the memory and starting to log. *)
Theorem C53_reports_refuted : exists l d, set_up l d /\ sv_realized (dv_sv d) = true /\
  let after base len pg base' len' pg' := map fst (snd (sv_run (dv_sv d)
    [SAttach 1048576; map_msg base len; start_msg pg; report_msg base' len' pg'])) in
  after 0 524288 8192 0 524288 2048 = [Ok 0; Ok 1; Ok 1; Crash Diverges] /\
  after 0 16384 16384 0 16384 512 = [Ok 0; Ok 1; Ok 1; Crash OutOfBounds] /\
  after 4096 4096 4096 4096 (2 ^ 64 - 4096) (2 ^ 63) = [Ok 0; Ok 1; Ok 1; Crash OutOfBounds].
Proof.
  exists safe_calls, safe_dev. split; [exact safe_set_up|]. split; [vm_compute; reflexivity|]. cbv zeta.
  split; [vm_compute; reflexivity|]. split; [vm_compute; reflexivity|]. lazy. reflexivity.
Qed.
Print Assumptions C53_reports_refuted.
