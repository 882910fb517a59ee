(* C63: what the device sees of migration over its whole life, and what becomes of the data. *)
From Coq Require Import NArith ZArith List Bool Lia ZifyBool ZifyNat ZifyN.
From Verif Require Import Base Types Bytes BytesProofs BufProofs Spec Dma Dirty DmaOps SpecDma DmaProofs Migr SpecMigr PropMigr Irq SpecIrq IrqProofs Pci Handlers
  SpecHandlers HandlersProofs HandlersDma PropFeature Server SpecServer ServerProofs PropServer SpecSafe SpecFlow FlowProofs.
Import ListNotations.
Open Scope N_scope.
Ltac Zify.zify_post_hook ::= idtac.

Lemma fresh_flow s : fresh s -> flow_pend s.
Proof. intros (_ & P & _). unfold flow_pend. now rewrite P. Qed.

Lemma history_flow s l s' arr ev : history s l s' arr ev -> sinv s -> flow_pend s -> flow_pend s'.
Proof.
  induction 1 as [s|s st o s1 ev1 l s2 arr ev2 H NC HH IH]; intros SI FP; [exact FP|].
  pose proof (step_cases _ _ _ _ _ SI H NC) as SC. destruct (step_kept _ _ _ _ _ SI SC) as (_ & SI1). apply IH; [exact SI1|]. eapply flow_pend_step; eauto.
Qed.
Lemma reachable_flow s : reachable s -> flow_pend s.
Proof. intros (s0 & l & arr & ev & F & H). eapply history_flow; eauto using fresh_sinv, fresh_flow. Qed.

(* A device that supports migration and has a reset callback: over any history, from the moment it is realized, it is only
   asked for what the state it knows itself to be in allows, and a client that asks is told that state. *)
Theorem C63_device_view : forall s0 l s arr ev, fresh s0 -> cx_mig (sv_ctx s0) <> None -> cx_reset (sv_ctx s0) = true ->
  history s0 l s arr ev ->
  exists m, device_life s0 VFU_RUNNING l s m /\
    forall o argsz data fds, 16 <= argsz -> argsz < 2 ^ 32 ->
      dispatch (sv_ctx s) o 16 (feature_req argsz (2 ^ 16 + 2) data) fds =
      (HReply 0 (feature_req 16 (2 ^ 16 + 2) (le_bytes 4 (wire m) ++ le_bytes 4 0)) [], sv_ctx s, fds, []).
Proof.
  intros s0 l s arr ev F M R H. assert (M0 : cx_mig (sv_ctx s0) = Some (wire VFU_RUNNING)).
  { destruct F as ((_ & _ & _ & _ & _ & _ & [E|E]) & _); [contradiction|exact E]. }
  destruct (history_view _ _ _ _ _ H VFU_RUNNING (fresh_sinv _ F) (fresh_flow _ F) R M0) as (m & L & M' & _).
  exists m. split; [exact L|]. intros o argsz data fds A1 A2. rewrite (C54_get (sv_ctx s) o argsz data fds (wire m) 2 A2 M' (or_intror eq_refl)).
  replace (argsz <? 16) with false by lia. reflexivity.
Qed.
Print Assumptions C63_device_view.

(* Reading: if the device is honest about what it has written and the replies reach the client, then what clients find in
   the replies is what the device handed out: all of it, in order, nothing else. *)
Theorem C63_source : forall s t s', reachable s -> trace s t s' -> Forall honest t -> Forall replied t -> all obtained t = all handed_out t.
Proof. intros s t s' R T. apply (trace_read _ _ _ T); [now apply reachable_sinv|now apply reachable_flow]. Qed.
Print Assumptions C63_source.

(* Writing: if every message with migration data is answered with success, then the device was given the data of these
   messages: all of it, in order, nothing else. *)
Theorem C63_destination : forall s t s', reachable s -> trace s t s' -> Forall acknowledged t -> all given t = all supplied t.
Proof. intros s t s' R T. apply (trace_write _ _ _ T); [now apply reachable_sinv|now apply reachable_flow]. Qed.
Print Assumptions C63_destination.

(* Together: a client that passes on the data it obtains from one device to another, in pieces of any size, makes the
   second device be given exactly what the first handed out. *)
Theorem C63_end_to_end : forall s1 t1 s1' s2 t2 s2',
  reachable s1 -> trace s1 t1 s1' -> Forall honest t1 -> Forall replied t1 ->
  reachable s2 -> trace s2 t2 s2' -> Forall acknowledged t2 ->
  all supplied t2 = all obtained t1 -> all given t2 = all handed_out t1.
Proof.
  intros s1 t1 s1' s2 t2 s2' R1 T1 HO RE R2 T2 AK E.
  rewrite (C63_destination _ _ _ R2 T2 AK), E. exact (C63_source _ _ _ R1 T1 HO RE).
Qed.
Print Assumptions C63_end_to_end.

(* ---------- examples *)
Fixpoint tracked (s : server) (l : list step) : list (server * step * list event) :=
  match l with [] => [] | st :: l' => (s, st, snd (sv_step s st)) :: tracked (snd (fst (sv_step s st))) l' end.
Definition clean (st : step) : Prop :=
  match st with
  | SRun en => match en_rx en with RxMsg _ fds (inr l) => Forall (fun b => b < 256) l /\ Forall (fun fd => (0 <= fd)%Z) fds | RxMsg _ fds (inl e) => False | RxErr _ => True end
  | _ => True
  end.
Fixpoint no_crash_run (s : server) (l : list step) : Prop :=
  match l with [] => True | st :: l' => match fst (fst (sv_step s st)) with Crash _ => False | _ => True end /\ no_crash_run (snd (fst (sv_step s st))) l' end.
Fixpoint final (s : server) (l : list step) : server := match l with [] => s | st :: l' => final (snd (fst (sv_step s st))) l' end.

Lemma tracked_trace : forall l s, Forall clean l -> no_crash_run s l -> trace s (tracked s l) (final s l).
Proof.
  induction l as [|st l IH]; intros s C N; [constructor|]. inversion C as [|? ? C1 C2]; subst. destruct N as (N1 & N2).
  cbn [tracked final]. destruct (sv_step s st) as [[o s1] ev] eqn:E. cbn [fst snd] in *. econstructor; [exact E| | |now apply IH].
  - intros c ->. exact N1.
  - intros en ->. unfold clean in C1. unfold delivered. destruct (en_rx en) as [e|h fds [e|b]]; [|destruct C1|].
    + split; [exact I|]. intros h fds e' Q. discriminate Q.
    + split; [exact C1|]. intros h' fds' e' Q. discriminate Q.
Qed.

(* A device whose callback for migration data answers a. *)
Definition data_or (a : data_answer) : oracle :=
  mk_oracle ex_os (fun _ => true) [] (fun _ => None) (fun _ => None) (fun _ _ n => AccOk n (zeros (N.to_nat n))) a (fun _ => None).
Definition ask (a : data_answer) (cmd : N) (body : list N) : step :=
  SRun (mk_senv (RxMsg (mk_header 7 cmd (16 + N.of_nat (length body)) 0 0) [] (inr body)) (data_or a) None None None None).
Definition go (state : N) : step := ask (DataOk 0 []) 16 (feature_req 16 (2 ^ 17 + 2) (le_bytes 4 state ++ le_bytes 4 0)).

(* The source: pre-copy, two reads (the second gives less than asked for), stop, another read; a destination: resume, the
   same data in two other pieces, run. *)
Definition ex_source : list step :=
  [go 6; ask (DataOk 3 [10; 11; 12]) 17 (mig_data_body 16 3 []); ask (DataOk 1 [13; 99]) 17 (mig_data_body 16 2 []);
   go 3; ask (DataOk 2 [14; 15]) 17 (mig_data_body 16 4 []); ask (DataOk 0 []) 17 (mig_data_body 16 4 [])].
Definition ex_dest : list step :=
  [go 4; ask (DataOk 2 []) 18 (mig_data_body 10 2 [10; 11]); ask (DataOk 4 []) 18 (mig_data_body 12 4 [12; 13; 14; 15]); go 2].

Lemma ex_source_ok : Forall clean ex_source /\ no_crash_run (ex_busy true) ex_source /\ Forall honest (tracked (ex_busy true) ex_source) /\
  Forall replied (tracked (ex_busy true) ex_source).
Proof.
  split; [vm_compute; repeat constructor|]. split; [vm_compute; repeat constructor|].
  assert (E : exists t, tracked (ex_busy true) ex_source = t /\ map (fun x => map (fun e => match e with EvReadData n => n + 1 | EvReply _ => 0 | _ => 1000 end) (snd x)) t =
    [[1000; 1000; 0]; [4; 0]; [3; 0]; [1000; 1000; 0]; [5; 0]; [5; 0]]) by (eexists; split; [reflexivity|vm_compute; reflexivity]).
  split.
  - unfold ex_source. cbn [tracked].
    repeat (apply Forall_cons; [unfold honest; intros size n buf HI DA; vm_compute in HI; vm_compute in DA; injection DA as <- <-;
      repeat (destruct HI as [HI|HI]; [try discriminate HI; injection HI as <-; vm_compute; split; discriminate|]); destruct HI|]). constructor.
  - unfold ex_source. cbn [tracked].
    repeat (apply Forall_cons; [unfold replied; intros size HI; vm_compute in HI;
      repeat (destruct HI as [HI|HI]; [try discriminate HI; eexists; vm_compute; right; left; reflexivity|]); destruct HI|]). constructor.
Qed.

Lemma ex_dest_ok : Forall clean ex_dest /\ no_crash_run (ex_busy true) ex_dest /\ Forall acknowledged (tracked (ex_busy true) ex_dest).
Proof.
  split; [vm_compute; repeat constructor|]. split; [vm_compute; repeat constructor|].
  unfold ex_dest. cbn [tracked].
  apply Forall_cons; [intros X; vm_compute in X; congruence|].
  apply Forall_cons; [intros _; eexists; split; [vm_compute; right; left; reflexivity|reflexivity]|].
  apply Forall_cons; [intros _; eexists; split; [vm_compute; right; left; reflexivity|reflexivity]|].
  apply Forall_cons; [intros X; vm_compute in X; congruence|]. constructor.
Qed.

Example C63_end_to_end_case :
  all handed_out (tracked (ex_busy true) ex_source) = [10; 11; 12; 13; 14; 15] /\
  all given (tracked (ex_busy true) ex_dest) = [10; 11; 12; 13; 14; 15] /\
  all supplied (tracked (ex_busy true) ex_dest) = all obtained (tracked (ex_busy true) ex_source) /\
  cx_mig (sv_ctx (final (ex_busy true) ex_source)) = Some (wire VFU_STOP_AND_COPY) /\ cx_mig (sv_ctx (final (ex_busy true) ex_dest)) = Some (wire VFU_RUNNING) /\
  reachable (ex_busy true) /\ trace (ex_busy true) (tracked (ex_busy true) ex_source) (final (ex_busy true) ex_source) /\
  trace (ex_busy true) (tracked (ex_busy true) ex_dest) (final (ex_busy true) ex_dest).
Proof.
  split; [vm_compute; reflexivity|]. split; [vm_compute; reflexivity|]. split; [vm_compute; reflexivity|].
  split; [vm_compute; reflexivity|]. split; [vm_compute; reflexivity|]. split; [apply ex_busy_reachable|].
  destruct ex_source_ok as (C & N & _). destruct ex_dest_ok as (C2 & N2 & _). split; now apply tracked_trace.
Qed.

(* A device that resumes, is abandoned by its client and is then taken to PRE_COPY by the next one. *)
Definition ex_life : list step := [SAttach 1048576; go 4; SRun (ex_env (RxErr ENOMSG)); SAttach 1048576; go 6].
Example C63_device_view_case : exists s arr ev, fresh (ex_server true) /\ history (ex_server true) ex_life s arr ev /\
  cx_mig (sv_ctx s) = Some (wire VFU_PRE_COPY) /\ device_life (ex_server true) VFU_RUNNING ex_life s VFU_PRE_COPY.
Proof.
  destruct (history_run (ex_server true) ex_life (final (ex_server true) ex_life) (snd (sv_run (ex_server true) ex_life))) as (arr & H).
  - vm_compute. reflexivity.
  - vm_compute. repeat constructor.
  - exists (final (ex_server true) ex_life), arr, (concat (map snd (snd (sv_run (ex_server true) ex_life)))).
    split; [apply ex_fresh|]. split; [exact H|]. split; [vm_compute; reflexivity|].
    destruct (history_view _ _ _ _ _ H VFU_RUNNING (fresh_sinv _ (ex_fresh true)) (fresh_flow _ (ex_fresh true)) eq_refl eq_refl) as (m & L & M & _).
    assert (m = VFU_PRE_COPY) as -> by (destruct m; try reflexivity; vm_compute in M; discriminate M). exact L.
Qed.

(* The transitions among events; a device that accepts them and is not reset goes along them. *)
Definition told (ev : list event) : list vfu_migr_state := flat_map (fun e => match e with EvTransition m => [m] | _ => [] end) ev.
Definition unreset (ev : list event) : Prop := Forall (fun e => match e with EvReset _ => False | _ => True end) ev.
Lemma path_app a p b q c : path a p b -> path b q c -> path a (p ++ q) c.
Proof. induction 1; intros Q; cbn [app]; [exact Q|]. econstructor; eauto. Qed.
Lemma view_path st k m ev m' : device_view st k m ev m' -> (forall j, trans_answer st j = None) -> unreset ev -> path m (told ev) m'.
Proof.
  intros V A U. induction V as [|k m m1 l m' E T V IH|k m m1 e l m' E T V IH|k m l m' H V IH|k m l m' V IH|k m l m' V IH|k m n l m' H V IH|k m d l m' H V IH|k m i l m' H V IH|k m e l m' H V IH];
    [constructor|..]; inversion U; subst; unfold told; cbn [flat_map]; fold (told l); try contradiction.
  - cbn [app]. econstructor; [exact E|]. now apply IH.
  - rewrite A in T. discriminate T.
  - now apply IH.
  - now apply IH.
  - now apply IH.
  - destruct e; try contradiction; now apply IH.
Qed.
Lemma told_path s m l s' m' : device_life s m l s' m' -> Forall (fun st => forall j, trans_answer st j = None) l ->
  Forall (fun x => unreset (snd x)) (tracked s l) -> path m (flat_map (fun x => told (snd x)) (tracked s l)) m'.
Proof.
  induction 1 as [|s m st o s1 ev m1 l s2 m2 H V L IH]; intros A U; [constructor|].
  inversion A as [|? ? A1 A2]; subst. cbn [tracked flat_map] in *. rewrite H in *. cbn [fst snd] in *. inversion U as [|? ? U1 U2]; subst.
  eapply path_app; [eapply view_path; eauto|now apply IH].
Qed.

(* The library forgets the migration state of a device without a reset callback when the connection is lost, and does not
   tell it: the next client's request makes it ask the device, which is still RESUMING, for PRE_COPY. *)
Definition mute_server : server := let c := ex_sctx true in
  mk_server (mk_ctx (cx_dma c) (cx_hint c) (cx_regs c) (cx_pci c) (cx_quiesce c) false (cx_register c) (cx_unregister c) (cx_mig c) (cx_irq_cfg c) (cx_irqs c) (cx_max_xfer c))
    PNone false false true.
Theorem C63_no_reset_callback_refuted : exists s0 l s arr ev, fresh s0 /\ cx_mig (sv_ctx s0) <> None /\ cx_reset (sv_ctx s0) = false /\
  history s0 l s arr ev /\ ~ exists m, device_life s0 VFU_RUNNING l s m.
Proof.
  exists mute_server, ex_life.
  destruct (history_run mute_server ex_life (final mute_server ex_life) (snd (sv_run mute_server ex_life))) as (arr & H).
  - vm_compute. reflexivity.
  - vm_compute. repeat constructor.
  - exists (final mute_server ex_life), arr, (concat (map snd (snd (sv_run mute_server ex_life)))).
    split; [exact (ex_fresh true)|]. split; [discriminate|]. split; [reflexivity|]. split; [exact H|].
    intros (m & L).
    assert (P : path VFU_RUNNING [VFU_STOP; VFU_RESUME; VFU_PRE_COPY] m).
    { replace [VFU_STOP; VFU_RESUME; VFU_PRE_COPY] with (flat_map (fun x => told (snd x)) (tracked mute_server ex_life)) by (vm_compute; reflexivity).
      eapply told_path; [exact L|repeat constructor|]. vm_compute. repeat constructor; discriminate. }
    inversion P as [|a b q d E1 P1]; subst. inversion P1 as [|a b q d E2 P2]; subst. inversion P2 as [|a b q d E3 P3]; subst. inversion E3.
Qed.
Print Assumptions C63_no_reset_callback_refuted.
