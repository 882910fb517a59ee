(* Properties of the request loop. *)
From Coq Require Import NArith ZArith List Bool Lia ZifyBool ZifyNat ZifyN.
From Verif Require Import Base Types Bytes BytesProofs Spec Dma Dirty DmaOps SpecDma DmaProofs Migr Irq SpecIrq IrqProofs PropIrq Pci Handlers
  SpecHandlers HandlersProofs PropHandlers HandlersDma Server SpecServer ServerProofs.
Import ListNotations.
Open Scope N_scope.
Ltac Zify.zify_post_hook ::= idtac.

(* ---------- a concrete server for the examples: two BARs, config space, migration, a DMA controller, all
   callbacks *)
Definition ex_pci : pci := mk_pci (zeros 256) [] [] None.
Definition ex_sctx (quiesce : bool) : ctx :=
  mk_ctx (Some dma_create) 0 ex_regs ex_pci quiesce true true true (Some ST_RUNNING) ex_cfg (Some (irqs_create ex_cfg)) (1024 * 1024).
Definition ex_server (quiesce : bool) : server := mk_server (ex_sctx quiesce) PNone false false true.
Definition ex_os : dma_os := mk_os (Some 4096) (fun _ _ => false) (inl 8192000) true.
Definition ex_or : oracle :=
  mk_oracle ex_os (fun _ => true) [] (fun _ => None) (fun _ => None) (fun _ _ n => AccOk n (zeros (N.to_nat n))) (DataOk 0 []) (fun _ => None).
Definition ex_env (x : rx) : env := mk_senv x ex_or None None None None.
(* map 64 KiB at 0x10000 with descriptor 5 *)
Definition ex_map_body : list N := le_bytes 4 32 ++ le_bytes 4 3 ++ le_bytes 8 0 ++ le_bytes 8 65536 ++ le_bytes 8 65536.
Definition ex_map_hdr (id : N) : header := mk_header id 2 48 0 0.
Definition ex_map (id : N) : env := ex_env (RxMsg (ex_map_hdr id) [5%Z] (inr ex_map_body)).
(* bind descriptor 9 to MSI-X vector 2 *)
Definition ex_irq (id : N) : env := ex_env (RxMsg (mk_header id 8 36 0 0) [9%Z] (inr (irq_set_body 20 36 2 2 1 []))).

(* s0 with a client, a mapped region and a bound vector *)
Definition ex_steps : list step := [SAttach 1048576; SRun (ex_map 1); SRun (ex_irq 2)].
Definition ex_busy (quiesce : bool) : server := fst (sv_run (ex_server quiesce) ex_steps).

Lemma ex_fresh q : fresh (ex_server q).
Proof.
  unfold fresh, realized_ctx. cbn [ex_server sv_ctx ex_sctx cx_dma cx_irqs cx_irq_cfg cx_mig sv_pending sv_quiesced sv_conn sv_realized].
  repeat split; auto. repeat constructor.
Qed.

Lemma history_run s l s' t : sv_run s l = (s', t) -> Forall (fun x => match fst x with Crash _ => False | _ => True end) t ->
  exists arr, history s l s' arr (concat (map snd t)).
Proof.
  revert s s' t. induction l as [|st l IH]; intros s s' t H F; cbn [sv_run] in H.
  - injection H as <- <-. exists []. constructor.
  - destruct (sv_step s st) as [[o s1] ev1] eqn:S.
    assert (NC : forall c, o <> Crash c) by (intros c ->; injection H as <- <-; inversion_clear F; contradiction).
    destruct (sv_run s1 l) as [s2 t2] eqn:R.
    assert (E : s' = s2 /\ t = (o, ev1) :: t2) by (destruct o; [injection H as <- <-; auto|injection H as <- <-; auto|now destruct (NC c)]).
    destruct E as [-> ->]. inversion_clear F as [|? ? _ F']. destruct (IH _ _ _ R F') as (arr & Hh). eexists. cbn [map concat]. eapply h_cons; eauto.
Qed.

Lemma ex_busy_reachable q : reachable (ex_busy q).
Proof.
  destruct (history_run (ex_server q) ex_steps (ex_busy q) (snd (sv_run (ex_server q) ex_steps))) as (arr & H).
  - destruct q; vm_compute; reflexivity.
  - destruct q; vm_compute; repeat constructor.
  - exists (ex_server q), ex_steps, arr, (concat (map snd (snd (sv_run (ex_server q) ex_steps)))). split; [apply ex_fresh|exact H].
Qed.

Example ex_busy_state : serving (ex_busy true) /\ map rg_fd (regions_of (ex_busy true)) = [5%Z] /\
  filter (fun fd => negb (fd =? -1)%Z) (irq_fds (ex_busy true)) = [9%Z].
Proof. vm_compute. auto. Qed.

(* ---------- C21 *)

Lemma valid_hdr_iff h : is_valid_header h = true <-> valid_hdr h.
Proof.
  unfold is_valid_header, valid_hdr, F_TYPE_MASK, F_TYPE_COMMAND, SERVER_MAX_MSG_SIZE, CMD_RESET.
  change 15 with (N.ones 4). rewrite N.land_ones. change (2 ^ 4) with 16.
  destruct (hd_flags h mod 16 =? 0) eqn:E1; cbn [negb]; [|lia].
  destruct (hd_size h <? 16) eqn:E2; [lia|].
  destruct (hd_size h =? 16) eqn:E3; cbn [andb]; [destruct (hd_cmd h =? 13) eqn:E4; cbn [negb]|];
    destruct (1048576 + 16 + 16 <? hd_size h) eqn:E5; lia.
Qed.

Lemma send_ok_reply s en h err body fds : en_send en = None ->
  do_reply s en h err body fds = (Ok tt, s, if wants_reply h then [EvReply (mk_reply (hd_id h) (hd_cmd h) err body fds)] else []).
Proof. intros S. unfold do_reply. rewrite has_no_reply, S. destruct (wants_reply h); reflexivity. Qed.

Theorem C21_invalid_refused : forall s en h fds body,
  serving s -> en_rx en = RxMsg h fds body -> en_send en = None ->
  ~ valid_hdr h ->
  sv_step s (SRun en) = (Ok 0, s, error_reply h EINVAL ++ closes_of fds).
Proof.
  intros s en h fds body (R & P & C) X S V. cbn [sv_step]. rewrite R, P. cbn [negb]. unfold run_iter, get_request. rewrite C, X. cbn [negb].
  assert (E : is_valid_header h = false) by (destruct (is_valid_header h) eqn:E; [exfalso; now apply V, valid_hdr_iff|reflexivity]).
  rewrite E. cbn [negb]. unfold refuse. rewrite (send_ok_reply s en h EINVAL [] [] S). cbn [N.eqb ENOMSG Pos.eqb orb]. unfold free_msg, error_reply.
  now rewrite close_all_spec.
Qed.
Print Assumptions C21_invalid_refused.

(* The body of such a message is never looked at, and the device is not involved, whatever the outcome of the
   reply; unless sending the reply finds the connection lost. *)
Theorem C21_invalid_no_effect : forall s en h fds body o s' ev,
  serving s -> en_rx en = RxMsg h fds body -> (forall e, en_send en = Some e -> ~ conn_lost e) ->
  ~ valid_hdr h -> sv_step s (SRun en) = (o, s', ev) ->
  s' = s /\ forall e, In e ev -> match e with EvReply _ | EvClose _ => True | _ => False end.
Proof.
  intros s en h fds body o s' ev (R & P & C) X S V H. cbn [sv_step] in H. rewrite R, P in H. cbn [negb] in H. unfold run_iter, get_request in H.
  rewrite C, X in H. cbn [negb] in H.
  assert (E : is_valid_header h = false) by (destruct (is_valid_header h) eqn:E; [exfalso; now apply V, valid_hdr_iff|reflexivity]).
  rewrite E in H. cbn [negb] in H. unfold refuse, do_reply in H. rewrite has_no_reply in H.
  assert (FM : forall e, In e (free_msg fds) -> match e with EvReply _ | EvClose _ => True | _ => False end).
  { intros e I. unfold free_msg in I. rewrite close_all_spec in I. apply in_map_iff in I. destruct I as (x & <- & _). exact I. }
  destruct (wants_reply h); cbn [negb] in H; [destruct (en_send en) as [e|] eqn:Se|].
  - assert (El : ((e =? ECONNRESET) || (e =? ENOMSG)) = false) by (specialize (S e eq_refl); unfold conn_lost in S; lia). rewrite El in H.
    injection H as _ <- <-. split; [reflexivity|exact FM].
  - injection H as _ <- <-. split; [reflexivity|]. intros e [<-|I]; [exact Logic.I|exact (FM e I)].
  - injection H as _ <- <-. split; [reflexivity|exact FM].
Qed.
Print Assumptions C21_invalid_no_effect.

Example C21_case : let h := mk_header 77 2 (1024 * 1024 + 33) 0 0 in
  ~ valid_hdr h /\ serving (ex_busy true) /\
  snd (sv_step (ex_busy true) (SRun (ex_env (RxMsg h [11%Z] (inr []))))) = [EvReply (mk_reply 77 2 EINVAL [] []); EvClose 11].
Proof.
  split; [|split; [apply ex_busy_state|vm_compute; reflexivity]]. intros (_ & (_ & L) & _). cbn in L. lia.
Qed.
Example C21_boundary : valid_hdr (mk_header 77 10 (1024 * 1024 + 32) 16 0) /\ valid_hdr (mk_header 77 13 16 32 0) /\ valid_hdr (mk_header 77 5 17 0 0) /\
  ~ valid_hdr (mk_header 77 5 16 0 0) /\ ~ valid_hdr (mk_header 77 13 15 0 0) /\ ~ valid_hdr (mk_header 77 10 32 1 0).
Proof. unfold valid_hdr. cbn. repeat split; try lia; intros; cbn in *; intuition; try discriminate; lia. Qed.

(* ---------- C26, and what executing a request means *)

(* Receiving the announced payload. *)
Definition payload (h : header) (rbody : N + list N) (body : list N) : Prop :=
  (hd_size h = 16 /\ body = []) \/
  (16 < hd_size h /\ exists l, rbody = inr l /\ body = firstn (N.to_nat (hd_size h - 16)) l /\ N.of_nat (length l) >= hd_size h - 16).

Lemma payload_recv h rbody body : payload h rbody body -> (if hd_size h =? 16 then Ok [] else recv_body (hd_size h - 16) rbody) = Ok body.
Proof.
  intros [[E ->]|(L & l & -> & -> & Ln)].
  - rewrite E. reflexivity.
  - assert (E : (hd_size h =? 16) = false) by lia. rewrite E. unfold recv_body.
    assert (Lf : N.of_nat (length (firstn (N.to_nat (hd_size h - 16)) l)) = hd_size h - 16) by (rewrite firstn_length; lia).
    rewrite Lf, N.eqb_refl. assert (E2 : (hd_size h - 16 =? 0) = false) by lia. now rewrite E2.
Qed.

Definition stopped (s : server) : Prop := cx_mig (sv_ctx s) = Some ST_STOP \/ cx_mig (sv_ctx s) = Some ST_STOP_COPY.
(* region read, region write, device feature, migration data read *)
Definition allowed_stopped (cmd : N) : Prop := In cmd [9; 10; 16; 17].

Lemma should_exec_iff s cmd : should_exec (cx_mig (sv_ctx s)) cmd = true <-> (stopped s -> allowed_stopped cmd).
Proof.
  unfold should_exec, stopped, allowed_stopped, is_stopped_and_copying, is_stopped, cmd_allowed_stopped.
  change CMD_REGION_READ with 9. change CMD_REGION_WRITE with 10. change CMD_FEATURE with 16. change CMD_MIG_READ with 17.
  assert (A : (cmd =? 9) || (cmd =? 10) || (cmd =? 16) || (cmd =? 17) = true <-> In cmd [9; 10; 16; 17]) by (cbn [In]; lia).
  destruct (cx_mig (sv_ctx s)) as [m|]; [|split; [intros _ [Q|Q]; discriminate Q|reflexivity]].
  destruct (m =? ST_STOP_COPY) eqn:E1; [apply N.eqb_eq in E1; subst m; rewrite A; split; auto|].
  destruct (m =? ST_STOP) eqn:E2; [apply N.eqb_eq in E2; subst m; rewrite A; split; auto|].
  split; [|reflexivity]. intros _ [Q|Q]; injection Q as ->; [discriminate E2|discriminate E1].
Qed.

Theorem C26_refused : forall s en h fds rbody body,
  serving s -> en_rx en = RxMsg h fds rbody -> en_send en = None -> valid_hdr h -> payload h rbody body ->
  stopped s -> ~ allowed_stopped (hd_cmd h) ->
  sv_step s (SRun en) = (Ok 0, s, error_reply h EINVAL ++ closes_of fds).
Proof.
  intros s en h fds rbody body (R & P & C) X S V B St A. cbn [sv_step]. rewrite R, P. cbn [negb]. unfold run_iter, get_request. rewrite C, X. cbn [negb].
  rewrite (proj2 (valid_hdr_iff h) V), (payload_recv _ _ _ B). cbn [negb].
  assert (E : should_exec (cx_mig (sv_ctx s)) (hd_cmd h) = false).
  { destruct (should_exec (cx_mig (sv_ctx s)) (hd_cmd h)) eqn:E; [|reflexivity]. exfalso. exact (A (proj1 (should_exec_iff s _) E St)). }
  rewrite E. cbn [negb]. unfold refuse. rewrite (send_ok_reply s en h EINVAL [] [] S). cbn [N.eqb ENOMSG Pos.eqb orb]. unfold free_msg, error_reply.
  now rewrite close_all_spec.
Qed.
Print Assumptions C26_refused.

(* Every other valid request is executed, once the device is quiesced if need be: the handler's effects and its reply.
   Executing is what the theorems about single requests (C19, C20, C33-C39, C54, C55, ...) describe. *)
Theorem C26_executed : forall s en h fds rbody body err rb rfds c' fds' ev,
  serving s -> en_rx en = RxMsg h fds rbody -> en_send en = None -> valid_hdr h -> payload h rbody body ->
  (stopped s -> allowed_stopped (hd_cmd h)) ->
  (cx_quiesce (sv_ctx s) = true -> en_quiesce en = None) ->
  dispatch (sv_ctx s) (en_or en) (hd_cmd h) body fds = (HReply err rb rfds, c', fds', ev) ->
  exists q,
  sv_step s (SRun en) =
    (Ok 1, mk_server c' PNone false true true,
     q ++ ev ++ (if wants_reply h then [EvReply (mk_reply (hd_id h) (hd_cmd h) err rb rfds)] else []) ++ closes_of fds') /\
  (q = [] \/ q = [EvQuiesce None] /\ cx_quiesce (sv_ctx s) = true).
Proof.
  intros s en h fds rbody body err rb rfds c' fds' ev (R & P & C) X S V B A Q D.
  destruct s as [c p q cn rl]. cbn [sv_realized sv_pending sv_conn sv_ctx] in *. subst rl p cn.
  cbn [sv_step sv_realized sv_pending negb]. unfold run_iter, get_request. cbn [sv_conn sv_ctx negb]. rewrite X.
  rewrite (proj2 (valid_hdr_iff h) V), (payload_recv _ _ _ B). cbn [negb].
  assert (E : should_exec (cx_mig c) (hd_cmd h) = true).
  { pose proof (proj2 (should_exec_iff (mk_server c PNone q true true) (hd_cmd h)) A) as G. exact G. }
  rewrite E. cbn [negb].
  assert (HR : forall q', handle_request (mk_server c PNone q' true true) en (mk_msg h body fds) =
     (Ok tt, mk_server c' PNone q' true true, fds', ev ++ (if wants_reply h then [EvReply (mk_reply (hd_id h) (hd_cmd h) err rb rfds)] else []))).
  { intros q'. unfold handle_request. cbn [sv_ctx mg_hdr mg_body mg_fds]. rewrite D. unfold set_ctx. cbn [sv_pending sv_quiesced sv_conn sv_realized].
    now rewrite (send_ok_reply _ en h err rb rfds S). }
  unfold free_msg. destruct (needs_quiesce c (hd_cmd h) body) eqn:Nq.
  - assert (Qc : cx_quiesce c = true) by (unfold needs_quiesce in Nq; destruct (cx_quiesce c); [reflexivity|discriminate Nq]).
    rewrite (Q Qc). unfold set_quiesced. cbn [sv_ctx sv_pending sv_conn sv_realized]. rewrite (HR true). cbn [sv_ctx sv_pending sv_conn sv_realized].
    exists [EvQuiesce None]. rewrite close_all_spec, <- !app_assoc. auto.
  - rewrite (HR q). unfold set_quiesced. cbn [sv_ctx sv_pending sv_conn sv_realized]. exists []. rewrite close_all_spec, <- !app_assoc. auto.
Qed.
Print Assumptions C26_executed.

Definition ex_stopped : server := set_conn (set_ctx (ex_server true) (set_mig (ex_sctx true) (Some ST_STOP_COPY))) true.
Example C26_case : stopped ex_stopped /\ serving ex_stopped /\ valid_hdr (ex_map_hdr 3) /\ payload (ex_map_hdr 3) (inr ex_map_body) ex_map_body /\
  ~ allowed_stopped 2 /\ sv_step ex_stopped (SRun (ex_map 3)) = (Ok 0, ex_stopped, [EvReply (mk_reply 3 2 EINVAL [] []); EvClose 5]).
Proof.
  split; [right; reflexivity|]. split; [repeat split|]. split; [unfold valid_hdr; cbn; intuition; discriminate|].
  split; [right; split; [reflexivity|]; exists ex_map_body; vm_compute; intuition; discriminate|]. split; [cbn; intuition; discriminate|vm_compute; reflexivity].
Qed.
Example C26_executed_case : fst (fst (sv_step ex_stopped (SRun (ex_env (RxMsg (mk_header 4 9 32 0 0) [] (inr (access_req 0 0 4 []))))))) = Ok 1.
Proof. vm_compute. reflexivity. Qed.

(* ---------- C25 *)

Theorem C25_busy : forall blocking s ens, sv_realized s = true -> sv_pending s <> PNone ->
  run_ctx blocking s ens = (Returned (Err EBUSY), s, []).
Proof.
  intros blocking s ens R P. unfold run_ctx. rewrite R. cbn [negb]. destruct ens; cbn [run_loop]; destruct (sv_pending s); congruence.
Qed.
Print Assumptions C25_busy.

Theorem C25_unexpected : forall s en errno, sv_pending s = PNone \/ cx_quiesce (sv_ctx s) = false ->
  device_quiesced s en errno = (Err EINVAL, s, []).
Proof. intros s en errno H. unfold device_quiesced. destruct (cx_quiesce (sv_ctx s)), H as [->|H]; try reflexivity; discriminate H. Qed.
Print Assumptions C25_unexpected.

(* vfu_device_quiesced completes the operation: afterwards nothing is pending, so that a second call is refused. *)
Theorem C25_completed : forall s en errno o s' ev, reachable s -> sv_pending s <> PNone ->
  sv_step s (SQuiesced errno en) = (o, s', ev) -> (forall c, o <> Crash c) ->
  sv_pending s' = PNone /\ forall en' errno', device_quiesced s' en' errno' = (Err EINVAL, s', []).
Proof.
  intros s en errno o s' ev Rc P H NC. assert (G : sv_pending s' = PNone); [|split; [exact G|intros; apply C25_unexpected; auto]].
  pose proof (reachable_sinv _ Rc) as SI. pose proof (step_cases _ _ _ _ _ SI H NC) as SC. inversion SC; subst; try reflexivity.
  pose proof SI as (_ & _ & PQ). specialize (PQ P). intuition congruence.
Qed.
Print Assumptions C25_completed.

(* A request whose quiesce completes later has exactly the effects and the reply it would have had, had the device
   quiesced at once. *)
Theorem C25_async_like_sync : forall s en en' h fds rbody s1 ev1,
  serving s -> en_rx en = RxMsg h fds rbody -> en_send en = None -> en_quiesce en = Some EBUSY ->
  en_rx en' = en_rx en -> en_send en' = None -> en_quiesce en' = None ->
  sv_step s (SRun en) = (Err EBUSY, s1, ev1) ->
  ev1 = [EvQuiesce (Some EBUSY)] /\ sv_ctx s1 = sv_ctx s /\ sv_pending s1 <> PNone /\
  forall o s2 ev2, sv_step s (SRun en') = (o, s2, EvQuiesce None :: ev2) -> (forall cr, o <> Crash cr) ->
    sv_step s1 (SQuiesced 0 en') = (match o with Ok _ => Ok 0 | _ => o end, s2, ev2).
Proof.
  intros s en en' h fds rbody s1 ev1 (R & P & C) X S Qb X' S' Qn H. rewrite X in X'.
  destruct s as [c p q cn rl]. cbn [sv_realized sv_pending sv_conn sv_ctx] in *. subst rl p cn.
  cbn [sv_step sv_realized sv_pending negb] in *. unfold run_iter, get_request in *. cbn [sv_conn sv_ctx negb] in *.
  rewrite X, Qb in H. rewrite X', Qn.
  assert (RF : forall e, refuse (mk_server c PNone q true true) en h fds e = (GotErr ENOMSG, mk_server c PNone q true true, error_reply h e ++ closes_of fds)).
  { intros e. unfold refuse. rewrite (send_ok_reply _ en h e [] [] S). unfold free_msg, error_reply. now rewrite close_all_spec. }
  destruct (is_valid_header h) eqn:V; cbn [negb] in *; [|rewrite RF in H; cbn [N.eqb ENOMSG Pos.eqb orb] in H; discriminate H].
  destruct (if hd_size h =? 16 then Ok [] else recv_body (hd_size h - 16) rbody) as [body|e|cr] eqn:B; [|rewrite RF in H; cbn [N.eqb ENOMSG Pos.eqb orb] in H; discriminate H|discriminate H].
  destruct (should_exec (cx_mig c) (hd_cmd h)); cbn [negb] in *; [|rewrite RF in H; cbn [N.eqb ENOMSG Pos.eqb orb] in H; discriminate H].
  destruct (needs_quiesce c (hd_cmd h) body) eqn:Nq.
  - change (EBUSY =? EBUSY) with true in H. cbn iota in H. assert (E : (EBUSY =? ENOMSG) || (EBUSY =? EAGAIN) = false) by reflexivity. rewrite E in H. injection H as <- <-.
    split; [reflexivity|]. split; [reflexivity|]. split; [discriminate|]. intros o s2 ev2 H2 NC. unfold device_quiesced.
    cbn [set_pending set_quiesced sv_ctx sv_pending sv_quiesced sv_conn sv_realized].
    assert (Qc : cx_quiesce c = true) by (unfold needs_quiesce in Nq; destruct (cx_quiesce c); [reflexivity|discriminate Nq]). rewrite Qc. cbn [negb].
    change (0 =? 0) with true. cbn iota. unfold handle_request in *. unfold set_quiesced, set_pending, set_ctx in *.
    cbn [sv_ctx sv_pending sv_quiesced sv_conn sv_realized mg_hdr mg_body mg_fds] in *.
    destruct (dispatch c (en_or en') (hd_cmd h) body fds) as [[[r c1] f1] e1].
    destruct r as [err rb rf|cr].
    + rewrite (send_ok_reply _ en' h err rb rf S') in H2. rewrite (send_ok_reply _ en' h err rb rf S').
      cbn [set_ctx set_pending set_quiesced sv_ctx sv_pending sv_quiesced sv_conn sv_realized] in *.
      injection H2 as <- <- <-. reflexivity.
    + injection H2 as <- <- <-. now destruct (NC cr).
  - exfalso. destruct (handle_request (mk_server c PNone q true true) en (mk_msg h body fds)) as [[[o2 s2] f2] e2] eqn:Hr.
    unfold handle_request in Hr. cbn [sv_ctx mg_hdr mg_body mg_fds] in Hr.
    destruct (dispatch c (en_or en) (hd_cmd h) body fds) as [[[r c1] f1] e1]. destruct r as [err rb rf|cr].
    + rewrite (send_ok_reply _ en h err rb rf S) in Hr. injection Hr as <- <- <- <-. discriminate H.
    + injection Hr as <- <- <- <-. discriminate H.
Qed.
Print Assumptions C25_async_like_sync.

Definition ex_unmap_hdr (id : N) : header := mk_header id 3 40 0 0.
Definition ex_unmap_body : list N := le_bytes 4 24 ++ le_bytes 4 0 ++ le_bytes 8 65536 ++ le_bytes 8 65536.
Definition ex_unmap (id : N) (q : option N) : env := mk_senv (RxMsg (ex_unmap_hdr id) [] (inr ex_unmap_body)) ex_or q None None None.
Example C25_case : let s1 := snd (fst (sv_step (ex_busy true) (SRun (ex_unmap 3 (Some EBUSY))))) in
  sv_pending s1 <> PNone /\ sv_step s1 (SRun (ex_map 4)) = (Err EBUSY, s1, []) /\
  sv_step s1 (SQuiesced 0 (ex_unmap 3 None)) =
    (Ok 0, snd (fst (sv_step (ex_busy true) (SRun (ex_unmap 3 None)))), tl (snd (sv_step (ex_busy true) (SRun (ex_unmap 3 None))))) /\
  length (tl (snd (sv_step (ex_busy true) (SRun (ex_unmap 3 None))))) = 4%nat.
Proof. vm_compute. intuition. discriminate. Qed.

(* ---------- C23 *)

(* The claim is false: when vfu_device_quiesced reports a failure for a request, the message is dropped.  The
   client gets no reply and the device is not reset, although the caller is told 0. *)
Theorem C23_refuted : forall s en m errno,
  sv_pending s = PMsg m -> cx_quiesce (sv_ctx s) = true -> errno <> 0 ->
  sv_step s (SQuiesced errno en) = (Ok 0, mk_server (sv_ctx s) PNone false (sv_conn s) (sv_realized s), closes_of (mg_fds m)).
Proof.
  intros s en m errno P Q E. cbn [sv_step]. unfold device_quiesced. rewrite Q, P. apply N.eqb_neq in E. rewrite E. cbn [negb].
  unfold free_msg. now rewrite close_all_spec.
Qed.
Print Assumptions C23_refuted.

Example C23_case : let s1 := snd (fst (sv_step (ex_busy true) (SRun (ex_unmap 3 (Some EBUSY))))) in
  owed s1 = [(3, 3)] /\ cx_quiesce (sv_ctx s1) = true /\
  sv_step s1 (SQuiesced 5 (ex_unmap 3 None)) = (Ok 0, ex_busy true, []) /\ owed (ex_busy true) = [].
Proof. vm_compute. intuition. Qed.

(* What does hold: a quiesce callback that fails at once with an error is reported to the client, the request
   has no effect and the device is not told anything else. *)
Theorem C23_sync_failure_partial : forall s en h fds rbody body e,
  serving s -> en_rx en = RxMsg h fds rbody -> en_send en = None -> valid_hdr h -> payload h rbody body ->
  (stopped s -> allowed_stopped (hd_cmd h)) -> needs_quiesce (sv_ctx s) (hd_cmd h) body = true ->
  en_quiesce en = Some e -> e <> EBUSY ->
  sv_step s (SRun en) = (Ok 0, s, EvQuiesce (Some e) :: error_reply h e ++ closes_of fds).
Proof.
  intros s en h fds rbody body e (R & P & C) X S V B A Nq Q Ne. cbn [sv_step]. rewrite R, P. cbn [negb]. unfold run_iter, get_request. rewrite C, X. cbn [negb].
  rewrite (proj2 (valid_hdr_iff h) V), (payload_recv _ _ _ B). cbn [negb]. rewrite (proj2 (should_exec_iff s _) A), Nq, Q. cbn [negb].
  apply N.eqb_neq in Ne. rewrite Ne. unfold refuse. rewrite (send_ok_reply s en h e [] [] S). cbn [N.eqb ENOMSG Pos.eqb orb]. unfold free_msg, error_reply.
  now rewrite close_all_spec.
Qed.
Print Assumptions C23_sync_failure_partial.
Example C23_sync_case : sv_step (ex_busy true) (SRun (ex_unmap 3 (Some 5))) = (Ok 0, ex_busy true, [EvQuiesce (Some 5); EvReply (mk_reply 3 3 5 [] [])]).
Proof. vm_compute. reflexivity. Qed.

(* ---------- C22 *)

Lemma subseq_refl {A} (l : list A) : subseq l l.
Proof. induction l; [apply ss_nil|apply ss_keep; auto]. Qed.
Lemma subseq_none {A} (l : list A) : subseq [] l.
Proof. induction l; constructor; auto. Qed.
Lemma subseq_app {A} (a b c d : list A) : subseq a b -> subseq c d -> subseq (a ++ c) (b ++ d).
Proof. induction 1; intros; cbn; [assumption|apply ss_skip; auto|apply ss_keep; auto]. Qed.
Lemma subseq_trans {A} (b c : list A) : subseq b c -> forall a, subseq a b -> subseq a c.
Proof.
  induction 1 as [|x b c S IH|x b c S IH]; intros a H.
  - exact H.
  - apply ss_skip. auto.
  - inversion H; subst; [apply ss_skip|apply ss_keep]; auto.
Qed.

Lemma owed_same s s' : sv_pending s' = sv_pending s -> owed s' = owed s.
Proof. unfold owed. now intros ->. Qed.
Lemma owed_none s : sv_pending s = PNone \/ sv_pending s = PReset -> owed s = [].
Proof. unfold owed. now intros [-> | ->]. Qed.

Lemma handled_replies s en m o s' ev : handled s en m o s' ev ->
  replies ev = (if wants_reply (mg_hdr m) && match en_send en with None => true | Some _ => false end then [(hd_id (mg_hdr m), hd_cmd (mg_hdr m))] else []).
Proof.
  intros [err body fds c1 fds' ev1 o1 s1 ev2 D K F R]. destruct (reply_replies _ _ _ _ _ _ _ R eq_refl eq_refl) as (Rp & _).
  rewrite !replies_app, replies_closes, (replies_kind _ _ F), Rp, app_nil_r. reflexivity.
Qed.

Lemma refused_replies s en h rbody e ev0 : refused_with s en h rbody e ev0 -> replies ev0 = [].
Proof. intros []; reflexivity. Qed.

Lemma serving_arrived s en h fds rbody : serving s -> en_rx en = RxMsg h fds rbody ->
  owed s = [] /\ arrived s (SRun en) = if wants_reply h then [(hd_id h, hd_cmd h)] else [].
Proof. intros (R & P & C) X. split; [apply owed_none; auto|]. unfold arrived. now rewrite R, P, C, X. Qed.

Lemma after_reply_owed s s' : sv_pending s = PNone ->
  (sv_pending s' = sv_pending s \/ (sv_pending s = PNone /\ sv_pending s' = PReset /\ cx_quiesce (sv_ctx s) = true)) -> owed s' = [].
Proof. intros P [E|(_ & E & _)]; apply owed_none; [left; congruence|auto]. Qed.

Lemma step_owed s st o s' ev : sinv s -> step_case s st o s' ev ->
  subseq (replies ev ++ owed s') (owed s ++ arrived s st) /\ (answered st -> replies ev ++ owed s' = owed s ++ arrived s st).
Proof.
  intros SI H.
  assert (EQ : replies ev ++ owed s' = owed s ++ arrived s st ->
    subseq (replies ev ++ owed s') (owed s ++ arrived s st) /\ (answered st -> replies ev ++ owed s' = owed s ++ arrived s st)).
  { intros ->. split; [apply subseq_refl|reflexivity]. }
  destruct H.
  - apply EQ. unfold arrived. rewrite H. now rewrite app_nil_r.
  - apply EQ. unfold arrived. rewrite H. destruct (sv_pending s); [congruence|now rewrite app_nil_r..].
  - apply EQ. unfold arrived. rewrite H, H0, H1. now rewrite app_nil_r.
  - apply EQ. destruct H as (R & P & C). unfold arrived. rewrite R, P, C, H0. now rewrite app_nil_r.
  - apply EQ. destruct H as (R & P & C). unfold arrived. rewrite R, P, C, H0, app_nil_r, (owed_none s) by auto.
    destruct (e' =? EBUSY); [reflexivity|]. now rewrite (owed_none s) by auto.
  - apply EQ. destruct H as (R & P & C). unfold arrived. rewrite R, P, C, H0, app_nil_r, (owed_none s) by auto.
    rewrite replies_app, replies_lost, quiesce_call_replies. destruct H3 as (_ & _ & _ & _ & Pp & _). apply owed_none. left. congruence.
  - destruct (serving_arrived _ _ _ _ _ H H0) as [O A]. rewrite O, A.
    destruct (reply_replies _ _ _ _ _ _ _ H2 eq_refl eq_refl) as (Rp & _ & _ & P). destruct H as (R & Pn & C).
    rewrite (after_reply_owed s s' Pn P), app_nil_r, !replies_app, replies_closes, (refused_replies _ _ _ _ _ _ H1), Rp, app_nil_r. cbn [app].
    split; [|intros S; rewrite S, andb_true_r; reflexivity].
    destruct (wants_reply h); [|apply subseq_refl]. destruct (en_send en); [apply subseq_none|apply subseq_refl].
  - destruct (serving_arrived _ _ _ _ _ H H0) as [O A]. apply EQ. rewrite O, A. reflexivity.
  - destruct (serving_arrived _ _ _ _ _ H H0) as [O A]. rewrite O, A. pose proof (handled_replies _ _ _ _ _ _ H3) as Rp.
    destruct (handled_kept _ _ _ _ _ _ H3) as (_ & _ & _ & P). destruct H as (R & Pn & C).
    assert (Ow : owed (set_quiesced s' false) = []) by (change (owed (set_quiesced s' false)) with (owed s'); exact (after_reply_owed (set_quiesced s q) s' Pn P)).
    rewrite Ow, app_nil_r, replies_app, Rp. cbn [mg_hdr]. assert (Rq : replies (if q then [EvQuiesce None] else []) = []) by (destruct q; reflexivity).
    rewrite Rq. cbn [app]. split; [|intros S; rewrite S, andb_true_r; reflexivity].
    destruct (wants_reply h); [|apply subseq_refl]. destruct (en_send en); [apply subseq_none|apply subseq_refl].
  - apply EQ. cbn [arrived]. now rewrite app_nil_r.
  - cbn [arrived]. rewrite app_nil_r. change (owed (set_quiesced (set_pending s' PNone) false)) with (@nil (N * N)). rewrite app_nil_r.
    rewrite (handled_replies _ _ _ _ _ _ H1). unfold owed. rewrite H. split; [|intros (S & _); rewrite S, andb_true_r; reflexivity].
    destruct (wants_reply (mg_hdr m)); [|apply subseq_refl]. destruct (en_send en); [apply subseq_none|apply subseq_refl].
  - apply EQ. cbn [arrived]. rewrite replies_lost, (owed_none s) by auto. reflexivity.
  - cbn [arrived]. rewrite app_nil_r. change (owed (set_quiesced (set_pending s PNone) false)) with (@nil (N * N)). rewrite app_nil_r.
    assert (Rp : replies (match sv_pending s with PMsg m => closes_of (mg_fds m) | _ => [] end) = []) by (destruct (sv_pending s); rewrite ?replies_closes; reflexivity).
    rewrite Rp. split; [apply subseq_none|]. intros (_ & Q). congruence.
  - apply EQ. cbn [arrived]. now rewrite app_nil_r.
  - apply EQ. cbn [arrived]. now rewrite app_nil_r.
  - apply EQ. cbn [arrived]. now rewrite app_nil_r.
  - apply EQ. cbn [arrived]. now rewrite app_nil_r.
  - apply EQ. cbn [arrived]. rewrite app_nil_r. unfold dev_hint. destruct (cx_dma (sv_ctx s)); reflexivity.
  - apply EQ. cbn [arrived]. rewrite app_nil_r. rewrite replies_none; [reflexivity|]. intros e I. destruct (H e I) as (fd & ->). exact Logic.I.
  - apply EQ. cbn [arrived]. now rewrite app_nil_r.
Qed.

(* The replies of any history, followed by the one still owed, are a subsequence of the requests that ask for one,
   in the order in which they were received, each with the id and the command of its request. *)
Theorem C22_at_most_once : forall s l s' arr ev, reachable s -> history s l s' arr ev ->
  subseq (replies ev ++ owed s') (owed s ++ arr).
Proof.
  intros s l s' arr ev Rc H. pose proof (reachable_sinv _ Rc) as SI. clear Rc.
  induction H as [s|s st o s1 ev1 l s2 arr ev2 H NC T IH]; [rewrite app_nil_r; apply subseq_refl|].
  pose proof (step_cases _ _ _ _ _ SI H NC) as SC. destruct (step_kept _ _ _ _ _ SI SC) as [_ SI1]. specialize (IH SI1).
  destruct (step_owed _ _ _ _ _ SI SC) as [S _]. rewrite replies_app, <- app_assoc.
  eapply subseq_trans; [|apply subseq_app; [apply subseq_refl|exact IH]]. rewrite !app_assoc. apply subseq_app; [exact S|apply subseq_refl].
Qed.
Print Assumptions C22_at_most_once.

(* Missing for the whole property: C23_refuted, a request whose quiesce fails asynchronously is not answered. *)
Theorem C22_every_request_answered_partial : forall s l s' arr ev, reachable s -> history s l s' arr ev -> Forall answered l ->
  replies ev ++ owed s' = owed s ++ arr.
Proof.
  intros s l s' arr ev Rc H. pose proof (reachable_sinv _ Rc) as SI. clear Rc.
  induction H as [s|s st o s1 ev1 l s2 arr ev2 H NC T IH]; intros F; [rewrite app_nil_r; reflexivity|]. inversion_clear F as [|? ? A F'].
  pose proof (step_cases _ _ _ _ _ SI H NC) as SC. destruct (step_kept _ _ _ _ _ SI SC) as [_ SI1]. specialize (IH SI1 F').
  destruct (step_owed _ _ _ _ _ SI SC) as [_ S]. rewrite replies_app, <- app_assoc, IH, app_assoc, (S A). now rewrite app_assoc.
Qed.
Print Assumptions C22_every_request_answered_partial.

(* a history with an asynchronous quiesce, a request refused and one that asks for no reply *)
Definition C22_steps : list step :=
  [SRun (ex_unmap 3 (Some EBUSY)); SRun (ex_map 4); SQuiesced 0 (ex_unmap 3 None); SRun (ex_env (RxMsg (mk_header 5 2 48 17 0) [6%Z] (inr ex_map_body)));
   SRun (ex_env (RxMsg (mk_header 6 2 48 16 0) [7%Z] (inr ex_map_body))); SRun (ex_unmap 7 (Some 5)); SRun (ex_env (RxMsg (mk_header 8 99 17 0 0) [7%Z] (inr [1]))) ].
Example C22_case : exists s' arr ev, history (ex_busy true) C22_steps s' arr ev /\ Forall answered C22_steps /\
  replies ev = [(3, 3); (7, 3); (8, 99)] /\ arr = [(3, 3); (7, 3); (8, 99)].
Proof.
  do 3 eexists. split; [repeat (eapply h_cons; [vm_compute; reflexivity|discriminate|]); apply h_nil|].
  split; [repeat constructor|]. split; vm_compute; reflexivity.
Qed.

(* ---------- C28 *)

Lemma loss_after s s' lost : loss_post s s' lost -> sv_quiesced s' = false -> after_loss s s' lost.
Proof. intros (A & B & C & D & _) Q. unfold after_loss. auto. Qed.

(* Reading from the socket finds the client gone. *)
Theorem C28_disconnect : forall s en e, reachable s -> serving s -> en_rx en = RxErr e -> conn_lost e -> quiesces s en ->
  exists s', sv_step s (SRun en) = (Err ENOTCONN, s', quiesce_call s ++ lost_events s) /\ after_loss s s' (en_lost en) /\ sv_pending s' = PNone.
Proof.
  intros s en e Rc SV X CL Q. pose proof (reachable_sinv _ Rc) as SI. pose proof SI as (I & Q0 & _). pose proof SV as (R & P & C).
  destruct (reset_ctx_spec s (en_quiesce_reset en) (en_lost en) I) as [(e' & Qe & Qq & Qp & Rs)|(s1 & Qe & Rs & Po)].
  { rewrite (Q Qq) in Qe. discriminate Qe. }
  exists s1. cbn [sv_step]. rewrite R, P. cbn [negb]. unfold run_iter, get_request. rewrite C, X. cbn [negb].
  assert (E : (e =? ENOMSG) || (e =? ECONNRESET) = true) by (unfold conn_lost in CL; lia). rewrite E, Rs, P. split; [reflexivity|].
  assert (Pq : sv_pending s1 = sv_pending s /\ sv_quiesced s1 = sv_quiesced s) by (destruct Po as (_ & _ & _ & _ & A & B & _); auto). destruct Pq as [Pp Pq].
  split; [apply loss_after; [exact Po|congruence]|congruence].
Qed.
Print Assumptions C28_disconnect.

(* The device quiesces later. *)
Theorem C28_disconnect_async : forall s en, reachable s -> sv_pending s = PReset ->
  exists s', sv_step s (SQuiesced 0 en) = (Ok 0, s', lost_events s) /\ after_loss s s' (en_lost en) /\ sv_pending s' = PNone.
Proof.
  intros s en Rc P. pose proof (reachable_sinv _ Rc) as (I & Q0 & PQ).
  assert (Qc : cx_quiesce (sv_ctx s) = true) by (apply PQ; congruence).
  destruct (reset_quiesced_spec (set_quiesced s true) (en_lost en) I) as (s1 & Rs & Po).
  cbn [sv_step]. unfold device_quiesced. rewrite Qc, P. cbn [negb]. change (0 =? 0) with true. cbn iota. rewrite Rs. eexists. split; [reflexivity|]. split; [|reflexivity].
  destruct Po as (A & B & C & D & _). unfold after_loss. auto.
Qed.
Print Assumptions C28_disconnect_async.

Example C28_async_case : exists s', sv_step (ex_busy true) (SRun (mk_senv (RxErr ENOMSG) ex_or None None (Some EBUSY) None)) = (Err EBUSY, s', [EvQuiesce (Some EBUSY)]) /\
  sv_pending s' = PReset /\ lost_events s' = lost_events (ex_busy true).
Proof. eexists. vm_compute. auto. Qed.

Example C28_case : exists r, regions_of (ex_busy true) = [r] /\ lost_events (ex_busy true) =
  [EvUnregister (rg_info r); EvMunmap 8192000 65536; EvClose 5; EvReset ResetLostConn; EvClose 9; EvDetach].
Proof. eexists. vm_compute. split; reflexivity. Qed.

(* Sending the reply finds the client gone. *)
Lemma reply_lost s en h r o s' ev e : reply_case s en h r o s' ev -> wants_reply h = true -> en_send en = Some e -> conn_lost e ->
  (cx_quiesce (sv_ctx s) = true -> sv_pending s = PNone -> en_quiesce_reset en = None) ->
  o = Ok tt /\ loss_post s s' (en_lost en) /\ ev = (match sv_pending s with PNone => quiesce_call s | _ => [] end) ++ lost_events s.
Proof.
  intros [W|W S|e1 W S E|e1 e' W S E Q P Qr|e1 s1 W S E Q P] W' S' CL Qq; try congruence; auto.
  rewrite (Qq Q P) in Qr. discriminate Qr.
Qed.

(* The state the context is in when the loss is noticed: that at the beginning of the step, or that after the request. *)
Definition at_loss (s s1 : server) : Prop :=
  sv_ctx s1 = sv_ctx s \/ exists o cmd body fds r fds' ev, dispatch (sv_ctx s) o cmd body fds = (r, sv_ctx s1, fds', ev).

Theorem C28_reply_fails : forall s en h fds rbody e o s' ev, reachable s -> serving s -> en_rx en = RxMsg h fds rbody ->
  wants_reply h = true -> en_send en = Some e -> conn_lost e -> quiesces s en -> en_quiesce en <> Some EBUSY ->
  sv_step s (SRun en) = (o, s', ev) -> (forall c, o <> Crash c) ->
  exists s1 pre post, at_loss s s1 /\ ev = pre ++ quiesce_call s ++ lost_events s1 ++ post /\ after_loss s1 s' (en_lost en) /\ sv_pending s' = PNone.
Proof.
  intros s en h fds rbody e o s' ev Rc SV X W S CL Q NB H NC. pose proof (reachable_sinv _ Rc) as SI. pose proof (step_cases _ _ _ _ _ SI H NC) as SC.
  pose proof SV as (R & P & C). pose proof SI as (_ & Q0 & _).
  inversion SC; subst; try congruence.
  - rewrite X in H2. injection H2 as <- <- <-. destruct (reply_lost _ _ _ _ _ _ _ e H4 W S CL (fun A _ => Q A)) as (-> & L & ->). rewrite P.
    exists s, ev0, (closes_of fds). split; [left; reflexivity|]. split; [rewrite !app_assoc; reflexivity|].
    assert (Pq : sv_pending s' = sv_pending s /\ sv_quiesced s' = sv_quiesced s) by (destruct L as (_ & _ & _ & _ & A & B & _); auto). destruct Pq.
    split; [apply loss_after; [exact L|congruence]|congruence].
  - rewrite X in H2. injection H2 as <- <- <-. inversion H5 as [err body0 fds0 c1 fds' evd o1 s2 evr D K F RC]; subst. cbn [mg_hdr mg_body mg_fds] in *.
    assert (Qe : cx_quiesce (sv_ctx (set_ctx (set_quiesced s q) c1)) = cx_quiesce (sv_ctx s)).
    { destruct (dispatch_shape _ _ _ _ _ _ _ _ _ D) as ((_ & A & _) & _). exact A. }
    destruct (reply_lost _ _ _ _ _ _ _ e RC W S CL) as (-> & L & ->); [intros A _; apply Q; congruence|].
    exists (set_ctx (set_quiesced s q) c1), ((if q then [EvQuiesce None] else []) ++ evd), (closes_of fds').
    split; [right; exists (en_or en), (hd_cmd h), body, fds, (HReply err body0 fds0), fds', evd; exact D|].
    change (sv_pending (set_ctx (set_quiesced s q) c1)) with (sv_pending s) in *. rewrite P.
    split; [unfold quiesce_call; rewrite Qe, !app_assoc; reflexivity|].
    destruct L as (A1 & A2 & A3 & A4 & A5 & _). unfold after_loss. cbn [set_quiesced sv_conn sv_quiesced sv_pending sv_ctx] in *.
    split; [auto 6|]. rewrite A5. exact P.
Qed.
Print Assumptions C28_reply_fails.

Theorem C28_reply_fails_async : forall s en m e o s' ev, reachable s -> sv_pending s = PMsg m ->
  wants_reply (mg_hdr m) = true -> en_send en = Some e -> conn_lost e ->
  sv_step s (SQuiesced 0 en) = (o, s', ev) -> (forall c, o <> Crash c) ->
  exists s1 pre post, at_loss s s1 /\ ev = pre ++ lost_events s1 ++ post /\ after_loss s1 s' (en_lost en) /\ sv_pending s' = PNone.
Proof.
  intros s en m e o s' ev Rc P W S CL H NC. pose proof (reachable_sinv _ Rc) as SI. pose proof (step_cases _ _ _ _ _ SI H NC) as SC.
  pose proof SI as (_ & Q0 & PQ). assert (Qc : cx_quiesce (sv_ctx s) = true) by (apply PQ; congruence).
  inversion SC; subst; try congruence; [intuition congruence|].
  rewrite P in H1. injection H1 as <-. inversion H3 as [err body fds c1 fds' ev1 o1 s2 evr D K F RC]; subst.
  destruct (reply_lost _ _ _ _ _ _ _ e RC W S CL) as (-> & L & ->).
  { change (sv_pending (set_ctx (set_quiesced s true) c1)) with (sv_pending s). congruence. }
  exists (set_ctx (set_quiesced s true) c1), ev1, (closes_of fds').
  split; [right; exists (en_or en), (hd_cmd (mg_hdr m)), (mg_body m), (mg_fds m), (HReply err body fds), fds', ev1; exact D|].
  change (sv_pending (set_ctx (set_quiesced s true) c1)) with (sv_pending s). rewrite P. split; [cbn [app]; rewrite !app_assoc; reflexivity|].
  destruct L as (A1 & A2 & A3 & A4 & A5 & _). unfold after_loss. cbn [set_quiesced set_pending sv_conn sv_quiesced sv_pending sv_ctx] in *. auto 6.
Qed.
Print Assumptions C28_reply_fails_async.

Definition ex_unmap_lost (id : N) (q : option N) : env := mk_senv (RxMsg (ex_unmap_hdr id) [] (inr ex_unmap_body)) ex_or q (Some ECONNRESET) None None.
Example C28_reply_case :
  map (fun e => match e with EvQuiesce _ => 1 | EvUnregister _ => 2 | EvMunmap _ _ => 3 | EvClose 5 => 4 | EvClose 9 => 5 | EvReset ResetLostConn => 6 | EvDetach => 7 | _ => 0 end)
      (snd (sv_step (ex_busy true) (SRun (ex_unmap_lost 3 None)))) = [1; 2; 3; 4; 1; 6; 5; 7].
Proof. vm_compute. reflexivity. Qed.

(* A new client always finds a clean device. *)
Definition clean (s : server) : Prop :=
  regions_of s = [] /\ (forall fd, In fd (irq_fds s) -> fd = (-1)%Z) /\ sv_pending s = PNone /\ sv_quiesced s = false.

Lemma step_conn s st o s' ev : sinv s -> step_case s st o s' ev -> (sv_conn s = false -> clean s) -> sv_conn s' = false -> clean s'.
Proof.
  intros SI H IC C. pose proof SI as (I & Q0 & _).
  assert (LP : forall a b l p, loss_post a b l -> sv_pending b = p -> p = PNone -> sv_quiesced b = false -> clean b).
  { intros a b l p (A & B & _) Pp -> Q. unfold clean. auto. }
  assert (RC : forall a en h r o1 b ev1, reply_case a en h r o1 b ev1 -> sv_conn b = false -> sv_conn a = true -> exists l, loss_post a b l).
  { intros a en h r o1 b ev1 [W|W S|e1 W S E|e1 e' W S E Q P Qr|e1 s1 W S E Q P] Cb Ca; try congruence; [destruct (e' =? EBUSY); cbn in *; congruence|eauto]. }
  destruct H; try (now apply IC).
  - destruct H as (R & P & C1). destruct (e' =? EBUSY); cbn [set_pending sv_conn] in C; congruence.
  - destruct H as (R & P & C1). pose proof H3 as (_ & _ & _ & _ & Pp & Pq & _). eapply LP; [exact H3|exact Pp|congruence|congruence].
  - destruct H as (R & P & C1). destruct (RC _ _ _ _ _ _ _ H2 C C1) as (l & L). pose proof L as (_ & _ & _ & _ & Pp & Pq & _). eapply LP; [exact L|exact Pp|congruence|congruence].
  - destruct H as (R & P & C1). cbn in C. congruence.
  - destruct H as (R & P & C1). inversion H3 as [err body0 fds0 c1 fds' evd o1 s2 evr D K F RC1]; subst. change (sv_conn (set_quiesced s' false)) with (sv_conn s') in C. destruct (RC _ _ _ _ _ _ _ RC1 C C1) as (l & L).
    destruct L as (A & B & _ & _ & Pp & _). unfold clean. cbn [set_quiesced set_ctx sv_pending sv_quiesced] in *. split; [exact A|]. split; [exact B|]. split; [congruence|reflexivity].
  - destruct (sv_conn s) eqn:C1; [|destruct (IC eq_refl) as (_ & _ & A & _); congruence].
    inversion H1 as [err body0 fds0 c1 fds' evd o1 s2 evr D K F RC1]; subst. change (sv_conn (set_quiesced (set_pending s' PNone) false)) with (sv_conn s') in C. destruct (RC _ _ _ _ _ _ _ RC1 C C1) as (l & L).
    destruct L as (A & B & _ & _ & Pp & _). unfold clean. split; [exact A|]. split; [exact B|]. split; reflexivity.
  - destruct H1 as (A & B & _). unfold clean. split; [exact A|]. split; [exact B|]. split; reflexivity.
  - destruct (IC C) as (_ & _ & A & _). congruence.
  - destruct (IC C) as (A & B & P & Q). unfold regions_of in A. rewrite H in A.
    assert (L : length (dm_regions d') = length (dm_regions d)). { destruct (sgl_mark_dirty_inv _ _ _ (ci_dma _ I d H) H0) as (_ & G & _). clear - G. induction G; cbn; congruence. }
    rewrite A in L. unfold clean, regions_of. cbn [set_ctx sv_ctx set_dma cx_dma sv_pending sv_quiesced]. split; [destruct (dm_regions d'); [reflexivity|discriminate L]|].
    split; [exact B|]. auto.
  - assert (C1 : sv_conn s = false) by (unfold dev_hint in C; destruct (cx_dma (sv_ctx s)); exact C). destruct (IC C1) as (A & B & P & Q).
    unfold dev_hint. destruct (cx_dma (sv_ctx s)) as [d|] eqn:D; [|unfold clean; auto]. unfold clean, regions_of in *. rewrite D in A. cbn [set_ctx sv_ctx set_dma cx_dma sv_pending sv_quiesced]. auto.
Qed.

Theorem C28_next_client_clean : forall s, reachable s -> sv_conn s = false -> clean s.
Proof.
  intros s (s0 & l & arr & ev & F & H). pose proof (fresh_sinv _ F) as SI.
  assert (C0 : sv_conn s0 = false -> clean s0).
  { intros _. destruct F as ((D & T & _) & P & Q & _). unfold clean, regions_of, irq_fds. rewrite T. split; [destruct D as [-> | ->]; reflexivity|].
    split; [|auto]. intros fd [<-|[<-|J]]; [reflexivity..|]. exact (repeat_spec _ _ _ J). }
  clear F. induction H as [s|s st o s1 ev1 l s2 arr ev2 H NC T IH]; [exact C0|].
  pose proof (step_cases _ _ _ _ _ SI H NC) as SC. apply IH; [exact (proj2 (step_kept _ _ _ _ _ SI SC))|]. exact (step_conn _ _ _ _ _ SI SC C0).
Qed.
Print Assumptions C28_next_client_clean.

Lemma history_snoc s l s1 arr ev st o s2 ev2 : history s l s1 arr ev -> sv_step s1 st = (o, s2, ev2) -> (forall c, o <> Crash c) ->
  exists arr', history s (l ++ [st]) s2 arr' (ev ++ ev2).
Proof.
  intros H S NC. induction H as [s|s st1 o1 s1 ev1 l s3 arr ev3 H1 NC1 T IH].
  - eexists. cbn [app]. rewrite <- (app_nil_r ev2). eapply h_cons; [exact S|exact NC|constructor].
  - destruct (IH S) as (arr' & H). eexists. rewrite <- app_assoc. cbn [app]. eapply h_cons; [exact H1|exact NC1|exact H].
Qed.
Lemma reachable_step s st o s' ev : reachable s -> sv_step s st = (o, s', ev) -> (forall c, o <> Crash c) -> reachable s'.
Proof. intros (s0 & l & arr & ev0 & F & H) S NC. destruct (history_snoc _ _ _ _ _ _ _ _ _ H S NC) as (arr' & H'). exists s0, (l ++ [st]), arr', (ev0 ++ ev). auto. Qed.

Example C28_next_case : let s := snd (fst (sv_step (ex_busy true) (SRun (ex_unmap_lost 3 None)))) in reachable s /\ sv_conn s = false /\ regions_of (ex_busy true) <> [].
Proof.
  cbn zeta. split; [|vm_compute; intuition; discriminate].
  destruct (sv_step (ex_busy true) (SRun (ex_unmap_lost 3 None))) as [[o s'] ev] eqn:S. apply (reachable_step _ _ _ _ _ (ex_busy_reachable true) S).
  assert (E : fst (fst (sv_step (ex_busy true) (SRun (ex_unmap_lost 3 None)))) = Ok 1) by (vm_compute; reflexivity). rewrite S in E. cbn in E. rewrite E. discriminate.
Qed.

(* ---------- C29 *)

Theorem C29_receive : forall blocking s en ens e, reachable s -> serving s -> en_rx en = RxErr e -> conn_lost e -> quiesces s en ->
  exists s' ev, run_ctx blocking s (en :: ens) = (Returned (Err ENOTCONN), s', ev) /\ after_loss s s' (en_lost en).
Proof.
  intros blocking s en ens e Rc SV X CL Q. destruct (C28_disconnect s en e Rc SV X CL Q) as (s' & H & A & _). destruct SV as (R & P & C).
  cbn [sv_step] in H. rewrite R, P in H. cbn [negb] in H. unfold run_ctx. rewrite R. cbn [negb run_loop]. rewrite P, H. eauto.
Qed.
Print Assumptions C29_receive.

Theorem C29_no_client : forall blocking s en ens, reachable s -> sv_realized s = true -> sv_conn s = false ->
  run_ctx blocking s (en :: ens) = (Returned (Err ENOTCONN), s, []).
Proof.
  intros blocking s en ens Rc R C. destruct (C28_next_client_clean s Rc C) as (_ & _ & P & _). unfold run_ctx. rewrite R. cbn [negb run_loop]. rewrite P.
  unfold run_iter, get_request. rewrite C. reflexivity.
Qed.
Print Assumptions C29_no_client.

Lemma reply_conn s en h r o s' ev : reply_case s en h r o s' ev -> sv_conn s = true -> sv_conn s' = false -> o = Ok tt.
Proof.
  intros [W|W S|e1 W S E|e1 e' W S E Q P Qr|e1 s1 W S E Q P] C C'; try reflexivity; [congruence|]. destruct (e' =? EBUSY); cbn in C'; congruence.
Qed.

(* A blocking vfu_run_ctx that returns with the connection gone, however that was noticed, returns ENOTCONN. *)
Theorem C29_blocking_partial : forall s ens o s' ev, reachable s -> run_ctx true s ens = (Returned o, s', ev) ->
  sv_realized s = true -> sv_conn s' = false -> (forall c, o <> Crash c) -> o = Err ENOTCONN.
Proof.
  intros s ens o s' ev Rc H R C NC. unfold run_ctx in H. rewrite R in H. cbn [negb] in H.
  remember 0 as n eqn:En. clear En. revert s n ev Rc H R. induction ens as [|en ens IH]; intros s n ev Rc H R; cbn [run_loop] in H.
  - destruct (sv_pending s) eqn:P; [discriminate H|..]; injection H as <- <- <-; destruct (C28_next_client_clean s Rc C) as (_ & _ & A & _); congruence.
  - destruct (sv_pending s) eqn:P; [|injection H as <- <- <-; destruct (C28_next_client_clean s Rc C) as (_ & _ & A & _); congruence..].
    destruct (run_iter s en) as [[o1 s1] ev1] eqn:I.
    assert (S : sv_step s (SRun en) = (o1, s1, ev1)) by (cbn [sv_step]; rewrite R, P; exact I).
    assert (NC1 : forall c, o1 <> Crash c) by (intros c ->; injection H as <- <- <-; now destruct (NC c)).
    pose proof (reachable_step _ _ _ _ _ Rc S NC1) as Rc1. pose proof (reachable_sinv _ Rc) as SI. pose proof (step_cases _ _ _ _ _ SI S NC1) as SC.
    destruct o1 as [k|e|c]; [| |now destruct (NC1 c)].
    + destruct (run_loop true s1 ens (n + k)) as [[r2 s2] ev2] eqn:L. injection H as -> -> <-. eapply IH; [exact Rc1|exact L|].
      destruct (step_kept _ _ _ _ _ SI SC) as [K _]. rewrite (k_real _ _ K). exact R.
    + injection H as <- <- <-. inversion SC; subst; try congruence; match goal with V : serving _ |- _ => destruct V as (_ & _ & C1) end; try congruence.
      * destruct (e' =? EBUSY); cbn in C; congruence.
      * match goal with Q : match _ with _ => _ end = Err _, RC : reply_case _ _ _ _ _ _ _ |- _ => rewrite (reply_conn _ _ _ _ _ _ _ RC C1 C) in Q; discriminate Q end.
      * cbn in C. congruence.
      * match goal with Q : handled _ _ _ _ _ _ |- _ => inversion Q as [err body0 fds0 c1 fds' evd o3 s3 evr D K F RC]; subst end.
        match goal with Q : match _ with _ => _ end = Err _ |- _ => rewrite (reply_conn _ _ _ _ _ _ _ RC C1 C) in Q; discriminate Q end.
Qed.
Print Assumptions C29_blocking_partial.

(* The claim is false otherwise.  Non-blocking: the reply could not be sent, the context has been reset and
   detached, and vfu_run_ctx reports one request processed. *)
Theorem C29_reply_refuted : exists s en s' ev, reachable s /\ serving s /\ en_send en = Some ECONNRESET /\
  run_ctx false s [en] = (Returned (Ok 1), s', ev) /\ sv_conn s' = false /\ In EvDetach ev.
Proof.
  exists (ex_busy true), (ex_unmap_lost 3 None). do 2 eexists. split; [apply ex_busy_reachable|]. split; [apply ex_busy_state|]. split; [reflexivity|].
  split; [vm_compute; reflexivity|]. split; [reflexivity|]. cbn. auto 12.
Qed.
Print Assumptions C29_reply_refuted.

(* The client goes away between header and body: neither ENOTCONN nor a reset. *)
Theorem C29_body_refuted : exists s en h fds, reachable s /\ serving s /\ en_rx en = RxMsg h fds (inl ECONNRESET) /\ valid_hdr h /\
  run_ctx false s [en] = (Returned (Ok 0), s, error_reply h ECONNRESET ++ closes_of fds).
Proof.
  exists (ex_busy true), (ex_env (RxMsg (ex_map_hdr 3) [6%Z] (inl ECONNRESET))), (ex_map_hdr 3), [6%Z]. split; [apply ex_busy_reachable|]. split; [apply ex_busy_state|].
  split; [reflexivity|]. split; [unfold valid_hdr; cbn; intuition; discriminate|]. vm_compute. reflexivity.
Qed.
Print Assumptions C29_body_refuted.

Example C29_case : exists s' ev, run_ctx true (ex_busy true) [ex_unmap_lost 3 None; ex_map 4] = (Returned (Err ENOTCONN), s', ev) /\ sv_conn s' = false.
Proof. do 2 eexists. vm_compute. split; reflexivity. Qed.
