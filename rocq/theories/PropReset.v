(* Property C77: what a client's request to reset the device does, and why a reset callback is ever called. *)
From Coq Require Import NArith ZArith List Bool Lia ZifyBool ZifyNat ZifyN.
From Verif Require Import Base Types Bytes BytesProofs BufProofs Spec Dma Dirty DmaOps SpecDma DmaProofs PropDma Migr SpecMigr Irq SpecIrq Pci Handlers
  SpecHandlers HandlersProofs HandlersDma PropHandlers PropFeature Server SpecServer ServerProofs PropServer SpecMsg ServerDma PropDmaMsg SpecOnly OnlyProofs PropOnly PropQuiesce.
Import ListNotations.
Open Scope N_scope.
Ltac Zify.zify_post_hook ::= idtac.

(* What the device says to a reset: it cannot refuse one it has no callback for. *)
Definition reset_says (c : ctx) (en : env) : cb_answer := if cx_reset c then or_reset (en_or en) 0%nat else None.

(* The server with the migration state (if the device supports migration) back to running (2). *)
Definition running_again (s : server) (s' : server) : Prop :=
  s' = set_ctx s (set_mig (sv_ctx s) (match cx_mig (sv_ctx s) with Some _ => Some 2 | None => None end)).

(* A request to reset the device (command 13, whatever its payload): the device is quiesced if it wants to be, its reset
   callback is called once, with the reason "the client asked", and the client gets one reply without data.  If the
   device accepts, the migration state is running and nothing else has changed; if not, the client is told its error
   and nothing at all has changed. *)
Theorem C77_request : forall s en id body fds, reachable s -> request s en id 13 body fds ->
  let called := (if cx_quiesce (sv_ctx s) then [EvQuiesce None] else []) ++ (if cx_reset (sv_ctx s) then [EvReset ResetDevice] else []) in
  exists s', sv_step s (SRun en) =
    (Ok 1, s', called ++ EvReply (mk_reply id 13 (match reset_says (sv_ctx s) en with None => 0 | Some e => e end) [] []) :: closes_of fds) /\
    match reset_says (sv_ctx s) en with None => running_again s s' | Some _ => s' = s end.
Proof.
  intros s en id body fds RE RQ called.
  assert (Nq : needs_quiesce (sv_ctx s) 13 body = cx_quiesce (sv_ctx s)) by (unfold needs_quiesce; destruct (cx_quiesce (sv_ctx s)); reflexivity).
  assert (D : exists c', dispatch (sv_ctx s) (en_or en) 13 body fds =
    (HReply (match reset_says (sv_ctx s) en with None => 0 | Some e => e end) [] [], c', fds, if cx_reset (sv_ctx s) then [EvReset ResetDevice] else []) /\
    match reset_says (sv_ctx s) en with None => running_again s (set_ctx s c') | Some _ => set_ctx s c' = s end).
  { change (dispatch (sv_ctx s) (en_or en) 13 body fds) with
      (let '(res, c', ev) := device_reset (sv_ctx s) (or_reset (en_or en) 0%nat) ResetDevice in
       (match res with Ok _ => HReply 0 [] [] | Err e => herr e | Crash cr => HCrash cr end, c', fds, ev)).
    unfold device_reset, reset_says, running_again. destruct (cx_reset (sv_ctx s)); [destruct (or_reset (en_or en) 0%nat)|].
    - eexists. split; [reflexivity|]. apply same_ctx.
    - eexists. split; reflexivity.
    - eexists. split; reflexivity. }
  destruct D as (c' & D & P). exists (set_ctx s c'). split; [|exact P].
  rewrite (request_step _ _ _ _ _ _ _ _ _ _ _ _ RE RQ D), Nq. unfold called. now rewrite <- !app_assoc.
Qed.
Print Assumptions C77_request.

(* If the device quiesces only later, nothing happens until then, and then the same as above. *)
Theorem C77_request_later : forall s en en' id body fds, reachable s -> request s en' id 13 body fds -> cx_quiesce (sv_ctx s) = true ->
  en_rx en = en_rx en' -> en_send en = None -> en_quiesce en = Some EBUSY ->
  exists s1 s', sv_step s (SRun en) = (Err EBUSY, s1, [EvQuiesce (Some EBUSY)]) /\ sv_ctx s1 = sv_ctx s /\
  sv_step s1 (SQuiesced 0 en') =
    (Ok 0, s', (if cx_reset (sv_ctx s) then [EvReset ResetDevice] else []) ++
       EvReply (mk_reply id 13 (match reset_says (sv_ctx s) en' with None => 0 | Some e => e end) [] []) :: closes_of fds) /\
    match reset_says (sv_ctx s) en' with None => running_again s s' | Some _ => s' = s end.
Proof.
  intros s en en' id body fds RE RQ Qc X S Q. destruct (C77_request _ _ _ _ _ RE RQ) as (s' & St & P). rewrite Qc in St.
  destruct RQ as [(R & Pn & C) (h & X' & V & W & Hi & Hc & Z) Q' S' (M1 & M3)]. pose proof (eq_trans X X') as Xe.
  assert (H : exists s1, sv_step s (SRun en) = (Err EBUSY, s1, [EvQuiesce (Some EBUSY)])).
  { assert (SE : should_exec (cx_mig (sv_ctx s)) (hd_cmd h) = true).
    { apply should_exec_iff. intros [E|E]; [now destruct M1|now destruct M3]. }
    assert (B : (if hd_size h =? 16 then Ok [] else recv_body (hd_size h - 16) (inr body)) = Ok body).
    { rewrite Z. destruct body as [|b body]; [reflexivity|]. set (l := b :: body). assert (L : N.of_nat (length l) <> 0) by (unfold l; cbn [length]; lia).
      replace (16 + N.of_nat (length l) =? 16) with false by lia. unfold recv_body. replace (16 + N.of_nat (length l) - 16) with (N.of_nat (length l)) by lia.
      rewrite Nat2N.id, firstn_all. replace (N.of_nat (length l) =? 0) with false by lia. rewrite N.eqb_refl. reflexivity. }
    cbn [sv_step]. rewrite R, Pn. cbn [negb]. unfold run_iter, get_request. rewrite C, Xe. cbn [negb]. rewrite (proj2 (valid_hdr_iff h) V). cbn [negb].
    rewrite B, SE, Hc. cbn [negb]. unfold needs_quiesce. rewrite Qc. cbn [negb orb N.eqb CMD_DMA_MAP CMD_DMA_UNMAP CMD_RESET Pos.eqb]. rewrite Q.
    eexists. reflexivity. }
  destruct H as (s1 & H).
  destruct (C25_async_like_sync s en en' h fds (inr body) s1 _ (conj R (conj Pn C)) Xe S Q (eq_sym X) S' Q' H) as (_ & E2 & _ & L).
  exists s1, s'. split; [exact H|]. split; [exact E2|]. split; [|exact P]. cbn [app] in St. exact (L _ _ _ St ltac:(discriminate)).
Qed.
Print Assumptions C77_request_later.

(* A device that cannot be quiesced is not reset: the client is told why. *)
Theorem C77_not_quiesced : forall s en h fds e, serving s -> cx_quiesce (sv_ctx s) = true -> ~ stopped s ->
  en_rx en = RxMsg h fds (inr []) -> valid_hdr h -> hd_cmd h = 13 -> hd_size h = 16 -> wants_reply h = true ->
  en_quiesce en = Some e -> e <> EBUSY -> en_send en = None ->
  sv_step s (SRun en) = (Ok 0, s, EvQuiesce (Some e) :: EvReply (mk_reply (hd_id h) 13 e [] []) :: closes_of fds).
Proof.
  intros s en h fds e (R & P & C) Qc NS X V Hc Hs W Q NB S. cbn [sv_step]. rewrite R, P. cbn [negb]. unfold run_iter, get_request. rewrite C, X. cbn [negb].
  rewrite (proj2 (valid_hdr_iff h) V). rewrite Hs, Hc. change (16 =? 16) with true. cbn [negb].
  assert (E : should_exec (cx_mig (sv_ctx s)) 13 = true) by (apply should_exec_iff; intros St; now destruct NS).
  rewrite E. cbn [negb]. unfold needs_quiesce. rewrite Qc. cbn [negb orb N.eqb CMD_DMA_MAP CMD_DMA_UNMAP CMD_RESET Pos.eqb]. rewrite Q.
  replace (e =? EBUSY) with false by (symmetry; now apply N.eqb_neq). unfold refuse. rewrite (send_ok_reply s en h e [] [] S), W, Hc. unfold free_msg.
  now rewrite close_all_spec.
Qed.
Print Assumptions C77_not_quiesced.

(* After a reset the device accepted, a client that asks is told that the device is running. *)
Theorem C77_then_running : forall s s' o argsz data fds, running_again s s' -> cx_mig (sv_ctx s) <> None -> 16 <= argsz -> argsz < 2 ^ 32 ->
  dispatch (sv_ctx s') o 16 (feature_req argsz (2 ^ 16 + 2) data) fds =
  (HReply 0 (feature_req 16 (2 ^ 16 + 2) (le_bytes 4 2 ++ le_bytes 4 0)) [], sv_ctx s', fds, []).
Proof.
  intros s s' o argsz data fds R M A1 A2.
  assert (M' : cx_mig (sv_ctx s') = Some 2) by (rewrite R; cbn; destruct (cx_mig (sv_ctx s)); [reflexivity|contradiction]).
  rewrite (C54_get (sv_ctx s') o argsz data fds 2 2 A2 M' (or_intror eq_refl)). replace (argsz <? 16) with false by lia. reflexivity.
Qed.
Print Assumptions C77_then_running.

Lemma lost_why s x : In (EvReset x) (lost_events s) -> x = ResetLostConn.
Proof. intros I. apply lost_in in I. now destruct x. Qed.

Lemma reply_why s en h r o s' ev x : reply_case s en h r o s' ev -> In (EvReset x) ev -> x = ResetLostConn /\ In EvDetach ev.
Proof.
  intros [W|W S|e1 W S E|e1 e' W S E Q P Qr|e1 s1 W S E Q P] I; try (destruct I; fail); try (destruct I as [I|[]]; discriminate I).
  apply in_app_or in I. destruct I as [I|I].
  - exfalso. destruct (sv_pending s); [|destruct I..]. unfold quiesce_call in I. destruct (cx_quiesce (sv_ctx s)); [destruct I as [I|[]]; discriminate I|destruct I].
  - split; [now apply lost_why in I|]. apply in_or_app. right. apply detach_lost.
Qed.

Lemma no_reset_close x fds : ~ In (EvReset x) (closes_of fds).
Proof. unfold closes_of. rewrite in_map_iff. intros (fd & E & _). discriminate E. Qed.

Definition asked_for (x : reset_type) (cmd : N) (body : list N) : Prop :=
  match x with
  | ResetDevice => cmd = 13
  | ResetPciFlr => cmd = 10 /\ rd body 8 4 = Some 7
  | ResetLostConn => False
  end.

Lemma handled_why s en m o s' ev x : handled s en m o s' ev -> In (EvReset x) ev ->
  asked_for x (hd_cmd (mg_hdr m)) (mg_body m) \/ (x = ResetLostConn /\ In EvDetach ev).
Proof.
  intros [err body fds c1 fds' ev1 o1 s1 ev2 D K F R] I. apply in_app_or in I. destruct I as [I|I].
  - left. rewrite Forall_forall in F. specialize (F _ I). unfold asked_for. destruct x; cbn in F; [exact F|exact F|]. split; [exact F|].
    rewrite F in D. change (dispatch (sv_ctx s) (en_or en) 10 (mg_body m) (mg_fds m)) with
      (let '(r, c', ev) := handle_region_access (sv_ctx s) (en_or en) true (mg_body m) in (r, c', mg_fds m, ev)) in D.
    destruct (handle_region_access (sv_ctx s) (en_or en) true (mg_body m)) as [[r1 c2] ev3] eqn:A. injection D as -> <- <- <-.
    destruct (access_flr _ _ _ _ _ _ _ _ A I) as (_ & off & count & _ & R2 & _). exact R2.
  - apply in_app_or in I. destruct I as [I|I]; [|now apply no_reset_close in I].
    destruct (reply_why _ _ _ _ _ _ _ _ R I) as (E & J). right. split; [exact E|]. apply in_or_app. right. apply in_or_app. now left.
Qed.

(* A reset callback always has its reason: "the client asked" while the library works on a reset request; "function level
   reset" while it works on a write to configuration space; "connection lost" when it gives up the connection. *)
Theorem C77_reason : forall s st o s' ev x, reachable s -> sv_step s st = (o, s', ev) -> (forall c, o <> Crash c) -> In (EvReset x) ev ->
  match x with
  | ResetDevice => exists body, working_on s st 13 body
  | ResetPciFlr => exists body, working_on s st 10 body /\ rd body 8 4 = Some 7
  | ResetLostConn => In EvDetach ev
  end.
Proof.
  intros s st o s' ev x RE H NC I. pose proof (step_cases _ _ _ _ _ (reachable_sinv _ RE) H NC) as SC.
  assert (L : In EvDetach ev -> x = ResetLostConn -> match x with
    | ResetDevice => exists body, working_on s st 13 body
    | ResetPciFlr => exists body, working_on s st 10 body /\ rd body 8 4 = Some 7
    | ResetLostConn => In EvDetach ev end) by (intros D ->; exact D).
  assert (W : forall cmd body, working_on s st cmd body -> asked_for x cmd body -> match x with
    | ResetDevice => exists body, working_on s st 13 body
    | ResetPciFlr => exists body, working_on s st 10 body /\ rd body 8 4 = Some 7
    | ResetLostConn => In EvDetach ev end).
  { intros cmd body Wo A. destruct x; cbn in A; [subst cmd; eauto|destruct A|destruct A as [-> A]; eauto]. }
  destruct SC; try (destruct I; fail); try (destruct I as [I|[]]; discriminate I).
  - apply in_app_or in I. destruct I as [I|I].
    + unfold quiesce_call in I. destruct (cx_quiesce (sv_ctx s)); [destruct I as [I|[]]; discriminate I|destruct I].
    + apply L; [apply in_or_app; right; apply detach_lost|now apply lost_why in I].
  - apply in_app_or in I. destruct I as [I|I]; [exfalso; destruct H2; cbn [In] in I; intuition discriminate|].
    apply in_app_or in I. destruct I as [I|I]; [|now apply no_reset_close in I]. destruct (reply_why _ _ _ _ _ _ _ _ H3 I) as (E & J).
    apply L; [|exact E]. apply in_or_app. right. apply in_or_app. now left.
  - apply in_app_or in I. destruct I as [I|I]; [destruct q; [destruct I as [I|[]]; discriminate I|destruct I]|].
    destruct (handled_why _ _ _ _ _ _ _ H4 I) as [A|(E & J)]; [|apply L; [apply in_or_app; now right|exact E]].
    cbn [mg_hdr mg_body] in A. eapply W; [|exact A]. rewrite (PropOnly.accepted_body _ _ _ _ H2). now apply wo_received with (fds := fds).
  - destruct (handled_why _ _ _ _ _ _ _ H2 I) as [A|(E & J)]; [|now apply L]. eapply W; [|exact A]. now constructor.
  - apply L; [apply detach_lost|now apply lost_why in I].
  - destruct (sv_pending s); try (destruct I; fail). now apply no_reset_close in I.
  - specialize (H0 _ I). destruct H0 as (fd & E). discriminate E.
Qed.
Print Assumptions C77_reason.

(* A device with a connected client, a mapped region and a bound vector, pre-copying (state 6): a reset request sets it
   running again if the device accepts, and is answered with the device's error if it does not; so it is if the device
   quiesces later, and if it cannot be quiesced it is not reset. *)
Definition ex_reset_env (a : cb_answer) (q : option N) : env :=
  mk_senv (en_rx (ex_ask 13 [] []))
    (mk_oracle ex_os (fun _ => true) [] (fun _ => a) (fun _ => None) (fun _ _ n => AccOk n (zeros (N.to_nat n))) (DataOk 0 []) (fun _ => None)) q None None None.
Definition ex_precopy : server := snd (fst (sv_step (ex_busy true) (SRun (ex_ask 16 (feature_req 16 (2 ^ 17 + 2) (le_bytes 4 6 ++ le_bytes 4 0)) [])))).
Example C77_nonvacuous :
  reachable ex_precopy /\ cx_mig (sv_ctx ex_precopy) = Some 6 /\ request ex_precopy (ex_reset_env None None) 7 13 [] [] /\
  request ex_precopy (ex_reset_env (Some 5) None) 7 13 [] [] /\ cx_quiesce (sv_ctx ex_precopy) = true /\ ~ stopped ex_precopy /\
  (exists s', running_again ex_precopy s' /\ cx_mig (sv_ctx s') = Some 2 /\ sv_step ex_precopy (SRun (ex_reset_env None None)) =
    (Ok 1, s', [EvQuiesce None; EvReset ResetDevice; EvReply (mk_reply 7 13 0 [] [])])) /\
  sv_step ex_precopy (SRun (ex_reset_env (Some 5) None)) =
    (Ok 1, ex_precopy, [EvQuiesce None; EvReset ResetDevice; EvReply (mk_reply 7 13 5 [] [])]) /\
  sv_step ex_precopy (SRun (ex_reset_env None (Some 5))) =
    (Ok 0, ex_precopy, [EvQuiesce (Some 5); EvReply (mk_reply 7 13 5 [] [])]).
Proof.
  split.
  { unfold ex_precopy. destruct (sv_step (ex_busy true) _) as [[o s'] ev] eqn:S. apply (reachable_step _ _ _ _ _ (PropServer.ex_busy_reachable true) S).
    intros c E. assert (Q : fst (fst (sv_step (ex_busy true) (SRun (ex_ask 16 (feature_req 16 (2 ^ 17 + 2) (le_bytes 4 6 ++ le_bytes 4 0)) [])))) = Ok 1) by (vm_compute; reflexivity).
    rewrite S in Q. cbn [fst] in Q. congruence. }
  split; [vm_compute; reflexivity|].
  assert (RQ : forall a, request ex_precopy (ex_reset_env a None) 7 13 [] []).
  { intros a. constructor; try reflexivity.
    - vm_compute. auto.
    - exists (mk_header 7 13 16 0 0). split; [reflexivity|]. split; [|repeat split]. unfold valid_hdr. cbn. repeat split; lia.
    - vm_compute. split; discriminate. }
  split; [apply RQ|]. split; [apply RQ|]. split; [vm_compute; reflexivity|]. split; [intros [E|E]; vm_compute in E; discriminate E|].
  split; [eexists; split; [reflexivity|]; split; vm_compute; reflexivity|]. split; vm_compute; reflexivity.
Qed.
