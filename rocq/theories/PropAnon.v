(* C78: what a request does to the device depends on neither its message id nor on whether a reply is wanted. *)
From Coq Require Import NArith ZArith List Bool Lia ZifyBool ZifyNat ZifyN.
From Verif Require Import Base Types Bytes BytesProofs Spec Dma Dirty DmaOps SpecDma DmaProofs Migr Irq SpecIrq IrqProofs PropIrq Pci Handlers
  SpecHandlers HandlersProofs HandlersDma Server SpecServer ServerProofs PropServer.
Import ListNotations.
Open Scope N_scope.
Ltac Zify.zify_post_hook ::= idtac.

(* Two message headers that differ only in the message id, the error field, and flags other than the type of message (the
   lower four bits).  With b, they also agree on whether a reply is wanted. *)
Definition same_message (b : bool) (h h' : header) : Prop :=
  hd_cmd h = hd_cmd h' /\ hd_size h = hd_size h' /\ hd_flags h mod 16 = hd_flags h' mod 16 /\
  (b = true -> wants_reply h = wants_reply h').

(* The same happens outside, but for such differences in what is received, and replies can be sent. *)
Definition same_rx (b : bool) (x x' : rx) : Prop :=
  match x, x' with
  | RxMsg h fds body, RxMsg h' fds' body' => same_message b h h' /\ fds = fds' /\ body = body'
  | RxErr e, RxErr e' => e = e'
  | _, _ => False
  end.
Definition same_env (b : bool) (en en' : env) : Prop :=
  same_rx b (en_rx en) (en_rx en') /\ en_or en = en_or en' /\ en_quiesce en = en_quiesce en' /\ en_send en = None /\ en_send en' = None /\
  en_quiesce_reset en = en_quiesce_reset en' /\ en_lost en = en_lost en'.
Definition same_step (b : bool) (st st' : step) : Prop :=
  match st, st' with
  | SRun en, SRun en' => same_env b en en'
  | SQuiesced e en, SQuiesced e' en' => e = e' /\ same_env b en en'
  | SRun _, _ | SQuiesced _ _, _ => False
  | _, _ => st = st'
  end.

(* Two servers that are alike, but for such differences in the header of the request that waits for the device. *)
Definition same_waiting (b : bool) (p p' : pending) : Prop :=
  match p, p' with
  | PMsg m, PMsg m' => same_message b (mg_hdr m) (mg_hdr m') /\ mg_body m = mg_body m' /\ mg_fds m = mg_fds m'
  | PMsg _, _ => False
  | _, _ => p = p'
  end.
Definition alike (b : bool) (s s' : server) : Prop :=
  sv_ctx s = sv_ctx s' /\ sv_quiesced s = sv_quiesced s' /\ sv_conn s = sv_conn s' /\ sv_realized s = sv_realized s' /\
  same_waiting b (sv_pending s) (sv_pending s').

(* What happens, without the replies; with b, with the replies, but without their message ids. *)
Definition seen (b : bool) (ev : list event) : list event :=
  flat_map (fun e => match e with EvReply r => if b then [EvReply (mk_reply 0 (rp_cmd r) (rp_error r) (rp_body r) (rp_fds r))] else [] | _ => [e] end) ev.

Lemma seen_app b x y : seen b (x ++ y) = seen b x ++ seen b y.
Proof. apply flat_map_app. Qed.

Lemma valid_same b h h' : same_message b h h' -> is_valid_header h = is_valid_header h'.
Proof.
  intros (C & S & F & _). unfold is_valid_header. rewrite C, S. change F_TYPE_MASK with (N.ones 4). rewrite !N.land_ones. change (2 ^ 4) with 16. now rewrite F.
Qed.

Lemma set_ctx_alike b s s' c : alike b s s' -> alike b (set_ctx s c) (set_ctx s' c).
Proof. intros (A & B & C & D & E). repeat split; auto. Qed.
Lemma set_conn_alike b s s' c : alike b s s' -> alike b (set_conn s c) (set_conn s' c).
Proof. intros (A & B & C & D & E). repeat split; auto. Qed.
Lemma set_quiesced_alike b s s' c : alike b s s' -> alike b (set_quiesced s c) (set_quiesced s' c).
Proof. intros (A & B & C & D & E). repeat split; auto. Qed.
Lemma set_pending_alike b s s' p p' : alike b s s' -> same_waiting b p p' -> alike b (set_pending s p) (set_pending s' p').
Proof. intros (A & B & C & D & E) F. repeat split; auto. Qed.

(* Results that agree. *)
Definition agree {A} (b : bool) (x x' : A * server * list event) : Prop :=
  fst (fst x) = fst (fst x') /\ alike b (snd (fst x)) (snd (fst x')) /\ seen b (snd x) = seen b (snd x').

Lemma reset_quiesced_same b s s' lost : alike b s s' -> agree b (reset_ctx_quiesced s lost) (reset_ctx_quiesced s' lost).
Proof.
  intros A. unfold reset_ctx_quiesced. destruct A as (Ec & R). pose proof (conj Ec R : alike b s s') as A. rewrite <- Ec. clear Ec R.
  destruct (match cx_dma (sv_ctx s) with Some d => _ | None => _ end) as [[ev1|e|cr] c1]; [|now split; [|split; [apply set_ctx_alike|]]..].
  destruct (device_reset c1 lost ResetLostConn) as [[r c2] ev2]. destruct (match cx_irqs c2 with None => _ | Some t => _ end) as [[[u|e|cr] c3] ev3];
    (split; [reflexivity|split; [|reflexivity]]); [apply set_conn_alike, set_ctx_alike, A|apply set_ctx_alike, A|apply set_ctx_alike, A].
Qed.

Lemma reset_same b s s' q lost : alike b s s' -> agree b (reset_ctx s q lost) (reset_ctx s' q lost).
Proof.
  intros A. pose proof (reset_quiesced_same b s s' lost A) as R. unfold reset_ctx. pose proof A as (Ec & _ & _ & _ & Ep). rewrite <- Ec.
  assert (P : match sv_pending s' with PNone => true | _ => false end = match sv_pending s with PNone => true | _ => false end)
    by (unfold same_waiting in Ep; destruct (sv_pending s), (sv_pending s'); auto; try discriminate Ep; destruct Ep).
  rewrite P. destruct (cx_quiesce (sv_ctx s) && _); [|exact R]. destruct q as [e|].
  - split; [reflexivity|split; [|reflexivity]]. cbn [fst snd]. destruct (e =? EBUSY); [apply set_pending_alike; [exact A|reflexivity]|exact A].
  - destruct (reset_ctx_quiesced s lost) as [[r s1] ev], (reset_ctx_quiesced s' lost) as [[r' s1'] ev']. destruct R as (R1 & R2 & R3). cbn [fst snd] in *.
    split; [exact R1|split; [exact R2|]]. cbn [snd]. change (?x :: ?l) with ([x] ++ l). now rewrite !seen_app, R3.
Qed.

Lemma reply_same b s s' en en' h h' err body fds : alike b s s' -> en_send en = None -> en_send en' = None -> same_message b h h' ->
  agree b (do_reply s en h err body fds) (do_reply s' en' h' err body fds) /\ fst (fst (do_reply s en h err body fds)) = Ok tt.
Proof.
  intros A S S' (C & _ & _ & W). unfold do_reply. rewrite S, S', !has_no_reply.
  destruct b; [rewrite <- W by reflexivity|]; destruct (wants_reply h); try destruct (wants_reply h'); cbn [negb];
    (split; [split; [reflexivity|split; [exact A|]]|reflexivity]); cbn [snd seen flat_map rp_cmd rp_error rp_body rp_fds app]; try rewrite C; reflexivity.
Qed.

Lemma refuse_same b s s' en en' h h' fds err : alike b s s' -> en_send en = None -> en_send en' = None -> same_message b h h' ->
  agree b (refuse s en h fds err) (refuse s' en' h' fds err) /\ fst (fst (refuse s en h fds err)) = GotErr ENOMSG.
Proof.
  intros A S S' M. unfold refuse. destruct (reply_same b s s' en en' h h' err [] [] A S S' M) as [(R1 & R2 & R3) R4].
  destruct (do_reply s en h err [] []) as [[o s1] ev], (do_reply s' en' h' err [] []) as [[o' s1'] ev']. cbn [fst snd] in *. subst o o'.
  split; [split; [reflexivity|split; [exact R2|]]|reflexivity]. cbn [snd]. now rewrite !seen_app, R3.
Qed.

Lemma handle_same b s s' en en' m m' : alike b s s' -> en_or en = en_or en' -> en_send en = None -> en_send en' = None ->
  same_waiting b (PMsg m) (PMsg m') ->
  let '(o, s1, fds, ev) := handle_request s en m in let '(o', s1', fds', ev') := handle_request s' en' m' in
  o = o' /\ alike b s1 s1' /\ fds = fds' /\ seen b ev = seen b ev'.
Proof.
  intros A O S S' (M & B & F). unfold handle_request. pose proof M as (C & _). pose proof A as (Ec & _). rewrite <- Ec, <- O, <- B, <- F, <- C.
  destruct (dispatch (sv_ctx s) (en_or en) (hd_cmd (mg_hdr m)) (mg_body m) (mg_fds m)) as [[[r c] fds] ev]. destruct r as [err body rf|cr].
  - destruct (reply_same b (set_ctx s c) (set_ctx s' c) en en' _ _ err body rf (set_ctx_alike _ _ _ c A) S S' M) as [(R1 & R2 & R3) R4].
    destruct (do_reply (set_ctx s c) en _ err body rf) as [[o s1] ev1], (do_reply (set_ctx s' c) en' _ err body rf) as [[o' s1'] ev1']. cbn [fst snd] in *.
    subst. rewrite !seen_app, R3. auto.
  - split; [reflexivity|split; [apply set_ctx_alike, A|auto]].
Qed.

Definition same_got (b : bool) (g g' : got) : Prop := match g, g' with GotMsg m, GotMsg m' => same_waiting b (PMsg m) (PMsg m') | _, _ => g = g' end.

Lemma get_same b s s' en en' : alike b s s' -> same_env b en en' ->
  let '(g, s1, ev) := get_request s en in let '(g', s1', ev') := get_request s' en' in same_got b g g' /\ alike b s1 s1' /\ seen b ev = seen b ev'.
Proof.
  intros A (X & O & Q & S & S' & QR & L). unfold get_request. pose proof A as (Ec & _ & En & _). rewrite <- Ec, <- En.
  destruct (sv_conn s); cbn [negb]; [|repeat split; auto; apply A].
  assert (RF : forall h h' fds e, same_message b h h' -> let '(g, s1, ev) := refuse s en h fds e in let '(g', s1', ev') := refuse s' en' h' fds e in
    same_got b g g' /\ alike b s1 s1' /\ seen b ev = seen b ev').
  { intros h h' fds e M. destruct (refuse_same b s s' en en' h h' fds e A S S' M) as [(R1 & R2 & R3) R4].
    destruct (refuse s en h fds e) as [[g s1] ev], (refuse s' en' h' fds e) as [[g' s1'] ev']. cbn [fst snd] in *. subst. repeat split; auto; apply R2. }
  destruct (en_rx en) as [e|h fds body], (en_rx en') as [e'|h' fds' body']; cbn [same_rx] in X; try contradiction.
  - subst e'. destruct ((e =? ENOMSG) || (e =? ECONNRESET)); [|repeat split; auto; apply A]. rewrite <- QR, <- L.
    destruct (reset_same b s s' (en_quiesce_reset en) (en_lost en) A) as (R1 & R2 & R3).
    destruct (reset_ctx s _ _) as [[o s1] ev], (reset_ctx s' _ _) as [[o' s1'] ev']. cbn [fst snd] in *. subst o'.
    split; [destruct o; reflexivity|auto].
  - destruct X as (M & <- & <-). pose proof M as (C & Z & _). rewrite <- (valid_same _ _ _ M), <- Z, <- C, <- Q.
    destruct (negb (is_valid_header h)); [apply RF, M|]. destruct (if hd_size h =? 16 then _ else _) as [bd|e|cr]; [|apply RF, M|repeat split; auto; apply A].
    destruct (negb (should_exec _ _)); [apply RF, M|]. destruct (needs_quiesce _ _ _).
    + destruct (en_quiesce en) as [e|].
      * destruct (e =? EBUSY).
        -- split; [reflexivity|split; [|reflexivity]]. apply set_pending_alike; [exact A|repeat split; auto; apply M].
        -- pose proof (RF h h' fds e M) as R. destruct (refuse s en h fds e) as [[g s1] ev], (refuse s' en' h' fds e) as [[g' s1'] ev']. destruct R as (R1 & R2 & R3).
           split; [exact R1|split; [exact R2|]]. change (?x :: ?l) with ([x] ++ l). now rewrite !seen_app, R3.
      * split; [repeat split; auto; apply M|split; [apply set_quiesced_alike, A|reflexivity]].
    + split; [repeat split; auto; apply M|split; [exact A|reflexivity]].
Qed.

Lemma iter_same b s s' en en' : alike b s s' -> same_env b en en' -> agree b (run_iter s en) (run_iter s' en').
Proof.
  intros A E. unfold run_iter. pose proof (get_same b s s' en en' A E) as G. pose proof E as (_ & O & _ & S & S' & _).
  destruct (get_request s en) as [[g s1] ev1], (get_request s' en') as [[g' s1'] ev1']. destruct G as (G & A1 & E1).
  destruct g as [m|e|cr], g' as [m'|e'|cr']; cbn [same_got] in G; try discriminate G.
  - pose proof (handle_same b s1 s1' en en' m m' A1 O S S' G) as H. destruct (handle_request s1 en m) as [[[o s2] fds] ev2], (handle_request s1' en' m') as [[[o' s2'] fds'] ev2'].
    destruct H as (<- & A2 & <- & E2). destruct o as [u|e|cr]; (split; [reflexivity|split; [first [apply set_quiesced_alike, A2|exact A2]|]]); cbn [snd];
      rewrite !seen_app; congruence.
  - injection G as <-. split; [reflexivity|split; [exact A1|exact E1]].
  - injection G as <-. split; [reflexivity|split; [exact A1|exact E1]].
Qed.

Lemma quiesced_same b s s' en en' e : alike b s s' -> same_env b en en' -> agree b (device_quiesced s en e) (device_quiesced s' en' e).
Proof.
  intros A E. unfold device_quiesced. pose proof E as (_ & O & _ & S & S' & _ & L). pose proof A as (Ec & _ & _ & _ & Ep). rewrite <- Ec.
  destruct (cx_quiesce (sv_ctx s)); cbn [negb]; [|split; [reflexivity|split; [exact A|reflexivity]]].
  pose proof (set_quiesced_alike b s s' true A) as A1.
  destruct (sv_pending s) as [|m|], (sv_pending s') as [|m'|]; cbn [same_waiting] in Ep; try discriminate Ep; try contradiction.
  - split; [reflexivity|split; [exact A|reflexivity]].
  - destruct (e =? 0).
    + pose proof (handle_same b _ _ en en' m m' A1 O S S' Ep) as H. destruct (handle_request _ en m) as [[[o s2] fds] ev2], (handle_request _ en' m') as [[[o' s2'] fds'] ev2'].
      destruct H as (<- & A2 & <- & E2). destruct o as [u|x|cr]; (split; [reflexivity|split; [first [exact A2|apply set_quiesced_alike, set_pending_alike; [exact A2|reflexivity]]|]]);
        cbn [snd]; rewrite ?seen_app; congruence.
    + destruct Ep as (_ & _ & <-). split; [reflexivity|split; [|reflexivity]]. apply set_quiesced_alike, set_pending_alike; [exact A1|reflexivity].
  - destruct (e =? 0); [|split; [reflexivity|split; [|reflexivity]]; apply set_quiesced_alike, set_pending_alike; [exact A1|reflexivity]].
    destruct (reset_quiesced_same b _ _ (en_lost en) A1) as (R1 & R2 & R3). rewrite <- L.
    destruct (reset_ctx_quiesced (set_quiesced s true) _) as [[o s1] ev], (reset_ctx_quiesced (set_quiesced s' true) _) as [[o' s1'] ev']. cbn [fst snd] in *. subst o'.
    destruct o; (split; [reflexivity|split; [first [exact R2|apply set_quiesced_alike, set_pending_alike; [exact R2|reflexivity]]|exact R3]]).
Qed.

(* One step. *)
Theorem C78_step : forall b s s' st st', alike b s s' -> same_step b st st' ->
  let '(o, s1, ev) := sv_step s st in let '(o', s1', ev') := sv_step s' st' in o = o' /\ alike b s1 s1' /\ seen b ev = seen b ev'.
Proof.
  intros b s s' st st' A E.
  assert (G : agree b (sv_step s st) (sv_step s' st')).
  2:{ destruct (sv_step s st) as [[o s1] ev], (sv_step s' st') as [[o' s1'] ev']. exact G. }
  pose proof A as (Ec & _ & En & Er & Ep).
  destruct st as [en|e en|mx|l|hi|v an|of da], st' as [en'|e' en'|mx'|l'|hi'|v' an'|of' da']; cbn [same_step] in E; try contradiction; try discriminate E; try (injection E as E; subst); cbn [sv_step].
  - rewrite <- Er. destruct (sv_realized s); cbn [negb]; [|split; [reflexivity|split; [exact A|reflexivity]]].
    pose proof (iter_same b s s' en en' A E) as I.
    destruct (sv_pending s) as [|m|], (sv_pending s') as [|m'|]; cbn [same_waiting] in Ep; try discriminate Ep; try contradiction; try exact I; (split; [reflexivity|split; [exact A|reflexivity]]).
  - destruct E as (<- & E). destruct (quiesced_same b s s' en en' e A E) as (R1 & R2 & R3).
    destruct (device_quiesced s en e) as [[o s1] ev], (device_quiesced s' en' e) as [[o' s1'] ev']. cbn [fst snd] in *. subst o'. split; [reflexivity|split; [exact R2|exact R3]].
  - rewrite <- En, <- Ec. destruct (sv_conn s); [split; [reflexivity|split; [exact A|reflexivity]]|]. split; [reflexivity|split; [apply set_conn_alike, set_ctx_alike, A|reflexivity]].
  - unfold dev_mark. rewrite <- Ec. destruct (cx_dma (sv_ctx s)) as [d|]; [|split; [reflexivity|split; [exact A|reflexivity]]].
    destruct (sgl_mark_dirty d l') as [d'|e|cr]; (split; [reflexivity|split; [first [exact A|apply set_ctx_alike, A]|reflexivity]]).
  - unfold dev_hint. rewrite <- Ec. destruct (cx_dma (sv_ctx s)) as [d|]; (split; [reflexivity|split; [first [exact A|apply set_ctx_alike, A]|reflexivity]]).
  - rewrite <- Ec. destruct (cx_irqs (sv_ctx s)) as [t|]; [|split; [reflexivity|split; [exact A|reflexivity]]].
    destruct (irq_trigger t an' v') as [o ev]. split; [reflexivity|split; [exact A|reflexivity]].
  - unfold dev_poke. rewrite <- Ec. destruct (put_slice _ _ da') as [cfg|]; (split; [reflexivity|split; [first [exact A|apply set_ctx_alike, A]|reflexivity]]).
Qed.
Print Assumptions C78_step.

(* Histories: what the calls return, what the device sees and what becomes of the server do not depend on the message ids,
   on flags or on who wants replies (b = false); nor, where the same requests want them, do the replies (b = true). *)
Theorem C78_history : forall b s l l', Forall2 (same_step b) l l' ->
  alike b (fst (sv_run s l)) (fst (sv_run s l')) /\
  map fst (snd (sv_run s l)) = map fst (snd (sv_run s l')) /\
  map (fun x => seen b (snd x)) (snd (sv_run s l)) = map (fun x => seen b (snd x)) (snd (sv_run s l')).
Proof.
  intros b s l l' F. assert (A : alike b s s).
  { unfold alike, same_waiting. repeat split. destruct (sv_pending s); repeat split. }
  assert (G : forall s', alike b s s' -> alike b (fst (sv_run s l)) (fst (sv_run s' l')) /\ map fst (snd (sv_run s l)) = map fst (snd (sv_run s' l')) /\
    map (fun x => seen b (snd x)) (snd (sv_run s l)) = map (fun x => seen b (snd x)) (snd (sv_run s' l'))); [|apply G, A].
  clear A. revert s. induction F as [|st st' l l' E F IH]; intros s s' A; [repeat split; auto; apply A|].
  cbn [sv_run]. pose proof (C78_step b s s' st st' A E) as T. destruct (sv_step s st) as [[o s1] ev], (sv_step s' st') as [[o' s1'] ev']. destruct T as (<- & A1 & E1).
  destruct o as [n|e|cr]; [..|split; [exact A1|split; [reflexivity|cbn [snd map]; congruence]]].
  all: destruct (IH s1 s1' A1) as (I1 & I2 & I3); destruct (sv_run s1 l) as [s2 t], (sv_run s1' l') as [s2' t']; cbn [fst snd map] in *;
    split; [exact I1|split; congruence].
Qed.
Print Assumptions C78_history.

(* The history of C22 (a request that waits for the device, requests that are refused, one that is malformed), with other
   message ids, and with nobody wanting a reply. *)
Definition relabel (f : header -> header) (st : step) : step :=
  let env_ en := mk_senv (match en_rx en with RxMsg h fds body => RxMsg (f h) fds body | x => x end) (en_or en) (en_quiesce en) (en_send en) (en_quiesce_reset en) (en_lost en) in
  match st with SRun en => SRun (env_ en) | SQuiesced e en => SQuiesced e (env_ en) | st => st end.
Definition renumber (h : header) : header := mk_header (hd_id h + 100) (hd_cmd h) (hd_size h) (hd_flags h) (hd_error h).
Definition silence (h : header) : header := mk_header (hd_id h + 100) (hd_cmd h) (hd_size h) (hd_flags h mod 16 + 16) 7.
Example C78_case :
  Forall2 (same_step true) C22_steps (map (relabel renumber) C22_steps) /\ Forall2 (same_step false) C22_steps (map (relabel silence) C22_steps) /\
  let ev l := concat (map snd (snd (sv_run (ex_busy true) l))) in
  replies (ev C22_steps) = [(3, 3); (7, 3); (8, 99)] /\ replies (ev (map (relabel renumber) C22_steps)) = [(103, 3); (107, 3); (108, 99)] /\
  replies (ev (map (relabel silence) C22_steps)) = nil /\ ev (map (relabel silence) C22_steps) = seen false (ev C22_steps) /\ length (seen false (ev C22_steps)) = 9%nat.
Proof.
  split; [repeat constructor|]. split; [repeat constructor; discriminate|]. vm_compute. repeat split.
Qed.
