(* C29: exactly what vfu_run_ctx says about a lost connection. *)
From Coq Require Import NArith ZArith List Bool Lia ZifyBool ZifyNat ZifyN.
From Verif Require Import Base Types Bytes Dma Dirty Irq Migr Pci Handlers SpecHandlers Server SpecServer ServerProofs PropServer.
Import ListNotations.
Open Scope N_scope.
Ltac Zify.zify_post_hook ::= idtac.

(* One call in non-blocking mode, whatever happens during it.  If the connection is gone afterwards, either that was
   noticed while waiting for a request, and the answer is ENOTCONN, or sending a reply failed, and the answer is the
   number of requests processed.  Conversely, ENOTCONN means that the connection is gone, unless it is the error of a
   system call or of the device's quiesce callback itself. *)
Theorem C29_exact : forall s en o s' ev, reachable s -> serving s -> run_ctx false s [en] = (Returned o, s', ev) -> (forall c, o <> Crash c) ->
  (sv_conn s' = false ->
     (o = Err ENOTCONN /\ exists e, en_rx en = RxErr e /\ conn_lost e) \/
     ((o = Ok 0 \/ o = Ok 1) /\ (exists h fds b, en_rx en = RxMsg h fds b /\ wants_reply h = true) /\ exists e, en_send en = Some e /\ conn_lost e)) /\
  (o = Err ENOTCONN ->
     sv_conn s' = false \/ en_rx en = RxErr ENOTCONN \/ en_send en = Some ENOTCONN \/ en_quiesce_reset en = Some ENOTCONN).
Proof.
  intros s en o s' ev Rc SV H NC. pose proof SV as (R & P & C). unfold run_ctx in H. rewrite R in H. cbn [negb run_loop] in H. rewrite P in H.
  destruct (run_iter s en) as [[o1 s1] ev1] eqn:I.
  assert (E : o1 = o /\ s1 = s' /\ ev1 = ev) by (destruct o1; injection H as <- <- <-; auto).
  destruct E as (-> & -> & ->). clear H.
  assert (S : sv_step s (SRun en) = (o, s', ev)) by (cbn [sv_step]; rewrite R, P; exact I).
  pose proof (step_cases _ _ _ _ _ (reachable_sinv _ Rc) S NC) as SC. clear S I.
  inversion SC; subst; try congruence.
  - split; [congruence|]. destruct (e =? EAGAIN); [discriminate|]. intros Q. injection Q as ->. auto.
  - split.
    + destruct (e' =? EBUSY); cbn; congruence.
    + destruct ((e' =? ENOMSG) || (e' =? EAGAIN)); [discriminate|]. intros Q. injection Q as ->. auto.
  - split; [left; split; [reflexivity|eauto]|]. intros _. left.
    match goal with L : loss_post _ _ _ |- _ => apply L end.
  - match goal with RC : reply_case _ _ _ _ _ _ _ |- _ => rename RC into J end.
    split.
    + intros Cn. right. inversion J; subst; try congruence; [|split; [now left|split; [do 3 eexists; split; eassumption|eauto]]].
      match goal with K : sv_conn (if ?b then _ else _) = false |- _ => destruct b; cbn in K; congruence end.
    + inversion J; subst; try discriminate; match goal with |- (if ?b then _ else Err ?e) = _ -> _ => destruct b; [discriminate|]; intros Q; injection Q as -> end; auto.
  - split; [cbn; congruence|discriminate].
  - match goal with Q : handled _ _ _ _ _ _ |- _ => inversion Q as [err body0 fds0 c1 fds' evd o3 s3 evr D K F J]; subst end. cbn [mg_hdr] in J.
    split.
    + intros Cn. cbn in Cn. right. inversion J; subst; cbn in Cn; try congruence; [|split; [now right|split; [do 3 eexists; split; eassumption|eauto]]].
      match goal with K : sv_conn (if ?b then _ else _) = false |- _ => destruct b; cbn in K; congruence end.
    + inversion J; subst; try discriminate; intros Q; injection Q as ->; auto.
Qed.
Print Assumptions C29_exact.

(* Both kinds of loss occur. *)
Example C29_exact_case :
  reachable (ex_busy true) /\ serving (ex_busy true) /\
  (exists s' ev, run_ctx false (ex_busy true) [ex_unmap_lost 3 None] = (Returned (Ok 1), s', ev) /\ sv_conn s' = false) /\
  (exists s' ev, run_ctx false (ex_busy true) [ex_env (RxErr ECONNRESET)] = (Returned (Err ENOTCONN), s', ev) /\ sv_conn s' = false).
Proof.
  split; [apply ex_busy_reachable|]. split; [apply ex_busy_state|]. split; do 2 eexists; vm_compute; split; reflexivity.
Qed.
