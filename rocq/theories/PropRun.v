(* Property C71: what vfu_run_ctx and vfu_device_quiesced return says what happened. *)
From Coq Require Import NArith ZArith List Bool Lia ZifyBool ZifyNat ZifyN.
From Verif Require Import Base Types Bytes Spec Dma Migr Irq Pci Handlers SpecHandlers Server SpecServer ServerProofs PropServer SpecMsg ServerDma PropDmaMsg PropOnly.
Import ListNotations.
Open Scope N_scope.
Ltac Zify.zify_post_hook ::= idtac.

(* One call of vfu_run_ctx of a device that does not block (LIBVFIO_USER_FLAG_ATTACH_NB). *)
Definition returns (s : server) (en : env) (o : outcome N) (s' : server) (ev : list event) : Prop :=
  run_ctx false s [en] = (Returned o, s', ev).

Lemma returns_step s en o s' ev : returns s en o s' ev -> sv_step s (SRun en) = (o, s', ev).
Proof.
  unfold returns, run_ctx. cbn [sv_step]. destruct (negb (sv_realized s)); [intros H; injection H as <- <- <-; reflexivity|].
  cbn [run_loop]. destruct (sv_pending s); try (intros H; injection H as <- <- <-; reflexivity).
  destruct (run_iter s en) as [[[k|e|c] s1] ev1]; intros H; injection H as <- <- <-; reflexivity.
Qed.

Lemma returns_case s en o s' ev : reachable s -> returns s en o s' ev -> (forall c, o <> Crash c) -> step_case s (SRun en) o s' ev.
Proof. intros R H NC. apply returns_step in H. exact (step_cases _ _ _ _ _ (reachable_sinv _ R) H NC). Qed.

(* ---------- a number *)

(* It is 0 or 1, and 1 exactly when a request was carried out: then the request is a valid one that arrived completely,
   and unless the client did not want a reply, or has gone when it is sent, its reply has been sent, and no other. *)
Theorem C71_request : forall s en n s' ev, reachable s -> returns s en (Ok n) s' ev ->
  (n = 0 \/ n = 1) /\
  (n = 1 -> exists h fds b body, en_rx en = RxMsg h fds b /\ valid_hdr h /\ serving s /\
     ((hd_size h = 16 /\ body = []) \/ (b = inr (body ++ skipn (length body) match b with inr l => l | inl _ => [] end) /\ hd_size h = 16 + N.of_nat (length body))) /\
     (exists er rb rf c1 fds1 ev1, dispatch (sv_ctx s) (en_or en) (hd_cmd h) body fds = (HReply er rb rf, c1, fds1, ev1) /\
        (wants_reply h = true -> en_send en = None -> exists q closes, ev = q ++ ev1 ++ EvReply (mk_reply (hd_id h) (hd_cmd h) er rb rf) :: closes) /\
        (sv_conn s' = true -> sv_ctx s' = c1)) /\
     (wants_reply h = true -> replies ev = [(hd_id h, hd_cmd h)] \/ sv_conn s' = false) /\
     (wants_reply h = false -> replies ev = [])).
Proof.
  intros s en n s' ev R H. pose proof (returns_case _ _ _ _ _ R H ltac:(discriminate)) as C. clear H.
  inversion C; subst; try (split; [auto|intros N1; discriminate N1]); try discriminate.
  - destruct (e =? EAGAIN); [|discriminate]. match goal with X : Ok 0 = Ok _ |- _ => injection X as <- end. split; [auto|discriminate].
  - destruct (_ || _); [|discriminate]. match goal with X : Ok 0 = Ok _ |- _ => injection X as <- end. split; [auto|discriminate].
  - destruct o as [u|e'|c]; [|destruct (_ || _); [|discriminate]|discriminate]; match goal with X : Ok 0 = Ok _ |- _ => injection X as <- end; (split; [auto|discriminate]).
  - destruct o as [u|e'|c]; try discriminate. match goal with X : Ok 1 = Ok _ |- _ => injection X as <- end. split; [auto|]. intros _.
    match goal with A : accepted _ _ _ _, X : en_rx en = _, SV : serving s, Hh : handled _ _ _ _ _ _ |- _ => rename A into AC; rename X into RX; rename SV into SER; rename Hh into HA end.
    exists h, fds, rbody, body. split; [exact RX|]. destruct AC as [body V B EX]. split; [now apply valid_hdr_iff|]. split; [exact SER|]. split.
    { destruct (hd_size h =? 16) eqn:E16; [left; injection B as <-; split; [lia|reflexivity]|right].
      unfold recv_body in B. destruct rbody as [e|l]; [discriminate B|]. set (g := firstn (N.to_nat (hd_size h - 16)) l) in *.
      destruct (N.of_nat (length g) =? 0); [discriminate B|]. destruct (negb (N.of_nat (length g) =? hd_size h - 16)) eqn:LG; [discriminate B|]. injection B as <-.
      assert (LG' : N.of_nat (length g) = hd_size h - 16) by lia. split.
      - f_equal. replace (length g) with (N.to_nat (hd_size h - 16)) by lia. unfold g. symmetry. apply firstn_skipn.
      - apply valid_hdr_iff in V. destruct V as (_ & V & _). lia. }
    pose proof (handled_replies _ _ _ _ _ _ HA) as RP. remember (Ok u) as ou eqn:OU in HA. destruct HA as [err rb rf c1 fds1 ev1 o1 s1 ev2 D K F RC]. rewrite OU in RC. clear OU o1. cbn [mg_hdr mg_body mg_fds] in *.
    assert (CN : wants_reply h = true -> en_send en <> None -> sv_conn s1 = false).
    { intros W S. inversion RC; subst; try congruence. match goal with L : loss_post _ _ _ |- _ => destruct L as (_ & _ & LC & _); exact LC end. }
    split.
    { exists err, rb, rf, c1, fds1, ev1. split; [exact D|]. split.
      - intros W S. inversion RC; subst; try congruence. exists (if q then [EvQuiesce None] else []), (closes_of fds1). reflexivity.
      - intros SC. inversion RC; subst; try reflexivity. match goal with L : loss_post _ _ _ |- _ => destruct L as (_ & _ & LC & _) end.
        cbn [set_quiesced sv_conn] in SC. congruence. }
    rewrite replies_app, RP. replace (replies (if q then [EvQuiesce None] else [])) with (@nil (N * N)) by (destruct q; reflexivity). cbn [app]. split.
    + intros W. rewrite W. cbn [andb]. destruct (en_send en) eqn:S; [right; apply CN; [exact W|discriminate]|left; reflexivity].
    + intros W. rewrite W. reflexivity.
Qed.
Print Assumptions C71_request.

(* The client unmaps its DMA region: 1, one reply, and the region is gone. *)
Example C71_request_case : exists s' ev, reachable (ex_busy true) /\ returns (ex_busy true) (PropServer.ex_unmap 3 None) (Ok 1) s' ev /\
  replies ev = [(3, 3)] /\ regions_of (ex_busy true) <> [] /\ regions_of s' = [].
Proof. do 2 eexists. split; [exact ex_busy_reachable|]. split; [unfold returns; vm_compute; reflexivity|]. repeat split; vm_compute; congruence. Qed.

(* 0: the device's state is as before and its callbacks have not been called, except to quiesce it, unless the connection
   was lost.  Either there was nothing to read, or a message was refused and, if it asks for a reply and that can be sent,
   answered with an error.  (Errors have numbers other than 0, and the quiesce callback does not fail with EAGAIN or ENOMSG.) *)
Theorem C71_none : forall s en s' ev, reachable s -> returns s en (Ok 0) s' ev ->
  (forall h fds e, en_rx en = RxMsg h fds (inl e) -> e <> 0) -> en_quiesce en <> Some 0 ->
  (forall e, en_quiesce_reset en = Some e -> e <> EAGAIN /\ e <> ENOMSG) ->
  serving s /\
  ((en_rx en = RxErr EAGAIN /\ s' = s /\ ev = []) \/
   exists h fds b, en_rx en = RxMsg h fds b /\
     (s' = s \/ sv_conn s' = false) /\
     (forall r, In (EvReply r) ev -> rp_id r = hd_id h /\ rp_cmd r = hd_cmd h /\ rp_error r <> 0 /\ s' = s) /\
     (wants_reply h = true -> en_send en = None -> exists r, In (EvReply r) ev) /\
     (s' = s -> forall x, In x ev -> match x with EvReply _ | EvClose _ | EvQuiesce _ => True | _ => False end)).
Proof.
  intros s en s' ev R H NB NQ NR. pose proof (returns_case _ _ _ _ _ R H ltac:(discriminate)) as C. clear H.
  inversion C; subst; try discriminate.
  - match goal with SV : serving _ |- _ => split; [exact SV|] end. left. destruct (N.eqb_spec e EAGAIN) as [->|NE]; [auto|discriminate].
  - exfalso. match goal with Q : en_quiesce_reset en = Some e' |- _ => destruct (NR _ Q) as (N1 & N2) end.
    match goal with Z : (if _ then _ else _) = Ok 0 |- _ => replace ((e' =? ENOMSG) || (e' =? EAGAIN)) with false in Z by lia; discriminate Z end.
  - match goal with SV : serving _ |- _ => split; [exact SV|] end. right. exists h, fds, rbody. split; [assumption|].
    match goal with W : refused_with _ _ _ _ _ _, X : en_rx en = _, Y : reply_case _ _ _ _ _ _ _ |- _ => rename W into RW; rename X into RX; rename Y into RC end.
    assert (E0 : e <> 0).
    { inversion RW; subst; try discriminate; try congruence. destruct (hd_size h =? 16); [discriminate|]. unfold recv_body in *. destruct rbody as [e0|l]; [|].
      - match goal with Z : Err _ = Err _ |- _ => injection Z as <- end. exact (NB _ _ _ RX).
      - destruct (_ =? 0); [match goal with Z : Err _ = Err _ |- _ => injection Z as <- end; discriminate|].
        destruct (negb _); [match goal with Z : Err _ = Err _ |- _ => injection Z as <- end; discriminate|discriminate]. }
    assert (V0 : forall x, In x ev0 -> match x with EvQuiesce _ => True | _ => False end).
    { intros x I. inversion RW; subst; try destruct I as [<-|[]]; try destruct I; exact Logic.I. }
    assert (VC : forall x, In x (closes_of fds) -> match x with EvClose _ => True | _ => False end).
    { intros x I. unfold closes_of in I. apply in_map_iff in I. destruct I as (z & <- & _). exact Logic.I. }
    inversion RC; subst.
    + split; [auto|]. split; [|split; [congruence|]].
      * intros r I. rewrite !in_app_iff in I. destruct I as [I|[[]|I]]; [destruct (V0 _ I)|destruct (VC _ I)].
      * intros _ x I. rewrite !in_app_iff in I. destruct I as [I|[[]|I]]; [specialize (V0 _ I)|specialize (VC _ I)]; destruct x; auto.
    + split; [auto|]. split; [|split].
      * intros r I. rewrite !in_app_iff in I. destruct I as [I|[I|I]]; [destruct (V0 _ I)| |destruct (VC _ I)]. destruct I as [I|[]]. injection I as <-. auto.
      * intros _ _. eexists. rewrite !in_app_iff. right. left. left. reflexivity.
      * intros _ x I. rewrite !in_app_iff in I. destruct I as [I|[[<-|[]]|I]]; [specialize (V0 _ I)| |specialize (VC _ I)]; try destruct x; auto.
    + split; [auto|]. split; [|split; [congruence|]].
      * intros r I. rewrite !in_app_iff in I. destruct I as [I|[[]|I]]; [destruct (V0 _ I)|destruct (VC _ I)].
      * intros _ x I. rewrite !in_app_iff in I. destruct I as [I|[[]|I]]; [specialize (V0 _ I)|specialize (VC _ I)]; destruct x; auto.
    + exfalso. match goal with Q : en_quiesce_reset en = Some e' |- _ => destruct (NR _ Q) as (N1 & N2) end.
      match goal with Z : (if _ then _ else _) = Ok 0 |- _ => replace ((e' =? ENOMSG) || (e' =? EAGAIN)) with false in Z by lia; discriminate Z end.
    + match goal with L : loss_post _ _ _ |- _ => destruct L as (_ & _ & LC & _) end. split; [auto|]. split; [|split; [congruence|]].
      * intros r I. exfalso. rewrite !in_app_iff in I. destruct I as [I|[[I|I]|I]]; [destruct (V0 _ I)| | |destruct (VC _ I)].
        -- destruct (sv_pending s); try destruct I. unfold quiesce_call in I. destruct (cx_quiesce (sv_ctx s)); [destruct I as [I|[]]; discriminate I|destruct I].
        -- apply lost_in in I. destruct I.
      * intros ->. match goal with SV : serving _ |- _ => destruct SV as (_ & _ & SC) end. congruence.
  - destruct o; discriminate.
Qed.
Print Assumptions C71_none.

(* The quiesce callback fails with EIO (5): the request is refused with that error. *)
Example C71_none_case : reachable (ex_busy true) /\
  returns (ex_busy true) (PropServer.ex_unmap 3 (Some 5)) (Ok 0) (ex_busy true) [EvQuiesce (Some 5); EvReply (mk_reply 3 3 5 [] [])].
Proof. split; [exact ex_busy_reachable|]. unfold returns; vm_compute; reflexivity. Qed.

(* ---------- an error *)

(* EBUSY if, afterwards, the library waits for the device to call vfu_device_quiesced.  An error otherwise comes from the
   kernel or from the quiesce callback, or says that the device is not realized or that there is no client. *)
Theorem C71_error : forall s en o s' ev, reachable s -> returns s en o s' ev -> (forall c, o <> Crash c) ->
  (sv_pending s' <> PNone -> o = Err EBUSY) /\
  forall e, o = Err e ->
    (e = EINVAL /\ sv_realized s = false) \/ (e = EBUSY /\ sv_pending s' <> PNone) \/ (e = ENOTCONN /\ sv_conn s' = false) \/
    en_rx en = RxErr e \/ en_send en = Some e \/ en_quiesce_reset en = Some e.
Proof.
  intros s en o s' ev R H NC. pose proof (returns_case _ _ _ _ _ R H NC) as C. clear H NC.
  assert (RC : forall s0 h r o1 s1 ev1, sv_pending s0 = PNone -> reply_case s0 en h r o1 s1 ev1 ->
    (sv_pending s1 <> PNone -> o1 = Err EBUSY) /\ forall e, o1 = Err e -> en_send en = Some e \/ en_quiesce_reset en = Some e).
  { intros s0 h r o1 s1 ev1 P [W|W S|e W S E|e e' W S E Q Pn Qr|e s2 W S E Q L]; (split; [|intros e1 X; try discriminate X; injection X as <-; auto]); intros X; try congruence.
    - destruct (N.eqb_spec e' EBUSY) as [EB|NE]; [rewrite EB; reflexivity|congruence].
    - destruct L as (_ & _ & _ & _ & L & _). congruence. }
  inversion C; subst.
  - split; [intros X|intros e X; injection X as <-; auto].
    destruct R as (s0 & l & arr & e0 & F & HH). pose proof (history_kept _ _ _ _ _ HH (fresh_sinv _ F)) as (K & _). destruct F as (_ & _ & _ & _ & RZ).
    pose proof (k_real _ _ K). congruence.
  - split; [reflexivity|]. intros e X. injection X as <-. auto.
  - split; [congruence|]. intros e X. injection X as <-. auto.
  - match goal with SV : serving _ |- _ => destruct SV as (_ & P & _) end. split; [congruence|]. intros e1 X. destruct (N.eqb_spec e EAGAIN); [discriminate X|]. injection X as <-. auto 6.
  - match goal with SV : serving _ |- _ => destruct SV as (_ & P & _) end. split.
    + intros X. match goal with Z : _ = Some ?a |- _ => destruct (N.eqb_spec a EBUSY) as [EB|NE]; [rewrite EB; reflexivity|congruence] end.
    + intros e1 X. destruct (_ || _); [discriminate X|]. injection X as <-. auto 7.
  - match goal with L : loss_post _ _ _, SV : serving _ |- _ => destruct L as (_ & _ & LC & _ & LP & _); destruct SV as (_ & P & _) end.
    split; [congruence|]. intros e1 X. injection X as <-. auto.
  - match goal with SV : serving _, Y : reply_case _ _ _ _ _ _ _ |- _ => destruct SV as (_ & P & _); destruct (RC _ _ _ _ _ _ P Y) as (R1 & R2) end. split.
    + intros X. rewrite (R1 X). reflexivity.
    + intros e1 X. destruct o0 as [u|e'|c]; [discriminate X| |discriminate X]. destruct (_ || _); [discriminate X|]. injection X as <-. destruct (R2 _ eq_refl); auto 7.
  - split; [reflexivity|]. intros e X. injection X as <-. right. left. split; [reflexivity|discriminate].
  - match goal with SV : serving _, Y : handled _ _ _ _ _ _ |- _ => destruct SV as (_ & P & _); destruct Y as [err rb rf c1 fds1 ev1 o1 s1 ev2 D K F Y] end.
    match goal with Y : reply_case _ _ _ _ _ _ _ |- _ => destruct (RC _ _ _ _ _ _ (P : sv_pending (set_ctx (set_quiesced s q) c1) = PNone) Y) as (R1 & R2) end.
    split.
    + intros X. cbn [set_quiesced sv_pending] in X. rewrite (R1 X). reflexivity.
    + intros e1 X. destruct o1 as [u|e'|c]; [discriminate X| |discriminate X]. injection X as <-. destruct (R2 _ eq_refl); auto 7.
Qed.
Print Assumptions C71_error.

(* The callback asks for time; the client goes; the kernel fails. *)
Example C71_error_case : reachable (ex_busy true) /\
  (exists s' ev, returns (ex_busy true) (PropServer.ex_unmap 3 (Some EBUSY)) (Err EBUSY) s' ev /\ sv_pending s' <> PNone) /\
  (exists s' ev, returns (ex_busy true) (ex_env (RxErr ENOMSG)) (Err ENOTCONN) s' ev /\ sv_conn s' = false) /\
  (exists s' ev, returns (ex_busy true) (ex_env (RxErr 12)) (Err 12) s' ev).
Proof.
  split; [exact ex_busy_reachable|]. split; [|split]; do 2 eexists; [split; [unfold returns; vm_compute; reflexivity|discriminate]| |unfold returns; vm_compute; reflexivity].
  split; [unfold returns; vm_compute; reflexivity|reflexivity].
Qed.

(* A call that blocks returns no number: it goes on, each time as a call that does not block, until one returns an error,
   and returns that. *)
Inductive goes_on : server -> list env -> server -> list event -> Prop :=
| go_nil : forall s, goes_on s [] s []
| go_cons : forall s en n s1 ev1 ens s2 ev2, returns s en (Ok n) s1 ev1 -> goes_on s1 ens s2 ev2 -> goes_on s (en :: ens) s2 (ev1 ++ ev2).

Theorem C71_blocking : forall s ens o s' ev, reachable s -> sv_pending s = PNone -> sv_realized s = true -> run_ctx true s ens = (Returned o, s', ev) ->
  (forall n, o <> Ok n) /\
  exists ens1 en ens2 s1 ev1 ev2, ens = ens1 ++ en :: ens2 /\ goes_on s ens1 s1 ev1 /\ returns s1 en o s' ev2 /\ ev = ev1 ++ ev2.
Proof.
  intros s ens o s' ev R P RZ H. unfold run_ctx in H. rewrite RZ in H. cbn [negb] in H. revert H. generalize 0 at 1. revert s R P RZ ev.
  induction ens as [|en ens IH]; intros s R P RZ ev n H; cbn [run_loop] in H; rewrite P in H; [discriminate H|].
  destruct (run_iter s en) as [[oi s1] ev1] eqn:RI.
  assert (RT : returns s en oi s1 ev1) by (unfold returns, run_ctx; rewrite RZ; cbn [negb run_loop]; rewrite P, RI; destruct oi; reflexivity).
  destruct oi as [k|e|c].
  - destruct (run_loop true s1 ens (n + k)) as [[r s2] ev2] eqn:RL. injection H as -> -> <-.
    pose proof (returns_step _ _ _ _ _ RT) as ST. pose proof (step_cases _ _ _ _ _ (reachable_sinv _ R) ST ltac:(discriminate)) as SC.
    assert (R1 : reachable s1) by (eapply reachable_step; [exact R|exact ST|discriminate]).
    assert (P1 : sv_pending s1 = PNone).
    { destruct (C71_error _ _ _ _ _ R RT ltac:(discriminate)) as (B & _). destruct (sv_pending s1) eqn:E; [reflexivity| |]; (specialize (B ltac:(discriminate)); discriminate B). }
    assert (RZ1 : sv_realized s1 = true) by (rewrite (k_real _ _ (proj1 (step_kept _ _ _ _ _ (reachable_sinv _ R) SC))); exact RZ).
    destruct (IH _ R1 P1 RZ1 _ _ RL) as (A & ens1 & en' & ens2 & s3 & e1 & e2 & -> & G & T & ->). split; [exact A|].
    exists (en :: ens1), en', ens2, s3, (ev1 ++ e1), e2. split; [reflexivity|]. split; [econstructor; eauto|]. split; [exact T|]. now rewrite app_assoc.
  - injection H as <- <- <-. split; [discriminate|]. exists [], en, ens, s, [], ev1. split; [reflexivity|]. split; [constructor|]. auto.
  - injection H as <- <- <-. split; [discriminate|]. exists [], en, ens, s, [], ev1. split; [reflexivity|]. split; [constructor|]. auto.
Qed.
Print Assumptions C71_blocking.

(* Two requests are carried out, then the client goes. *)
Example C71_blocking_case : exists s' ev, reachable (ex_busy true) /\ sv_pending (ex_busy true) = PNone /\ sv_realized (ex_busy true) = true /\
  run_ctx true (ex_busy true) [PropServer.ex_unmap 3 None; ex_map 4; ex_env (RxErr ENOMSG)] = (Returned (Err ENOTCONN), s', ev) /\ replies ev = [(3, 3); (4, 2)].
Proof. do 2 eexists. split; [exact ex_busy_reachable|]. split; [reflexivity|]. split; [reflexivity|]. split; [vm_compute; reflexivity|reflexivity]. Qed.

(* vfu_device_quiesced: EINVAL, and nothing happens, if nothing waits for it; afterwards nothing waits any more. *)
Theorem C71_quiesced : forall s e en o s' ev, reachable s -> sv_step s (SQuiesced e en) = (o, s', ev) -> (forall c, o <> Crash c) ->
  sv_pending s' = PNone /\
  (sv_pending s = PNone -> o = Err EINVAL /\ s' = s /\ ev = []) /\
  (sv_pending s <> PNone -> e <> 0 -> o = Ok 0 /\ cx_dma (sv_ctx s') = cx_dma (sv_ctx s) /\ forall x, In x ev -> exists fd, x = EvClose fd).
Proof.
  intros s e en o s' ev R H NC. pose proof (reachable_sinv _ R) as SI. pose proof (step_cases _ _ _ _ _ SI H NC) as C. destruct SI as (_ & _ & PQ).
  inversion C; subst.
  - assert (P : sv_pending s' = PNone).
    { match goal with X : _ \/ _ |- _ => destruct X as [X|X]; [|exact X] end. destruct (sv_pending s') eqn:E; [reflexivity| |]; (assert (Z : cx_quiesce (sv_ctx s') = true) by (apply PQ; discriminate); congruence). }
    split; [exact P|]. split; [auto|]. intros N; congruence.
  - split; [reflexivity|]. split; [intros X; congruence|]. intros _ X. now destruct X.
  - split; [reflexivity|]. split; [intros X; congruence|]. intros _ X. now destruct X.
  - split; [reflexivity|]. split; [intros X; congruence|]. intros _ _. split; [reflexivity|]. split; [reflexivity|]. intros x I.
    destruct (sv_pending s) as [|m|]; try destruct I. unfold closes_of in I. apply in_map_iff in I. destruct I as (z & <- & _). eauto.
Qed.
Print Assumptions C71_quiesced.

(* A request waits; the device says that it could not be quiesced, and the request is dropped; to say so again is an error. *)
Example C71_quiesced_case : let r1 := sv_step (ex_busy true) (SRun (PropServer.ex_unmap 3 (Some EBUSY))) in let s1 := snd (fst r1) in
  let r2 := sv_step s1 (SQuiesced 5 (ex_env (RxErr EAGAIN))) in let s2 := snd (fst r2) in
  reachable s1 /\ reachable s2 /\ fst (fst r1) = Err EBUSY /\ sv_pending s1 <> PNone /\ fst (fst r2) = Ok 0 /\
  regions_of s2 <> [] /\ fst (fst (sv_step s2 (SQuiesced 0 (ex_env (RxErr EAGAIN))))) = Err EINVAL.
Proof.
  intros r1 s1 r2 s2.
  assert (O1 : fst (fst r1) = Err EBUSY) by (vm_compute; reflexivity). assert (O2 : fst (fst r2) = Ok 0) by (vm_compute; reflexivity).
  assert (R1 : reachable s1).
  { apply (reachable_step (ex_busy true) (SRun (PropServer.ex_unmap 3 (Some EBUSY))) (Err EBUSY) s1 (snd r1)); [exact ex_busy_reachable| |discriminate].
    rewrite <- O1. unfold s1. fold r1. now destruct r1 as [[? ?] ?]. }
  assert (R2 : reachable s2).
  { apply (reachable_step s1 (SQuiesced 5 (ex_env (RxErr EAGAIN))) (Ok 0) s2 (snd r2)); [exact R1| |discriminate].
    rewrite <- O2. unfold s2. fold r2. now destruct r2 as [[? ?] ?]. }
  split; [exact R1|]. split; [exact R2|]. split; [exact O1|]. split; [vm_compute; discriminate|]. split; [exact O2|]. split; [vm_compute; discriminate|]. vm_compute. reflexivity.
Qed.
