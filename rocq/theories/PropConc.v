(* Property C14: no dirty page is lost, whatever the schedule. *)
From Coq Require Import NArith ZArith List Bool Lia ZifyBool ZifyNat ZifyN.
From Verif Require Import Base Types Spec Dma Dirty Conc DmaProofs DirtyProofs DirtyScale DirtyHist.
Import ListNotations.
Open Scope N_scope.
Ltac Zify.zify_post_hook ::= idtac.

(* ---- specification *)

(* Page p has been handed to the client by some report so far. *)
Definition reported (st : cstate) (p : N) : Prop :=
  exists i v, In (i, v) (rp_fetched (cs_reporter st)) /\ p / 8 = i /\ N.testbit v (p mod 8) = true.

(* Some thread has completely marked a range containing p. *)
Definition marking_finished (st : cstate) (p : N) : Prop :=
  exists m s e, In m (cs_markers st) /\ In (s, e) (mk_done m) /\ s <= p < e.

(* Some thread has at least begun to mark a range containing p. *)
Definition marking_begun (st : cstate) (p : N) : Prop :=
  exists m s e, In m (cs_markers st) /\
    (In (s, e) (mk_done m) \/ exists ops, mk_current m = Some (s, e, ops)) /\ s <= p < e.

(* The ranges to be marked are non-empty and, like the bytes to be fetched, inside the log. *)
Definition job_ok (log : list N) (ranges : list (list (N * N))) (fetches : list N) : Prop :=
  Forall (Forall (fun x => fst x < snd x /\ snd x <= 8 * N.of_nat (length log) /\ snd x < 2 ^ 63)) ranges /\
  Forall (fun i => i < N.of_nat (length log)) fetches.

(* ---- invariant *)

Definition op_hits (ops : list (N * N)) (p : N) : Prop :=
  exists i b, In (i, b) ops /\ p / 8 = i /\ N.testbit b (p mod 8) = true.

Definition rng_ok (n : N) (x : N * N) : Prop := fst x < snd x /\ snd x <= 8 * n /\ snd x < 2 ^ 63.

Definition there (st : cstate) (p : N) : Prop := page_set (cs_log st) p \/ reported st p.

Record cinv (n : N) (log0 : list N) (st : cstate) : Prop := {
  ci_len : N.of_nat (length (cs_log st)) = n;
  ci_todo : forall m, In m (cs_markers st) -> Forall (rng_ok n) (mk_todo m);
  ci_cur : forall m s e ops, In m (cs_markers st) -> mk_current m = Some (s, e, ops) ->
             rng_ok n (s, e) /\ Forall (fun q => fst q < n) ops /\
             (forall p, op_hits ops p -> s <= p < e) /\
             (forall p, s <= p < e -> op_hits ops p \/ there st p);
  ci_done : forall p, marking_finished st p -> there st p;
  ci_init : forall p, page_set log0 p -> there st p;
  ci_only : forall p, there st p -> page_set log0 p \/ marking_begun st p;
  ci_fetch : Forall (fun i => i < n) (rp_todo (cs_reporter st));
  ci_loaded : forall i, rp_loaded (cs_reporter st) = Some i -> i < n
}.

Lemma In_set_nth {A} i (v : A) l x : In x (set_nth i v l) -> x = v \/ In x l.
Proof.
  revert i; induction l as [|y l IH]; intros [|i]; simpl; auto.
  - intros [<-|]; auto.
  - intros [<-|H]; auto. apply IH in H. tauto.
Qed.

Lemma In_set_nth_new {A} i (v : A) l : (i < length l)%nat -> In v (set_nth i v l).
Proof. revert i; induction l as [|y l IH]; intros [|i] H; simpl in *; try lia; auto. right. apply IH. lia. Qed.

Lemma In_set_nth_old {A} i (v m : A) l x : nth_error l i = Some m -> In x l -> x = m \/ In x (set_nth i v l).
Proof.
  revert i; induction l as [|y l IH]; intros [|i] Hn Hin; simpl in *; try contradiction.
  - injection Hn as <-. destruct Hin; auto.
  - destruct Hin as [<-|Hin]; auto. destruct (IH i Hn Hin); auto.
Qed.

Lemma mark_ops_fst s e n : s < e -> e <= 8 * n -> Forall (fun q => fst q < n) (mark_ops s e).
Proof.
  intros H1 H2. eapply Forall_impl; [|apply mark_ops_bound]. intros q Hq. simpl in Hq.
  assert (T := N.div_mod e 8 ltac:(lia)). destruct (N.eqb_spec (e mod 8) 0); lia.
Qed.

Lemma begun_mono st t m m' log' p :
  nth_error (cs_markers st) t = Some m ->
  (forall s e, In (s, e) (mk_done m) \/ (exists ops, mk_current m = Some (s, e, ops)) ->
               In (s, e) (mk_done m') \/ (exists ops, mk_current m' = Some (s, e, ops))) ->
  marking_begun st p -> marking_begun (mk_cstate log' (set_nth t m' (cs_markers st)) (cs_reporter st)) p.
Proof.
  intros Hn Hmono (x & s & e & Hx & Hb & Hp).
  assert (Ht : (t < length (cs_markers st))%nat) by (apply nth_error_Some; congruence).
  destruct (In_set_nth_old t m' m _ _ Hn Hx) as [->|Hx'].
  - exists m', s, e. split; [apply In_set_nth_new; auto|]. auto.
  - exists x, s, e. auto.
Qed.

Lemma marker_cinv n log0 st t m m' log' :
  cinv n log0 st -> nth_error (cs_markers st) t = Some m ->
  marker_step (cs_log st) m = Some (Ok log', m') ->
  cinv n log0 (mk_cstate log' (set_nth t m' (cs_markers st)) (cs_reporter st)).
Proof.
  intros C Hn H. pose proof (nth_error_In _ _ Hn) as Hin.
  assert (Ht : (t < length (cs_markers st))%nat) by (apply nth_error_Some; congruence).
  set (st' := mk_cstate log' (set_nth t m' (cs_markers st)) (cs_reporter st)).
  assert (Hm' : In m' (cs_markers st')) by (apply In_set_nth_new; auto).
  unfold marker_step in H. destruct (mk_current m) as [[[s e] [|[i b] ops]]|] eqn:Ec.
  - (* finish a range *)
    injection H as <- <-.
    assert (Hthere : forall p, there st' p <-> there st p) by (intros p; reflexivity).
    destruct (ci_cur _ _ _ C m s e [] Hin Ec) as (Hr & _ & _ & Hall).
    constructor; try (apply C).
    + intros x Hx. apply In_set_nth in Hx. destruct Hx as [->|Hx]; [|apply C; auto]. simpl. apply (ci_todo _ _ _ C m Hin).
    + intros x s' e' ops' Hx E. apply In_set_nth in Hx. destruct Hx as [->|Hx]; [discriminate|].
      destruct (ci_cur _ _ _ C x s' e' ops' Hx E) as (A1 & A2 & A3 & A4). split; [auto|]. split; [auto|]. split; auto.
    + intros p (x & s' & e' & Hx & Hd & Hp). apply Hthere. apply In_set_nth in Hx. destruct Hx as [->|Hx].
      * simpl in Hd. destruct Hd as [E|Hd].
        -- injection E as <- <-. destruct (Hall p Hp) as [(i & b & [] & _)|]; auto.
        -- apply (ci_done _ _ _ C). exists m, s', e'. auto.
      * apply (ci_done _ _ _ C). exists x, s', e'. auto.
    + intros p Hp. apply Hthere in Hp. apply (ci_only _ _ _ C) in Hp. destruct Hp as [|Hp]; [auto|right].
      apply (begun_mono _ _ _ _ _ _ Hn) with (2 := Hp). simpl. intros s' e' [A|(o & A)]; auto.
      rewrite Ec in A. injection A as <- <- _. auto.
  - (* one atomic or *)
    injection H as Hor <-.
    destruct (ci_cur _ _ _ C m s e ((i, b) :: ops) Hin Ec) as (Hr & Hfst & Hsub & Hall).
    pose proof (or_byte_bits _ _ _ _ Hor) as Hbits.
    assert (Hthere : forall p, there st' p <-> there st p \/ (p / 8 = i /\ N.testbit b (p mod 8) = true)).
    { intros p. unfold there. change (reported st' p) with (reported st p). simpl. rewrite Hbits. tauto. }
    constructor.
    + simpl. rewrite (or_byte_length _ _ _ _ Hor). apply C.
    + intros x Hx. apply In_set_nth in Hx. destruct Hx as [->|Hx]; [|apply C; auto]. simpl. apply (ci_todo _ _ _ C m Hin).
    + intros x s' e' ops' Hx E. apply In_set_nth in Hx. destruct Hx as [->|Hx].
      * simpl in E. injection E as <- <- <-. split; [auto|]. inversion Hfst; subst. split; [auto|]. split.
        -- intros p (i' & b' & A & B). apply Hsub. exists i', b'. split; [right; auto|auto].
        -- intros p Hp. destruct (Hall p Hp) as [(i' & b' & [A|A] & B)|A].
           ++ injection A as <- <-. right. apply Hthere. auto.
           ++ left. exists i', b'. auto.
           ++ right. apply Hthere. auto.
      * destruct (ci_cur _ _ _ C x s' e' ops' Hx E) as (A1 & A2 & A3 & A4). split; [auto|]. split; [auto|]. split; auto.
        intros p Hp. destruct (A4 p Hp); auto. right. apply Hthere. auto.
    + intros p (x & s' & e' & Hx & Hd & Hp). apply Hthere. left. apply (ci_done _ _ _ C). apply In_set_nth in Hx. destruct Hx as [->|Hx].
      * exists m, s', e'. auto.
      * exists x, s', e'. auto.
    + intros p Hp. apply Hthere. left. apply (ci_init _ _ _ C). auto.
    + intros p Hp. apply Hthere in Hp. destruct Hp as [Hp|Hp].
      * apply (ci_only _ _ _ C) in Hp. destruct Hp as [|Hp]; [auto|right].
        apply (begun_mono _ _ _ _ _ _ Hn) with (2 := Hp). simpl. intros s' e' [A|(o & A)]; auto.
        rewrite Ec in A. injection A as <- <- _. right. eexists; reflexivity.
      * right. exists (mk_marker (mk_done m) (Some (s, e, ops)) (mk_todo m)), s, e. split; [exact Hm'|]. split; [right; eexists; reflexivity|].
        apply Hsub. exists i, b. split; [left; auto|auto].
    + apply C.
    + apply C.
  - (* take up a range *)
    destruct (mk_todo m) as [|[s e] rest] eqn:Et; [discriminate|]. injection H as <- <-.
    pose proof (ci_todo _ _ _ C m Hin) as Hok. rewrite Et in Hok. inversion Hok as [|? ? Hse Hrest]; subst.
    assert (Hthere : forall p, there st' p <-> there st p) by (intros p; reflexivity).
    destruct Hse as (S1 & S2 & S3). simpl in S1, S2, S3.
    constructor; try (apply C).
    + intros x Hx. apply In_set_nth in Hx. destruct Hx as [->|Hx]; [auto|apply C; auto].
    + intros x s' e' ops' Hx E. apply In_set_nth in Hx. destruct Hx as [->|Hx].
      * simpl in E. injection E as <- <- <-. split; [repeat split; auto|]. split; [now apply mark_ops_fst|].
        split; intros p; [intros (i & b & A); apply (mark_ops_bits s e p S1 S3); exists i, b; auto|].
        intros Hp. left. apply (mark_ops_bits s e p S1 S3). auto.
      * destruct (ci_cur _ _ _ C x s' e' ops' Hx E) as (A1 & A2 & A3 & A4). split; [auto|]. split; [auto|]. split; auto.
    + intros p (x & s' & e' & Hx & Hd & Hp). apply Hthere. apply (ci_done _ _ _ C). apply In_set_nth in Hx. destruct Hx as [->|Hx].
      * exists m, s', e'. auto.
      * exists x, s', e'. auto.
    + intros p Hp. apply Hthere in Hp. apply (ci_only _ _ _ C) in Hp. destruct Hp as [|Hp]; [auto|right].
      apply (begun_mono _ _ _ _ _ _ Hn) with (2 := Hp). simpl. intros s' e' [A|(o & A)]; auto. congruence.
Qed.

Lemma exchange_there st i v r p :
  nth_error (cs_log st) (N.to_nat i) = Some v ->
  (forall q, page_set (set_nth (N.to_nat i) 0 (cs_log st)) q <-> page_set (cs_log st) q /\ q / 8 <> i) ->
  rp_fetched r = (i, v) :: rp_fetched (cs_reporter st) ->
  (there (mk_cstate (set_nth (N.to_nat i) 0 (cs_log st)) (cs_markers st) r) p <-> there st p).
Proof.
  intros Hv Hset Hf. unfold there, reported. simpl. rewrite Hf, Hset. split.
  - intros [[A _]|(i' & v' & [E|A] & B & D)]; [auto| |right; exists i', v'; auto].
    injection E as <- <-. left. unfold page_set. rewrite B. erewrite nth_error_nth by eauto. auto.
  - intros [A|(i' & v' & A & B)].
    + destruct (N.eq_dec (p / 8) i) as [E|E]; [|auto]. right. exists i, v. split; [left; auto|]. split; [auto|].
      unfold page_set in A. rewrite E in A. erewrite nth_error_nth in A by eauto. auto.
    + right. exists i', v'. split; [right; auto|auto].
Qed.

Lemma cleared_bits i l q : (N.to_nat i < length l)%nat ->
  (page_set (set_nth (N.to_nat i) 0 l) q <-> page_set l q /\ q / 8 <> i).
Proof.
  intros Hi. unfold page_set. rewrite nth_set_nth by auto.
  destruct (Nat.eqb_spec (N.to_nat (q / 8)) (N.to_nat i)) as [E|E].
  - rewrite N.bits_0. split; [discriminate|]. intros [_ A]. elim A. lia.
  - split; [|tauto]. intros A. split; auto. intros X. rewrite X in E. auto.
Qed.

Lemma same_markers_cinv n log0 st st' :
  cinv n log0 st -> cs_markers st' = cs_markers st -> (forall p, there st' p <-> there st p) ->
  N.of_nat (length (cs_log st')) = n ->
  Forall (fun i => i < n) (rp_todo (cs_reporter st')) ->
  (forall i, rp_loaded (cs_reporter st') = Some i -> i < n) -> cinv n log0 st'.
Proof.
  intros C Em Ht Hl Hf Hld. constructor; auto.
  - rewrite Em. apply C.
  - rewrite Em. intros m s e ops Hin E. destruct (ci_cur _ _ _ C m s e ops Hin E) as (A1 & A2 & A3 & A4).
    split; [auto|]. split; [auto|]. split; [auto|]. intros p Hp. rewrite Ht. auto.
  - intros p Hp. apply Ht. apply (ci_done _ _ _ C). unfold marking_finished in *. now rewrite Em in Hp.
  - intros p Hp. apply Ht. now apply (ci_init _ _ _ C).
  - intros p Hp. apply Ht in Hp. apply (ci_only _ _ _ C) in Hp. unfold marking_begun in *. now rewrite Em.
Qed.

Lemma reporter_cinv n log0 st r' log' :
  cinv n log0 st -> reporter_step (cs_log st) (cs_reporter st) = Some (Ok log', r') ->
  cinv n log0 (mk_cstate log' (cs_markers st) r').
Proof.
  intros C H. unfold reporter_step in H. destruct (rp_loaded (cs_reporter st)) as [i|] eqn:El.
  - destruct (nth_error (cs_log st) (N.to_nat i)) as [v|] eqn:Ev; [|discriminate]. injection H as <- <-.
    assert (Hi : (N.to_nat i < length (cs_log st))%nat) by (apply nth_error_Some; congruence).
    apply (same_markers_cinv n log0 st); auto; simpl.
    + intros p. apply (exchange_there st i v); auto. intros q. now apply cleared_bits.
    + rewrite set_nth_length. apply C.
    + apply C.
    + discriminate.
  - destruct (rp_todo (cs_reporter st)) as [|i rest] eqn:Et; [discriminate|].
    pose proof (ci_fetch _ _ _ C) as Hf. rewrite Et in Hf. inversion Hf; subst.
    destruct (nth_error (cs_log st) (N.to_nat i)) as [v|] eqn:Ev; [|discriminate].
    destruct (N.eqb_spec v 0) as [->|Hv]; injection H as <- <-; apply (same_markers_cinv n log0 st); auto; simpl; try apply C.
    + intros p. unfold there, reported. simpl. split.
      * intros [A|(i' & v' & [E|A] & B & D)]; [auto| |right; exists i', v'; auto].
        injection E as <- <-. rewrite N.bits_0 in D. discriminate.
      * intros [A|(i' & v' & A & B)]; [auto|]. right. exists i', v'. auto.
    + discriminate.
    + reflexivity.
    + intros j E. injection E as <-. auto.
Qed.

Lemma cstep_cinv n log0 st c : cinv n log0 st -> exists st', cstep st c = Ok st' /\ cinv n log0 st'.
Proof.
  intros C. destruct c as [t|]; simpl.
  - destruct (nth_error (cs_markers st) t) as [m|] eqn:Hn; [|eauto].
    destruct (marker_step (cs_log st) m) as [[o m']|] eqn:E; [|eauto].
    destruct o as [log'|e|k].
    + eexists. split; [reflexivity|]. eapply marker_cinv; eauto.
    + unfold marker_step in E. destruct (mk_current m) as [[[s e'] [|[i b] ops]]|]; try discriminate;
        [|destruct (mk_todo m) as [|[? ?] ?]; discriminate].
      injection E as E _. unfold or_byte in E. destruct (nth_error (cs_log st) (N.to_nat i)); discriminate.
    + exfalso. unfold marker_step in E. destruct (mk_current m) as [[[s e'] [|[i b] ops]]|] eqn:Ec; try discriminate;
        [|destruct (mk_todo m) as [|[? ?] ?]; discriminate].
      injection E as E _. destruct (ci_cur _ _ _ C m s e' _ (nth_error_In _ _ Hn) Ec) as (_ & Hf & _).
      inversion Hf as [|? ? Hi _]; subst. simpl in Hi. pose proof (ci_len _ _ _ C).
      unfold or_byte in E. destruct (nth_error (cs_log st) (N.to_nat i)) eqn:En; [discriminate|].
      apply nth_error_None in En. lia.
  - destruct (reporter_step (cs_log st) (cs_reporter st)) as [[o r']|] eqn:E; [|eauto].
    destruct o as [log'|e|k].
    + eexists. split; [reflexivity|]. eapply reporter_cinv; eauto.
    + unfold reporter_step in E. destruct (rp_loaded (cs_reporter st)) as [i|];
        [destruct (nth_error (cs_log st) (N.to_nat i)); discriminate|]. destruct (rp_todo (cs_reporter st)) as [|i l]; [discriminate|].
      destruct (nth_error (cs_log st) (N.to_nat i)) as [v|]; [destruct (v =? 0)|]; discriminate.
    + exfalso. pose proof (ci_len _ _ _ C) as Hlen. unfold reporter_step in E.
      destruct (rp_loaded (cs_reporter st)) as [i|] eqn:El.
      * pose proof (ci_loaded _ _ _ C i El). destruct (nth_error (cs_log st) (N.to_nat i)) eqn:En; [discriminate|].
        apply nth_error_None in En. lia.
      * pose proof (ci_fetch _ _ _ C) as Hf. destruct (rp_todo (cs_reporter st)) as [|i rest]; [discriminate|].
        inversion Hf; subst. destruct (nth_error (cs_log st) (N.to_nat i)) as [v|] eqn:En; [destruct (v =? 0); discriminate|].
        apply nth_error_None in En. lia.
Qed.

Lemma crun_cinv n log0 sched : forall st, cinv n log0 st -> exists st', crun st sched = Ok st' /\ cinv n log0 st'.
Proof.
  induction sched as [|c sched IH]; intros st C; simpl; [eauto|].
  destruct (cstep_cinv n log0 st c C) as (st1 & -> & C1). apply IH. exact C1.
Qed.

Lemma cstart_cinv log ranges fetches : job_ok log ranges fetches ->
  cinv (N.of_nat (length log)) log (cstart log ranges fetches).
Proof.
  intros [H1 H2]. constructor; simpl; auto.
  - intros m Hm. apply in_map_iff in Hm. destruct Hm as (r & <- & Hr). rewrite Forall_forall in H1. apply (H1 r Hr).
  - intros m s e ops Hm E. apply in_map_iff in Hm. destruct Hm as (r & <- & Hr). discriminate.
  - intros p (m & s & e & Hm & Hd & _). simpl in Hm. apply in_map_iff in Hm. destruct Hm as (r & <- & Hr). destruct Hd.
  - intros p Hp. left. exact Hp.
  - intros p [Hp|(i & v & [] & _)]. auto.
  - discriminate.
Qed.

(* ---- C14 *)

(* Whatever the schedule: nothing goes wrong; a page that was dirty at the start, or that some thread has finished
   marking, is in the log or has been reported; and every page in the log or reported was dirty at the start or is in
   a range that some thread has begun to mark. *)
Theorem C14_nothing_lost : forall log ranges fetches sched,
  job_ok log ranges fetches ->
  exists st, crun (cstart log ranges fetches) sched = Ok st /\
    (forall p, page_set log p \/ marking_finished st p -> page_set (cs_log st) p \/ reported st p) /\
    (forall p, page_set (cs_log st) p \/ reported st p -> page_set log p \/ marking_begun st p).
Proof.
  intros log ranges fetches sched Hj.
  destruct (crun_cinv _ _ sched _ (cstart_cinv _ _ _ Hj)) as (st & E & C).
  exists st. split; [exact E|]. split.
  - intros p [H|H]; [apply (ci_init _ _ _ C) in H|apply (ci_done _ _ _ C) in H]; exact H.
  - intros p H. apply (ci_only _ _ _ C). exact H.
Qed.
Print Assumptions C14_nothing_lost.

(* A page finished when a report has not yet looked at its byte is reported once that report has fetched the byte,
   whatever the other threads do meanwhile.  [before] is what the reporter fetches first. *)
Lemma there_mono n log0 sched : forall st st' p, cinv n log0 st -> crun st sched = Ok st' -> there st p -> there st' p.
Proof.
  induction sched as [|c sched IH]; intros st st' p C H Hp; simpl in H; [injection H as <-; auto|].
  destruct (cstep_cinv n log0 st c C) as (st1 & E1 & C1). rewrite E1 in H.
  apply (IH st1 st' p C1 H).
  destruct c as [t|]; simpl in E1.
  - destruct (nth_error (cs_markers st) t) as [m|] eqn:Hn; [|injection E1 as <-; auto].
    destruct (marker_step (cs_log st) m) as [[[log'| |] m']|] eqn:E; try discriminate; injection E1 as <-; auto.
    unfold marker_step in E. destruct (mk_current m) as [[[s e] [|[i b] ops]]|] eqn:Ec.
    + injection E as <- <-. auto.
    + injection E as E <-. unfold there in *. simpl. rewrite (or_byte_bits _ _ _ _ E). tauto.
    + destruct (mk_todo m) as [|[s e] rest]; [discriminate|]. injection E as <- <-. auto.
  - destruct (reporter_step (cs_log st) (cs_reporter st)) as [[[log'| |] r']|] eqn:E; try discriminate; injection E1 as <-; auto.
    unfold reporter_step in E. destruct (rp_loaded (cs_reporter st)) as [i|] eqn:El.
    + destruct (nth_error (cs_log st) (N.to_nat i)) as [v|] eqn:Ev; [|discriminate]. injection E as <- <-.
      assert (Hi : (N.to_nat i < length (cs_log st))%nat) by (apply nth_error_Some; congruence).
      apply (exchange_there st i v); auto. intros q. now apply cleared_bits.
    + destruct (rp_todo (cs_reporter st)) as [|i rest] eqn:Et; [discriminate|].
      destruct (nth_error (cs_log st) (N.to_nat i)) as [v|] eqn:Ev; [|discriminate].
      destruct (v =? 0); injection E as <- <-; auto.
      unfold there, reported in *. simpl. destruct Hp as [A|(i' & v' & A & B)]; [auto|right; exists i', v'; auto].
Qed.

Lemma reported_mono n log0 sched : forall st st' p, cinv n log0 st -> crun st sched = Ok st' -> reported st p -> reported st' p.
Proof.
  induction sched as [|c sched IH]; intros st st' p C H Hp; simpl in H; [injection H as <-; auto|].
  destruct (cstep_cinv n log0 st c C) as (st1 & E1 & C1). rewrite E1 in H.
  apply (IH st1 st' p C1 H).
  destruct c as [t|]; simpl in E1.
  - destruct (nth_error (cs_markers st) t) as [m|] eqn:Hn; [|injection E1 as <-; auto].
    destruct (marker_step (cs_log st) m) as [[[log'| |] m']|] eqn:E; try discriminate; injection E1 as <-; auto.
  - destruct (reporter_step (cs_log st) (cs_reporter st)) as [[[log'| |] r']|] eqn:E; try discriminate; injection E1 as <-; auto.
    destruct Hp as (i' & v' & A & B). exists i', v'. simpl. split; [|auto].
    unfold reporter_step in E. destruct (rp_loaded (cs_reporter st)) as [i|] eqn:El.
    + destruct (nth_error (cs_log st) (N.to_nat i)) as [v|] eqn:Ev; [|discriminate]. injection E as <- <-. right; auto.
    + destruct (rp_todo (cs_reporter st)) as [|i rest] eqn:Et; [discriminate|].
      destruct (nth_error (cs_log st) (N.to_nat i)) as [v|] eqn:Ev; [|discriminate].
      destruct (v =? 0); injection E as <- <-; [right|]; auto.
Qed.

(* How far the reporter is from having fetched the head of [i :: after]. *)
Definition awaiting (st : cstate) (p : N) (after : list N) : Prop :=
  (exists before, rp_todo (cs_reporter st) = before ++ p / 8 :: after) \/
  (rp_loaded (cs_reporter st) = Some (p / 8) /\ rp_todo (cs_reporter st) = after /\ True) \/
  reported st p.

Lemma awaiting_run n log0 after sched : forall st st' p, cinv n log0 st -> crun st sched = Ok st' ->
  there st p -> awaiting st p after -> awaiting st' p after.
Proof.
  induction sched as [|c sched IH]; intros st st' p C H Ht Ha; simpl in H; [injection H as <-; auto|].
  destruct (cstep_cinv n log0 st c C) as (st1 & E1 & C1). rewrite E1 in H.
  assert (Ht1 : there st1 p).
  { apply (there_mono n log0 [c] st st1 p C); auto. simpl. now rewrite E1. }
  apply (IH st1 st' p C1 H Ht1).
  destruct Ha as [(before & Hb)|[(Hl & Hd & _)|Hr]].
  3:{ right; right. apply (reported_mono n log0 [c] st st1 p C); auto. simpl. now rewrite E1. }
  - destruct c as [t|]; simpl in E1.
    + destruct (nth_error (cs_markers st) t) as [m|] eqn:Hn; [|injection E1 as <-; left; eauto].
      destruct (marker_step (cs_log st) m) as [[[log'| |] m']|] eqn:E; try discriminate; injection E1 as <-; left; eauto.
    + destruct (reporter_step (cs_log st) (cs_reporter st)) as [[[log'| |] r']|] eqn:E; try discriminate; injection E1 as <-.
      2:{ left; eauto. }
      unfold reporter_step in E. destruct (rp_loaded (cs_reporter st)) as [i|] eqn:El.
      * destruct (nth_error (cs_log st) (N.to_nat i)) as [v|] eqn:Ev; [|discriminate]. injection E as <- <-. left. exists before. exact Hb.
      * rewrite Hb in E. destruct before as [|j before]; simpl in E.
        -- destruct (nth_error (cs_log st) (N.to_nat (p / 8))) as [v|] eqn:Ev; [|discriminate].
           destruct (N.eqb_spec v 0) as [->|Hv]; injection E as <- <-.
           ++ right; right. destruct Ht as [A|(i' & v' & A & B)].
              ** exfalso. unfold page_set in A. erewrite nth_error_nth in A by eauto. rewrite N.bits_0 in A. discriminate.
              ** exists i', v'. split; [right; exact A|exact B].
           ++ right; left. auto.
        -- destruct (nth_error (cs_log st) (N.to_nat j)) as [v|] eqn:Ev; [|discriminate].
           destruct (v =? 0); injection E as <- <-; left; exists before; reflexivity.
  - destruct c as [t|]; simpl in E1.
    + destruct (nth_error (cs_markers st) t) as [m|] eqn:Hn; [|injection E1 as <-; right; left; auto].
      destruct (marker_step (cs_log st) m) as [[[log'| |] m']|] eqn:E; try discriminate; injection E1 as <-; right; left; auto.
    + destruct (reporter_step (cs_log st) (cs_reporter st)) as [[[log'| |] r']|] eqn:E; try discriminate; injection E1 as <-.
      2:{ right; left. auto. }
      unfold reporter_step in E. rewrite Hl in E.
      destruct (nth_error (cs_log st) (N.to_nat (p / 8))) as [v|] eqn:Ev; [|discriminate]. injection E as <- <-.
      right; right. destruct Ht as [A|(i' & v' & A & B)].
      * exists (p / 8), v. split; [left; auto|]. split; [auto|]. unfold page_set in A. erewrite nth_error_nth in A by eauto. auto.
      * exists i', v'. split; [right; exact A|exact B].
Qed.

Theorem C14_next_report_has_it : forall log ranges fetches s1 s2 st1 st2 p before after,
  job_ok log ranges fetches ->
  crun (cstart log ranges fetches) s1 = Ok st1 -> marking_finished st1 p ->
  rp_todo (cs_reporter st1) = before ++ p / 8 :: after ->
  crun st1 s2 = Ok st2 -> (length (rp_todo (cs_reporter st2)) <= length after)%nat ->
  rp_loaded (cs_reporter st2) = None ->
  reported st2 p.
Proof.
  intros log ranges fetches s1 s2 st1 st2 p before after Hj E1 Hf Htodo E2 Hlen Hl.
  destruct (crun_cinv _ _ s1 _ (cstart_cinv _ _ _ Hj)) as (st & E & C). rewrite E1 in E. injection E as <-.
  pose proof (ci_done _ _ _ C p Hf) as Ht.
  destruct (awaiting_run _ _ after s2 st1 st2 p C E2 Ht) as [(b & Hb)|[(A & _)|A]].
  - left. eauto.
  - rewrite Hb, app_length in Hlen. simpl in Hlen. lia.
  - congruence.
  - exact A.
Qed.
Print Assumptions C14_next_report_has_it.

(* Two markers race with two reports over a two-byte log; marker 1 is caught between its two atomic operations. *)
Definition ex14_sched : list choice :=
  [StepMarker 0; StepMarker 1; StepMarker 1; StepReporter; StepMarker 0; StepMarker 0; StepReporter; StepReporter;
   StepMarker 1; StepMarker 1; StepReporter; StepReporter; StepReporter; StepReporter].

Example C14_case : job_ok [0; 128] [[(1, 3)]; [(6, 11)]] [0; 1; 0; 1] /\ exists st,
  crun (cstart [0; 128] [[(1, 3)]; [(6, 11)]] [0; 1; 0; 1]) ex14_sched = Ok st /\
  marking_finished st 7 /\ marking_finished st 2 /\ page_set [0; 128] 15 /\
  rp_fetched (cs_reporter st) = [(1, 0); (0, 0); (1, 135); (0, 198)] /\ cs_log st = [0; 0].
Proof.
  split; [repeat constructor; simpl; try lia; vm_compute; reflexivity|].
  eexists. split; [vm_compute; reflexivity|]. split; [|split; [|split; [|split]]]; try reflexivity.
  - eexists _, 6, 11. simpl. split; [right; left; reflexivity|]. simpl. split; [auto|lia].
  - eexists _, 1, 3. simpl. split; [left; reflexivity|]. simpl. split; [auto|lia].
Qed.

Example C14_case_next : exists st1 st2,
  crun (cstart [0; 128] [[(1, 3)]; [(6, 11)]] [0; 1; 0; 1]) (firstn 10 ex14_sched) = Ok st1 /\ marking_finished st1 9 /\
  rp_todo (cs_reporter st1) = [0] ++ 9 / 8 :: [] /\
  crun st1 (skipn 10 ex14_sched) = Ok st2 /\ rp_todo (cs_reporter st2) = [] /\ rp_loaded (cs_reporter st2) = None.
Proof.
  eexists _, _. split; [vm_compute; reflexivity|]. split; [|split; [vm_compute; reflexivity|split; [vm_compute; reflexivity|split; reflexivity]]].
  eexists _, 6, 11. simpl. split; [right; left; reflexivity|]. simpl. split; [auto|lia].
Qed.
