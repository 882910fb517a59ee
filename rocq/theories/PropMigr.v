(* C30-C32: the migration state machine and migration data. *)
From Coq Require Import NArith ZArith List Bool Lia ZifyBool ZifyNat ZifyN.
From Verif Require Import Base Types Bytes BytesProofs Migr SpecMigr.
Import ListNotations.
Open Scope N_scope.
Ltac Zify.zify_post_hook ::= idtac.

(* Distance in the documented graph, used to show that the paths taken are shortest. *)
Definition dist (s t : vfu_migr_state) : nat :=
  match s, t with
  | VFU_STOP, VFU_STOP => 0 | VFU_STOP, VFU_RUNNING => 1 | VFU_STOP, VFU_STOP_AND_COPY => 1
  | VFU_STOP, VFU_RESUME => 1 | VFU_STOP, VFU_PRE_COPY => 2
  | VFU_RUNNING, VFU_STOP => 1 | VFU_RUNNING, VFU_RUNNING => 0 | VFU_RUNNING, VFU_STOP_AND_COPY => 2
  | VFU_RUNNING, VFU_RESUME => 2 | VFU_RUNNING, VFU_PRE_COPY => 1
  | VFU_STOP_AND_COPY, VFU_STOP => 1 | VFU_STOP_AND_COPY, VFU_RUNNING => 2
  | VFU_STOP_AND_COPY, VFU_STOP_AND_COPY => 0 | VFU_STOP_AND_COPY, VFU_RESUME => 2
  | VFU_STOP_AND_COPY, VFU_PRE_COPY => 3
  | VFU_RESUME, VFU_STOP => 1 | VFU_RESUME, VFU_RUNNING => 2 | VFU_RESUME, VFU_STOP_AND_COPY => 2
  | VFU_RESUME, VFU_RESUME => 0 | VFU_RESUME, VFU_PRE_COPY => 3
  | VFU_PRE_COPY, VFU_STOP => 2 | VFU_PRE_COPY, VFU_RUNNING => 1 | VFU_PRE_COPY, VFU_STOP_AND_COPY => 1
  | VFU_PRE_COPY, VFU_RESUME => 3 | VFU_PRE_COPY, VFU_PRE_COPY => 0
  end.

Lemma dist_edge s m t : edge s m -> (dist s t <= S (dist m t))%nat.
Proof. intros H. destruct H; destruct t; cbn; lia. Qed.

Lemma dist_path s p t : path s p t -> (dist s t <= length p)%nat.
Proof.
  induction 1 as [s|s m p t E P IH]; [destruct s; cbn; lia|].
  pose proof (dist_edge s m t E). cbn [length]. lia.
Qed.

Lemma shortest_of s p t : path s p t -> length p = dist s t -> shortest s p t.
Proof. intros P L. split; [exact P|]. intros p' P'. rewrite L. now apply dist_path. Qed.

(* One pass of the loop. *)
Lemma hds_edge a s m : edge s m ->
  handle_device_state a (wire s) (wire m) =
  match a with Some e => (Err e, wire s, [EvTransition m]) | None => (Ok tt, wire m, [EvTransition m]) end.
Proof. intros E. destruct E; destruct a; reflexivity. Qed.

Lemma loop_step f answers k s m t row :
  edge s m -> wire s <> wire t -> nth_error next_state (N.to_nat (wire s)) = Some row ->
  nth_error row (N.to_nat (wire t)) = Some (wire m) ->
  set_state_loop (S f) answers k (wire s) (wire t) =
  match answers k with
  | Some e => (Err e, wire s, [EvTransition m])
  | None => let '(o, c, ev) := set_state_loop f answers (S k) (wire m) (wire t) in (o, c, EvTransition m :: ev)
  end.
Proof.
  intros E D R C. cbn [set_state_loop].
  destruct (wire s =? wire t) eqn:Q; [apply N.eqb_eq in Q; contradiction|].
  rewrite R, C. assert (Z : (wire m =? ST_ERROR) = false) by (destruct m; reflexivity). rewrite Z.
  rewrite (hds_edge _ _ _ E). destruct (answers k); [reflexivity|].
  destruct (set_state_loop f answers (S k) (wire m) (wire t)) as [[o c] ev]. reflexivity.
Qed.

Lemma loop_same f answers k s : set_state_loop f answers k (wire s) (wire s) = (Ok tt, wire s, []).
Proof. destruct f; cbn [set_state_loop]; now rewrite N.eqb_refl. Qed.

(* The states the code walks through. *)
Definition route (s t : vfu_migr_state) : list vfu_migr_state :=
  match s, t with
  | VFU_STOP, VFU_STOP => [] | VFU_STOP, VFU_PRE_COPY => [VFU_RUNNING; VFU_PRE_COPY] | VFU_STOP, t => [t]
  | VFU_RUNNING, VFU_RUNNING => [] | VFU_RUNNING, VFU_STOP => [VFU_STOP] | VFU_RUNNING, VFU_PRE_COPY => [VFU_PRE_COPY]
  | VFU_RUNNING, t => [VFU_STOP; t]
  | VFU_STOP_AND_COPY, VFU_STOP_AND_COPY => [] | VFU_STOP_AND_COPY, VFU_STOP => [VFU_STOP]
  | VFU_STOP_AND_COPY, t => [VFU_STOP; t]
  | VFU_RESUME, VFU_RESUME => [] | VFU_RESUME, VFU_STOP => [VFU_STOP]
  | VFU_RESUME, VFU_PRE_COPY => [VFU_STOP; VFU_RUNNING; VFU_PRE_COPY] | VFU_RESUME, t => [VFU_STOP; t]
  | VFU_PRE_COPY, VFU_PRE_COPY => [] | VFU_PRE_COPY, VFU_STOP => [VFU_RUNNING; VFU_STOP]
  | VFU_PRE_COPY, VFU_RESUME => [VFU_RUNNING; VFU_STOP; VFU_RESUME] | VFU_PRE_COPY, t => [t]
  end.

Lemma route_path s t : ~ (s = VFU_STOP_AND_COPY /\ t = VFU_PRE_COPY) -> path s (route s t) t.
Proof.
  intros H. destruct s, t; try (exfalso; apply H; split; reflexivity); cbn [route];
    repeat (apply path_nil || (eapply path_cons; [constructor|])).
Qed.

Lemma route_len s t : ~ (s = VFU_STOP_AND_COPY /\ t = VFU_PRE_COPY) -> length (route s t) = dist s t.
Proof. intros H. destruct s, t; try reflexivity. exfalso; apply H; split; reflexivity. Qed.

(* Walking any route suffix: the loop follows the notifications. *)
Lemma loop_route answers t : forall p f k s, ~ (s = VFU_STOP_AND_COPY /\ t = VFU_PRE_COPY) ->
  route s t = p -> (length p <= f)%nat ->
  exists s' seen r, notified answers k s p s' seen r /\
    set_state_loop f answers k (wire s) (wire t) =
    (match r with None => Ok tt | Some e => Err e end, wire s', map EvTransition seen).
Proof.
  induction p as [|m p IH]; intros f k s H R L.
  - assert (s = t) by (destruct s, t; try reflexivity; discriminate R). subst t.
    exists s, [], None. split; [constructor|]. now rewrite loop_same.
  - destruct f as [|f]; [cbn [length] in L; lia|]. cbn [length] in L.
    assert (E : edge s m) by (destruct s, t; try discriminate R; injection R as <- _; constructor).
    assert (Hm : ~ (m = VFU_STOP_AND_COPY /\ t = VFU_PRE_COPY))
      by (destruct s, t; try discriminate R; injection R as <- _; intros [? ?]; discriminate).
    assert (Rm : route m t = p).
    { destruct s, t; try discriminate R; try (injection R as <- <-; reflexivity).
      exfalso; apply H; split; reflexivity. }
    assert (St : exists row, nth_error next_state (N.to_nat (wire s)) = Some row /\
                             nth_error row (N.to_nat (wire t)) = Some (wire m)).
    { destruct s, t; try discriminate R;
        try (injection R as <- _; eexists; split; [reflexivity|reflexivity]).
      exfalso; apply H; split; reflexivity. }
    destruct St as (row & R1 & R2).
    assert (D : wire s <> wire t) by (destruct s, t; try discriminate R; discriminate).
    rewrite (loop_step f answers k s m t row E D R1 R2).
    destruct (answers k) as [e|] eqn:A.
    + exists s, [m], (Some e). split; [now constructor|reflexivity].
    + destruct (IH f (S k) m Hm Rm ltac:(lia)) as (s' & seen & r & Nt & Eq). rewrite Eq.
      exists s', (m :: seen), r. split; [now constructor|reflexivity].
Qed.

(* ---- C31: a request terminates at the target along a shortest legal path, or stops at the first refusal. *)
Theorem C31_shortest_path : forall answers s t,
  ~ (s = VFU_STOP_AND_COPY /\ t = VFU_PRE_COPY) ->
  exists p s' seen r, shortest s p t /\ notified answers 0 s p s' seen r /\
    migration_set_state answers (wire s) (wire t) =
    (match r with None => Ok tt | Some e => Err e end, wire s', map EvTransition seen).
Proof.
  intros answers s t H. exists (route s t).
  destruct (loop_route answers t (route s t) 8 0 s H eq_refl) as (s' & seen & r & Nt & Eq).
  { rewrite route_len by exact H. destruct s, t; cbn; lia. }
  exists s', seen, r. split; [|split; [exact Nt|]].
  - apply shortest_of; [now apply route_path|now apply route_len].
  - unfold migration_set_state.
    assert (L : (NUM_STATES <? wire t) = false) by (destruct t; reflexivity). rewrite L. exact Eq.
Qed.
Print Assumptions C31_shortest_path.

(* If the device accepts everything the target is reached. *)
Theorem C31_target_reached : forall answers s t,
  ~ (s = VFU_STOP_AND_COPY /\ t = VFU_PRE_COPY) -> (forall k, answers k = None) ->
  exists p, shortest s p t /\
    migration_set_state answers (wire s) (wire t) = (Ok tt, wire t, map EvTransition p).
Proof.
  intros answers s t H A. destruct (C31_shortest_path answers s t H) as (p & s' & seen & r & S & Nt & E).
  exists p. split; [exact S|]. destruct S as [P _].
  assert (X : forall k a q b, path a q b -> forall s' seen r, notified answers k a q s' seen r -> s' = b /\ seen = q /\ r = None).
  { clear - A. intros k a q b Pq. revert k. induction Pq as [|a m q b E P IH]; intros k s' seen r Nt; inversion Nt; subst.
    - auto.
    - match goal with B : answers _ = Some _ |- _ => rewrite A in B; discriminate end.
    - match goal with N : notified _ _ m _ _ _ _ |- _ => destruct (IH _ _ _ _ N) as (-> & -> & ->) end. auto. }
  destruct (X _ _ _ _ P _ _ _ Nt) as (-> & -> & ->). exact E.
Qed.
Print Assumptions C31_target_reached.

Example C31_case :
  migration_set_state (fun _ => None) 6 4 = (Ok tt, 4, [EvTransition VFU_RUNNING; EvTransition VFU_STOP; EvTransition VFU_RESUME]) /\
  migration_set_state (fun k => if Nat.eqb k 1 then Some 5 else None) 6 4 =
    (Err 5, 2, [EvTransition VFU_RUNNING; EvTransition VFU_STOP]).
Proof. split; reflexivity. Qed.

(* ---- C30 *)

(* The states the library can be in. *)
Definition supported (s : N) : Prop := exists v, s = wire v.

Lemma sees_notified answers : forall k s p s' seen r, notified answers k s p s' seen r ->
  forall t, path s p t -> device_sees answers k s (map EvTransition seen) s'.
Proof.
  induction 1 as [k s|k s m p e A|k s m p s' seen r A N IH]; intros t P.
  - constructor.
  - inversion P; subst. cbn [map]. eapply ds_refuse; eauto. constructor.
  - inversion P; subst. cbn [map]. eapply ds_accept; eauto.
Qed.

Lemma wire_inj s t : wire s = wire t -> s = t.
Proof. destruct s, t; intros H; try reflexivity; discriminate H. Qed.

(* Requests that must be refused: ERROR, the peer-to-peer states, values beyond the table (8 is dealt
   with separately below) and STOP_COPY -> PRE_COPY. *)
Lemma bad_target answers s target : target <> 8 ->
  (forall t, target <> wire t) \/ (s = VFU_STOP_AND_COPY /\ target = wire VFU_PRE_COPY) ->
  migration_set_state answers (wire s) target = (Err EINVAL, wire s, []).
Proof.
  intros H8 H. unfold migration_set_state, NUM_STATES. destruct (8 <? target) eqn:L; [reflexivity|].
  assert (B : target < 8) by lia.
  assert (C : target = 0 \/ target = 1 \/ target = 2 \/ target = 3 \/ target = 4 \/ target = 5 \/ target = 6 \/ target = 7) by lia.
  destruct H as [H|[-> ->]]; [|reflexivity].
  destruct C as [->|[->|[->|[->|[->|[->|[->| ->]]]]]]].
  - destruct s; reflexivity.
  - now destruct (H VFU_STOP).
  - now destruct (H VFU_RUNNING).
  - now destruct (H VFU_STOP_AND_COPY).
  - now destruct (H VFU_RESUME).
  - destruct s; reflexivity.
  - now destruct (H VFU_PRE_COPY).
  - destruct s; reflexivity.
Qed.

Theorem C30_refused_without_notification : forall answers s target, target <> 8 ->
  (forall t, target <> wire t) \/ (s = VFU_STOP_AND_COPY /\ target = wire VFU_PRE_COPY) ->
  migration_set_state answers (wire s) target = (Err EINVAL, wire s, []).
Proof. exact bad_target. Qed.
Print Assumptions C30_refused_without_notification.

Example C30_refused_cases : forall answers,
  migration_set_state answers 2 0 = (Err EINVAL, 2, []) /\
  migration_set_state answers 2 5 = (Err EINVAL, 2, []) /\
  migration_set_state answers 3 6 = (Err EINVAL, 3, []) /\
  migration_set_state answers 2 4000000000 = (Err EINVAL, 2, []).
Proof. intros answers. repeat split. Qed.

Lemma supported_dec target : target < 8 -> (exists t, target = wire t) \/ (forall t, target <> wire t).
Proof.
  intros B.
  assert (C : target = 0 \/ target = 1 \/ target = 2 \/ target = 3 \/ target = 4 \/ target = 5 \/ target = 6 \/ target = 7) by lia.
  destruct C as [->|[->|[->|[->|[->|[->|[->| ->]]]]]]];
    try (right; intros t; destruct t; discriminate).
  - left; now exists VFU_STOP.
  - left; now exists VFU_RUNNING.
  - left; now exists VFU_STOP_AND_COPY.
  - left; now exists VFU_RESUME.
  - left; now exists VFU_PRE_COPY.
Qed.

(* One request: from a supported state, whatever is asked (except the value 8) and whatever the device
   answers, every notification is along a legal edge from the state the device is in, and the state the
   library keeps (and reports) is the one the device last accepted. *)
Theorem C30_legal_transitions : forall answers s target o st ev, target <> 8 ->
  migration_set_state answers (wire s) target = (o, st, ev) ->
  exists s', st = wire s' /\ device_sees answers 0 s ev s'.
Proof.
  intros answers s target o st ev H8 E.
  assert (Bad : (forall t, target <> wire t) \/ (s = VFU_STOP_AND_COPY /\ target = wire VFU_PRE_COPY) ->
    exists s', st = wire s' /\ device_sees answers 0 s ev s').
  { intros B. rewrite (bad_target _ _ _ H8 B) in E. injection E as <- <- <-. exists s. split; [reflexivity|constructor]. }
  destruct (N.lt_ge_cases target 8) as [L|L].
  - destruct (supported_dec _ L) as [[t ->]|B]; [|apply Bad; now left].
    assert (Q : (s = VFU_STOP_AND_COPY /\ t = VFU_PRE_COPY) \/ ~ (s = VFU_STOP_AND_COPY /\ t = VFU_PRE_COPY))
      by (destruct s, t; (left; split; reflexivity) || (right; intros [? ?]; discriminate)).
    destruct Q as [[-> ->]|Q]; [apply Bad; right; auto|].
    destruct (C31_shortest_path answers s t Q) as (p & s' & seen & r & [P _] & Nt & Eq).
    rewrite Eq in E. injection E as <- <- <-. exists s'. split; [reflexivity|].
    eapply sees_notified; eauto.
  - apply Bad. left. intros t C. destruct t; cbn [wire] in C; lia.
Qed.
Print Assumptions C30_legal_transitions.

(* Histories: requests (with the answers the device gives while each is processed) and device resets,
   which put a migratable device in RUNNING (lib/libvfio-user.c:888-903). *)
Inductive mop : Type :=
| MSet (target : N) (answers : nat -> cb_answer)
| MReset.

Definition mstep (st : N) (o : mop) : N * list event :=
  match o with
  | MSet target answers => let '(_, st', ev) := migration_set_state answers st target in (st', ev)
  | MReset => (ST_RUNNING, [])
  end.

Fixpoint mrun (st : N) (ops : list mop) : N :=
  match ops with [] => st | o :: ops' => mrun (fst (mstep st o)) ops' end.

(* Every request of the history is legal from the device's point of view. *)
Inductive history_legal : vfu_migr_state -> N -> list mop -> vfu_migr_state -> Prop :=
| hl_nil : forall s st, st = wire s -> history_legal s st [] s
| hl_set : forall s st target answers s' ops s'',
    device_sees answers 0 s (snd (mstep st (MSet target answers))) s' ->
    history_legal s' (fst (mstep st (MSet target answers))) ops s'' ->
    history_legal s st (MSet target answers :: ops) s''
| hl_reset : forall s st ops s'', history_legal VFU_RUNNING (fst (mstep st MReset)) ops s'' ->
    history_legal s st (MReset :: ops) s''.

Lemma legal_end s st ops s' : history_legal s st ops s' -> mrun st ops = wire s'.
Proof. induction 1; cbn [mrun]; auto. Qed.

(* The device starts out RUNNING (lib/migration.c:158). *)
Theorem C30_histories : forall ops, (forall target answers, In (MSet target answers) ops -> target <> 8) ->
  exists s, history_legal VFU_RUNNING ST_RUNNING ops s /\ mrun ST_RUNNING ops = wire s.
Proof.
  intros ops H.
  assert (G : forall ops, (forall target answers, In (MSet target answers) ops -> target <> 8) ->
    forall s, exists s', history_legal s (wire s) ops s').
  { clear. induction ops as [|o ops IH]; intros H s.
    - exists s. now constructor.
    - assert (H' : forall target answers, In (MSet target answers) ops -> target <> 8)
        by (intros t a I; apply (H t a); now right).
      destruct o as [target answers|].
      + assert (T8 : target <> 8) by (apply (H target answers); now left).
        destruct (migration_set_state answers (wire s) target) as [[o st] ev] eqn:E.
        destruct (C30_legal_transitions _ _ _ _ _ _ T8 E) as (s1 & -> & D).
        destruct (IH H' s1) as [s2 L]. exists s2.
        apply (hl_set s (wire s) target answers s1); cbn [mstep]; rewrite E; assumption.
      + destruct (IH H' VFU_RUNNING) as [s2 L]. exists s2. constructor. exact L. }
  destruct (G ops H VFU_RUNNING) as [s L]. exists s. split; [exact L|]. now apply legal_end in L.
Qed.
Print Assumptions C30_histories.

Example C30_history_case :
  mrun ST_RUNNING [MSet 6 (fun _ => None); MSet 3 (fun _ => None); MSet 2 (fun k => if Nat.eqb k 1 then Some 5 else None)] = ST_STOP.
Proof. reflexivity. Qed.

(* The value 8 (VFIO_USER_DEVICE_NUM_STATES) passes the bounds check (`>` instead of `>=`) and indexes
   next_state outside its row: the full property (every target) is false. *)
Theorem C30_num_states_refuted : exists s target, forall answers,
  fst (fst (migration_set_state answers (wire s) target)) = Crash OutOfBounds.
Proof. exists VFU_RUNNING, 8. intros answers. reflexivity. Qed.
Print Assumptions C30_num_states_refuted.

(* ---- C32: migration data.  A payload with its two 32-bit fields argsz and size. *)
Definition mig_data_body (argsz size : N) (rest : list N) : list N := le_bytes 4 argsz ++ le_bytes 4 size ++ rest.

Lemma mdb_fields argsz size rest : argsz < two32 -> size < two32 ->
  (N.of_nat (length (mig_data_body argsz size rest)) <? 8) = false /\
  rd (mig_data_body argsz size rest) 0 4 = Some argsz /\ rd (mig_data_body argsz size rest) 4 4 = Some size /\
  length (mig_data_body argsz size rest) = (8 + length rest)%nat.
Proof.
  intros Ha Hs. unfold mig_data_body.
  assert (L : length (le_bytes 4 argsz ++ le_bytes 4 size ++ rest) = (8 + length rest)%nat)
    by (rewrite !app_length, !le_bytes_length; lia).
  rewrite L. split; [lia|split; [|split; [|reflexivity]]].
  - now apply rd_front.
  - rewrite rd_skip by (rewrite le_bytes_length; lia). rewrite le_bytes_length. cbn [Nat.sub]. now apply rd_front.
Qed.

(* Every payload is either too short or of that form. *)
Lemma mig_data_body_complete body : bytes body ->
  (length body < 8)%nat \/ exists argsz size rest, argsz < two32 /\ size < two32 /\ body = mig_data_body argsz size rest.
Proof.
  intros B. destruct (Nat.lt_ge_cases (length body) 8) as [H|H]; [now left|right].
  destruct (split_field 4 body B) as (a & r1 & -> & Ha & B1); [lia|].
  rewrite app_length, le_bytes_length in H.
  destruct (split_field 4 r1 B1) as (s & r2 & -> & Hs & B2); [lia|].
  exists a, s, r2. auto.
Qed.

Theorem C32_too_short : forall m max ans body, (length body < 8)%nat ->
  mig_data_read m max ans body = (HReply EINVAL [] [], []) /\ mig_data_write m max ans body = (HReply EINVAL [] [], []).
Proof.
  intros m max ans body H. unfold mig_data_read, mig_data_write.
  assert (E : (N.of_nat (length body) <? 8) = true) by lia. rewrite E. split; reflexivity.
Qed.
Print Assumptions C32_too_short.

(* When reading migration data is allowed. *)
Definition may_read (m : option N) (max argsz size : N) : Prop :=
  (m = Some (wire VFU_PRE_COPY) \/ m = Some (wire VFU_STOP_AND_COPY)) /\ size <= max /\ 8 + size <= argsz.
(* When writing migration data is allowed: the payload must really contain size bytes. *)
Definition may_write (m : option N) (max argsz size : N) (data : list N) : Prop :=
  m = Some (wire VFU_RESUME) /\ size <= max /\ 8 + size <= argsz /\ size <= N.of_nat (length data).

(* Reading: the device is asked exactly when allowed, for exactly the requested size; the reply announces
   the size n the device produced, followed by the bytes it produced; its failure is passed on. *)
Theorem C32_read : forall m max ans argsz size rest, argsz < two32 -> size < two32 ->
  let r := mig_data_read m max ans (mig_data_body argsz size rest) in
  (may_read m max argsz size ->
     snd r = [EvReadData size] /\
     match ans with
     | DataErr e => fst r = HReply e [] []
     | DataOk n buf => exists tail,
         fst r = HReply 0 (le_bytes 4 (8 + n) ++ le_bytes 4 n ++ firstn (N.to_nat size) (buf ++ repeat 0 (N.to_nat size)) ++ tail) []
         /\ length tail = length rest
     end) /\
  (~ may_read m max argsz size -> r = (HReply EINVAL [] [], [])).
Proof.
  intros m max ans argsz size rest Ha Hs. cbn zeta.
  destruct (mdb_fields argsz size rest Ha Hs) as (F0 & F1 & F2 & FL).
  unfold mig_data_read. rewrite F0, F1, F2. cbn [need].
  assert (Q : may_read m max argsz size \/ ~ may_read m max argsz size).
  { unfold may_read. destruct m as [st|]; [|right; intros ([H|H] & _); discriminate].
    cbn [wire]. destruct (N.eq_dec st 6) as [->|N6]; [|destruct (N.eq_dec st 3) as [->|N3]].
    - destruct (N.le_gt_cases size max); [|right; lia]. destruct (N.le_gt_cases (8 + size) argsz); [|right; lia]. left; auto.
    - destruct (N.le_gt_cases size max); [|right; lia]. destruct (N.le_gt_cases (8 + size) argsz); [|right; lia]. left; auto.
    - right. intros ([H|H] & _); injection H; intros; contradiction. }
  split; intros H.
  - destruct H as (Hm & Hx & Hz).
    assert (X1 : (max <? size) = false) by lia. assert (X2 : (argsz <? 8 + size) = false) by lia.
    destruct Hm as [-> | ->]; cbn [wire N.eqb ST_PRE_COPY ST_STOP_COPY Pos.eqb negb andb]; rewrite X1, X2;
      (destruct ans as [n buf|e]; cbn [fst snd]; split; try reflexivity;
       exists (zeros (length (mig_data_body argsz size rest) - 8)); split; [reflexivity|];
       unfold zeros; rewrite repeat_length, FL; lia).
  - destruct m as [st|]; [|reflexivity].
    destruct (negb (st =? ST_PRE_COPY) && negb (st =? ST_STOP_COPY)) eqn:E1; [reflexivity|].
    destruct (max <? size) eqn:E2; [reflexivity|]. destruct (argsz <? 8 + size) eqn:E3; [reflexivity|].
    exfalso. apply H. unfold may_read. unfold ST_PRE_COPY, ST_STOP_COPY in E1. cbn [wire].
    split; [|lia]. destruct (N.eq_dec st 6) as [->|N6]; [now left|]. right. f_equal. lia.
Qed.
Print Assumptions C32_read.

Example C32_read_case : mig_data_read (Some 3) 4096 (DataOk 2 [7; 9]) (mig_data_body 12 4 []) =
  (HReply 0 [10; 0; 0; 0; 2; 0; 0; 0; 7; 9; 0; 0] [], [EvReadData 4]) /\ may_read (Some 3) 4096 12 4.
Proof. split; [reflexivity|]. unfold may_read. cbn. intuition lia. Qed.

(* Writing: the device is handed exactly the size bytes the client supplied, only when allowed, and the
   request succeeds only if it consumed all of them. *)
Theorem C32_write : forall m max ans argsz size data, argsz < two32 -> size < two32 ->
  let r := mig_data_write m max ans (mig_data_body argsz size data) in
  (may_write m max argsz size data ->
     snd r = [EvWriteData (firstn (N.to_nat size) data)] /\
     match ans with
     | DataErr e => fst r = HReply e [] []
     | DataOk n _ => (n = size -> fst r = HReply 0 [] []) /\ (n <> size -> fst r = HReply EINVAL [] [])
     end) /\
  (~ may_write m max argsz size data -> r = (HReply EINVAL [] [], [])).
Proof.
  intros m max ans argsz size data Ha Hs. cbn zeta.
  destruct (mdb_fields argsz size data Ha Hs) as (F0 & F1 & F2 & FL).
  unfold mig_data_write. rewrite F0, F1, F2, FL. cbn [need].
  split; intros H.
  - destruct H as (-> & Hx & Hz & Hl).
    assert (X1 : (max <? size) = false) by lia. assert (X2 : (argsz <? 8 + size) = false) by lia.
    assert (X3 : (N.of_nat (8 + length data) <? 8 + size) = false) by lia.
    cbn [wire N.eqb ST_RESUMING Pos.eqb negb]. rewrite X1, X2, X3.
    assert (S : slice (mig_data_body argsz size data) 8 (N.to_nat size) = Some (firstn (N.to_nat size) data)).
    { unfold mig_data_body. rewrite app_assoc.
      rewrite slice_skip by (rewrite app_length, !le_bytes_length; lia).
      rewrite app_length, !le_bytes_length. cbn [Nat.add Nat.sub]. unfold slice. cbn [Nat.add skipn].
      assert (G : Nat.leb (N.to_nat size) (length data) = true) by (apply Nat.leb_le; lia). now rewrite G. }
    rewrite S. cbn [need].
    destruct ans as [n buf|e]; [|split; reflexivity].
    destruct (n =? size) eqn:En.
    + apply N.eqb_eq in En. split; [reflexivity|]. split; [reflexivity|intros; contradiction].
    + apply N.eqb_neq in En. split; [reflexivity|]. split; [intros; contradiction|reflexivity].
  - destruct m as [st|]; [|reflexivity].
    destruct (negb (st =? ST_RESUMING)) eqn:E1; [reflexivity|].
    destruct (max <? size) eqn:E2; [reflexivity|]. destruct (argsz <? 8 + size) eqn:E3; [reflexivity|].
    destruct (N.of_nat (8 + length data) <? 8 + size) eqn:E4; [reflexivity|].
    exfalso. apply H. unfold may_write. unfold ST_RESUMING in E1. cbn [wire].
    split; [f_equal; lia|lia].
Qed.
Print Assumptions C32_write.

Example C32_write_case : mig_data_write (Some 4) 4096 (DataOk 3 []) (mig_data_body 11 3 [1; 2; 3; 4]) =
  (HReply 0 [] [], [EvWriteData [1; 2; 3]]) /\ may_write (Some 4) 4096 11 3 [1; 2; 3; 4].
Proof. split; [reflexivity|]. unfold may_write. cbn. intuition lia. Qed.

(* The reply to a read is as long as the request plus the requested size, so a request with trailing bytes
   is answered with more than the argsz the client announced. *)
Theorem C32_reply_fits_argsz_refuted : exists m max ans argsz size rest body fds,
  may_read m max argsz size /\
  fst (mig_data_read m max ans (mig_data_body argsz size rest)) = HReply 0 body fds /\
  argsz < N.of_nat (length body).
Proof.
  exists (Some 3), 4096, (DataOk 1 [5]), 9, 1, [0; 0; 0; 0]. eexists. exists [].
  split; [|split; [reflexivity|reflexivity]]. unfold may_read. cbn. intuition lia.
Qed.
Print Assumptions C32_reply_fits_argsz_refuted.
