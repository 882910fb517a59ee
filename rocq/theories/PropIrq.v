(* C33-C37: interrupts. *)
From Coq Require Import NArith ZArith List Bool Lia ZifyBool ZifyNat ZifyN.
From Verif Require Import Base Types Bytes BytesProofs Dma Migr Irq SpecIrq IrqProofs.
Import ListNotations.
Open Scope N_scope.
Ltac Zify.zify_post_hook ::= idtac.

(* A device with 1 INTx, 4 MSI and 8 MSI-X vectors. *)
Definition ex_cfg : irq_cfg := mk_irq_cfg [1; 4; 8; 1; 1] [true; false; true; false; false].
Definition ex_table : irqs := mk_irqs (-1) 9 [10; 11; -1; 13; -1; -1; -1; 17]%Z.
Example ex_table_ok : irq_table_ok ex_cfg ex_table.
Proof.
  unfold irq_table_ok. split; [reflexivity|]. split; [repeat constructor|]. split; [|split; reflexivity].
  intros i Hi. assert (C : i = 0 \/ i = 1 \/ i = 2) by lia. destruct C as [->|[->| ->]]; vm_compute; discriminate.
Qed.

(* What vfu_realize_ctx sets up satisfies irq_table_ok. *)
Lemma fold_max_ge l : forall a, a <= fold_left N.max l a /\ forall x, In x l -> x <= fold_left N.max l a.
Proof.
  induction l as [|y l IH]; intros a; cbn [fold_left].
  - split; [lia|]. intros x [].
  - destruct (IH (N.max a y)) as [A B]. split; [lia|]. intros x [->|H]; [lia|auto].
Qed.

Theorem C33_realize_table : forall intx msi msix cbs, intx < two32 - 1 -> msi < two32 - 1 -> msix < two32 - 1 ->
  let c := mk_irq_cfg [intx; msi; msix; 1; 1] cbs in
  irq_table_ok c (irqs_create c) /\ forall index v, binding (irqs_create c) index v = (-1)%Z.
Proof.
  intros intx msi msix cbs H1 H2 H3 c. split.
  - unfold irq_table_ok. split; [reflexivity|]. split; [unfold c, two32 in *; repeat constructor; lia|].
    split; [|split; reflexivity]. intros i Hi. unfold irqs_create. cbn [iq_efds]. rewrite repeat_length.
    destruct (fold_max_ge (ic_count c) 0) as [_ B].
    assert (I : In (nth (N.to_nat i) (ic_count c) 0) (ic_count c)) by (apply nth_In; unfold c; cbn [ic_count length]; lia).
    specialize (B _ I). lia.
  - intros index v. unfold binding, irqs_create. cbn [iq_err iq_req iq_efds].
    destruct (index =? 3); [reflexivity|]. destruct (index =? 4); [reflexivity|].
    set (n := N.to_nat (fold_left N.max (ic_count c) 0)). clearbody n. revert v.
    assert (G : forall n k, nth k (repeat (-1)%Z n) (-1)%Z = (-1)%Z).
    { clear. induction n; intros [|k]; cbn [repeat nth]; auto. }
    intros v. apply G.
Qed.
Print Assumptions C33_realize_table.

  Lemma set_irqs_refused c t answers argsz flags index start count data fds (body := irq_set_body argsz flags index start count data) :
  argsz < two32 -> flags < two32 -> index < two32 -> start < two32 -> count < two32 ->
  Forall (fun n => n < two32 - 1) (ic_count c) ->
    ~ irq_request_ok c argsz flags index start count data fds ->
    set_irqs c t answers body fds = (HReply EINVAL [] [], t, fds, []).
  Proof.
    intros H1 H2 H3 H4 H5 Hc H. destruct (isb_fields argsz flags index start count data H1 H2 H3 H4 H5) as (L & R0 & R1 & R2 & R3 & R4 & _).
    unfold set_irqs. fold body in L, R0, R1, R2, R3, R4. rewrite L, R0, R1, R2, R3, R4.
    assert (E : (N.of_nat (20 + length data) <? 20) = false) by lia. rewrite E. cbn [need].
    destruct (set_irqs_valid c (N.of_nat (20 + length data)) argsz flags index start count (N.of_nat (length fds))) eqn:V; [|reflexivity].
    exfalso. apply H. now apply valid_iff.
  Qed.

  Lemma set_irqs_accepted c t answers argsz flags index start count data fds (body := irq_set_body argsz flags index start count data) :
  argsz < two32 -> flags < two32 -> index < two32 -> start < two32 -> count < two32 ->
  Forall (fun n => n < two32 - 1) (ic_count c) ->
    irq_request_ok c argsz flags index start count data fds ->
    set_irqs c t answers body fds =
      let a := N.land flags IRQ_ACTION_TYPE_MASK in
      let d := N.land flags IRQ_DATA_TYPE_MASK in
      if (a =? IRQ_ACTION_MASK) || (a =? IRQ_ACTION_UNMASK) then
        match irqs_set_state c index start count flags with
        | Ok ev => (HReply 0 [] [], t, fds, ev)
        | Err e => (herr e, t, fds, [])
        | Crash cr => (HCrash cr, t, fds, [])
        end
      else if ((d =? IRQ_DATA_NONE) && (count =? 0)) || ((d =? IRQ_DATA_EVENTFD) && (N.of_nat (length fds) =? 0)) then
        match irqs_disable c t index start count with
        | (Ok _, t', ev) => (HReply 0 [] [], t', fds, ev)
        | (Err e, t', ev) => (herr e, t', fds, ev)
        | (Crash cr, t', ev) => (HCrash cr, t', fds, ev)
        end
      else
        let n := N.to_nat count in
        if d =? IRQ_DATA_EVENTFD then
          match bind_loop t index start n fds with
          | (Ok _, t', rest, ev) => (HReply 0 [] [], t', rest, ev)
          | (Err e, t', rest, ev) => (herr e, t', rest, ev)
          | (Crash cr, t', rest, ev) => (HCrash cr, t', rest, ev)
          end
        else
          let sel := if d =? IRQ_DATA_NONE then None else Some data in
          match signal_loop t index start n sel answers 0 with
          | (Ok _, ev) => (HReply 0 [] [], t, fds, ev)
          | (Err e, ev) => (herr e, t, fds, ev)
          | (Crash cr, ev) => (HCrash cr, t, fds, ev)
          end.
  Proof.
    intros H1 H2 H3 H4 H5 Hc H. destruct (isb_fields argsz flags index start count data H1 H2 H3 H4 H5) as (L & R0 & R1 & R2 & R3 & R4 & R5).
    unfold set_irqs. fold body in L, R0, R1, R2, R3, R4, R5. rewrite L, R0, R1, R2, R3, R4, R5.
    assert (E : (N.of_nat (20 + length data) <? 20) = false) by lia. rewrite E. cbn [need].
    assert (V := proj2 (valid_iff c argsz flags index start count data fds H4 H5 Hc) H). rewrite V. cbn [negb].
    assert (W : w32 (start + count) - start = count).
    { destruct H. assert (B : nth (N.to_nat index) (ic_count c) 0 < two32 - 1).
      { destruct (Nat.lt_ge_cases (N.to_nat index) (length (ic_count c))) as [Lc|Lc].
        - rewrite Forall_forall in Hc. apply Hc. now apply nth_In.
        - rewrite nth_overflow by exact Lc. reflexivity. }
      unfold w32, two32 in *. rewrite N.mod_small; lia. }
    rewrite W. reflexivity.
  Qed.

Lemma writes_total answers k l o ev : writes answers k l o ev -> o = Ok tt \/ exists e, o = Err e.
Proof. induction 1; eauto. Qed.

Lemma count_bound c index : Forall (fun n => n < two32 - 1) (ic_count c) -> nth (N.to_nat index) (ic_count c) 0 < two32 - 1.
Proof.
  intros Hc. destruct (Nat.lt_ge_cases (N.to_nat index) (length (ic_count c))) as [Lc|Lc].
  - rewrite Forall_forall in Hc. apply Hc. now apply nth_In.
  - rewrite nth_overflow by exact Lc. reflexivity.
Qed.

(* Accepted requests only address existing slots. *)
Lemma ok_slots c t argsz flags index start count data fds :
  irq_table_ok c t -> irq_request_ok c argsz flags index start count data fds -> slots t index start (N.to_nat count).
Proof.
  intros (T1 & T2 & T3 & T4 & T5) R. destruct R. unfold slots.
  destruct (N.lt_ge_cases index 3) as [L|L].
  - right. right. specialize (T3 _ L). lia.
  - assert (C : index = 3 \/ index = 4) by lia. destruct (ro_single C) as [_ Hc]. lia.
Qed.

(* ---- C33 *)
Theorem C33_refused_no_effect : forall c t answers argsz flags index start count data fds,
  argsz < two32 -> flags < two32 -> index < two32 -> start < two32 -> count < two32 ->
  Forall (fun n => n < two32 - 1) (ic_count c) ->
  ~ irq_request_ok c argsz flags index start count data fds ->
  set_irqs c t answers (irq_set_body argsz flags index start count data) fds = (HReply EINVAL [] [], t, fds, []).
Proof. intros. now apply set_irqs_refused. Qed.
Print Assumptions C33_refused_no_effect.

Example C33_refused_case : ~ irq_request_ok ex_cfg 20 (4 + 32) 1 3 2 [] [21; 22]%Z /\
  ~ irq_request_ok ex_cfg 20 (4 + 32) 1 2 4294967295 [] [] /\ ~ irq_request_ok ex_cfg 20 (8 + 16 + 1) 1 0 1 [] [].
Proof.
  split; [|split]; intros R.
  - pose proof (ro_end _ _ _ _ _ _ _ _ R) as E. vm_compute in E. now apply E.
  - pose proof (ro_end _ _ _ _ _ _ _ _ R) as E. vm_compute in E. now apply E.
  - pose proof (ro_action _ _ _ _ _ _ _ _ R) as E. destruct E as [E|[E|E]]; vm_compute in E; discriminate.
Qed.

Theorem C33_short_payload_refused : forall c t answers body fds, (length body < 20)%nat ->
  set_irqs c t answers body fds = (HReply EINVAL [] [], t, fds, []).
Proof.
  intros c t answers body fds H. unfold set_irqs.
  assert (E : (N.of_nat (length body) <? 20) = true) by lia. now rewrite E.
Qed.
Print Assumptions C33_short_payload_refused.

Lemma mask_or_trigger flags : is_mask flags \/ is_unmask flags \/ is_trigger flags ->
  (((N.land flags IRQ_ACTION_TYPE_MASK =? IRQ_ACTION_MASK) || (N.land flags IRQ_ACTION_TYPE_MASK =? IRQ_ACTION_UNMASK)) = true
     /\ (is_mask flags \/ is_unmask flags)) \/
  (((N.land flags IRQ_ACTION_TYPE_MASK =? IRQ_ACTION_MASK) || (N.land flags IRQ_ACTION_TYPE_MASK =? IRQ_ACTION_UNMASK)) = false
     /\ is_trigger flags).
Proof.
  unfold IRQ_ACTION_TYPE_MASK, IRQ_ACTION_MASK, IRQ_ACTION_UNMASK.
  pose proof (act_mask flags). pose proof (act_unmask flags). pose proof (act_trigger flags).
  intros [M|[M|M]].
  - left. split; [|now left]. apply H in M. lia.
  - left. split; [|now right]. apply H0 in M. lia.
  - right. split; [|exact M]. apply H1 in M. lia.
Qed.

(* The state callback is invoked as asked. *)
Lemma set_state_ok c index start count flags :
  nth (N.to_nat index) (ic_count c) 0 < two32 - 1 -> start + count <= nth (N.to_nat index) (ic_count c) 0 ->
  is_mask flags \/ is_unmask flags ->
  exists m, (m = true <-> is_mask flags) /\
  irqs_set_state c index start count flags = Ok (if nth (N.to_nat index) (ic_state_cb c) false then [EvIrqState index start count m] else []).
Proof.
  intros B L M. unfold irqs_set_state, irq_has_cb, irq_count.
  set (cb := nth (N.to_nat index) (ic_state_cb c) false). set (n := nth (N.to_nat index) (ic_count c) 0) in *.
  pose proof (act_mask flags) as Am. pose proof (act_unmask flags) as Au.
  unfold IRQ_ACTION_TYPE_MASK, IRQ_ACTION_MASK, IRQ_ACTION_UNMASK.
  assert (W : (w32 (start + count) <=? n) = true) by (unfold w32, two32 in *; rewrite N.mod_small; lia).
  destruct M as [M|M].
  - exists true. split; [split; auto|]. apply Am in M. rewrite M, W. destruct cb; reflexivity.
  - exists false. split; [split; [discriminate|]|].
    + intros M'. apply Au in M. apply Am in M'. rewrite M in M'. discriminate.
    + apply Au in M. rewrite M, W. destruct cb; reflexivity.
Qed.

(* Accepted requests never touch memory outside the table, and keep it well formed. *)
Theorem C33_accepted_safe : forall c t answers argsz flags index start count data fds,
  argsz < two32 -> flags < two32 -> index < two32 -> start < two32 -> count < two32 ->
  irq_table_ok c t -> Forall (fun fd => (0 <= fd)%Z) fds ->
  irq_request_ok c argsz flags index start count data fds ->
  exists err t' rest ev,
    set_irqs c t answers (irq_set_body argsz flags index start count data) fds = (HReply err [] [], t', rest, ev) /\
    irq_table_ok c t'.
Proof.
  intros c t answers argsz flags index start count data fds H1 H2 H3 H4 H5 T Pos R.
  assert (Hc : Forall (fun n => n < two32 - 1) (ic_count c)) by apply T.
  rewrite set_irqs_accepted by auto. cbn zeta.
  pose proof (ok_slots _ _ _ _ _ _ _ _ _ T R) as Sl.
  assert (Tk : forall t', length (iq_efds t') = length (iq_efds t) -> irq_table_ok c t').
  { intros t' E. unfold irq_table_ok in *. rewrite E. exact T. }
  pose proof (count_bound c index Hc) as B.
  destruct (mask_or_trigger flags (ro_action _ _ _ _ _ _ _ _ R)) as [[E M]|[E M]]; rewrite E.
  - destruct (set_state_ok c index start count flags B (ro_end _ _ _ _ _ _ _ _ R) M) as (m & _ & Q). rewrite Q.
    eexists _, _, _, _. split; [reflexivity|]. now apply Tk.
  - destruct ((N.land flags IRQ_DATA_TYPE_MASK =? IRQ_DATA_NONE) && (count =? 0) ||
              (N.land flags IRQ_DATA_TYPE_MASK =? IRQ_DATA_EVENTFD) && (N.of_nat (length fds) =? 0)) eqn:D.
    + unfold irqs_disable, irq_count.
      assert (W : (w32 (start + count) <=? nth (N.to_nat index) (ic_count c) 0) = true)
        by (pose proof (ro_end _ _ _ _ _ _ _ _ R); unfold w32, two32 in *; rewrite N.mod_small; lia).
      rewrite W. cbn [negb].
      set (cnt := if count =? 0 then nth (N.to_nat index) (ic_count c) 0 else count).
      assert (Sl' : slots t index start (N.to_nat (cnt - start)) /\ (index = 3 \/ index = 4 -> start = 0)).
      { destruct T as (T1 & T2 & T3 & T4 & T5). destruct R as [R1 R2 R3 R4 R5 R6 R7 R8 R9 R10].
        assert (I : index = 0 \/ index = 1 \/ index = 2 \/ index = 3 \/ index = 4) by lia.
        unfold slots, cnt. destruct I as [->|[->|[->|[->| ->]]]].
        - specialize (T3 0 eq_refl). split; [|lia]. right. right. split; [lia|]. destruct (count =? 0); lia.
        - specialize (T3 1 eq_refl). split; [|lia]. right. right. split; [lia|]. destruct (count =? 0); lia.
        - specialize (T3 2 eq_refl). split; [|lia]. right. right. split; [lia|]. destruct (count =? 0); lia.
        - change (N.to_nat 3) with 3%nat in *. rewrite T4 in *. destruct (count =? 0) eqn:Ez; lia.
        - change (N.to_nat 4) with 4%nat in *. rewrite T5 in *. destruct (count =? 0) eqn:Ez; lia. }
      destruct Sl' as [Sl' S0].
      destruct (disable_loop_spec _ t index start (ro_index _ _ _ _ _ _ _ _ R) Sl' S0) as (t' & Q & Ln & _).
      rewrite Q. eexists _, _, _, _. split; [reflexivity|]. now apply Tk.
    + destruct (N.land flags IRQ_DATA_TYPE_MASK =? IRQ_DATA_EVENTFD) eqn:De.
      * assert (Lf : length fds = N.to_nat count).
        { unfold IRQ_DATA_TYPE_MASK, IRQ_DATA_EVENTFD, IRQ_DATA_NONE in *.
          destruct fds as [|f fds]; [cbn [length] in D; lia|].
          destruct (ro_fds _ _ _ _ _ _ _ _ R) as [_ Q]; [discriminate|]. lia. }
        destruct (bind_loop_spec (N.to_nat count) t index start fds [] (ro_index _ _ _ _ _ _ _ _ R) Sl Lf Pos) as (t' & Q & Ln & _).
        rewrite app_nil_r in Q. rewrite Q. eexists _, _, _, _. split; [reflexivity|]. now apply Tk.
      * set (sel := if N.land flags IRQ_DATA_TYPE_MASK =? IRQ_DATA_NONE then None else Some data).
        destruct (signal_loop_spec (N.to_nat count) t index start sel answers 0 Sl) as (o & ev & Q & W).
        { intros fl Hfl. unfold sel, IRQ_DATA_TYPE_MASK, IRQ_DATA_NONE, IRQ_DATA_EVENTFD in *.
          destruct (N.land flags 7 =? 1) eqn:Dn; [discriminate|]. injection Hfl as <-.
          assert (Db : data_bool flags).
          { apply dat_bool. pose proof (dat_none flags). pose proof (dat_eventfd flags). pose proof (dat_bool flags).
            destruct (ro_data _ _ _ _ _ _ _ _ R) as [X|[X|X]].
            - apply H in X. lia.
            - now apply H6.
            - apply H0 in X. lia. }
          pose proof (ro_bools _ _ _ _ _ _ _ _ R Db). lia. }
        rewrite Q. destruct (writes_total _ _ _ _ _ W) as [->|[e ->]];
          (eexists _, _, _, _; split; [reflexivity|]; now apply Tk).
Qed.
Print Assumptions C33_accepted_safe.

Example C33_accepted_case : irq_request_ok ex_cfg 20 (4 + 32) 1 2 2 [] [21; 22]%Z.
Proof. constructor; cbn; try (vm_compute; auto; fail); try lia; intros; try discriminate; auto. Qed.

(* ---- C34 *)
Theorem C34_assign : forall c t answers argsz flags index start count data fds,
  argsz < two32 -> flags < two32 -> index < two32 -> start < two32 -> count < two32 ->
  irq_table_ok c t -> Forall (fun fd => (0 <= fd)%Z) fds ->
  irq_request_ok c argsz flags index start count data fds ->
  is_trigger flags -> data_eventfd flags -> fds <> [] ->
  exists t' closed,
    (* all descriptors were taken over; the previously bound ones, and only those, were closed *)
    set_irqs c t answers (irq_set_body argsz flags index start count data) fds =
      (HReply 0 [] [], t', map (fun _ => (-1)%Z) fds, map EvClose closed) /\
    closed = filter (fun fd => negb (fd =? -1)%Z) (map (fun k => binding t index (start + N.of_nat k)) (seq 0 (length fds))) /\
    (* vector start+i is bound to the i-th descriptor *)
    (forall i fd, nth_error fds i = Some fd -> binding t' index (start + N.of_nat i) = fd) /\
    (* nothing else changed *)
    (forall j v, j < 5 -> ~ (same_vectors index j /\ (index < 3 -> start <= v < start + count)) -> binding t' j v = binding t j v) /\
    length (iq_efds t') = length (iq_efds t).
Proof.
  intros c t answers argsz flags index start count data fds H1 H2 H3 H4 H5 T Pos R Tr De NE.
  assert (Hc : Forall (fun n => n < two32 - 1) (ic_count c)) by apply T.
  pose proof (ok_slots _ _ _ _ _ _ _ _ _ T R) as Sl.
  rewrite set_irqs_accepted by auto. cbn zeta.
  apply act_trigger in Tr. apply dat_eventfd in De. unfold IRQ_ACTION_TYPE_MASK, IRQ_DATA_TYPE_MASK. rewrite Tr, De.
  cbn [N.eqb IRQ_ACTION_MASK IRQ_ACTION_UNMASK IRQ_DATA_NONE IRQ_DATA_EVENTFD Pos.eqb orb andb].
  destruct (ro_fds _ _ _ _ _ _ _ _ R NE) as [_ Lf].
  destruct (N.of_nat (length fds) =? 0) eqn:Ez; [destruct fds; [contradiction|cbn [length] in Ez; lia]|].
  destruct (bind_loop_spec (N.to_nat count) t index start fds [] (ro_index _ _ _ _ _ _ _ _ R) Sl ltac:(lia) Pos)
    as (t' & Q & Ln & Bd & Ot).
  rewrite app_nil_r in Q. rewrite Q.
  exists t', (filter (fun fd => negb (fd =? -1)%Z) (map (binding t index) (vectors start (N.to_nat count)))).
  split; [|split; [|split; [|split]]].
  - assert (X : repeat (-1)%Z (N.to_nat count) ++ [] = map (fun _ : Z => (-1)%Z) fds).
    { rewrite app_nil_r. replace (N.to_nat count) with (length fds) by lia. clear. induction fds; cbn; congruence. }
    rewrite X. reflexivity.
  - unfold vectors. rewrite map_map. replace (N.to_nat count) with (length fds) by lia. reflexivity.
  - exact Bd.
  - intros j v Hj H. apply Ot; auto. intros (SV & NZ & Q'). apply H. split; [exact SV|]. intros L; specialize (Q' L). lia.
  - exact Ln.
Qed.
Print Assumptions C34_assign.

Example C34_case : exists t', set_irqs ex_cfg ex_table (fun _ => None) (irq_set_body 20 36 1 2 2 []) [21; 22]%Z =
  (HReply 0 [] [], t', [-1; -1]%Z, [EvClose 13]) /\ iq_efds t' = [10; 11; 21; 22; -1; -1; -1; 17]%Z.
Proof. eexists. split; reflexivity. Qed.

Theorem C34_trigger : forall t answer v,
  (v < N.of_nat (length (iq_efds t)) -> binding t 0 v <> (-1)%Z ->
     irq_trigger t answer v = (match answer with None => Ok tt | Some e => Err e end, [EvSignal (binding t 0 v)])) /\
  (v < N.of_nat (length (iq_efds t)) -> binding t 0 v = (-1)%Z -> irq_trigger t answer v = (Err ENOENT, [])) /\
  (N.of_nat (length (iq_efds t)) <= v -> irq_trigger t answer v = (Err EINVAL, [])).
Proof.
  intros t answer v. unfold irq_trigger, binding. cbn [N.eqb].
  destruct (N.lt_ge_cases v (N.of_nat (length (iq_efds t)))) as [L|L].
  - rewrite (nth_error_nth' (iq_efds t) (-1)%Z (n := N.to_nat v)) by lia.
    split; [|split; [|lia]]; intros _ H.
    + destruct (nth (N.to_nat v) (iq_efds t) (-1) =? -1)%Z eqn:E; [lia|]. destruct answer; reflexivity.
    + rewrite H. reflexivity.
  - assert (E : nth_error (iq_efds t) (N.to_nat v) = None) by (apply nth_error_None; lia). rewrite E.
    split; [lia|split; [lia|reflexivity]].
Qed.
Print Assumptions C34_trigger.

Example C34_trigger_case : irq_trigger ex_table None 3 = (Ok tt, [EvSignal 13]) /\ irq_trigger ex_table None 2 = (Err ENOENT, []) /\
  irq_trigger ex_table None 8 = (Err EINVAL, []).
Proof. repeat split. Qed.

(* ---- C35.  The full property is "closes and unbinds exactly [start, start+count)"; the code loops from
   start to count, so it only holds for start = 0 (which includes "disable all"). *)
Definition disable_request (flags count : N) (fds : list Z) : Prop :=
  is_trigger flags /\ ((data_none flags /\ count = 0) \/ (data_eventfd flags /\ fds = [])).

(* What happens for every start: the vectors from start to count - 1, instead of start + count - 1, are unbound. *)
Theorem C35_disable_exact : forall c t answers argsz flags index start count data fds,
  argsz < two32 -> flags < two32 -> index < two32 -> start < two32 -> count < two32 ->
  irq_table_ok c t -> irq_request_ok c argsz flags index start count data fds -> disable_request flags count fds ->
  exists t' closed n, n = (if count =? 0 then nth (N.to_nat index) (ic_count c) 0 else count) /\
    set_irqs c t answers (irq_set_body argsz flags index start count data) fds = (HReply 0 [] [], t', fds, map EvClose closed) /\
    closed = filter (fun fd => negb (fd =? -1)%Z)
      (map (fun k => binding t index (N.of_nat k)) (seq (N.to_nat start) (N.to_nat (n - start)))) /\
    (forall v, start <= v < n -> binding t' index v = (-1)%Z) /\
    (forall j v, j < 5 -> ~ (same_vectors index j /\ (index < 3 -> start <= v < n)) -> binding t' j v = binding t j v).
Proof.
  intros c t answers argsz flags index start count data fds H1 H2 H3 H4 H5 T R [Tr Dr].
  assert (Hc : Forall (fun n => n < two32 - 1) (ic_count c)) by apply T.
  pose proof (count_bound c index Hc) as B.
  set (n := if count =? 0 then nth (N.to_nat index) (ic_count c) 0 else count).
  assert (Sl : slots t index start (N.to_nat (n - start)) /\ (index = 3 \/ index = 4 -> start = 0 /\ n <> 0)).
  { destruct T as (T1 & T2 & T3 & T4 & T5). destruct R as [R1 R2 R3 R4 R5 R6 R7 R8 R9 R10].
    assert (I : index = 0 \/ index = 1 \/ index = 2 \/ index = 3 \/ index = 4) by lia.
    unfold slots, n. destruct I as [->|[->|[->|[->| ->]]]].
    - specialize (T3 0 eq_refl). destruct (count =? 0) eqn:Ez; (split; [right; right|]); lia.
    - specialize (T3 1 eq_refl). destruct (count =? 0) eqn:Ez; (split; [right; right|]); lia.
    - specialize (T3 2 eq_refl). destruct (count =? 0) eqn:Ez; (split; [right; right|]); lia.
    - change (N.to_nat 3) with 3%nat in *. rewrite T4 in *. destruct (count =? 0) eqn:Ez; lia.
    - change (N.to_nat 4) with 4%nat in *. rewrite T5 in *. destruct (count =? 0) eqn:Ez; lia. }
  destruct Sl as [Sl NZ].
  rewrite set_irqs_accepted by auto. cbn zeta.
  apply act_trigger in Tr. unfold IRQ_ACTION_TYPE_MASK, IRQ_DATA_TYPE_MASK. rewrite Tr.
  cbn [N.eqb IRQ_ACTION_MASK IRQ_ACTION_UNMASK Pos.eqb orb].
  assert (D : (N.land flags 7 =? IRQ_DATA_NONE) && (count =? 0) || (N.land flags 7 =? IRQ_DATA_EVENTFD) && (N.of_nat (length fds) =? 0) = true).
  { unfold IRQ_DATA_NONE, IRQ_DATA_EVENTFD. destruct Dr as [[D1 ->]|[D1 ->]].
    - apply dat_none in D1. rewrite D1. reflexivity.
    - apply dat_eventfd in D1. rewrite D1. reflexivity. }
  rewrite D. unfold irqs_disable, irq_count.
  assert (W : (w32 (start + count) <=? nth (N.to_nat index) (ic_count c) 0) = true)
    by (pose proof (ro_end _ _ _ _ _ _ _ _ R); unfold w32, two32 in *; rewrite N.mod_small; lia).
  rewrite W. cbn [negb]. fold n.
  destruct (disable_loop_spec (N.to_nat (n - start)) t index start (ro_index _ _ _ _ _ _ _ _ R) Sl ltac:(intros X; apply NZ; exact X))
    as (t' & Q & Ln & Un & Ot).
  rewrite Q. exists t', (filter (fun fd => negb (fd =? -1)%Z) (map (binding t index) (vectors start (N.to_nat (n - start))))), n.
  split; [reflexivity|]. split; [reflexivity|]. split; [|split].
  - unfold vectors. rewrite map_map. f_equal. generalize (N.to_nat (n - start)) as m. clear. intros m.
    rewrite <- (Nat.add_0_r (N.to_nat start)) at 1. generalize 0%nat. induction m as [|m IH]; intros a; [reflexivity|].
    cbn [seq map]. f_equal; [f_equal; lia|]. rewrite IH. now rewrite <- plus_n_Sm.
  - intros v Hv. apply Un; lia.
  - intros j v Hj H. apply Ot; auto. intros (SV & _ & Q'). apply H. split; [exact SV|]. intros L; specialize (Q' L). lia.
Qed.
Print Assumptions C35_disable_exact.

Theorem C35_disable_partial : forall c t answers argsz flags index count data fds,
  argsz < two32 -> flags < two32 -> index < two32 -> count < two32 ->
  irq_table_ok c t -> irq_request_ok c argsz flags index 0 count data fds -> disable_request flags count fds ->
  exists t' closed n, n = (if count =? 0 then nth (N.to_nat index) (ic_count c) 0 else count) /\
    set_irqs c t answers (irq_set_body argsz flags index 0 count data) fds = (HReply 0 [] [], t', fds, map EvClose closed) /\
    closed = filter (fun fd => negb (fd =? -1)%Z) (map (fun k => binding t index (N.of_nat k)) (seq 0 (N.to_nat n))) /\
    (forall v, v < n -> binding t' index v = (-1)%Z) /\
    (forall j v, j < 5 -> ~ (same_vectors index j /\ (index < 3 -> v < n)) -> binding t' j v = binding t j v).
Proof.
  intros c t answers argsz flags index count data fds H1 H2 H3 H5 T R D.
  destruct (C35_disable_exact c t answers argsz flags index 0 count data fds H1 H2 H3 eq_refl H5 T R D)
    as (t' & closed & n & En & E & Ec & U & O).
  exists t', closed, n. rewrite N.sub_0_r in Ec. split; [exact En|]. split; [exact E|]. split; [exact Ec|]. split.
  - intros v Hv. apply U. lia.
  - intros j v Hj H. apply O; [exact Hj|]. intros [SV Q]. apply H. split; [exact SV|]. intros L. apply Q, L.
Qed.
Print Assumptions C35_disable_partial.

(* Vectors 1 to 3 are to be disabled; 1 and 2 are. *)
Example C35_exact_case : exists t', irq_request_ok ex_cfg 20 36 2 1 3 [] [] /\ disable_request 36 3 [] /\
  set_irqs ex_cfg ex_table (fun _ => None) (irq_set_body 20 36 2 1 3 []) [] = (HReply 0 [] [], t', [], [EvClose 11]) /\
  binding ex_table 2 3 = 13%Z /\ binding t' 2 3 = 13%Z.
Proof.
  eexists. split; [apply (proj1 (valid_iff ex_cfg 20 36 2 1 3 [] [] eq_refl eq_refl (proj1 (proj2 ex_table_ok)))); reflexivity|].
  split; [split; [reflexivity|right; split; reflexivity]|]. repeat split; reflexivity.
Qed.

Example C35_case : exists t', set_irqs ex_cfg ex_table (fun _ => None) (irq_set_body 20 33 2 0 0 []) [] =
  (HReply 0 [] [], t', [], [EvClose 10; EvClose 11; EvClose 13; EvClose 17]) /\ iq_efds t' = repeat (-1)%Z 8.
Proof. eexists. split; reflexivity. Qed.

(* Disabling MSI vectors [1,3): vector 2 is skipped because the loop ends at count = 2; and disabling
   [3,4) does nothing at all. *)
Theorem C35_disable_refuted : exists c t argsz flags index start count v,
  irq_table_ok c t /\ irq_request_ok c argsz flags index start count [] [] /\ disable_request flags count [] /\
  start <= v < start + count /\ binding t index v <> (-1)%Z /\
  forall answers, set_irqs c t answers (irq_set_body argsz flags index start count []) [] = (HReply 0 [] [], t, [], []).
Proof.
  exists ex_cfg, ex_table, 20, 36, 1, 3, 1, 3. split; [exact ex_table_ok|]. split.
  { apply (proj1 (valid_iff ex_cfg 20 36 1 3 1 [] [] eq_refl eq_refl (proj1 (proj2 ex_table_ok)))). reflexivity. }
  split; [split; [reflexivity|right; split; reflexivity]|]. split; [lia|]. split; [discriminate|]. intros; reflexivity.
Qed.
Print Assumptions C35_disable_refuted.

(* ---- C36 *)
Theorem C36_trigger_none : forall c t answers argsz flags index start count data fds,
  argsz < two32 -> flags < two32 -> index < two32 -> start < two32 -> count < two32 ->
  irq_table_ok c t -> irq_request_ok c argsz flags index start count data fds ->
  is_trigger flags -> data_none flags -> 0 < count ->
  exists o ev, writes answers 0 (filter (fun fd => (fd >=? 0)%Z) (map (fun k => binding t index (start + N.of_nat k)) (seq 0 (N.to_nat count)))) o ev /\
    set_irqs c t answers (irq_set_body argsz flags index start count data) fds =
    (HReply (match o with Err e => e | _ => 0 end) [] [], t, fds, ev).
Proof.
  intros c t answers argsz flags index start count data fds H1 H2 H3 H4 H5 T R Tr Dn Pc.
  assert (Hc : Forall (fun n => n < two32 - 1) (ic_count c)) by apply T.
  pose proof (ok_slots _ _ _ _ _ _ _ _ _ T R) as Sl.
  rewrite set_irqs_accepted by auto. cbn zeta.
  apply act_trigger in Tr. apply dat_none in Dn. unfold IRQ_ACTION_TYPE_MASK, IRQ_DATA_TYPE_MASK. rewrite Tr, Dn.
  cbn [N.eqb IRQ_ACTION_MASK IRQ_ACTION_UNMASK IRQ_DATA_NONE IRQ_DATA_EVENTFD Pos.eqb orb andb].
  destruct (count =? 0) eqn:Ez; [lia|]. cbn [orb].
  destruct (signal_loop_spec (N.to_nat count) t index start None answers 0 Sl ltac:(discriminate)) as (o & ev & Q & W).
  rewrite Q. exists o, ev. cbn [chosen] in W. unfold signalled, vectors in W. rewrite map_map in W. split; [exact W|].
  destruct (writes_total _ _ _ _ _ W) as [->|[e ->]]; reflexivity.
Qed.
Print Assumptions C36_trigger_none.

(* Flag bytes: the k-th byte selects vector start+k when it is 1. *)
Theorem C36_trigger_bool : forall c t answers argsz flags index start count data fds,
  argsz < two32 -> flags < two32 -> index < two32 -> start < two32 -> count < two32 ->
  irq_table_ok c t -> irq_request_ok c argsz flags index start count data fds ->
  is_trigger flags -> data_bool flags ->
  exists o ev,
    writes answers 0 (filter (fun fd => (fd >=? 0)%Z)
      (map (fun k => binding t index (start + N.of_nat k)) (filter (fun k => nth k data 0 =? 1) (seq 0 (N.to_nat count))))) o ev /\
    set_irqs c t answers (irq_set_body argsz flags index start count data) fds =
    (HReply (match o with Err e => e | _ => 0 end) [] [], t, fds, ev).
Proof.
  intros c t answers argsz flags index start count data fds H1 H2 H3 H4 H5 T R Tr Db.
  assert (Hc : Forall (fun n => n < two32 - 1) (ic_count c)) by apply T.
  pose proof (ok_slots _ _ _ _ _ _ _ _ _ T R) as Sl.
  pose proof (ro_bools _ _ _ _ _ _ _ _ R Db) as Ld.
  rewrite set_irqs_accepted by auto. cbn zeta.
  apply act_trigger in Tr. apply dat_bool in Db. unfold IRQ_ACTION_TYPE_MASK, IRQ_DATA_TYPE_MASK. rewrite Tr, Db.
  cbn [N.eqb IRQ_ACTION_MASK IRQ_ACTION_UNMASK IRQ_DATA_NONE IRQ_DATA_EVENTFD Pos.eqb orb andb].
  destruct (signal_loop_spec (N.to_nat count) t index start (Some data) answers 0 Sl) as (o & ev & Q & W).
  { intros fl E. injection E as <-. lia. }
  rewrite Q. exists o, ev. split.
  - cbn [chosen] in W. unfold signalled in W.
    assert (X : selected (vectors start (N.to_nat count)) data =
                map (fun k => start + N.of_nat k) (filter (fun k => nth k data 0 =? 1) (seq 0 (N.to_nat count)))).
    { replace (N.to_nat count) with (length data) by lia. clear.
      revert start. induction data as [|b data IH]; intros start; [reflexivity|].
      cbn [length]. rewrite vectors_S. cbn [selected seq filter]. change (nth 0 (b :: data) 0) with b. rewrite IH, <- seq_shift.
      assert (Y : forall l, map (fun k => start + N.of_nat k) (filter (fun k => nth k (b :: data) 0 =? 1) (map S l)) =
                            map (fun k => start + 1 + N.of_nat k) (filter (fun k => nth k data 0 =? 1) l)).
      { induction l as [|x l IHl]; [reflexivity|]. cbn [map filter]. change (nth (S x) (b :: data) 0) with (nth x data 0). destruct (nth x data 0 =? 1); cbn [map]; rewrite IHl; [replace (start + N.of_nat (S x)) with (start + 1 + N.of_nat x) by lia|]; reflexivity. }
      destruct (b =? 1); cbn [map]; rewrite Y; [rewrite N.add_0_r|]; reflexivity. }
    rewrite X, map_map in W. exact W.
  - destruct (writes_total _ _ _ _ _ W) as [->|[e ->]]; reflexivity.
Qed.
Print Assumptions C36_trigger_bool.

(* What `writes` means when no eventfd write fails: every descriptor of the list is signalled once, in order. *)
Theorem C36_all_signalled : forall answers l, (forall k, answers k = None) ->
  forall o ev, writes answers 0 l o ev -> o = Ok tt /\ ev = map EvSignal l.
Proof.
  intros answers l A. generalize 0%nat. induction l as [|fd l IH]; intros k o ev W; inversion W; subst.
  - auto.
  - match goal with E : answers _ = Some _ |- _ => rewrite A in E; discriminate end.
  - match goal with Q : writes _ _ l _ _ |- _ => destruct (IH _ _ _ Q) as [-> ->] end. auto.
Qed.
Print Assumptions C36_all_signalled.

Example C36_case :
  set_irqs ex_cfg ex_table (fun _ => None) (irq_set_body 24 34 1 0 4 [1; 0; 1; 1]) [] = (HReply 0 [] [], ex_table, [], [EvSignal 10; EvSignal 13]) /\
  set_irqs ex_cfg ex_table (fun k => if Nat.eqb k 1 then Some 11 else None) (irq_set_body 20 33 1 0 4 []) [] =
    (HReply 11 [] [], ex_table, [], [EvSignal 10; EvSignal 11]).
Proof. split; reflexivity. Qed.

(* ---- C37 *)
Theorem C37_mask_unmask : forall c t answers argsz flags index start count data fds,
  argsz < two32 -> flags < two32 -> index < two32 -> start < two32 -> count < two32 ->
  irq_table_ok c t -> irq_request_ok c argsz flags index start count data fds ->
  is_mask flags \/ is_unmask flags ->
  exists m, (m = true <-> is_mask flags) /\
    set_irqs c t answers (irq_set_body argsz flags index start count data) fds =
    (HReply 0 [] [], t, fds, if nth (N.to_nat index) (ic_state_cb c) false then [EvIrqState index start count m] else []).
Proof.
  intros c t answers argsz flags index start count data fds H1 H2 H3 H4 H5 T R M.
  assert (Hc : Forall (fun n => n < two32 - 1) (ic_count c)) by apply T.
  pose proof (count_bound c index Hc) as B.
  rewrite set_irqs_accepted by auto. cbn zeta.
  assert (Ma : is_mask flags \/ is_unmask flags \/ is_trigger flags) by (destruct M; auto).
  destruct (mask_or_trigger flags Ma) as [[E _]|[E Tr]]; rewrite E.
  - destruct (set_state_ok c index start count flags B (ro_end _ _ _ _ _ _ _ _ R) M) as (m & Hm & Q). rewrite Q.
    exists m. split; [exact Hm|reflexivity].
  - exfalso. unfold is_mask, is_unmask, is_trigger in *. rewrite Tr in M. destruct M; discriminate.
Qed.
Print Assumptions C37_mask_unmask.

Example C37_case : set_irqs ex_cfg ex_table (fun _ => None) (irq_set_body 20 9 2 1 3 []) [] =
  (HReply 0 [] [], ex_table, [], [EvIrqState 2 1 3 true]) /\ irq_request_ok ex_cfg 20 9 2 1 3 [] [].
Proof.
  split; [reflexivity|].
  apply (proj1 (valid_iff ex_cfg 20 9 2 1 3 [] [] eq_refl eq_refl (proj1 (proj2 ex_table_ok)))). reflexivity.
Qed.

(* ---- part of C28: a reset of the table closes every bound descriptor once and leaves nothing bound. *)
Theorem C28_irqs_reset : forall c t, irq_table_ok c t ->
  exists t', irqs_reset c t = (Ok tt, t', map EvClose (filter (fun fd => negb (fd =? -1)%Z) (iq_req t :: iq_err t :: iq_efds t))) /\
    irq_table_ok c t' /\ forall index v, binding t' index v = (-1)%Z.
Proof.
  intros c t T. pose proof T as (T1 & T2 & T3 & T4 & T5).
  assert (D : forall t index, index = 3 \/ index = 4 -> irqs_disable c t index 0 0 = (Ok tt, set_efd t index 0 (-1), close_ev (binding t index 0))).
  { intros t0 index H. unfold irqs_disable, irq_count. assert (C : nth (N.to_nat index) (ic_count c) 0 = 1) by (destruct H as [->| ->]; assumption).
    rewrite C. destruct H as [->| ->]; unfold binding; cbn; change (Pos.to_nat 1) with 1%nat; cbn; rewrite ?app_nil_r; reflexivity. }
  unfold irqs_reset. rewrite (D _ IRQ_REQ) by (right; reflexivity). rewrite (D _ IRQ_ERR) by (left; reflexivity).
  cbn [set_efd IRQ_ERR IRQ_REQ N.eqb Pos.eqb iq_err iq_req iq_efds binding].
  assert (CA : forall l, close_all l = map EvClose (filter (fun fd => negb (fd =? -1)%Z) l)).
  { induction l as [|x l IH]; [reflexivity|]. cbn [close_all filter]. rewrite IH. unfold close_ev. destruct (x =? -1)%Z; reflexivity. }
  rewrite CA. eexists. split; [|split].
  - assert (E : forall l, close_ev (iq_req t) ++ close_ev (iq_err t) ++ map EvClose l =
               map EvClose (filter (fun fd => negb (fd =? -1)%Z) [iq_req t; iq_err t] ++ l)).
    { intros l. rewrite map_app. cbn [filter]. unfold close_ev. destruct (iq_req t =? -1)%Z, (iq_err t =? -1)%Z; reflexivity. }
    rewrite E, <- filter_app. reflexivity.
  - unfold irq_table_ok. cbn [iq_efds]. rewrite repeat_length. auto.
  - intros index v. unfold binding. cbn [iq_err iq_req iq_efds]. destruct (index =? 3); [reflexivity|]. destruct (index =? 4); [reflexivity|].
    generalize (N.to_nat v), (length (iq_efds t)). clear. intros k n. revert k. induction n; intros [|k]; cbn [repeat nth]; auto.
Qed.
Print Assumptions C28_irqs_reset.

Example C28_irqs_reset_case : snd (irqs_reset ex_cfg ex_table) = [EvClose 9; EvClose 10; EvClose 11; EvClose 13; EvClose 17].
Proof. reflexivity. Qed.

(* ---------- C55 (interrupt part) *)

(* GET_IRQ_INFO: body = argsz, flags, index, count, ... *)
Theorem C55_irq_info : forall c argsz flags index count rest,
  argsz < 2 ^ 32 -> flags < 2 ^ 32 -> index < 2 ^ 32 -> count < 2 ^ 32 ->
  get_irq_info c (le_bytes 4 argsz ++ le_bytes 4 flags ++ le_bytes 4 index ++ le_bytes 4 count ++ rest) =
    if (argsz <? 16) || (5 <=? index) then HReply EINVAL [] []
    else HReply 0 (le_bytes 4 16 ++ le_bytes 4 1 ++ le_bytes 4 index ++ le_bytes 4 (nth (N.to_nat index) (ic_count c) 0)) [].
Proof.
  intros c argsz flags index count rest H1 H2 H3 H4. unfold get_irq_info.
  rewrite !app_length, !le_bytes_length. replace (N.of_nat (4 + (4 + (4 + (4 + length rest)))) <? 16) with false by lia.
  unfold need. rewrite rd_front by exact H1.
  rewrite rd_skip by (rewrite le_bytes_length; lia). rewrite le_bytes_length.
  rewrite rd_skip by (rewrite le_bytes_length; lia). rewrite le_bytes_length.
  change (8 - 4 - 4)%nat with 0%nat. rewrite rd_front by exact H3.
  change NUM_IRQS with 5. destruct (argsz <? 16), (5 <=? index); reflexivity.
Qed.
Print Assumptions C55_irq_info.

(* Shorter requests are refused. *)
Theorem C55_irq_info_short : forall c body, (length body < 16)%nat -> get_irq_info c body = HReply EINVAL [] [].
Proof. intros c body H. unfold get_irq_info. replace (N.of_nat (length body) <? 16) with true by lia. reflexivity. Qed.
Print Assumptions C55_irq_info_short.

Example C55_irq_info_nonvacuous : get_irq_info (mk_irq_cfg [1; 8; 32; 1; 1] (repeat false 5)) (le_bytes 4 16 ++ le_bytes 4 0 ++ le_bytes 4 2 ++ le_bytes 4 0) =
  HReply 0 (le_bytes 4 16 ++ le_bytes 4 1 ++ le_bytes 4 2 ++ le_bytes 4 32) [].
Proof. reflexivity. Qed.
