(* Property C62: what vfu_irq_trigger signals is what the connected client assigned last. *)
From Coq Require Import NArith ZArith List Bool Lia ZifyBool ZifyNat ZifyN.
From Verif Require Import Base Types Bytes BytesProofs Spec Dma DmaOps SpecDma Migr Irq SpecIrq IrqProofs PropIrq Pci Handlers
  Server SpecServer ServerProofs PropServer SpecMsg PropDmaMsg SpecSafe SafeDispatch SpecBind BindProofs.
Import ListNotations.
Open Scope N_scope.
Ltac Zify.zify_post_hook ::= idtac.

Lemma fold_max_lt l : forall a v, v < fold_left N.max l a <-> v < a \/ existsb (fun n => v <? n) l = true.
Proof.
  induction l as [|x l IH]; intros a v; cbn [fold_left existsb]; [split; [auto|intros [H|H]; [exact H|discriminate H]]|].
  rewrite IH, orb_true_iff, N.ltb_lt, N.max_lt_iff. tauto.
Qed.

(* At any moment of any history since the device was set up: if the last thing that happened to vector v is that the
   client that is still connected assigned descriptor fd to it, then triggering v writes to fd, once, and to nothing else, and
   the result is that of the write; otherwise nothing is signalled, and the call fails with ENOENT if some interrupt type
   has been given that many vectors, with EINVAL if none has.  (One of the two is always the case.) *)
Theorem C62_trigger : forall s0 hist s v answer, fresh s0 -> irq_history s0 hist s ->
  (forall fd, connected_to s0 hist v fd ->
     sv_step s (STrigger v answer) = (match answer with None => Ok 0 | Some e => Err e end, s, [EvSignal fd])) /\
  ((forall fd, ~ connected_to s0 hist v fd) ->
     sv_step s (STrigger v answer) = (Err (if existsb (fun n => v <? n) (ic_count (cx_irq_cfg (sv_ctx s0))) then ENOENT else EINVAL), s, [])) /\
  ((exists fd, connected_to s0 hist v fd) \/ forall fd, ~ connected_to s0 hist v fd).
Proof.
  intros s0 hist s v answer F H. destruct (kept_vectors _ _ _ F H) as (t & T & L).
  assert (VT : vec s v = nth (N.to_nat v) (iq_efds t) (-1)%Z) by (unfold vec, cvec; now rewrite T).
  assert (RNG : v < N.of_nat (length (iq_efds t)) <-> existsb (fun n => v <? n) (ic_count (cx_irq_cfg (sv_ctx s0))) = true).
  { rewrite L, N2Nat.id, fold_max_lt. split; [intros [X|X]; [lia|exact X]|auto]. }
  destruct (C34_trigger t answer v) as (A1 & A2 & A3). rewrite (binding_low t 0 v eq_refl), <- VT in A1, A2.
  cbn [sv_step]. rewrite T. split; [|split].
  - intros fd C. destruct (connected_vec _ _ _ _ _ F H C) as [V P].
    assert (R : v < N.of_nat (length (iq_efds t))).
    { destruct (N.lt_ge_cases v (N.of_nat (length (iq_efds t)))) as [R|R]; [exact R|]. exfalso. rewrite nth_overflow in VT by lia. lia. }
    rewrite (A1 R) by lia. rewrite V. destruct answer; reflexivity.
  - intros NC. destruct (vec_connected _ _ F s v H) as [V|C]; [|destruct (NC _ C)].
    destruct (existsb (fun n => v <? n) (ic_count (cx_irq_cfg (sv_ctx s0)))) eqn:X.
    + rewrite (A2 (proj2 RNG eq_refl) V). reflexivity.
    + rewrite A3; [reflexivity|]. destruct (N.lt_ge_cases v (N.of_nat (length (iq_efds t)))) as [R|R]; [|exact R]. apply RNG in R. discriminate R.
  - destruct (vec_connected _ _ F s v H) as [V|C]; [right|left; eauto].
    intros fd C. destruct (connected_vec _ _ _ _ _ F H C) as [V2 P]. lia.
Qed.
Print Assumptions C62_trigger.

(* Histories of the example device of PropServer.v: its client has been told about the device, has mapped memory and has
   assigned descriptor 9 to a vector; then it assigns descriptors 21 and 22 to MSI vectors 1 and 2, reads the
   device's information, maps more memory and resets the device. *)
Lemma no_request s st : (forall en h f l, st = SRun en -> en_rx en = RxMsg h f (inr l) -> hd_cmd h <> 8) ->
  (forall v fd, ~ assigns s st v fd) /\ (forall v, ~ unassigns s st v) /\ ~ odd_disable s st.
Proof.
  intros N. assert (K : forall a b c d e, ~ irq_request s st a b c d e).
  { intros a b c d e [_ _ (en & h & l & argsz & data & -> & X & _ & C & _)]. exact (N en h e l eq_refl X C). }
  split; [|split].
  - intros v fd A. destruct (assigns_request _ _ _ _ A) as (? & ? & ? & ? & ? & R). exact (K _ _ _ _ _ R).
  - intros v A. destruct (unassigns_request _ _ _ A) as (? & ? & ? & ? & ? & R). exact (K _ _ _ _ _ R).
  - intros (? & ? & ? & ? & R & _). exact (K _ _ _ _ _ R).
Qed.

Lemma not_odd s en h f l : en_rx en = RxMsg h f (inr l) -> f <> [] -> ~ odd_disable s (SRun en).
Proof.
  intros X NF (a & b & c & d & [_ _ (en' & h' & l' & argsz & data & E & X' & _)] & _). injection E as <-. rewrite X in X'. injection X' as _ Z _. contradiction.
Qed.

Definition ex_assign : step := SRun (ex_ask 8 (irq_set_body 20 36 1 1 2 []) [21; 22]%Z).
Definition ex_quiet : list step := [SRun (ex_ask 4 (le_bytes 4 16 ++ le_bytes 4 0 ++ le_bytes 8 0) []); SRun (ex_ask 2 ex_map_body [7%Z]); SRun (ex_ask 13 [] [])].
Definition ex_hist : list step := ex_steps ++ ex_assign :: ex_quiet.
Definition ex_end : server := fst (sv_run (ex_server false) ex_hist).

Lemma ih_run l : forall s s' t, sv_run s l = (s', t) -> Forall (fun x => match fst x with Crash _ => False | _ => True end) t ->
  Forall (fun st => (forall en, st = SRun en -> delivered en) /\ forall s, ~ odd_disable s st) l -> irq_history s l s'.
Proof.
  induction l as [|st l IH]; intros s s' t H NC G; cbn [sv_run] in H; [injection H as <- <-; constructor|].
  inversion G as [|? ? [G1 G2] G3]; subst. destruct (sv_step s st) as [[o s1] ev] eqn:E.
  destruct o as [n|e|c]; [| |injection H as <- <-; inversion_clear NC; contradiction];
    (destruct (sv_run s1 l) as [s2 t2] eqn:R; injection H as <- <-; inversion_clear NC; eapply ih_cons; eauto; intros c Z; discriminate Z).
Qed.

Lemma leaves_run v l : forall s s' t, sv_run s l = (s', t) -> Forall (fun x => match fst x with Crash _ => False | _ => True end) t ->
  ~ In EvDetach (concat (map snd t)) -> Forall (fun st => forall s, (forall v fd, ~ assigns s st v fd) /\ forall v, ~ unassigns s st v) l -> leaves_vector v s l.
Proof.
  induction l as [|st l IH]; intros s s' t H NC ND G; cbn [sv_run] in H; [constructor|].
  inversion G as [|? ? G1 G3]; subst. destruct (G1 s) as [GA GU]. destruct (sv_step s st) as [[o s1] ev] eqn:E.
  destruct o as [n|e|c]; [| |injection H as <- <-; inversion_clear NC; contradiction];
    (destruct (sv_run s1 l) as [s2 t2] eqn:R; injection H as <- <-; inversion_clear NC; cbn [map concat snd] in ND; rewrite in_app_iff in ND;
     eapply lv_cons; eauto).
Qed.

Ltac other := let en := fresh in let h := fresh in let f := fresh in let l := fresh in let E := fresh in let X := fresh in
  intros en h f l E X; first [discriminate E | injection E as <-; injection X as <- _ _; discriminate].

Lemma ex_hist_ok : Forall (fun st => (forall en, st = SRun en -> delivered en) /\ forall s, ~ odd_disable s st) ex_hist.
Proof.
  assert (K : forall st, (forall en, st = SRun en -> delivered en) -> (forall en h f l, st = SRun en -> en_rx en = RxMsg h f (inr l) -> hd_cmd h <> 8) ->
    (forall en, st = SRun en -> delivered en) /\ forall s, ~ odd_disable s st) by (intros st A B; split; [exact A|intros s; apply (no_request s st B)]).
  unfold ex_hist, ex_steps, ex_quiet, ex_assign. cbn [app].
  constructor; [apply K; [discriminate|other]|].
  constructor; [apply K; [intros en E; injection E as <-; unfold delivered; vm_compute; repeat constructor; discriminate|other]|].
  constructor; [split; [intros en E; injection E as <-; unfold delivered; vm_compute; repeat constructor; discriminate|intros s; eapply not_odd; [reflexivity|discriminate]]|].
  constructor; [split; [intros en E; injection E as <-; unfold delivered; vm_compute; repeat constructor; discriminate|intros s; eapply not_odd; [reflexivity|discriminate]]|].
  constructor; [apply K; [intros en E; injection E as <-; unfold delivered; vm_compute; repeat constructor; discriminate|other]|].
  constructor; [apply K; [intros en E; injection E as <-; unfold delivered; vm_compute; repeat constructor; discriminate|other]|].
  constructor; [apply K; [intros en E; injection E as <-; unfold delivered; vm_compute; repeat constructor; discriminate|other]|].
  constructor.
Qed.

Example C62_case : irq_history (ex_server false) ex_hist ex_end /\
  connected_to (ex_server false) ex_hist 1 21 /\ connected_to (ex_server false) ex_hist 2 22 /\
  (forall fd, ~ connected_to (ex_server false) ex_hist 0 fd) /\
  sv_step ex_end (STrigger 2 None) = (Ok 0, ex_end, [EvSignal 22]) /\
  sv_step ex_end (STrigger 0 None) = (Err ENOENT, ex_end, []) /\ sv_step ex_end (STrigger 8 None) = (Err EINVAL, ex_end, []).
Proof.
  assert (H : irq_history (ex_server false) ex_hist ex_end).
  { eapply (ih_run ex_hist); [unfold ex_end; apply surjective_pairing|vm_compute; repeat constructor|exact ex_hist_ok]. }
  assert (C : forall v i fd, v = 1 + N.of_nat i -> nth_error [21; 22]%Z i = Some fd -> connected_to (ex_server false) ex_hist v fd).
  { intros v i fd V X. unfold ex_hist. pose proof ex_hist_ok as G. unfold ex_hist in G. apply Forall_app in G. destruct G as [G1 G2]. inversion G2 as [|? ? _ G3]; subst.
    exists ex_steps, ex_assign, ex_quiet, (ex_busy false). eexists _, _, _. split; [reflexivity|].
    split; [eapply (ih_run ex_steps); [unfold ex_busy; apply surjective_pairing|vm_compute; repeat constructor|exact G1]|].
    split; [vm_compute; reflexivity|]. split; [|split].
    - exists 36, 1, 1, 2, [21; 22]%Z. split; [|split; [reflexivity|split; [reflexivity|split; [reflexivity|split; [lia|]]]]].
      2: { replace (N.to_nat (1 + N.of_nat i - 1)) with i by lia. exact X. }
      constructor; [vm_compute; auto|vm_compute; split; discriminate|].
      eexists _, _, _, 20, []. split; [reflexivity|]. split; [reflexivity|]. split; [vm_compute; repeat split; try discriminate; intros E; discriminate E|].
      split; [reflexivity|]. split; [repeat split; reflexivity|]. split; [vm_compute; reflexivity|]. split; [reflexivity|].
      apply (proj1 (valid_iff ex_cfg 20 36 1 1 2 [] [21; 22]%Z eq_refl eq_refl (proj1 (proj2 ex_table_ok)))). reflexivity.
    - vm_compute. intros Z. repeat destruct Z as [Z|Z]; try discriminate Z. exact Z.
    - eapply (leaves_run _ ex_quiet); [apply surjective_pairing|vm_compute; repeat constructor| |].
      + vm_compute. intros Z. repeat destruct Z as [Z|Z]; try discriminate Z. exact Z.
      + repeat constructor; intros; (apply no_request; other). }
  split; [exact H|]. split; [apply (C 1 0%nat); reflexivity|]. split; [apply (C 2 1%nat); reflexivity|].
  split; [|vm_compute; auto]. intros fd X. destruct (C62_trigger _ _ _ 0 None (ex_fresh false) H) as (A & _). specialize (A _ X). vm_compute in A. discriminate A.
Qed.
