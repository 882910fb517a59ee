(* C27 and C56 over the whole life of a device: what becomes of every descriptor that clients send. *)
From Coq Require Import NArith ZArith List Bool Lia ZifyBool ZifyNat ZifyN.
From Verif Require Import Base Types Bytes BytesProofs Spec Dma Dirty DmaOps SpecDma DmaProofs Migr Irq SpecIrq IrqProofs PropIrq Pci Handlers
  SpecHandlers HandlersProofs HandlersDma Server SpecServer ServerProofs PropServer PropFds PropFdsX Setup SpecSetup PropSetup.
Import ListNotations.
Open Scope N_scope.
Ltac Zify.zify_post_hook ::= idtac.

(* The descriptors of the request that waits for the device to quiesce. *)
Definition waiting (s : server) : list Z := match sv_pending s with PMsg m => mg_fds m | _ => [] end.

(* A history of steps that do not crash, with no condition on the requests: the descriptors received (fds) and what
   happens (ev).  lost are descriptors of map requests that repeat a mapping, and twice those of map requests for which
   mmap fails; each such request is in at most one of the two, once. *)
Inductive fd_life : server -> list step -> server -> list Z -> list event -> list Z -> list Z -> Prop :=
| fl_nil : forall s, fd_life s [] s [] [] [] []
| fl_plain : forall s st o s1 ev1 l s2 fds ev2 lost twice,
    sv_step s st = (o, s1, ev1) -> (forall c, o <> Crash c) -> fd_life s1 l s2 fds ev2 lost twice ->
    fd_life s (st :: l) s2 (received s st ++ fds) (ev1 ++ ev2) lost twice
| fl_lost : forall s st o s1 ev1 l s2 fds ev2 lost twice m os f,
    sv_step s st = (o, s1, ev1) -> (forall c, o <> Crash c) -> handles s st m os -> repeats (regions_of s) os m f -> fd_life s1 l s2 fds ev2 lost twice ->
    fd_life s (st :: l) s2 (received s st ++ fds) (ev1 ++ ev2) (f :: lost) twice
| fl_twice : forall s st o s1 ev1 l s2 fds ev2 lost twice m os f,
    sv_step s st = (o, s1, ev1) -> (forall c, o <> Crash c) -> handles s st m os -> unmappable os m f -> fd_life s1 l s2 fds ev2 lost twice ->
    fd_life s (st :: l) s2 (received s st ++ fds) (ev1 ++ ev2) lost (f :: twice).

(* Every descriptor received in a history is held by an object or the waiting request, or closed, as often as it was
   received, but for those two exceptions. *)
Theorem C27_history_exact : forall s0 l s arr ev fd, fresh s0 -> history s0 l s arr ev -> (0 <= fd)%Z ->
  exists fds lost twice, fd_life s0 l s fds ev lost twice /\
    (times fd fds + times fd twice = held s fd + closed ev fd + times fd lost)%nat.
Proof.
  intros s0 l s arr ev fd F H P. pose proof (fresh_held _ _ F P) as H0. apply fresh_reachable in F.
  assert (E : exists fds lost twice, fd_life s0 l s fds ev lost twice /\ (held s0 fd + times fd fds + times fd twice = held s fd + closed ev fd + times fd lost)%nat).
  2:{ destruct E as (fds & lost & twice & L & E). exists fds, lost, twice. split; [exact L|]. lia. }
  clear H0. induction H as [s|s st o s1 ev1 l s2 arr ev2 S NC _ IH].
  - exists [], [], []. split; [constructor|]. rewrite times_nil, closed_nil. lia.
  - assert (R1 : reachable s1) by (eapply reachable_step; eauto). destruct (IH R1) as (fds & lost & twice & L & E).
    destruct (C27_exact _ _ _ _ _ fd F S NC P) as [Q|(m & os & f & Ha & [(Rp & Q)|(Um & Q)])].
    + exists (received s st ++ fds), lost, twice. split; [eapply fl_plain; eauto|]. rewrite times_app, closed_app. lia.
    + exists (received s st ++ fds), (f :: lost), twice. split; [eapply fl_lost; eauto|]. rewrite times_app, closed_app. change (f :: lost) with ([f] ++ lost). rewrite times_app. lia.
    + exists (received s st ++ fds), lost, (f :: twice). split; [eapply fl_twice; eauto|]. rewrite times_app, closed_app. change (f :: twice) with ([f] ++ twice). rewrite times_app. lia.
Qed.
Print Assumptions C27_history_exact.

(* Destroying a device closes every descriptor it holds, but for those of the request that waits. *)
Theorem C56_destroy_exact : forall s q lost fd, reachable s -> (0 <= fd)%Z ->
  fst (destroy_ctx s q lost) = Ok tt /\ (closed (snd (destroy_ctx s q lost)) fd + times fd (waiting s) = held s fd)%nat.
Proof.
  intros s q lost fd R P. destruct (C56_destroy s q lost R) as [E _]. rewrite E. split; [reflexivity|]. cbn [snd].
  rewrite lost_fds by exact P. unfold cheld, held, waiting. change (cregs (sv_ctx s)) with (regions_of s).
  assert (X : times fd (cirqs (sv_ctx s)) = times fd (irq_fds s)) by (unfold cirqs, irq_fds, tfds; reflexivity). rewrite X.
  destruct (sv_pending s) as [|m|]; [change (times fd []) with 0%nat; lia|lia|change (times fd []) with 0%nat; lia].
Qed.
Print Assumptions C56_destroy_exact.

(* The whole life: from being set up to being destroyed, after any history. *)
Theorem C56_life_exact : forall s0 l s arr ev q cb fd, fresh s0 -> history s0 l s arr ev -> (0 <= fd)%Z ->
  exists fds lost twice, fd_life s0 l s fds ev lost twice /\
    (times fd fds + times fd twice = closed (ev ++ snd (destroy_ctx s q cb)) fd + times fd (waiting s) + times fd lost)%nat.
Proof.
  intros s0 l s arr ev q cb fd F H P. destruct (C27_history_exact s0 l s arr ev fd F H P) as (fds & lost & twice & L & E).
  exists fds, lost, twice. split; [exact L|].
  assert (R : reachable s) by (exists s0, l, arr, ev; auto). destruct (C56_destroy_exact s q cb fd R P) as [_ D]. rewrite closed_app. lia.
Qed.
Print Assumptions C56_life_exact.

(* The server of the examples, which holds descriptors 5 and 9, is sent its map request again with descriptor 7, and
   destroyed: 5 and 9 are closed, and 7 is lost. *)
Definition ex_s1 : server := snd (fst (sv_step (ex_server true) (SAttach 1048576))).
Definition ex_s2 : server := snd (fst (sv_step ex_s1 (SRun (ex_map 1)))).
Definition ex_again : server := snd (fst (sv_step (ex_busy true) (SRun ex_remap))).
Definition ex_life : list step := [SAttach 1048576; SRun (ex_map 1); SRun (ex_irq 2); SRun ex_remap].
Definition ex_life_ev : list event :=
  snd (sv_step (ex_server true) (SAttach 1048576)) ++ snd (sv_step ex_s1 (SRun (ex_map 1))) ++ snd (sv_step ex_s2 (SRun (ex_irq 2))) ++ snd (sv_step (ex_busy true) (SRun ex_remap)) ++ [].
Lemma step_eq s st : sv_step s st = (fst (fst (sv_step s st)), snd (fst (sv_step s st)), snd (sv_step s st)).
Proof. destruct (sv_step s st) as [[o s'] ev]. reflexivity. Qed.
Example C56_life_case : fresh (ex_server true) /\ (exists arr, history (ex_server true) ex_life ex_again arr ex_life_ev) /\
  (exists fds, fd_life (ex_server true) ex_life ex_again fds ex_life_ev [7%Z] [] /\ fds = [5; 9; 7]%Z) /\ waiting ex_again = [] /\
  let ev := ex_life_ev ++ snd (destroy_ctx ex_again None None) in closed ev 5 = 1%nat /\ closed ev 9 = 1%nat /\ closed ev 7 = 0%nat.
Proof.
  assert (E3 : snd (fst (sv_step ex_s2 (SRun (ex_irq 2)))) = ex_busy true) by (vm_compute; reflexivity).
  assert (N1 : forall c, fst (fst (sv_step (ex_server true) (SAttach 1048576))) <> Crash c) by (vm_compute; discriminate).
  assert (N2 : forall c, fst (fst (sv_step ex_s1 (SRun (ex_map 1)))) <> Crash c) by (vm_compute; discriminate).
  assert (N3 : forall c, fst (fst (sv_step ex_s2 (SRun (ex_irq 2)))) <> Crash c) by (vm_compute; discriminate).
  assert (N4 : forall c, fst (fst (sv_step (ex_busy true) (SRun ex_remap))) <> Crash c) by (vm_compute; discriminate).
  pose proof (step_eq (ex_server true) (SAttach 1048576)) as T1. pose proof (step_eq ex_s1 (SRun (ex_map 1))) as T2.
  pose proof (step_eq ex_s2 (SRun (ex_irq 2))) as T3. rewrite E3 in T3. pose proof (step_eq (ex_busy true) (SRun ex_remap)) as T4.
  destruct C27_exact_case as [(m & os & Ha & Rp) _].
  split; [apply ex_fresh|]. split; [|split; [|split; [vm_compute; reflexivity|vm_compute; auto]]].
  - eexists. unfold ex_life, ex_life_ev. eapply (h_cons _ _ _ _ _ _ _ _ _ T1 N1), (h_cons _ _ _ _ _ _ _ _ _ T2 N2), (h_cons _ _ _ _ _ _ _ _ _ T3 N3), (h_cons _ _ _ _ _ _ _ _ _ T4 N4), h_nil.
  - eexists. split.
    + unfold ex_life, ex_life_ev.
      eapply (fl_plain _ _ _ _ _ _ _ _ _ _ _ T1 N1), (fl_plain _ _ _ _ _ _ _ _ _ _ _ T2 N2), (fl_plain _ _ _ _ _ _ _ _ _ _ _ T3 N3), (fl_lost _ _ _ _ _ _ _ _ _ _ _ _ _ _ T4 N4 Ha Rp), fl_nil.
    + vm_compute. reflexivity.
Qed.
