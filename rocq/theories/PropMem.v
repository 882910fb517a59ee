(* Property C75: the memory of requests. *)
From Coq Require Import NArith ZArith List Bool Lia Permutation.
From Verif Require Import Base Handlers Heap SpecHeap HeapProofs Mem SpecMem MemProofs.
Import ListNotations.
Open Scope N_scope.

Lemma create_ok : mem_ok mem_create /\ Permutation [] ([] ++ held mem_create) /\ below [] (me_next mem_create).
Proof. repeat split; cbn; try discriminate; try constructor; now intros []. Qed.

(* Whatever clients send, whatever the device does, whichever allocations and system calls fail: while the library serves requests,
   negotiates and transfers data it frees no buffer twice and accesses none that is freed. *)
Theorem C75_safe : forall l e ev, mem_steps mem_create l = (e, ev) -> exists live, replay [] ev = Some live.
Proof.
  intros l e ev H. destruct create_ok as (A & B & C). destruct (steps_ok _ _ _ _ _ [] A B C H) as (live & L & R & _). now exists live.
Qed.
Print Assumptions C75_safe.

(* What is allocated between two calls: the buffers of the request that is held until the device has quiesced, if there is one -
   at most three - and one buffer for each negotiation that failed for want of a socket pair. *)
Theorem C75_held : forall l e ev live, mem_steps mem_create l = (e, ev) -> replay [] ev = Some live ->
  length live = (length (held e) + no_pairs l)%nat /\ incl (held e) live /\ (me_pending e <> MpMsg -> held e = []) /\ (length (held e) <= 3)%nat.
Proof.
  intros l e ev live H R. destruct create_ok as (A & B & C). destruct (steps_ok _ _ _ _ _ [] A B C H) as (live' & L & R' & P & _ & (OK & FR) & E). rewrite R in R'. injection R' as <-.
  split; [rewrite (Permutation_length P), app_length, E; cbn; lia|]. split; [intros x X; eapply Permutation_in; [apply Permutation_sym; exact P|apply in_or_app; auto]|].
  unfold held in *. destruct (me_msg e) as [m|] eqn:M; [|split; [auto|cbn; lia]]. split; [intros N; destruct N; apply OK; discriminate|].
  destruct (FR m eq_refl) as (F1 & F2). unfold buffers. rewrite F1, F2. destruct (mm_infds m), (mm_in m); cbn; lia.
Qed.
Print Assumptions C75_held.

(* So when no request is held and no socket pair could not be made, nothing is allocated: serving any number of requests leaks
   nothing. *)
Theorem C75_no_leak_partial : forall l e ev, mem_steps mem_create l = (e, ev) -> me_pending e <> MpMsg -> no_pairs l = 0%nat -> replay [] ev = Some [].
Proof.
  intros l e ev H N Z. destruct (C75_safe _ _ _ H) as (live & R). destruct (C75_held _ _ _ _ H R) as (E & _ & F & _). rewrite (F N), Z in E. destruct live; [exact R|discriminate E].
Qed.
Print Assumptions C75_no_leak_partial.

(* ---- A client is accepted, but the socket pair for the server's own commands cannot be made (the process has no descriptors
   left): the client's version message is never freed. *)
Definition ex_no_pair : mem_op := MoNegotiate (mk_negotiation (Some BodyOk) true (Some false) true true).
Theorem C75_no_pair_refuted : forall n, exists l e ev live, mem_steps mem_create l = (e, ev) /\ replay [] ev = Some live /\
  me_pending e = MpNone /\ length l = n /\ length live = n.
Proof.
  intros n. set (l := repeat ex_no_pair n). destruct (mem_steps mem_create l) as [e ev] eqn:H. destruct (C75_safe _ _ _ H) as (live & R).
  assert (X : forall k e0, me_pending (fst (mem_steps e0 (repeat ex_no_pair k))) = me_pending e0 /\ me_msg (fst (mem_steps e0 (repeat ex_no_pair k))) = me_msg e0).
  { induction k as [|k IH]; intros e0; [auto|]. cbn [repeat mem_steps]. destruct (mem_step e0 ex_no_pair) as [e1 ev1] eqn:S. cbn in S. injection S as <- <-.
    specialize (IH (mk_mem (me_pending e0) (me_msg e0) (S (me_next e0)))). destruct (mem_steps _ (repeat ex_no_pair k)). exact IH. }
  assert (Y : no_pairs l = n) by (subst l; unfold no_pairs; clear; induction n as [|n IH]; [reflexivity|]; cbn [repeat filter ex_no_pair no_pair ng_body ng_twin ng_accept]; cbn [length]; now rewrite IH).
  destruct (X n mem_create) as (X1 & X2). fold l in X1, X2. rewrite H in X1, X2. cbn [fst mem_create me_pending me_msg] in X1, X2.
  destruct (C75_held _ _ _ _ H R) as (E & _). rewrite Y in E. unfold held in E. rewrite X2 in E.
  exists l, e, ev, live. repeat (split; [first [exact H|exact R|exact X1|subst l; apply repeat_length]|]). exact E.
Qed.
Print Assumptions C75_no_pair_refuted.

(* ---- vfu_destroy_ctx while a request is held: the request is never freed. *)
Definition ex_choice : choice := mk_choice true true true false true true.
Definition ex_held : request := mk_request true false true true true true (Some BodyOk) true QuiesceBusy CMD_DMA_MAP false ex_choice ReplySent.
Theorem C75_destroy_refuted : exists l e ev, mem_steps mem_create l = (e, ev) /\ no_pairs l = 0%nat /\ replay [] (ev ++ mem_destroy e) = Some [0; 1; 2]%nat.
Proof. exists [MoRun ex_held]. eexists. eexists. split; [vm_compute; reflexivity|]. vm_compute. auto. Qed.
Print Assumptions C75_destroy_refuted.

(* A request that is held and then handled, one whose body does not arrive, one whose descriptors find no memory, a report that
   fails, a transfer that is cut off, a negotiation: nothing remains. *)
Definition ex_mem_ops : list mem_op :=
  [MoNegotiate (mk_negotiation (Some BodyOk) true (Some true) true true); MoRun ex_held; MoRun ex_held; MoQuiesced true ex_held;
   MoRun (mk_request true false true true true true (Some BodyFailed) true QuiesceGo CMD_DMA_UNMAP false ex_choice (ReplyLost true)); MoQuiesced false ex_held;
   MoRun (mk_request true false true true false true None true QuiesceGo CMD_RESET false ex_choice ReplySent);
   MoRun (mk_request true false true false false true (Some BodyOk) true QuiesceGo CMD_FEATURE true (mk_choice true true true false false false) ReplySent);
   MoRun (mk_request true false true false false true (Some BodyOk) true QuiesceGo CMD_GET_REGION_INFO false (mk_choice true true true true true true) ReplySent);
   MoTransfer false true [(true, true); (true, false)]].
Example C75_case : no_pairs ex_mem_ops = 0%nat /\ me_pending (fst (mem_steps mem_create ex_mem_ops)) = MpNone /\ length (snd (mem_steps mem_create ex_mem_ops)) = 86%nat /\
  replay [] (snd (mem_steps mem_create ex_mem_ops)) = Some [].
Proof. vm_compute. auto. Qed.
Example C75_held_case : held (fst (mem_steps mem_create [ex_no_pair; MoRun ex_held])) = [1; 2; 3]%nat /\
  replay [] (snd (mem_steps mem_create [ex_no_pair; MoRun ex_held])) = Some [0; 1; 2; 3]%nat.
Proof. vm_compute. auto. Qed.
