(* C79: what happens to the maps that pages cannot be logged for. *)
From Coq Require Import NArith ZArith List Bool Lia ZifyBool ZifyNat ZifyN.
From Verif Require Import Base Types Bytes Spec Dma Dirty DmaOps SpecDma DmaProofs Handlers SpecHandlers HandlersDma Server SpecServer ServerProofs PropServer
  SpecMsg PropDmaMsg PropLogFree.
Import ListNotations.
Open Scope N_scope.
Ltac Zify.zify_post_hook ::= idtac.

Lemma scan_refuses os rs : forall k addr size fd off prot o,
  (forall r, In r rs -> ~ (di_iova (rg_info r) = addr /\ di_len (rg_info r) = size)) -> add_scan os rs k addr size fd off prot = Some o -> o = Err EINVAL.
Proof.
  induction rs as [|r rs IH]; intros k addr size fd off prot o N H; cbn [add_scan] in H; [discriminate H|].
  destruct (same_range r addr size) eqn:S.
  - exfalso. apply (N r (or_introl eq_refl)). unfold same_range, rg_base, rg_len in S. apply andb_prop in S as [A B]. split; [now apply N.eqb_eq in A|now apply N.eqb_eq in B].
  - destruct (overlap_test r addr size); [now injection H as <-|]. eapply IH; [|exact H]. intros r' I. apply N. now right.
Qed.

Lemma add_unloggable os d addr size fd off prot : fd <> (-1)%Z -> (forall r, ~ registered d r addr size) -> dm_pgsize d <> 0 ->
  size < dm_pgsize d \/ os_calloc os = false ->
  exists e, add_region os d addr size fd off prot = (Err e, d, []) /\ (e = EINVAL \/ e = ENOSPC \/ e = ENOMEM).
Proof.
  intros F N P H. unfold add_region. destruct (dm_max_size d <? size); [eauto|].
  destruct (add_scan os (dm_regions d) 0 addr size fd off prot) as [o|] eqn:S.
  { apply scan_refuses in S as ->; [eauto|]. intros r I (A & B). now apply (N r). }
  destruct (Nat.eqb (length (dm_regions d)) (dm_max_regions d)); [eauto|]. replace (fd =? -1)%Z with false by lia.
  destruct (os_blksize os) as [blk|]; [|eauto]. replace (dm_pgsize d =? 0) with false by lia.
  unfold start_on_region, get_bitmap_size. replace (dm_pgsize d =? 0) with false by lia. unfold rg_len. cbn [rg_info di_len].
  destruct (size <? dm_pgsize d) eqn:L; [eauto|]. destruct H as [H| ->]; [lia|]. eauto.
Qed.

(* While pages are logged, a client that asks to map new memory, with a descriptor, of less than a logged page, or for
   which no bitmap can be allocated, gets an error; the descriptor is closed, and nothing else changes. *)
Theorem C79_unloggable_map : forall s en id body fd fds d argsz flags off addr size, reachable s -> request s en id 2 body (fd :: fds) ->
  cx_dma (sv_ctx s) = Some d -> map_fields body argsz flags off addr size -> 32 <= argsz -> flags < 4 -> (0 <= fd)%Z ->
  (forall r, ~ registered d r addr size) -> dm_pgsize d <> 0 -> size < dm_pgsize d \/ os_calloc (or_os (en_or en)) = false ->
  exists err, (err = EINVAL \/ err = ENOSPC \/ err = ENOMEM) /\ responds s en id 2 err [] s [EvClose fd].
Proof.
  intros s en id body fd fds d argsz flags off addr size RE RQ D MF Z F P N G L.
  pose proof (map_dispatch s en body (fd :: fds) d argsz flags off addr size D MF Z F (Forall_cons _ P (Forall_nil _))) as X. cbn [hd] in X.
  destruct (add_unloggable (or_os (en_or en)) d addr size fd off flags ltac:(lia) N G L) as (e & A & E). unfold dma_map_request in X. rewrite A in X.
  unfold close_ev in X. replace (fd =? -1)%Z with false in X by lia. cbn [app] in X. exists e. split; [exact E|].
  assert (SC : set_dma (sv_ctx s) d (cx_hint (sv_ctx s)) = sv_ctx s) by (destruct (sv_ctx s); cbn in *; now subst).
  rewrite SC in X. rewrite <- (same_ctx s) at 2. eapply request_responds; [exact RE|exact RQ|exact X|]. intros r [I|[]]. discriminate I.
Qed.
Print Assumptions C79_unloggable_map.

(* A page of memory, while pages of 64 KiB are logged. *)
Example C79_unloggable_case : exists body d, reachable (lg_s1 65536) /\ request (lg_s1 65536) (lg_map 4 4096) 4 2 body [6%Z] /\
  cx_dma (sv_ctx (lg_s1 65536)) = Some d /\ map_fields body 32 3 0 1048576 4096 /\ (forall r, ~ registered d r 1048576 4096) /\
  dm_pgsize d = 65536 /\ length (dm_regions d) = 1%nat.
Proof.
  exists (le_bytes 4 32 ++ le_bytes 4 3 ++ le_bytes 8 0 ++ le_bytes 8 1048576 ++ le_bytes 8 4096).
  destruct (cx_dma (sv_ctx (lg_s1 65536))) as [d|] eqn:D; [|vm_compute in D; discriminate D]. exists d.
  split; [eapply reachable_step; [exact lg_reachable|apply lg_step_eq|vm_compute; discriminate]|].
  split. { constructor; try reflexivity; [vm_compute; auto| |vm_compute; split; discriminate]. exists (mk_header 4 2 48 0 0). repeat split; vm_compute; auto; discriminate. }
  split; [reflexivity|]. vm_compute in D. injection D as <-. split; [constructor; try reflexivity; vm_compute; repeat constructor|].
  split; [|split; reflexivity]. intros r ([<-|[]] & A & _). vm_compute in A. discriminate A.
Qed.
