(* C17, C54: exactly when logging starts, and what a client sees that starts and stops it. *)
From Coq Require Import NArith ZArith List Bool Lia ZifyBool ZifyNat ZifyN.
From Verif Require Import Base Types Spec Bytes BytesProofs BufProofs Dma Dirty DmaOps SpecDma DmaProofs DmaDisjoint DmaSgl DmaMap DmaRemap Migr Irq Pci Handlers SpecHandlers HandlersProofs
  PropHandlers PropFeature PropDma PropDirty.
Import ListNotations.
Open Scope N_scope.
Ltac Zify.zify_post_hook ::= idtac.

(* Logging in pages of pg bytes is possible for the region, given memory: it has no file, or is at least a page long. *)
Definition can_log (pg : N) (r : region) : Prop := rg_fd r = (-1)%Z \/ pg <= di_len (rg_info r).

Lemma scan_exact calloc pg rs : pg <> 0 -> forall idx o rs', start_scan calloc idx rs pg = (o, rs') ->
  (o = Ok tt <-> forall i r, nth_error rs i = Some r -> rg_fd r = (-1)%Z \/ pg <= rg_len r /\ calloc (idx + i)%nat = true) /\
  (forall i r, nth_error rs i = Some r -> ~ (rg_fd r = (-1)%Z \/ pg <= rg_len r /\ calloc (idx + i)%nat = true) ->
     (forall j q, (j < i)%nat -> nth_error rs j = Some q -> rg_fd q = (-1)%Z \/ pg <= rg_len q /\ calloc (idx + j)%nat = true) ->
     o = Err (if rg_len r <? pg then EINVAL else ENOMEM)).
Proof.
  intros Z. induction rs as [|x rs IH]; intros idx o rs' H; cbn [start_scan] in H.
  - injection H as <- <-. split; [split; [intros _ [|i] r Q; discriminate Q|reflexivity]|]. intros [|i] r Q; discriminate Q.
  - assert (Q : o = match (if (rg_fd x =? -1)%Z then Ok x else start_on_region (calloc idx) x pg) with
                     | Ok _ => fst (start_scan calloc (S idx) rs pg) | Err e => Err e | Crash c => Crash c end).
    { destruct (rg_fd x =? -1)%Z; [|destruct (start_on_region (calloc idx) x pg); [|now injection H as <- _|now injection H as <- _]];
        destruct (start_scan calloc (S idx) rs pg) as [[[]|e|c] q]; injection H as <- _; reflexivity. }
    clear H. subst o. destruct (start_scan calloc (S idx) rs pg) as [o1 q1] eqn:E. specialize (IH _ _ _ E). destruct IH as (IH1 & IH2). cbn [fst].
    assert (SH : forall i, (S idx + i = idx + S i)%nat) by (intros; lia).
    assert (HX : match (if (rg_fd x =? -1)%Z then Ok x else start_on_region (calloc idx) x pg) with
                 | Ok _ => rg_fd x = (-1)%Z \/ pg <= rg_len x /\ calloc (idx + 0)%nat = true
                 | Err e => ~ (rg_fd x = (-1)%Z \/ pg <= rg_len x /\ calloc (idx + 0)%nat = true) /\ e = (if rg_len x <? pg then EINVAL else ENOMEM)
                 | Crash c => False end).
    { replace (idx + 0)%nat with idx by lia. destruct (Z.eqb_spec (rg_fd x) (-1)) as [F|F]; [now left|]. unfold start_on_region, get_bitmap_size.
      replace (pg =? 0) with false by lia. destruct (rg_len x <? pg) eqn:G; [split; [intros [?|[? _]]; lia|reflexivity]|].
      destruct (calloc idx); [right; split; [lia|reflexivity]|]. split; [intros [?|[_ ?]]; [lia|discriminate]|reflexivity]. }
    destruct (if (rg_fd x =? -1)%Z then Ok x else start_on_region (calloc idx) x pg) as [y|e|c]; [| |contradiction].
    + split.
      * rewrite IH1. split.
        -- intros A [|i] r N0; cbn [nth_error] in N0; [injection N0 as <-; exact HX|]. rewrite <- SH. exact (A i r N0).
        -- intros A i r N0. rewrite SH. exact (A (S i) r N0).
      * intros [|i] r N0 NO BEF; cbn [nth_error] in N0; [injection N0 as <-; now elim NO|].
        apply (IH2 i r N0); [rewrite SH; exact NO|]. intros j q J Q. rewrite SH. apply (BEF (S j) q); [lia|exact Q].
    + destruct HX as (NX & ->). split.
      * split; [discriminate|]. intros A. elim NX. exact (A 0%nat x eq_refl).
      * intros [|i] r N0 NO BEF; cbn [nth_error] in N0; [now injection N0 as <-|]. elim NX. exact (BEF 0%nat x ltac:(lia) eq_refl).
Qed.

(* While logging is off, starting it succeeds exactly if every region that has a file is at least a page long (of the page size asked
   for) and memory for its log can be allocated; otherwise the first region for which this is not so decides: EINVAL if it is too
   small, else ENOMEM. *)
Theorem C17_start_exact : forall cb0 ops d ev cb calloc pgsize,
  reached cb0 ops d ev -> dm_pgsize d = 0 -> pgsize <> 0 ->
  let o := fst (fst (dma_step cb d (OpLogStart calloc pgsize))) in
  (o = Ok tt <-> forall i r, nth_error (dm_regions d) i = Some r -> can_log pgsize r /\ (rg_fd r = (-1)%Z \/ calloc i = true)) /\
  (forall i r, nth_error (dm_regions d) i = Some r -> ~ (can_log pgsize r /\ (rg_fd r = (-1)%Z \/ calloc i = true)) ->
     (forall j q, (j < i)%nat -> nth_error (dm_regions d) j = Some q -> can_log pgsize q /\ (rg_fd q = (-1)%Z \/ calloc j = true)) ->
     o = Err (if di_len (rg_info r) <? pgsize then EINVAL else ENOMEM)).
Proof.
  intros cb0 ops d ev cb calloc pg _ OFF NZ. cbv zeta. cbn [dma_step]. unfold logging_start. replace (pg =? 0) with false by lia. rewrite OFF. change (0 <? 0) with false. cbn iota.
  destruct (start_scan calloc 0 (dm_regions d) pg) as [o rs] eqn:S. destruct (scan_exact calloc pg _ NZ _ _ _ S) as (A & B). cbn [Nat.add] in *.
  assert (EQ : forall i r, can_log pg r /\ (rg_fd r = (-1)%Z \/ calloc i = true) <-> rg_fd r = (-1)%Z \/ pg <= rg_len r /\ calloc i = true).
  { intros i r. unfold can_log, rg_len. tauto. }
  replace (fst (fst (let '(o0, d') := match o with Ok tt => _ | _ => _ end in _))) with o by (destruct o as [[]|e|c]; reflexivity).
  split.
  - rewrite A. split; intros H i r N0; [apply EQ|apply EQ]; exact (H i r N0).
  - intros i r N0 NO BEF. apply (B i r N0); [now rewrite <- EQ|]. intros j q J Q. apply EQ. exact (BEF j q J Q).
Qed.
Print Assumptions C17_start_exact.
(* Two regions of 64 KiB and 4 KiB with files: logging in pages of 4 KiB starts, in pages of 8 KiB it does not. *)
Definition two_regions : list dma_op := [OpMap (ex_os 139637976727552) 65536 65536 5 0 3; OpMap (ex_os 139637976858624) 4096 4096 6 0 3].
Example C17_start_exact_case : exists d ev, reached true two_regions d ev /\ dm_pgsize d = 0 /\
  fst (fst (dma_step true d (OpLogStart (fun _ => true) 4096))) = Ok tt /\
  fst (fst (dma_step true d (OpLogStart (fun _ => true) 8192))) = Err EINVAL /\
  fst (fst (dma_step true d (OpLogStart (fun i => Nat.eqb i 0) 4096))) = Err ENOMEM.
Proof.
  do 2 eexists. split; [split; [repeat constructor; vm_compute; reflexivity|vm_compute; reflexivity]|]. vm_compute. auto.
Qed.

Lemma set_check s f : f = 6 \/ f = 7 -> feature_check (Some s) (2 ^ 17 + f) = true.
Proof. intros [->| ->]; vm_compute; reflexivity. Qed.

(* The requests of a client: starting logging is the operation above with the page size of the request and whatever follows it is
   ignored; its outcome is the reply, which has the request as its body.  Stopping always succeeds.  Neither makes a callback. *)
Theorem C17_client_start : forall c o cb argsz pgsize ranges fds s d,
  argsz < 2 ^ 32 -> pgsize < 2 ^ 64 -> 16 + N.of_nat (length ranges) <= argsz -> cx_mig c = Some s -> cx_dma c = Some d ->
  let req := feature_req argsz (2 ^ 17 + 6) (le_bytes 8 pgsize ++ ranges) in
  forall res d' ev, dma_step cb d (OpLogStart (or_calloc o) pgsize) = (res, d', ev) ->
  dispatch c o 16 req fds = (match res with Ok _ => HReply 0 req [] | Err e => HReply e req [] | Crash cr => HCrash cr end, set_dma c d' (cx_hint c), fds, []).
Proof.
  intros c o cb argsz pg ranges fds s d A P L M D req res d' ev H. unfold req. rewrite feature_dispatch by (assumption || lia). rewrite M, (set_check s 6) by auto.
  cbn [negb]. cbv zeta. change (N.ldiff (2 ^ 17 + 6) FEATURE_MASK) with FEATURE_SET. change (N.land (2 ^ 17 + 6) FEATURE_MASK) with 6.
  change (FEATURE_SET =? FEATURE_GET) with false. rewrite N.eqb_refl. cbn iota. rewrite app_length, le_bytes_length.
  replace (argsz <? 8 + N.of_nat (8 + length ranges)) with false by lia.
  change (is_migration_feature 6) with false. change (is_dma_feature 6) with true. cbn iota. unfold dma_feature_set. rewrite D. change (6 =? FEATURE_DMA_LOGGING_START) with true. cbn iota.
  assert (R : rd (feature_req argsz (2 ^ 17 + 6) (le_bytes 8 pg ++ ranges)) 8 8 = Some pg) by (unfold feature_req; rdsk; now rewrite rd_front).
  rewrite R. cbn [need]. cbn [dma_step] in H. destruct (logging_start (or_calloc o) d pg) as [o1 d1]. injection H as <- <- <-. reflexivity.
Qed.
Print Assumptions C17_client_start.

Theorem C17_client_stop : forall c o cb argsz data fds s d,
  argsz < 2 ^ 32 -> 8 + N.of_nat (length data) <= argsz -> cx_mig c = Some s -> cx_dma c = Some d ->
  let req := feature_req argsz (2 ^ 17 + 7) data in
  exists d', dma_step cb d OpLogStop = (Ok tt, d', []) /\ dispatch c o 16 req fds = (HReply 0 req [], set_dma c d' (cx_hint c), fds, []).
Proof.
  intros c o cb argsz data fds s d A L M D req. exists (logging_stop d). split; [reflexivity|]. unfold req. rewrite feature_dispatch by (assumption || lia). rewrite M, (set_check s 7) by auto.
  cbn [negb]. cbv zeta. change (N.ldiff (2 ^ 17 + 7) FEATURE_MASK) with FEATURE_SET. change (N.land (2 ^ 17 + 7) FEATURE_MASK) with 7.
  change (FEATURE_SET =? FEATURE_GET) with false. rewrite N.eqb_refl. cbn iota.
  replace (argsz <? 8 + N.of_nat (length data)) with false by lia.
  change (is_migration_feature 7) with false. change (is_dma_feature 7) with true. cbn iota. unfold dma_feature_set. rewrite D. reflexivity.
Qed.
Print Assumptions C17_client_stop.

(* If the argument size does not cover the request, or logging is asked for on a device without migration, nothing happens. *)
Theorem C17_client_refused : forall c o argsz f data fds, argsz < 2 ^ 32 -> f = 6 \/ f = 7 ->
  cx_mig c = None \/ argsz < 8 + N.of_nat (length data) ->
  dispatch c o 16 (feature_req argsz (2 ^ 17 + f) data) fds = (HReply EINVAL [] [], c, fds, []).
Proof.
  intros c o argsz f data fds A F H. assert (FL : 2 ^ 17 + f < 2 ^ 32) by (destruct F as [->| ->]; reflexivity). rewrite feature_dispatch by assumption.
  destruct (cx_mig c) as [s|] eqn:M.
  - destruct H as [H|H]; [discriminate H|]. rewrite (set_check s f F). cbn [negb]. cbv zeta.
    replace (argsz <? 8 + N.of_nat (length data)) with true by lia. destruct F as [->| ->]; reflexivity.
  - destruct F as [->| ->]; reflexivity.
Qed.
Print Assumptions C17_client_refused.
Example C17_client_case :
  let o := ex_oracle (fun _ _ n => AccOk n []) in
  let c := set_dma (ex_ctx (Some 2)) dma_create 0 in
  let start := feature_req 16 (2 ^ 17 + 6) (le_bytes 8 4096) in
  let '(r, c1, _, _) := dispatch c o 16 start [] in
  r = HReply 0 start [] /\ option_map dm_pgsize (cx_dma c1) = Some 4096 /\
  fst (fst (fst (dispatch c1 o 16 (feature_req 16 (2 ^ 17 + 6) (le_bytes 8 8192)) []))) = HReply EINVAL (feature_req 16 (2 ^ 17 + 6) (le_bytes 8 8192)) [] /\
  (let '(r2, c2, _, _) := dispatch c1 o 16 (feature_req 8 (2 ^ 17 + 7) []) [] in r2 = HReply 0 (feature_req 8 (2 ^ 17 + 7) []) [] /\ option_map dm_pgsize (cx_dma c2) = Some 0) /\
  fst (fst (fst (dispatch c o 16 (feature_req 15 (2 ^ 17 + 6) (le_bytes 8 4096)) []))) = HReply EINVAL [] [].
Proof. vm_compute. repeat split. Qed.

(* ---------- exactly when a new range is accepted (C02) *)

(* The region and the range [addr, addr + size) have an address in common; a region or a range of length 0 counts as the address at
   which it starts, if that lies inside the other. *)
Definition touches (r : region) (addr size : N) : Prop :=
  (di_iova (rg_info r) <= addr < di_iova (rg_info r) + di_len (rg_info r)) \/ (addr <= di_iova (rg_info r) < addr + size).

(* The error with which a new region that has a file is refused; 0 if it is not. *)
Definition file_error (os : dma_os) (pgsize size : N) : N :=
  match os_blksize os with
  | None => EINVAL
  | Some _ => if pgsize =? 0 then match os_mmap os with inl _ => 0 | inr e => e end
              else if size <? pgsize then EINVAL
              else if os_calloc os then match os_mmap os with inl _ => 0 | inr e => e end else ENOMEM
  end.

(* A request for a range that is not registered.  Too large: ENOSPC.  Else, if it touches a region or there are 64 already: EINVAL.
   Else without a file it is accepted; with one, it depends on the size and type of the file being known (EINVAL), on the log, if
   logging is on (the region must be a page long or more: EINVAL; memory: ENOMEM) and on the mapping (its error), in this order. *)
Theorem C02_map_exact : forall cb0 ops d ev cb os addr size fd off prot,
  reached cb0 ops d ev -> range_ok addr size -> (forall r, ~ registered d r addr size) -> os_mmap os <> inr 0 ->
  let o := fst (fst (dma_step cb d (OpMap os addr size fd off prot))) in
  (8 * 2 ^ 40 < size -> o = Err ENOSPC) /\
  (size <= 8 * 2 ^ 40 -> (exists r, In r (dm_regions d) /\ touches r addr size) \/ length (dm_regions d) = 64%nat -> o = Err EINVAL) /\
  (size <= 8 * 2 ^ 40 -> (forall r, In r (dm_regions d) -> ~ touches r addr size) -> (length (dm_regions d) < 64)%nat ->
     (fd = (-1)%Z -> o = Ok tt) /\
     (fd <> (-1)%Z -> o = if file_error os (dm_pgsize d) size =? 0 then Ok tt else Err (file_error os (dm_pgsize d) size))).
Proof.
  intros cb0 ops d ev cb os addr size fd off prot R RO NR MM. cbv zeta. cbn [dma_step].
  destruct (reached_inv _ _ _ _ R) as (Hi & (NW & _) & _ & L). unfold limits in L. injection L as L1 L2.
  change MAX_DMA_SIZE with (8 * 2 ^ 40) in L2.
  unfold range_ok in RO. change (2 ^ 64) with two64 in RO.
  assert (T : forall r, In r (dm_regions d) -> overlap_test r addr size = true <-> touches r addr size).
  { intros r I. pose proof (proj1 (Forall_forall _ _) NW r I) as N0. unfold overlap_test. rewrite iov_end_nowrap, w64_small by auto. unfold touches, rg_base, rg_len. lia. }
  assert (SR : forall r, In r (dm_regions d) -> same_range r addr size = false).
  { intros r I. unfold same_range. destruct ((rg_base r =? addr) && (rg_len r =? size)) eqn:E; [|reflexivity]. exfalso. apply (NR r).
    split; [exact I|]. unfold rg_base, rg_len in E. lia. }
  assert (SC : forall rs k, incl rs (dm_regions d) ->
            (exists r, In r rs /\ touches r addr size) /\ add_scan os rs k addr size fd off prot = Some (Err EINVAL) \/
            (forall r, In r rs -> ~ touches r addr size) /\ add_scan os rs k addr size fd off prot = None).
  { induction rs as [|r rs IH]; intros k IN; [right; split; [contradiction|reflexivity]|]. cbn [add_scan]. rewrite SR by (apply IN; now left).
    destruct (overlap_test r addr size) eqn:E.
    - left. split; [|reflexivity]. exists r. split; [now left|]. apply T; [apply IN; now left|exact E].
    - destruct (IH (S k)) as [((x & Ix & Tx) & Q)|(A & Q)]; [intros x Hx; apply IN; now right| |].
      + left. split; [|exact Q]. exists x. split; [now right|exact Tx].
      + right. split; [|exact Q]. intros x [<-|Hx]; [|now apply A]. intros X. apply T in X; [congruence|apply IN; now left]. }
  specialize (SC (dm_regions d) 0%nat (incl_refl _)). unfold dma_map_request, add_region. rewrite L1, L2.
  split; [|split].
  - intros B. replace (8 * 2 ^ 40 <? size) with true by lia. reflexivity.
  - intros B C. replace (8 * 2 ^ 40 <? size) with false by lia. destruct SC as [(_ & ->)|(A & ->)]; [reflexivity|].
    destruct C as [(r & I & X)|C]; [now elim (A r I)|]. rewrite C. reflexivity.
  - intros B C LN. replace (8 * 2 ^ 40 <? size) with false by lia. destruct SC as [((r & I & X) & _)|(_ & ->)]; [now elim (C r I)|].
    replace (Nat.eqb (length (dm_regions d)) 64) with false by (symmetry; apply Nat.eqb_neq; lia). split.
    + intros ->. change (-1 =? -1)%Z with true. cbn iota. cbn [dm_regions set_regions]. rewrite nth_error_app2, Nat.sub_diag by lia. reflexivity.
    + intros NF. replace (fd =? -1)%Z with false by lia. unfold file_error, start_on_region, get_bitmap_size, map_region, rg_len. cbn [rg_info di_len].
      destruct (os_blksize os) as [blk|]; [|reflexivity]. destruct (dm_pgsize d =? 0) eqn:P0.
      * destruct (os_mmap os) as [b|e]; [|replace (e =? 0) with false by (destruct (N.eqb_spec e 0); [subst; congruence|reflexivity]); reflexivity].
        cbn [dm_regions set_regions]. rewrite nth_error_app2, Nat.sub_diag by lia. reflexivity.
      * destruct (size <? dm_pgsize d); [reflexivity|]. destruct (os_calloc os); [|reflexivity].
        destruct (os_mmap os) as [b|e]; [|replace (e =? 0) with false by (destruct (N.eqb_spec e 0); [subst; congruence|reflexivity]); reflexivity].
        cbn [dm_regions set_regions]. rewrite nth_error_app2, Nat.sub_diag by lia. reflexivity.
Qed.
Print Assumptions C02_map_exact.
Example C02_map_exact_case : exists d ev, reached true (two_regions ++ [OpLogStart (fun _ => true) 4096]) d ev /\
  (let map addr size fd := fst (fst (dma_step true d (OpMap (ex_os 139637976989696) addr size fd 0 3))) in
   map 131072 4096 7%Z = Ok tt /\ map 131072 2048 7%Z = Err EINVAL /\ map 131072 2048 (-1)%Z = Ok tt /\ map 0 8192 7%Z = Err EINVAL /\
   map 131072 (2 ^ 44) 7%Z = Err ENOSPC).
Proof.
  do 2 eexists. split; [split; [repeat constructor; vm_compute; reflexivity|vm_compute; reflexivity]|]. vm_compute. auto 10.
Qed.
