(* C11, exactly: where a region lies in its mapping, for every file offset. *)
From Coq Require Import NArith ZArith List Bool Lia.
From Verif Require Import Base Types Spec Dma Dirty DmaOps SpecDma DmaProofs DmaDisjoint DmaSgl DmaMap DmaRemap PropDma.
Import ListNotations.
Open Scope N_scope.
Ltac Zify.zify_post_hook ::= idtac.

(* The mapping starts at the page of the file that holds the region's offset, and is the region's length rounded up to pages. *)
Definition placed (r : region) : Prop :=
  forall v, di_vaddr (rg_info r) = Some v ->
    let pg := di_page_size (rg_info r) in
    4096 <= pg /\
    v = di_map_base (rg_info r) + rg_off r mod pg /\
    di_map_len (rg_info r) = (di_len (rg_info r) + pg - 1) / pg * pg.

Lemma placed_shape rs rs' : Forall2 same_shape rs rs' -> Forall placed rs -> Forall placed rs'.
Proof.
  induction 1 as [|r r' l l' H _ IH]; intros F; [constructor|]. inversion F; subst. constructor; auto. destruct H as (E1 & _ & E3). unfold placed in *. rewrite E1, E3. assumption.
Qed.

Lemma placed_step cb d op o d' ev : inv d -> dm_max_size d <= MAX_DMA_SIZE -> Forall placed (dm_regions d) -> os_sane d op -> dma_step cb d op = (o, d', ev) ->
  dm_max_size d' <= MAX_DMA_SIZE /\ Forall placed (dm_regions d').
Proof.
  intros Hi D P Hs H. pose proof (step_limits _ _ _ _ _ _ H) as Hlim. injection Hlim as _ Hlim. split; [lia|].
  destruct (step_table _ _ _ _ _ _ Hi H) as [Hsh|[(l & r & l' & E & E')|[E|Hmap]]].
  - now apply (placed_shape (dm_regions d)).
  - rewrite E' . rewrite E in P. apply Forall_app in P. destruct P as (P1 & P2). inversion P2; subst. now apply Forall_app.
  - rewrite E. constructor.
  - destruct Hmap as (os & addr & size & fd & off & prot & n & -> & E).
    apply add_region_ok in E. destruct E as (_ & Hsz & [[-> _]|E]); [auto|].
    destruct E as (r & -> & _ & _ & _ & Hkey & Hfd & Hoff & _ & Hfdok & _ & Hmap & _). cbn [dm_regions set_regions].
    apply Forall_app. split; [exact P|]. constructor; [|constructor]. unfold key in Hkey. injection Hkey as Hb Hl.
    destruct (Z.eq_dec fd (-1)) as [->|Hne]; [intros v Hv; rewrite (fd_no_vaddr r) in Hv by auto; discriminate Hv|].
    destruct (Hmap Hne) as (blk & base & Eb & Em & Epg & Ebase & Elen & Ev). cbn [os_sane] in Hs.
    destruct (Hs blk Eb) as [(k & -> & Hk) Hmm]. destruct (Hmm base Em) as [Hbase _]. unfold PAGE_SIZE in *. rewrite max_pow2 in *.
    set (K := N.max k 12) in *. assert (HK : 12 <= K <= 40) by (unfold K; lia).
    assert (P1 : 2 ^ K <= 2 ^ 40) by (apply N.pow_le_mono_r; lia). assert (P2 : 2 ^ 12 <= 2 ^ K) by (apply N.pow_le_mono_r; lia).
    pose proof (pow_pos K) as P0. unfold MAX_DMA_SIZE in D.
    rewrite round_up_pow2 in Elen; [|lia|]. 2: { change two64 with 18446744073709551616. change (2 ^ 40) with 1099511627776 in P1. lia. }
    rewrite round_down_pow2 in Ev by lia.
    assert (Q : off - off / 2 ^ K * 2 ^ K = off mod 2 ^ K) by (pose proof (N.div_mod off (2 ^ K)); lia).
    assert (M : off mod 2 ^ K < 2 ^ K) by (apply N.mod_lt; lia).
    change (2 ^ 63) with 9223372036854775808 in Hbase. change (2 ^ 40) with 1099511627776 in P1.
    rewrite Q, w64_small in Ev by (unfold two64; lia).
    intros v Hv. rewrite Ev in Hv. injection Hv as <-. cbv zeta. unfold rg_len in Hl. rewrite Epg, Ebase, Elen, Hoff, Hl. change (2 ^ 12) with 4096 in P2. auto.
Qed.
Lemma placed_run cb ops : forall d d' ev, inv d -> dm_max_size d <= MAX_DMA_SIZE -> Forall placed (dm_regions d) -> along os_sane cb d ops ->
  dma_run cb d ops = (d', ev) -> Forall placed (dm_regions d').
Proof.
  induction ops as [|op ops IH]; intros d d' ev Hi D P Hs H; simpl in *; [injection H as <- _; auto|].
  destruct (dma_step cb d op) as [[o d1] ev1] eqn:E. simpl in *. destruct (dma_run cb d1 ops) as [d2 ev2] eqn:E2. injection H as <- _.
  destruct Hs as [Hs1 Hs2]. destruct (placed_step _ _ _ _ _ _ Hi D P Hs1 E) as (D1 & P1). exact (IH d1 d2 ev2 (inv_step _ _ _ _ _ _ Hi E) D1 P1 Hs2 E2).
Qed.

(* For every region the library has mapped, whatever its offset: it starts at the byte of the mapping that is the file's byte at its
   offset; it lies in the mapping exactly if the part of the offset below a page and the length together fit the length rounded up
   to pages; and if not, the bytes past the mapping are that excess. *)
Theorem C11_exact : forall cb ops d ev, reached cb ops d ev -> along os_sane cb dma_create ops ->
  forall r v, In r (dm_regions d) -> di_vaddr (rg_info r) = Some v ->
  let pg := di_page_size (rg_info r) in let len := di_len (rg_info r) in let rounded := (len + pg - 1) / pg * pg in
  v = di_map_base (rg_info r) + rg_off r mod pg /\
  (inside_mapping r <-> rg_off r mod pg + len <= rounded) /\
  (rounded < rg_off r mod pg + len ->
     v + len - (di_map_base (rg_info r) + di_map_len (rg_info r)) = rg_off r mod pg + len - rounded /\ rg_off r mod pg + len - rounded < pg).
Proof.
  intros cb ops d ev [Hr H] Hs r v I V. cbv zeta.
  assert (P : placed r) by (eapply Forall_forall; [eapply placed_run; [exact inv_create| | |exact Hs|exact H]|exact I]; [unfold dma_create, MAX_DMA_SIZE; cbn; lia|constructor]).
  destruct (P v V) as (P0 & P1 & P2). set (pg := di_page_size (rg_info r)) in *. set (len := di_len (rg_info r)) in *.
  pose proof (ceil_bounds len pg ltac:(lia)) as C. assert (M : rg_off r mod pg < pg) by (apply N.mod_lt; lia).
  split; [exact P1|]. rewrite P2. split.
  - unfold inside_mapping. fold len. rewrite P2. split.
    + intros X. specialize (X v V). lia.
    + intros X v' V'. rewrite V in V'. injection V' as <-. lia.
  - lia.
Qed.
Print Assumptions C11_exact.
(* A region of 4 KiB at file offset 2048: its second half is past the mapping. *)
Example C11_exact_case : exists d ev r v, reached true [OpMap (ex_os 139637976727552) 4096 4096 5 2048 3] d ev /\ In r (dm_regions d) /\ di_vaddr (rg_info r) = Some v /\
  v = 139637976727552 + 2048 /\ rg_off r mod di_page_size (rg_info r) + di_len (rg_info r) = 6144 /\ di_map_len (rg_info r) = 4096.
Proof.
  do 4 eexists. split; [split; [constructor; [vm_compute; reflexivity|constructor]|vm_compute; reflexivity]|].
  split; [left; reflexivity|]. vm_compute. auto.
Qed.
