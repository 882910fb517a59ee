(* Property C68: a page is reported dirty only if the device marked it since it was last reported. *)
From Coq Require Import NArith ZArith List Bool Lia ZifyBool ZifyNat ZifyN.
From Verif Require Import Base Types Bytes BytesProofs BufProofs Spec Dma Dirty DmaOps SpecDma DmaProofs DmaDisjoint DmaSgl DmaRemap DirtyProofs DirtyHist PropDma PropDirty Migr Irq SpecIrq Pci Handlers
  SpecHandlers HandlersProofs HandlersDma Server SpecServer ServerProofs PropServer SpecMsg ServerDma PropDmaMsg PropPipe SpecReport PropReport SpecSpur SpurProofs.
Import ListNotations.
Open Scope N_scope.
Ltac Zify.zify_post_hook ::= idtac.

(* Whatever happens between two moments - requests of any kind, maps and unmaps, starts and stops of logging, reports,
   resets, lost connections - a page that the log names at the end was named at the beginning already, or the device
   marked it in between. *)
Theorem C68_only_marks : forall s l s' arr ev pg i p,
  reachable s -> history s l s' arr ev -> names pg i p s' -> names pg i p s \/ marked_among pg i p s l.
Proof. intros s l s' arr ev pg i p R H M. eapply history_named; eauto. Qed.
Print Assumptions C68_only_marks.

Lemma logged_names s d j r p : cx_dma (sv_ctx s) = Some d -> nth_error (dm_regions d) j = Some r -> logged d j p -> names (dm_pgsize d) (rg_info r) p s.
Proof.
  intros D N (r1 & bm & R1 & R2 & R3). rewrite N in R1. injection R1 as <-. exists d. split; [exact D|]. split; [reflexivity|].
  exists r, bm. split; [eapply nth_error_In; eauto|auto].
Qed.

(* The report a client gets for a region (in the page size of the log) sets the bits of pages only which the device has
   marked since the server was created. *)
Theorem C68_report : forall s0 hist s arr evh en id body fds d argsz i r k bsize,
  fresh s0 -> history s0 hist s arr evh -> Forall maps_ok hist -> request s en id 16 body fds -> cx_mig (sv_ctx s) <> None ->
  cx_dma (sv_ctx s) = Some d -> nth_error (dm_regions d) i = Some r -> rg_fd r <> (-1)%Z -> dm_pgsize d = 2 ^ k -> k <= 63 ->
  report_fields body argsz (di_iova (rg_info r)) (di_len (rg_info r)) (2 ^ k) ->
  bitmap_bytes (di_len (rg_info r)) (2 ^ k) bsize -> 32 + bsize <= argsz ->
  exists s' bm, responds s en id 16 0 (le_bytes 4 (32 + bsize) ++ le_bytes 4 (2 ^ 16 + 8) ++ le_bytes 8 (di_iova (rg_info r)) ++
      le_bytes 8 (di_len (rg_info r)) ++ le_bytes 8 (2 ^ k) ++ bm) s' [] /\
    (forall p, page_set bm p -> marked_among (2 ^ k) (rg_info r) p s0 hist) /\
    (forall p, ~ names (2 ^ k) (rg_info r) p s').
Proof.
  intros s0 hist s arr evh en id body fds d argsz i r k bsize F H M RQ MG D Hn NF PG K63 [A0 A1 A2 A3 A4] BB Z.
  destruct (C13_report_request _ _ _ _ _ _ _ _ _ _ _ _ _ _ _ F H M RQ MG D Hn NF PG K63 A0 A1 A2 A3 A4 BB Z) as (s' & d' & bm & RS & (hint & E) & _ & PS & EI & LG).
  exists s', bm. split; [exact RS|]. split.
  - intros p P. apply PS in P. apply (logged_names s) with (r := r) in P; auto. rewrite PG in P.
    destruct (C68_only_marks s0 hist s arr evh (2 ^ k) (rg_info r) p) as [X|X]; auto.
    + exists s0, [], [], []. split; [exact F|constructor].
    + destruct (fresh_named _ _ _ _ F X).
  - intros p (d1 & D1 & (_ & r1 & bm1 & R1 & R2 & R3 & R4)). rewrite E in D1. assert (d1 = d') by (destruct s as [c0 ? ? ? ?]; destruct c0; cbn in D1; congruence). subst d1.
    apply In_nth_error in R1. destruct R1 as (j & R1).
    assert (LJ : logged d' j p) by (exists r1, bm1; auto). apply LG in LJ. destruct LJ as (NJ & _). apply NJ.
    assert (RE : reachable s) by (exists s0, hist, arr, evh; auto). destruct (reachable_controller _ _ RE D) as (I & _).
    assert (X : nth_error (map rg_info (dm_regions d)) j = Some (rg_info r)) by (rewrite <- EI; erewrite map_nth_error by eauto; congruence).
    assert (Y : nth_error (map rg_info (dm_regions d)) i = Some (rg_info r)) by (erewrite map_nth_error by eauto; reflexivity).
    pose proof (inv_key _ I) as ND. assert (EK : map key (dm_regions d) = map (fun x => (di_iova x, di_len x)) (map rg_info (dm_regions d))) by (rewrite map_map; reflexivity).
    rewrite EK in ND. apply (proj1 (NoDup_nth_error _) ND).
    + rewrite map_length. apply nth_error_Some. congruence.
    + erewrite !map_nth_error by eauto. reflexivity.
Qed.
Print Assumptions C68_report.

(* Of two reports for the same region, the second sets the bits of pages only which the device has marked after the
   first was answered - also when in between the region has been unmapped and mapped again, logging stopped and started
   again, or the connection lost. *)
Theorem C68_second_report : forall s0 hist s arr evh en id body fds d argsz i r k bsize mid out s1 evq s2 arr2 evh2 en2 id2 body2 fds2 d2 argsz2 i2 r2,
  fresh s0 -> history s0 hist s arr evh -> Forall maps_ok hist -> request s en id 16 body fds -> cx_mig (sv_ctx s) <> None ->
  cx_dma (sv_ctx s) = Some d -> nth_error (dm_regions d) i = Some r -> rg_fd r <> (-1)%Z -> dm_pgsize d = 2 ^ k -> k <= 63 ->
  report_fields body argsz (di_iova (rg_info r)) (di_len (rg_info r)) (2 ^ k) ->
  bitmap_bytes (di_len (rg_info r)) (2 ^ k) bsize -> 32 + bsize <= argsz ->
  responds s en id 16 0 out s1 evq ->
  history s1 mid s2 arr2 evh2 -> Forall maps_ok mid -> request s2 en2 id2 16 body2 fds2 -> cx_mig (sv_ctx s2) <> None ->
  cx_dma (sv_ctx s2) = Some d2 -> nth_error (dm_regions d2) i2 = Some r2 -> rg_info r2 = rg_info r -> rg_fd r2 <> (-1)%Z -> dm_pgsize d2 = 2 ^ k ->
  report_fields body2 argsz2 (di_iova (rg_info r)) (di_len (rg_info r)) (2 ^ k) -> 32 + bsize <= argsz2 ->
  exists s3 bm, responds s2 en2 id2 16 0 (le_bytes 4 (32 + bsize) ++ le_bytes 4 (2 ^ 16 + 8) ++ le_bytes 8 (di_iova (rg_info r)) ++
      le_bytes 8 (di_len (rg_info r)) ++ le_bytes 8 (2 ^ k) ++ bm) s3 [] /\
    forall p, page_set bm p -> marked_among (2 ^ k) (rg_info r) p s1 mid.
Proof.
  intros s0 hist s arr evh en id body fds d argsz i r k bsize mid out s1 evq s2 arr2 evh2 en2 id2 body2 fds2 d2 argsz2 i2 r2
    F H M RQ MG D Hn NF PG K63 RF BB Z RS1 H2 M2 RQ2 MG2 D2 Hn2 EI NF2 PG2 RF2 Z2.
  destruct (C68_report _ _ _ _ _ _ _ _ _ _ _ _ _ _ _ F H M RQ MG D Hn NF PG K63 RF BB Z) as (s' & bm1 & RS & _ & NN).
  destruct RS as (q & cl & _ & _ & _ & ST). pose proof RS1 as (q1 & cl1 & _ & _ & _ & ST1).
  assert (Es : s' = s1) by congruence. subst s'. clear ST.
  assert (H1 : history s [SRun en] s1 (arrived s (SRun en) ++ []) ((q1 ++ evq ++ EvReply (mk_reply id 16 0 out []) :: cl1) ++ []))
    by (econstructor; [exact ST1|intros c; discriminate|constructor]).
  pose proof (history_app _ _ _ _ _ _ _ _ _ H H1) as H01. pose proof (history_app _ _ _ _ _ _ _ _ _ H01 H2) as H02.
  assert (RE1 : reachable s1) by (exists s0, (hist ++ [SRun en]); eauto).
  assert (MS : maps_ok (SRun en)).
  { destruct RQ as [_ (h & X & V) _ _ _]. unfold maps_ok. rewrite X. intros C. destruct V as (_ & _ & _ & V & _). rewrite V in C. discriminate C. }
  rewrite <- EI in RF2, BB.
  assert (MM : Forall maps_ok ((hist ++ [SRun en]) ++ mid)) by (apply Forall_app; split; [apply Forall_app; split; [exact M|constructor; [exact MS|constructor]]|exact M2]).
  destruct RF2 as [B0 B1 B2 B3 B4].
  destruct (C13_report_request _ _ _ _ _ _ _ _ _ _ _ _ _ _ _ F H02 MM RQ2 MG2 D2 Hn2 NF2 PG2 K63 B0 B1 B2 B3 B4 BB Z2) as (s3 & d3 & bm & RS3 & _ & _ & PS & _).
  exists s3, bm. rewrite <- EI. split; [exact RS3|]. intros p P. apply PS in P. apply (logged_names s2) with (r := r2) in P; auto. rewrite PG2 in P.
  destruct (C68_only_marks s1 mid s2 arr2 evh2 (2 ^ k) (rg_info r2) p RE1 H2 P) as [X|X]; [|exact X]. rewrite EI in X. destruct (NN p X).
Qed.
Print Assumptions C68_second_report.

(* The same for the bitmap that comes with the answer to an unmap. *)
Theorem C68_unmap : forall s0 hist s arr evh en id body fds d argsz i r k bsize,
  fresh s0 -> history s0 hist s arr evh -> Forall maps_ok hist -> request s en id 3 body fds ->
  cx_dma (sv_ctx s) = Some d -> nth_error (dm_regions d) i = Some r -> rg_fd r <> (-1)%Z -> dm_pgsize d = 2 ^ k -> k <= 63 ->
  unmap_fields body argsz 1 (di_iova (rg_info r)) (di_len (rg_info r)) -> rd body 24 8 = Some (2 ^ k) -> rd body 32 8 = Some bsize ->
  bitmap_bytes (di_len (rg_info r)) (2 ^ k) bsize -> 40 + bsize <= argsz <= 1024 * 1024 ->
  exists s' bm, responds s en id 3 0 (firstn 40 body ++ bm) s' (gives_up s r) /\ N.of_nat (length bm) = bsize /\
    forall p, page_set bm p -> marked_among (2 ^ k) (rg_info r) p s0 hist.
Proof.
  intros s0 hist s arr evh en id body fds d argsz i r k bsize F H M RQ D Hn NF PG K63 UF A5 A6 BB Z.
  destruct (nth_error_split _ _ Hn) as (l1 & l2 & EL & LL).
  destruct (C13_unmap_with_bitmap _ _ _ _ _ _ _ _ _ _ _ _ _ _ _ _ F H M RQ D EL NF PG K63 UF A5 A6 BB Z) as (s' & bm & RS & _ & LB & PS).
  exists s', bm. split; [exact RS|]. split; [exact LB|]. intros p P. apply PS in P. rewrite LL in P. apply (logged_names s) with (r := r) in P; auto. rewrite PG in P.
  destruct (C68_only_marks s0 hist s arr evh (2 ^ k) (rg_info r) p) as [X|X]; auto.
  - exists s0, [], [], []. split; [exact F|constructor].
  - destruct (fresh_named _ _ _ _ F X).
Qed.
Print Assumptions C68_unmap.

(* A region of 16 pages.  The device marks bytes of its pages 1 to 3, and the client asks; the device marks a byte of page 5
   and reads (an entry that is not for writing) from page 7, and the client asks twice. *)
Definition ex_spur_steps : list step :=
  [SRun (ex_ask 16 ex_report []); SMark [mk_sg 65536 0 1 20500 true; mk_sg 65536 0 8 28700 false]].
Definition ex_spur (n : nat) : server := fst (sv_run ex_after (firstn n ex_spur_steps)).
Example C68_case :
  (exists d r, cx_dma (sv_ctx ex_started) = Some d /\ dm_pgsize d = 2 ^ 12 /\ nth_error (dm_regions d) 0 = Some r /\ rg_fd r <> (-1)%Z /\
     report_fields ex_report 40 (di_iova (rg_info r)) (di_len (rg_info r)) (2 ^ 12) /\ bitmap_bytes (di_len (rg_info r)) (2 ^ 12) 8 /\
     (forall p, ~ names (2 ^ 12) (rg_info r) p ex_started) /\ names (2 ^ 12) (rg_info r) 1 ex_after /\
     marks (2 ^ 12) (rg_info r) 1 ex_started [mk_sg 65536 0 8192 8188 true] /\
     markable (dm_regions d) (mk_sg 65536 0 8192 8188 true)) /\
  (exists s' ev, sv_step ex_after (SRun (ex_ask 16 ex_report [])) = (Ok 1, s', ev) /\ In (EvReply (mk_reply 7 16 0 (ex_report ++ [14; 0; 0; 0; 0; 0; 0; 0]) [])) ev) /\
  (exists s' ev, sv_step (ex_spur 1) (SRun (ex_ask 16 ex_report [])) = (Ok 1, s', ev) /\ In (EvReply (mk_reply 7 16 0 (ex_report ++ [0; 0; 0; 0; 0; 0; 0; 0]) [])) ev) /\
  (exists s' ev, sv_step (ex_spur 2) (SRun (ex_ask 16 ex_report [])) = (Ok 1, s', ev) /\ In (EvReply (mk_reply 7 16 0 (ex_report ++ [32; 0; 0; 0; 0; 0; 0; 0]) [])) ev).
Proof.
  split.
  { eexists _, _. split; [vm_compute; reflexivity|]. split; [vm_compute; reflexivity|]. split; [vm_compute; reflexivity|]. split; [vm_compute; discriminate|].
    split; [constructor; vm_compute; reflexivity|]. split; [exists 16; vm_compute; repeat split; (reflexivity || discriminate)|]. split.
    - intros p (d & D & (_ & r & bm & R1 & R2 & R3 & R4)). vm_compute in D. injection D as <-. destruct R1 as [<-|[]]. injection R3 as <-.
      revert R4. exact (page_set_repeat0 8 p).
    - split; [eexists; split; [vm_compute; reflexivity|]; split; [reflexivity|]; eexists _, _; split; [now left|]; split; [reflexivity|]; split; [reflexivity|vm_compute; reflexivity]|].
      split.
      + eexists _, _, _. split; [vm_compute; reflexivity|]. split; [reflexivity|]. split; [now left|]. split; [reflexivity|]. split; [reflexivity|]. split; [reflexivity|].
        intros _ _ _. exists 8188. vm_compute. repeat split; (reflexivity || discriminate).
      + split; [discriminate|]. eexists. split; [reflexivity|]. vm_compute. repeat split; discriminate. }
  split; [eexists _, _; split; [vm_compute; reflexivity|vm_compute; tauto]|]. split; (eexists _, _; split; [vm_compute; reflexivity|vm_compute; tauto]).
Qed.
