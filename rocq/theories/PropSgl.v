(* Property C65: a scatter/gather list stays usable until the memory it refers to is unregistered. *)
From Coq Require Import NArith ZArith List Bool Lia ZifyBool ZifyNat ZifyN.
From Verif Require Import Base Types Bytes BytesProofs BufProofs Spec Dma Dirty DmaOps SpecDma DmaProofs DmaDisjoint DmaSgl DmaRemap PropDma Migr Irq SpecIrq Pci Handlers
  SpecHandlers HandlersProofs HandlersDma Server SpecServer ServerProofs PropServer SpecMsg ServerDma PropDmaMsg PropPipe SglProofs DmaSg.
Import ListNotations.
Open Scope N_scope.
Ltac Zify.zify_post_hook ::= idtac.

(* The device has translated [addr, addr+len) into the list l; things go on, and then it uses l.  If neither the
   regions the list refers to nor any region that stands before them in the table (that is, that was registered
   before them) has been unregistered in the meantime, then the controller's translation of the range is still l,
   whatever the hint, so that what C06 to C12 say about fresh translations holds of l, and vfu_sgl_get yields the
   same host memory as at first.  Regions may be mapped meanwhile, other regions unmapped, logging started and
   stopped, marks made, reports given, the device reset.
   Missing from the property: the regions registered before those of the list may have been unregistered, see
   C65_other_region_unregistered_refuted. *)
Theorem C65_list_stays_valid_partial : forall s0 hist s arr0 ev0 d hint addr len max prot l h mid s' arr ev k,
  fresh s0 -> history s0 hist s arr0 ev0 -> history s mid s' arr ev -> Forall maps_ok (hist ++ mid) ->
  cx_unregister (sv_ctx s0) = true -> cx_dma (sv_ctx s) = Some d ->
  range_ok addr len -> addr_to_sgl d hint addr len max prot = (SglOk l, h) ->
  (forall e, In e l -> (sg_region e < k)%nat) ->
  (forall j r, (j < k)%nat -> nth_error (dm_regions d) j = Some r -> ~ In (EvUnregister (rg_info r)) ev) ->
  exists d', cx_dma (sv_ctx s') = Some d' /\
    (forall hint', fst (addr_to_sgl d' hint' addr len max prot) = SglOk l) /\
    sgl_get d' l = sgl_get d l.
Proof.
  intros s0 hist s arr0 ev0 d hint addr len max prot l h mid s' arr ev k F H0 H1 M CU D RO T K SP.
  pose proof (history_kept _ _ _ _ _ H0 (fresh_sinv _ F)) as (K0 & SI). pose proof (history_kept _ _ _ _ _ H1 SI) as (K1 & _).
  destruct (server_controller _ _ _ _ _ _ F H0 D) as (ops & evd & R & O & _).
  apply Forall_app in M as M12. destruct M12 as (M1 & _). assert (RD : reached true ops d evd) by (split; auto).
  destruct (reached_inv _ _ _ _ RD) as (_ & I2 & _).
  assert (CU1 : cx_unregister (sv_ctx s) = true) by (destruct (k_setup _ _ K0) as (_ & _ & _ & _ & E & _); congruence).
  assert (D' : exists d', cx_dma (sv_ctx s') = Some d').
  { destruct (k_setup _ _ K1) as (_ & _ & _ & _ & _ & _ & _ & (_ & N) & _). destruct (cx_dma (sv_ctx s')) as [d'|] eqn:E; [eauto|]. rewrite (N eq_refl) in D. discriminate D. }
  destruct D' as (d' & D'). destruct (server_controller _ _ _ _ _ _ F (history_app _ _ _ _ _ _ _ _ _ H0 H1) D') as (ops' & evd' & R' & O' & _).
  assert (RD' : reached true ops' d' evd') by (split; auto). destruct (reached_inv _ _ _ _ RD') as (_ & I2' & _).
  set (k1 := Nat.min k (length (dm_regions d))).
  assert (INS : Forall (sg_inside (dm_regions d)) l) by (eapply sgl_ok_tiles; eauto).
  assert (L1 : Forall (fun e => (sg_region e < k1)%nat /\ (sg_region e < length (dm_regions d))%nat) l).
  { rewrite Forall_forall in INS |- *. intros e J. destruct (INS e J) as (r & N & _). assert ((sg_region e < length (dm_regions d))%nat) by (apply nth_error_Some; congruence).
    specialize (K e J). unfold k1. lia. }
  assert (E : first_infos k1 d' = first_infos k1 d).
  { destruct (list_eq_dec_nil (first_infos k1 d)) as [Z|Z].
    - unfold first_infos in Z |- *. rewrite Z. apply (f_equal (@length _)) in Z. rewrite firstn_length, map_length in Z. cbn [length] in Z.
      replace k1 with 0%nat by (unfold k1 in *; lia). reflexivity.
    - assert (LN : length (first_infos k1 d) = k1) by (unfold first_infos; rewrite firstn_length, map_length; unfold k1; lia).
      destruct (history_starts k1 (first_infos k1 d) LN Z s mid s' arr ev H1 SI CU1) as (d2 & D2 & S2).
      + intros i J. unfold first_infos in J. apply In_nth_error in J. destruct J as (j & J).
        assert (Lj : (j < k1)%nat). { rewrite <- LN. unfold first_infos. apply nth_error_Some. congruence. }
        assert (J2 : nth_error (map rg_info (dm_regions d)) j = Some i).
        { rewrite <- (firstn_skipn k1 (map rg_info (dm_regions d))). rewrite nth_error_app1; [exact J|]. apply nth_error_Some. congruence. }
        rewrite nth_error_map in J2. destruct (nth_error (dm_regions d) j) as [r|] eqn:N; [|discriminate J2]. injection J2 as <-.
        apply (SP j); [unfold k1 in Lj; lia|exact N].
      + exists d. split; [exact D|reflexivity].
      + rewrite D' in D2. injection D2 as <-. exact S2. }
  exists d'. split; [exact D'|]. split.
  - eapply sgl_same; [exact I2|exact I2'|exact RO|exact E|exact T|]. eapply Forall_impl; [|exact L1]. intros e (A & _). exact A.
  - eapply get_same; [exact E|exact L1].
Qed.
Print Assumptions C65_list_stays_valid_partial.

(* In particular as long as nothing is unregistered at all. *)
Theorem C65_nothing_unregistered : forall s0 hist s arr0 ev0 d hint addr len max prot l h mid s' arr ev,
  fresh s0 -> history s0 hist s arr0 ev0 -> history s mid s' arr ev -> Forall maps_ok (hist ++ mid) ->
  cx_unregister (sv_ctx s0) = true -> cx_dma (sv_ctx s) = Some d ->
  range_ok addr len -> addr_to_sgl d hint addr len max prot = (SglOk l, h) ->
  (forall i, ~ In (EvUnregister i) ev) ->
  exists d', cx_dma (sv_ctx s') = Some d' /\
    (forall hint', fst (addr_to_sgl d' hint' addr len max prot) = SglOk l) /\
    sgl_get d' l = sgl_get d l.
Proof.
  intros s0 hist s arr0 ev0 d hint addr len max prot l h mid s' arr ev F H0 H1 M CU D RO T SP.
  eapply (C65_list_stays_valid_partial s0 hist s arr0 ev0 d hint addr len max prot l h mid s' arr ev (S (list_max (map sg_region l)))); eauto.
  intros e J. assert (L : (list_max (map sg_region l) <= list_max (map sg_region l))%nat) by lia. apply list_max_le in L. rewrite Forall_forall in L.
  specialize (L (sg_region e) (in_map sg_region _ _ J)). lia.
Qed.
Print Assumptions C65_nothing_unregistered.

(* A device with a quiesce callback may use a list until it is next quiesced: as long as no quiesce callback has
   reported success and the device has not called vfu_device_quiesced to say that it is quiesced. *)
Lemma unregister_quiesced s st o s' ev i : step_case s st o s' ev -> cx_quiesce (sv_ctx s) = true -> cx_dma (sv_ctx s) <> None ->
  In (EvUnregister i) ev -> In (EvQuiesce None) ev \/ exists en, st = SQuiesced 0 en.
Proof.
  intros C Q Dm J.
  assert (CL : forall fds, ~ In (EvUnregister i) (closes_of fds)).
  { intros fds X. unfold closes_of in X. apply in_map_iff in X. destruct X as (z & X & _). discriminate X. }
  assert (RP : forall s1 en h r o1 s1' ev1, reply_case s1 en h r o1 s1' ev1 -> cx_quiesce (sv_ctx s1) = true -> sv_pending s1 = PNone -> In (EvUnregister i) ev1 -> In (EvQuiesce None) ev1).
  { intros s1 en h r o1 s1' ev1 [W|W S|e W S E|e e' W S E Qq P Qr|e s2 W S E Qq P] Qc Pn X; try (cbn in X; intuition discriminate).
    rewrite Pn. unfold quiesce_call. rewrite Qc. apply in_or_app. left. now left. }
  destruct C; try (cbn in J; intuition discriminate).
  - left. unfold quiesce_call. rewrite Q. now left.
  - left. rewrite !in_app_iff in J. rewrite !in_app_iff. destruct J as [J|[J|J]]; [|right; left|now apply CL in J].
    + match goal with X : refused_with _ _ _ _ _ _ |- _ => destruct X; cbn in J; intuition discriminate end.
    + eapply RP; eauto. match goal with X : serving s |- _ => apply X end.
  - left. fold q. destruct q eqn:Eq; [now left|]. cbn [app] in J |- *.
    match goal with X : handled _ _ _ _ _ _ |- _ => destruct X as [err b f c1 fds' ev1 o1 s1 ev2 Di Ke Fo Re] end. rewrite !in_app_iff in J |- *.
    destruct J as [J|[J|J]]; [|right; left|now apply CL in J].
    + exfalso. rewrite Forall_forall in Fo. specialize (Fo _ J). cbn in Fo. unfold q, needs_quiesce in Eq. rewrite Q in Eq. cbn [mg_hdr] in Fo. rewrite Fo in Eq.
      cbn in Eq. destruct (cx_dma (sv_ctx s)); [discriminate Eq|now apply Dm].
    + eapply RP; [exact Re| | |exact J].
      * destruct (k_setup _ _ Ke) as (_ & E & _). cbn [sv_ctx set_ctx set_quiesced] in *. congruence.
      * match goal with X : serving s |- _ => exact (proj1 (proj2 X)) end.
  - right. eauto.
  - right. eauto.
  - exfalso. destruct (sv_pending s); cbn in J; [contradiction|now apply CL in J|contradiction].
  - exfalso. match goal with X : forall e, In e ev -> _ |- _ => destruct (X _ J) as (fd & X1); discriminate X1 end.
Qed.

Theorem C65_until_quiesced : forall s0 hist s arr0 ev0 d hint addr len max prot l h mid s' arr ev,
  fresh s0 -> history s0 hist s arr0 ev0 -> history s mid s' arr ev -> Forall maps_ok (hist ++ mid) ->
  cx_unregister (sv_ctx s0) = true -> cx_quiesce (sv_ctx s0) = true -> cx_dma (sv_ctx s) = Some d ->
  range_ok addr len -> addr_to_sgl d hint addr len max prot = (SglOk l, h) ->
  ~ In (EvQuiesce None) ev -> (forall en, ~ In (SQuiesced 0 en) mid) ->
  exists d', cx_dma (sv_ctx s') = Some d' /\
    (forall hint', fst (addr_to_sgl d' hint' addr len max prot) = SglOk l) /\
    sgl_get d' l = sgl_get d l.
Proof.
  intros s0 hist s arr0 ev0 d hint addr len max prot l h mid s' arr ev F H0 H1 M CU CQ D RO T NQ NT.
  eapply (C65_nothing_unregistered s0 hist s arr0 ev0 d hint addr len max prot l h mid s' arr ev); eauto.
  pose proof (history_kept _ _ _ _ _ H0 (fresh_sinv _ F)) as (K0 & SI).
  assert (Q : cx_quiesce (sv_ctx s) = true) by (destruct (k_setup _ _ K0) as (_ & E & _); congruence).
  assert (Dm : cx_dma (sv_ctx s) <> None) by congruence.
  clear - H1 SI Q Dm NQ NT. induction H1 as [s|s st o s1 ev1 l s2 arr ev2 H NC T IH]; [intros i []|]. intros i J.
  rewrite in_app_iff in J, NQ. apply step_cases in H; [|exact SI|exact NC]. destruct (step_kept _ _ _ _ _ SI H) as (K & SI'). destruct J as [J|J].
  - destruct (unregister_quiesced _ _ _ _ _ _ H Q Dm J) as [X|(en & ->)]; [now apply NQ; left|]. apply (NT en). now left.
  - assert (Q1 : cx_quiesce (sv_ctx s1) = true) by (destruct (k_setup _ _ K) as (_ & E & _); congruence).
    assert (D1 : cx_dma (sv_ctx s1) <> None) by (destruct (k_setup _ _ K) as (_ & _ & _ & _ & _ & _ & _ & (_ & N) & _); intros X; now apply Dm, N).
    assert (N1 : forall en, ~ In (SQuiesced 0 en) l) by (intros en X; apply (NT en); now right).
    assert (N2 : ~ In (EvQuiesce None) ev2) by tauto. revert i J. now apply IH.
Qed.
Print Assumptions C65_until_quiesced.

(* What the entries of a list mean after the region at position j of the table has been unregistered: those before
   j mean what they meant; those behind it mean the region after the one they were made for, or nothing. *)
Theorem C65_after_unregister : forall cb d addr size rs d' e,
  remove_region cb d addr size = (Ok rs, d') ->
  exists j r, nth_error (dm_regions d) j = Some r /\ rg_base r = addr /\ rg_len r = size /\
    ((sg_region e < j)%nat -> sgl_get d' [e] = sgl_get d [e]) /\
    ((j <= sg_region e)%nat -> sgl_get d' [e] =
       match nth_error (dm_regions d) (S (sg_region e)) with
       | None => Err EINVAL
       | Some r2 => match di_vaddr (rg_info r2) with None => Err EFAULT | Some v => Ok [((v + sg_off e) mod 2 ^ 64, sg_len e)] end
       end).
Proof.
  intros cb d addr size rs d' e H. unfold remove_region in H. destruct (remove_scan cb (dm_regions d) addr size) as [o l] eqn:Q. injection H as -> <-.
  assert (X : exists j r, nth_error (dm_regions d) j = Some r /\ rg_base r = addr /\ rg_len r = size /\
    (forall i, (i < j)%nat -> nth_error l i = nth_error (dm_regions d) i) /\ (forall i, (j <= i)%nat -> nth_error l i = nth_error (dm_regions d) (S i))).
  { revert rs l Q. induction (dm_regions d) as [|r l0 IH]; intros rs l Q; cbn [remove_scan] in Q; [discriminate Q|]. destruct (same_range r addr size) eqn:SR.
    - destruct (release_region cb r) as [ev| |] eqn:L; try discriminate Q. injection Q as _ <-. exists 0%nat, r. split; [reflexivity|]. unfold same_range in SR.
      split; [lia|]. split; [lia|]. split; [intros i Hi; lia|]. intros i _. reflexivity.
    - destruct (remove_scan cb l0 addr size) as [o1 l1] eqn:Q1. injection Q as -> <-. destruct (IH _ _ eq_refl) as (j & r0 & A1 & A2 & A3 & A4 & A5).
      exists (S j), r0. split; [exact A1|]. split; [exact A2|]. split; [exact A3|]. split.
      + intros [|i] Hi; [reflexivity|]. cbn [nth_error]. apply A4. lia.
      + intros [|i] Hi; [lia|]. cbn [nth_error]. apply A5. lia. }
  destruct X as (j & r & A1 & A2 & A3 & A4 & A5). exists j, r. split; [exact A1|]. split; [exact A2|]. split; [exact A3|]. split; intros L; cbn [sgl_get].
  - change (dm_regions (set_regions d l)) with l. now rewrite (A4 _ L).
  - change (dm_regions (set_regions d l)) with l. rewrite (A5 _ L). destruct (nth_error (dm_regions d) (S (sg_region e))) as [r2|]; [|reflexivity].
    destruct (di_vaddr (rg_info r2)); reflexivity.
Qed.
Print Assumptions C65_after_unregister.

(* ---------- a device with three regions *)

Definition ex_or_at (base : N) : oracle :=
  mk_oracle (mk_os (Some 4096) (fun _ _ => false) (inl base) true) (fun _ => true) [] (fun _ => None) (fun _ => None) (fun _ _ n => AccOk n (zeros (N.to_nat n))) (DataOk 0 []) (fun _ => None).
Definition ex_map_fd (id addr : N) (fd : Z) (base : N) : step :=
  SRun (mk_senv (RxMsg (mk_header id 2 48 0 0) [fd] (inr (ex_map_at addr 65536 3))) (ex_or_at base) None None None None).
(* 64 KiB each at 0x10000, 0x20000, 0x30000, mapped in the process at 0x1000000, 0x2000000, 0x3000000 *)
Definition ex_three : list step :=
  [SAttach 1048576; ex_map_fd 1 65536 5 16777216; ex_map_fd 2 131072 6 33554432; ex_map_fd 3 196608 7 50331648].
Definition ex_held : server := fst (sv_run (ex_server true) ex_three).
(* 4 KiB at 0x21000 *)
Definition ex_list : list sg := [mk_sg 131072 1 4096 4096 true].

Lemma ex_three_ok : Forall maps_ok ex_three.
Proof.
  repeat constructor; intros _ a b A B; vm_compute in A, B; injection A as <-; injection B as <-; vm_compute; reflexivity.
Qed.
Lemma ex_three_history : exists arr ev, history (ex_server true) ex_three ex_held arr ev.
Proof.
  destruct (history_run (ex_server true) ex_three ex_held (snd (sv_run (ex_server true) ex_three))) as (arr & H); [vm_compute; reflexivity|vm_compute; repeat constructor|eauto].
Qed.

(* The region at 0x10000 is unmapped; neither the region at 0x20000, which the list refers to, is, nor is the device
   told anything about it.  Yet the list now stands for the memory of the region at 0x30000, where a device that
   writes to the guest's 0x21000 ends up writing to 0x31000; the right list is a different one. *)
Definition ex_drop : list step := [SRun (ex_ask 3 (PropDmaMsg.ex_unmap 0 65536 65536) [])].
Definition ex_shifted : server := fst (sv_run ex_held ex_drop).

Theorem C65_other_region_unregistered_refuted : exists s0 hist s arr0 ev0 d r h mid s' arr ev d' l,
  fresh s0 /\ history s0 hist s arr0 ev0 /\ history s mid s' arr ev /\ Forall maps_ok (hist ++ mid) /\
  cx_unregister (sv_ctx s0) = true /\ cx_dma (sv_ctx s) = Some d /\ cx_dma (sv_ctx s') = Some d' /\
  addr_to_sgl d 0 135168 4096 4 3 = (SglOk l, h) /\ In r (dm_regions d) /\ (forall a, 135168 <= a < 135168 + 4096 -> covers r a) /\
  ~ In (EvUnregister (rg_info r)) ev /\ In r (dm_regions d') /\
  sgl_get d l = Ok [(33554432 + 4096, 4096)] /\ sgl_get d' l = Ok [(50331648 + 4096, 4096)] /\
  exists l' h', addr_to_sgl d' 0 135168 4096 4 3 = (SglOk l', h') /\ sgl_get d' l' = Ok [(33554432 + 4096, 4096)].
Proof.
  destruct ex_three_history as (arr0 & ev0 & H0).
  destruct (history_run ex_held ex_drop ex_shifted (snd (sv_run ex_held ex_drop))) as (arr & H1); [vm_compute; reflexivity|vm_compute; repeat constructor|].
  eexists (ex_server true), ex_three, ex_held, arr0, ev0, _, _, 1%nat, ex_drop, ex_shifted, arr, _, _, ex_list.
  split; [apply ex_fresh|]. split; [exact H0|]. split; [exact H1|]. split.
  { apply Forall_app. split; [exact ex_three_ok|]. constructor; [|constructor]. intros X. discriminate X. }
  split; [reflexivity|]. split; [vm_compute; reflexivity|]. split; [vm_compute; reflexivity|]. split; [vm_compute; reflexivity|].
  split; [right; left; reflexivity|]. split; [intros a A; unfold covers; cbn; lia|]. split; [vm_compute; intuition discriminate|]. split; [left; reflexivity|].
  split; [vm_compute; reflexivity|]. split; [vm_compute; reflexivity|]. eexists _, _. split; vm_compute; reflexivity.
Qed.
Print Assumptions C65_other_region_unregistered_refuted.

(* Non-vacuity: the region at 0x30000 is unmapped, another one mapped, the device reset: the list stays right. *)
Definition ex_go_on : list step :=
  [SRun (ex_ask 3 (PropDmaMsg.ex_unmap 0 196608 65536) []); ex_map_fd 4 262144 8 67108864; SRun (ex_ask 13 [] [])].
Example C65_case : exists d d' ev arr, let s' := fst (sv_run ex_held ex_go_on) in
  cx_dma (sv_ctx ex_held) = Some d /\ history ex_held ex_go_on s' arr ev /\ Forall maps_ok ex_go_on /\ cx_dma (sv_ctx s') = Some d' /\
  addr_to_sgl d 0 135168 4096 4 3 = (SglOk ex_list, 1%nat) /\ (forall e, In e ex_list -> (sg_region e < 2)%nat) /\
  (forall j r, (j < 2)%nat -> nth_error (dm_regions d) j = Some r -> ~ In (EvUnregister (rg_info r)) ev) /\
  length (filter (fun e => match e with EvUnregister _ | EvRegister _ | EvReset _ => true | _ => false end) ev) = 3%nat /\
  sgl_get d' ex_list = Ok [(33554432 + 4096, 4096)].
Proof.
  set (s' := fst (sv_run ex_held ex_go_on)).
  destruct (history_run ex_held ex_go_on s' (snd (sv_run ex_held ex_go_on))) as (arr & H1); [vm_compute; reflexivity|vm_compute; repeat constructor|].
  eexists _, _, _, arr. split; [vm_compute; reflexivity|]. split; [exact H1|]. split.
  { repeat constructor; try (intros X; discriminate X). intros _ a b A B; vm_compute in A, B; injection A as <-; injection B as <-; vm_compute; reflexivity. }
  split; [vm_compute; reflexivity|]. split; [vm_compute; reflexivity|]. split; [intros e [<-|[]]; cbn; lia|]. split.
  { intros [|[|j]] r L N; [| |lia]; cbn in N; injection N as <-; vm_compute; intuition discriminate. }
  split; vm_compute; reflexivity.
Qed.

(* Requests that need no quiescing do not disturb a list. *)
Example C65_quiesced_case : exists ev arr, let mid := [SRun (ex_ask 4 (le_bytes 4 16 ++ zeros 12) []); SMark ex_list; SLookup 0] in
  history ex_held mid (fst (sv_run ex_held mid)) arr ev /\ ~ In (EvQuiesce None) ev /\ (forall en, ~ In (SQuiesced 0 en) mid) /\ length ev = 1%nat.
Proof.
  set (mid := [SRun (ex_ask 4 (le_bytes 4 16 ++ zeros 12) []); SMark ex_list; SLookup 0]).
  destruct (history_run ex_held mid (fst (sv_run ex_held mid)) (snd (sv_run ex_held mid))) as (arr & H1); [vm_compute; reflexivity|vm_compute; repeat constructor|].
  eexists _, arr. split; [exact H1|]. split; [vm_compute; intuition discriminate|]. split; [|vm_compute; reflexivity].
  intros en [X|[X|[X|[]]]]; discriminate X.
Qed.

(* ---- C10: which lists vfu_sgl_get can map *)

(* At any moment of a history: vfu_sg_is_mappable says of each entry of a fresh list whether its region was registered
   with a file descriptor; vfu_sgl_get succeeds exactly when it says so of all of them, with as many segments, and
   otherwise fails with EFAULT. *)
Theorem C10_mappable : forall s0 hist s arr ev d hint addr len max prot l h,
  fresh s0 -> history s0 hist s arr ev -> Forall maps_ok hist -> cx_dma (sv_ctx s) = Some d ->
  range_ok addr len -> addr_to_sgl d hint addr len max prot = (SglOk l, h) ->
  (forall e, In e l -> exists r, nth_error (dm_regions d) (sg_region e) = Some r /\ sg_is_mappable d e = Ok (negb (rg_fd r =? -1)%Z)) /\
  ((forall e, In e l -> sg_is_mappable d e = Ok true) -> exists iov, sgl_get d l = Ok iov /\ length iov = length l) /\
  (forall e, In e l -> sg_is_mappable d e = Ok false -> sgl_get d l = Err EFAULT).
Proof.
  intros s0 hist s arr ev d hint addr len max prot l h F H M D RO T.
  destruct (server_controller _ _ _ _ _ _ F H D) as (ops & evd & R & O & _). assert (RD : reached true ops d evd) by (split; auto).
  destruct (reached_inv _ _ _ _ RD) as (I1 & I2 & _). assert (INS : Forall (sg_inside (dm_regions d)) l) by (eapply sgl_ok_tiles; eauto).
  assert (E : forall e, In e l -> exists r, nth_error (dm_regions d) (sg_region e) = Some r /\ sg_is_mappable d e = Ok (negb (rg_fd r =? -1)%Z)).
  { intros e J. rewrite Forall_forall in INS. destruct (INS e J) as (r & N & _). exists r. split; [exact N|]. unfold sg_is_mappable. rewrite N.
    pose proof (inv_fd _ I1) as FD. rewrite Forall_forall in FD. specialize (FD r (nth_error_In _ _ N)). unfold fd_ok in FD.
    destruct (di_vaddr (rg_info r)); destruct (Z.eqb_spec (rg_fd r) (-1)) as [Q|Q]; try reflexivity; exfalso.
    - apply FD in Q. discriminate Q.
    - apply Q. now apply FD. }
  split; [exact E|]. clear - E. split.
  - intros A. induction l as [|e l IH]; [exists []; split; reflexivity|]. cbn [sgl_get].
    destruct IH as (iov & G & L); [intros; apply E; now right|intros; apply A; now right|].
    specialize (A e (or_introl eq_refl)). unfold sg_is_mappable in A. destruct (nth_error (dm_regions d) (sg_region e)) as [r|]; [|discriminate A].
    destruct (di_vaddr (rg_info r)); [|discriminate A]. rewrite G. eexists. split; [reflexivity|]. cbn [length]. now rewrite L.
  - intros e J B. induction l as [|e' l IH]; [destruct J|]. cbn [sgl_get]. destruct (E e' (or_introl eq_refl)) as (r & N & Q). rewrite N.
    unfold sg_is_mappable in Q. rewrite N in Q. destruct (di_vaddr (rg_info r)) eqn:V; [|reflexivity].
    destruct J as [->|J]; [unfold sg_is_mappable in B; rewrite N, V in B; discriminate B|]. rewrite IH; auto. intros; apply E; now right.
Qed.
Print Assumptions C10_mappable.

(* ex_held, and a map request without a descriptor for the range right behind its last region. *)
Definition ex_unmapped : server := fst (sv_run ex_held [SRun (ex_ask 2 (ex_map_at 262144 65536 3) [])]).
Example C10_mappable_case : exists d l h, cx_dma (sv_ctx ex_unmapped) = Some d /\ length (dm_regions d) = 4%nat /\
  addr_to_sgl d 0 258048 8192 4 3 = (SglOk l, h) /\ map (sg_is_mappable d) l = [Ok true; Ok false] /\ sgl_get d l = Err EFAULT /\
  sgl_get d (firstn 1 l) = Ok [(50331648 + 61440, 4096)].
Proof. eexists _, _, _. split; [vm_compute; reflexivity|]. split; [reflexivity|]. split; [vm_compute; reflexivity|]. repeat split; vm_compute; reflexivity. Qed.
