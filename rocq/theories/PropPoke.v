(* Property C70: what the device itself stores in configuration space is what clients read there. *)
From Coq Require Import NArith ZArith String List Bool Lia ZifyBool ZifyNat ZifyN.
From Verif Require Import Base Types Bytes BytesProofs Spec Migr Pci SpecPci BufProofs PciProofs PropPci Handlers SpecHandlers HandlersProofs PropHandlers
  Server SpecServer SpecMsg ServerProofs PropServer PropDmaMsg Setup SpecSetup PropSetup SpecIdent IdentProofs PropIdent SpecReg CfgHist PropReg.
Import ListNotations.
Open Scope N_scope.
Ltac Zify.zify_post_hook ::= idtac.

(* The device may store anywhere in configuration space, and nowhere else. *)
Theorem C70_extent : forall s off data,
  (fst (fst (sv_step s (SPoke off data))) = Ok 0 <-> off + N.of_nat (length data) <= N.of_nat (length (pc_cfg (cx_pci (sv_ctx s))))) /\
  (fst (fst (sv_step s (SPoke off data))) = Crash OutOfBounds <-> N.of_nat (length (pc_cfg (cx_pci (sv_ctx s)))) < off + N.of_nat (length data)).
Proof.
  intros s off data. cbn [sv_step]. unfold dev_poke. destruct (put_slice (pc_cfg (cx_pci (sv_ctx s))) (N.to_nat off) data) as [cfg|] eqn:PS; cbn [fst].
  - apply put_slice_bound in PS. split; (split; [try discriminate; lia|intros; try reflexivity; lia]).
  - split; (split; [try discriminate|intros X; try reflexivity]).
    + exfalso. destruct (put_slice_some (pc_cfg (cx_pci (sv_ctx s))) (N.to_nat off) data) as (x & E); [lia|congruence].
    + intros _. destruct (N.ltb_spec (N.of_nat (length (pc_cfg (cx_pci (sv_ctx s))))) (off + N.of_nat (length data))) as [L|L]; [exact L|].
      destruct (put_slice_some (pc_cfg (cx_pci (sv_ctx s))) (N.to_nat off) data) as (x & E); [lia|congruence].
Qed.
Print Assumptions C70_extent.
Example C70_extent_case : length (pc_cfg (cx_pci (sv_ctx ex_id))) = 256%nat /\ fst (fst (sv_step ex_id (SPoke 252 [1; 2; 3; 4]))) = Ok 0 /\
  fst (fst (sv_step ex_id (SPoke 253 [1; 2; 3; 4]))) = Crash OutOfBounds.
Proof. vm_compute. auto. Qed.

(* The bytes stored are there, the others are as they were, and no one is told. *)
Theorem C70_stored : forall s off data s1 ev, sv_step s (SPoke off data) = (Ok 0, s1, ev) ->
  ev = [] /\ forall x, byte_at (cx_pci (sv_ctx s1)) x =
    if (off <=? x) && (x <? off + N.of_nat (length data)) then nth (N.to_nat (x - off)) data 0 else byte_at (cx_pci (sv_ctx s)) x.
Proof.
  intros s off data s1 ev H. cbn [sv_step] in H. unfold dev_poke in H.
  destruct (put_slice (pc_cfg (cx_pci (sv_ctx s))) (N.to_nat off) data) as [cfg|] eqn:PS; [|discriminate H]. injection H as <- <-. split; [reflexivity|].
  intros x. unfold byte_at. cbn [set_ctx sv_ctx set_pci cx_pci set_cfg pc_cfg]. rewrite (put_slice_nth _ _ _ _ _ PS).
  replace (Nat.leb (N.to_nat off) (N.to_nat x) && Nat.ltb (N.to_nat x) (N.to_nat off + length data)) with ((off <=? x) && (x <? off + N.of_nat (length data))).
  - rewrite N2Nat.inj_sub. reflexivity.
  - clear. f_equal; [destruct (N.leb_spec off x), (Nat.leb_spec (N.to_nat off) (N.to_nat x)); auto; lia|].
    destruct (N.ltb_spec x (off + N.of_nat (length data))), (Nat.ltb_spec (N.to_nat x) (N.to_nat off + length data)); auto; lia.
Qed.
Print Assumptions C70_stored.

(* The device stores data at off.  Then, whatever happens until a request to write any of the n bytes at o arrives or the
   device stores there again: a client that reads these n bytes, among those stored, gets what the device stored. *)
Theorem C70_read : forall l d s off data s1 ev1 hist s2 arr ev en id o n r,
  life l d s -> sends_bytes (SPoke off data) -> sv_step s (SPoke off data) = (Ok 0, s1, ev1) ->
  history s1 hist s2 arr ev -> Forall sends_bytes hist ->
  (forall x, o <= x < o + n -> ~ waiting_over s x /\ Forall (fun st => ~ writes_over st x) hist) ->
  request s2 en id 9 (read_req o 7 n) [] ->
  nth_error (cx_regs (dv_ctx d)) 7 = Some r -> N.testbit (ri_flags r) 3 = false -> (64 <= length (pc_cfg (cx_pci (dv_ctx d))))%nat ->
  0 < n -> n <= 1048576 -> o + n <= ri_size r -> kept_by_library (cx_pci (sv_ctx s)) o n ->
  off <= o -> o + n <= off + N.of_nat (length data) ->
  responds s2 en id 9 0 (read_req o 7 n ++ firstn (N.to_nat n) (skipn (N.to_nat (o - off)) data)) s2 [].
Proof.
  intros l d s off data s1 ev1 hist s2 arr ev en id o n r L SB ST H SH NO RQ R7 FL LEN P M HS KL LO HI.
  assert (L1 : life l d s1).
  { eapply (life_then _ _ _ [SPoke off data]); [exact L| |constructor; [exact SB|constructor]]. eapply h_cons; [exact ST|discriminate|constructor]. }
  destruct (C70_stored _ _ _ _ _ ST) as (_ & B).
  assert (E : sv_pending s1 = sv_pending s /\ pc_caps (cx_pci (sv_ctx s1)) = pc_caps (cx_pci (sv_ctx s)) /\ pc_ext_caps (cx_pci (sv_ctx s1)) = pc_ext_caps (cx_pci (sv_ctx s))).
  { cbn [sv_step] in ST. unfold dev_poke in ST. destruct (put_slice _ _ _); [|discriminate ST]. injection ST as <- _. auto. }
  destruct E as (EP & E1 & E2).
  pose proof (C67_read_back l d s1 hist s2 arr ev en id o n r L1 H SH) as Q.
  assert (NO1 : forall x, o <= x < o + n -> ~ waiting_over s1 x /\ Forall (fun st => ~ writes_over st x) hist).
  { intros x X. destruct (NO x X) as (A & C). split; [|exact C]. unfold waiting_over. rewrite EP. exact A. }
  specialize (Q NO1 RQ R7 FL LEN P M HS (kept_same _ _ _ _ E1 E2 KL)).
  replace (firstn (N.to_nat n) (skipn (N.to_nat (o - off)) data)) with (map (fun i => byte_at (cx_pci (sv_ctx s1)) (o + N.of_nat i)) (seq 0 (N.to_nat n))); [exact Q|].
  apply (nth_ext _ _ 0 0); rewrite map_length, seq_length; [rewrite firstn_length, skipn_length; lia|].
  intros i Hi. rewrite (nth_indep _ 0 (byte_at (cx_pci (sv_ctx s1)) (o + N.of_nat 0))) by (rewrite map_length, seq_length; exact Hi).
  rewrite (map_nth (fun i => byte_at (cx_pci (sv_ctx s1)) (o + N.of_nat i)) (seq 0 (N.to_nat n)) 0%nat i), seq_nth by exact Hi. cbn [Nat.add]. rewrite B.
  replace ((off <=? o + N.of_nat i) && (o + N.of_nat i <? off + N.of_nat (length data))) with true by (clear - LO HI Hi; lia).
  rewrite nth_firstn, nth_skipn by exact Hi. f_equal. clear - LO. lia.
Qed.
Print Assumptions C70_read.

(* The device sets its power state (the two bytes at 68) by storing four bytes at 66; it is reset, the client goes away,
   another comes, writes the command register and reads the power state. *)
Definition ex_stored : server := snd (fst (sv_step ex_id (SPoke 66 [1; 2; 3; 4]))).
Definition ex_after : server := fst (sv_run ex_stored ex_later).
Example C70_read_case : exists r,
  life ex_calls ex_real ex_id /\ sends_bytes (SPoke 66 [1; 2; 3; 4]) /\ sv_step ex_id (SPoke 66 [1; 2; 3; 4]) = (Ok 0, ex_stored, []) /\
  (exists arr ev, history ex_stored ex_later ex_after arr ev) /\ Forall sends_bytes ex_later /\
  (forall x, 68 <= x < 70 -> ~ waiting_over ex_id x /\ Forall (fun st => ~ writes_over st x) ex_later) /\
  request ex_after (ex_ask 9 (read_req 68 7 2) []) 7 9 (read_req 68 7 2) [] /\
  nth_error (cx_regs (dv_ctx ex_real)) 7 = Some r /\ N.testbit (ri_flags r) 3 = false /\ ri_size r = 256 /\ length (pc_cfg (cx_pci (dv_ctx ex_real))) = 256%nat /\
  kept_by_library (cx_pci (sv_ctx ex_id)) 68 2 /\
  snd (sv_step ex_after (SRun (ex_ask 9 (read_req 68 7 2) []))) = [EvReply (mk_reply 7 9 0 (read_req 68 7 2 ++ [3; 4]) [])] /\
  byte_at (cx_pci (sv_ctx ex_id)) 68 = 8.
Proof.
  eexists. split; [exact ex_life|]. split; [split; [repeat constructor|]; intros x X; left; cbn [length] in X; lia|]. split; [vm_compute; reflexivity|]. split.
  { destruct (history_run ex_stored ex_later ex_after (snd (sv_run ex_stored ex_later))) as (arr & H); [vm_compute; reflexivity|vm_compute; repeat constructor|].
    exists arr. eexists. exact H. }
  split; [repeat apply Forall_cons; try apply Forall_nil; vm_compute; auto; repeat constructor|].
  split; [intros x X; split; [vm_compute; auto|apply ex_apart; lia]|]. split.
  { constructor; try reflexivity; [vm_compute; auto| |vm_compute; split; discriminate].
    exists (mk_header 7 9 32 0 0). split; [reflexivity|]. split; [vm_compute; repeat split; discriminate|repeat split]. }
  split; [vm_compute; reflexivity|]. split; [reflexivity|]. split; [reflexivity|]. split; [vm_compute; reflexivity|].
  split; [right; exists (mk_cap false 1 64 2 8 0); vm_compute; repeat split; auto; discriminate|]. split; vm_compute; reflexivity.
Qed.

(* The same for what the device stores while it is set up, before it is realized, for the bytes of the header that neither
   clients nor vfu_realize_ctx change: the client gets them at any time in the life of the device, unless a later call
   stores there. *)
Theorem C70_set_up : forall l1 off data l2 d s en id o n r, life (l1 ++ CPoke off data :: l2) d s ->
  (forall x, o <= x < o + n -> ~ header_writable x /\ x <> 6 /\ x <> 52 /\ x <> 61 /\ forall k, In k l2 -> ~ sets k x) ->
  request s en id 9 (read_req o 7 n) [] ->
  nth_error (cx_regs (dv_ctx d)) 7 = Some r -> N.testbit (ri_flags r) 3 = false -> 64 <= ri_size r ->
  0 < n -> o + n <= 64 -> off <= o -> o + n <= off + N.of_nat (length data) ->
  responds s en id 9 0 (read_req o 7 n ++ firstn (N.to_nat n) (skipn (N.to_nat (o - off)) data)) s [].
Proof.
  intros l1 off data l2 d s en id o n r L NO RQ R7 FL SZ P H64 LO HI.
  assert (B : forall x, o <= x < o + n -> byte_at (cx_pci (sv_ctx s)) x = nth (N.to_nat (x - off)) data 0 /\ (256 <= length (pc_cfg (cx_pci (dv_ctx d))))%nat).
  { intros x X. destruct (NO x X) as (NW & X6 & X52 & X61 & NS). eapply set_byte; [exact L|lia|exact X52|exact X61|exact X6| |exact NW|exact NS| |].
    - intros Z. apply NW. unfold header_writable. lia.
    - intros da LA NC. cbn [dev_call] in *. unfold dev_poke in *. fold (dv_ctx da) in *. cbv zeta in *.
      destruct (put_slice (pc_cfg (cx_pci (dv_ctx da))) (N.to_nat off) data) as [cfg|] eqn:E; cbn [fst snd ans] in *; [|now destruct (NC OutOfBounds)].
      change (nth (N.to_nat x) cfg 0 = nth (N.to_nat (x - off)) data 0). rewrite (put_slice_nth _ _ _ _ _ E).
      replace (Nat.leb (N.to_nat off) (N.to_nat x) && Nat.ltb (N.to_nat x) (N.to_nat off + length data)) with true by lia.
      rewrite N2Nat.inj_sub. reflexivity.
    - intros da E. exists OutOfBounds. cbn [dev_call]. unfold dev_poke. fold (dv_ctx da). cbv zeta. rewrite E.
      destruct (put_slice [] (N.to_nat off) data) as [cfg|] eqn:PS; [|reflexivity]. exfalso. apply put_slice_bound in PS. cbn [length] in PS. lia. }
  pose proof (life_facts _ _ _ L) as (d1 & _ & _ & _ & _ & _ & _ & RE & (RG & _) & H). pose proof (ho_len _ _ H) as HL.
  destruct (B o ltac:(lia)) as (_ & LEN). rewrite <- RG in R7.
  pose proof (read_header _ _ _ _ _ _ RE RQ R7 FL ltac:(lia) ltac:(lia) ltac:(lia) ltac:(lia)) as G.
  replace (firstn (N.to_nat n) (skipn (N.to_nat (o - off)) data)) with (firstn (N.to_nat n) (skipn (N.to_nat o) (pc_cfg (cx_pci (sv_ctx s))))); [exact G|].
  apply nth_ext with (d := 0) (d' := 0); rewrite !firstn_length, !skipn_length; [lia|]. intros i I.
  rewrite !nth_firstn by lia. rewrite !nth_skipn. destruct (B (o + N.of_nat i) ltac:(lia)) as (V & _). unfold byte_at in V.
  replace (N.to_nat (o + N.of_nat i)) with (N.to_nat o + i)%nat in V by lia. rewrite V. f_equal. lia.
Qed.
Print Assumptions C70_set_up.

(* A device that stores its revision (8) and its latency requirements (62 and 63) before it is realized. *)
Definition ex_poked_calls : list call := [CPciInit 2 0; CPoke 8 [5]; CPciId 1 2 3 4; CPciClass 1 8 2; CPoke 62 [10; 20]].
Definition ex_poked : device := match dev_calls ex_dev ex_poked_calls with (Some d, _) => snd (realize_ctx d) | _ => ex_dev end.
Definition ex_poked_server : server := fst (sv_run (dv_sv ex_poked) [SAttach 1048576]).
Example C70_set_up_case : life ex_poked_calls ex_poked ex_poked_server /\
  (forall x, 8 <= x < 9 -> ~ header_writable x /\ x <> 6 /\ x <> 52 /\ x <> 61 /\ forall k, In k [CPciId 1 2 3 4; CPciClass 1 8 2; CPoke 62 [10; 20]] -> ~ sets k x) /\
  request ex_poked_server (ex_ask 9 (read_req 8 7 1) []) 7 9 (read_req 8 7 1) [] /\
  snd (sv_step ex_poked_server (SRun (ex_ask 9 (read_req 8 7 1) []))) = [EvReply (mk_reply 7 9 0 (read_req 8 7 1 ++ [5]) [])] /\
  snd (sv_step ex_poked_server (SRun (ex_ask 9 (read_req 62 7 2) []))) = [EvReply (mk_reply 7 9 0 (read_req 62 7 2 ++ [10; 20]) [])] /\
  exists r, nth_error (cx_regs (dv_ctx ex_poked)) 7 = Some r /\ N.testbit (ri_flags r) 3 = false /\ ri_size r = 4096.
Proof.
  split.
  { destruct (history_run (dv_sv ex_poked) [SAttach 1048576] ex_poked_server (snd (sv_run (dv_sv ex_poked) [SAttach 1048576]))) as (arr & H).
    - vm_compute; reflexivity.
    - vm_compute; repeat constructor.
    - exists (match dev_calls ex_dev ex_poked_calls with (Some d, _) => d | _ => ex_dev end). eexists _, _, _. split; [exists ex_dev; eexists; split; vm_compute; reflexivity|]. split.
      { unfold ex_poked_calls. repeat apply Forall_cons; try apply Forall_nil; (split; [exact Logic.I|]); cbn [careful]; try exact Logic.I;
          (split; [repeat constructor|cbn [length]; lia]). }
      split; [intros c Hc; vm_compute in Hc; destruct Hc|]. split; [vm_compute; reflexivity|]. split; [exact H|].
      repeat constructor. }
  split.
  { intros x X. assert (x = 8) by lia. subst x. split; [unfold header_writable; lia|]. repeat (split; [lia|]).
    intros k Hk. cbn [In] in Hk. destruct Hk as [<-|[<-|[<-|[]]]]; cbn [sets length]; lia. }
  split.
  { constructor; try reflexivity.
    - vm_compute; auto.
    - exists (mk_header 7 9 32 0 0). split; [reflexivity|]. split; [|repeat split]. unfold valid_hdr. cbn [hd_flags hd_size hd_cmd]. split; [reflexivity|]. split; [lia|]. intros E. lia.
    - vm_compute; split; discriminate. }
  split; [vm_compute; reflexivity|]. split; [vm_compute; reflexivity|]. eexists. split; [vm_compute; reflexivity|]. split; reflexivity.
Qed.
