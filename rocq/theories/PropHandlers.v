(* Properties of the request handlers: C19, C20, C38, C55 (device information). *)
From Coq Require Import NArith ZArith List Bool Lia ZifyBool ZifyNat ZifyN.
From Verif Require Import Base Types Bytes BytesProofs BufProofs Dma Dirty Migr Irq Pci SpecPci PciProofs PropPci Handlers SpecHandlers HandlersProofs.
Import ListNotations.
Open Scope N_scope.
Ltac Zify.zify_post_hook ::= idtac.

(* A device with a config space and three regions, used by the examples. *)
Definition ex_reg0 : reg_info := mk_reg 3 4096 true [(0, 1024); (2048, 1024)] 5%Z 0 [].
Definition ex_regs : list reg_info :=
  [ex_reg0; mk_reg 3 100 true [] (-1)%Z 0 []; mk_reg 0 0 false [] (-1)%Z 0 []; mk_reg 0 0 false [] (-1)%Z 0 [];
   mk_reg 0 0 false [] (-1)%Z 0 []; mk_reg 0 0 false [] (-1)%Z 0 []; mk_reg 0 0 false [] (-1)%Z 0 [];
   mk_reg 3 256 true [] (-1)%Z 0 []; mk_reg 0 0 false [] (-1)%Z 0 []].
Definition ex_ctx (m : option N) : ctx :=
  mk_ctx None 0 ex_regs (mk_pci (zeros 256) [] [] None) false false false false m (mk_irq_cfg [1; 1; 4; 1; 1] []) None 1048576.
Definition ex_oracle (acc : acc_oracle) : oracle :=
  mk_oracle (mk_os (Some 4096) (fun _ _ => false) (inl 0) true) (fun _ => true) [] (fun _ => None) (fun _ => None) acc (DataErr 5) (fun _ => None).

(* C19.  Requests with a short payload are refused; all others are decoded as access_req, and refused without
   touching the device unless access_ok; callbacks made for an accepted one are parts of the access; nothing but
   config space can change. *)
Theorem C19_short_refused : forall c o write body fds, (length body < 16)%nat ->
  dispatch c o (cmd_of write) body fds = (HReply EINVAL [] [], c, fds, []).
Proof.
  intros c o write body fds L.
  assert (E : N.of_nat (length body) <? 16 = true) by lia.
  destruct write; unfold dispatch; cbn - [handle_region_access]; unfold handle_region_access; rewrite E; reflexivity.
Qed.
Print Assumptions C19_short_refused.

Lemma dispatch_access c o write body fds :
  dispatch c o (cmd_of write) body fds = let '(r, c', ev) := handle_region_access c o write body in (r, c', fds, ev).
Proof. destruct write; reflexivity. Qed.

Theorem C19_access_bounds : forall c o write off region count data fds r c' fds' ev,
  regs_wf c -> in_range off region count ->
  dispatch c o (cmd_of write) (access_req off region count data) fds = (r, c', fds', ev) ->
  fds' = fds /\
  (~ access_ok c write off region count data -> r = HReply EINVAL [] [] /\ c' = c /\ ev = []) /\
  (access_ok c write off region count data -> Forall (part_of write off region count data) ev) /\
  (access_ok c write off region count data -> count = 0 -> r = HReply 0 [] [] /\ c' = c /\ ev = []) /\
  (c' = c \/ (region = 7 /\ write = true /\ exists p, c' = set_pci c p)).
Proof.
  intros c o write off region count data fds r c' fds' ev W R H.
  rewrite dispatch_access in H. unfold handle_region_access in H.
  rewrite access_req_length in H. replace (N.of_nat (16 + length data) <? 16) with false in H by lia.
  rewrite access_req_off, access_req_region, access_req_count in H by apply R. cbn [need] in H.
  pose proof (valid_access c write off region count data W R) as V.
  destruct (valid_region_access c (N.of_nat (16 + length data)) write off region count) eqn:E; cbn [negb] in H.
  2: { injection H as <- <- <- <-. split; [reflexivity|]. split; [auto|]. split; [constructor|].
       split; [|auto]. intros A. apply V in A. discriminate A. }
  assert (A : access_ok c write off region count data) by now apply V.
  destruct (count =? 0) eqn:C0.
  { injection H as <- <- <- <-. split; [reflexivity|]. split; [tauto|]. split; [constructor|]. auto. }
  rewrite access_req_data in H.
  destruct (region_access c o region write off count (if write then data else [])) as [[[res buf] c1] ev1] eqn:Q.
  assert (P : Forall (part_of write off region count data) ev1).
  { apply region_access_parts in Q; [|intros ->; destruct A as (_ & _ & A & _); auto|now intros ->|lia].
    destruct write; [exact Q|]. eapply Forall_impl; [|exact Q]. intros a. destruct a; exact (fun x => x). }
  assert (F : fds' = fds /\ c' = c1 /\ ev = ev1).
  { destruct res as [n|e|cr]; [destruct (n =? count)| |]; injection H as <- <- <- <-; auto. }
  destruct F as (-> & -> & ->). split; [reflexivity|]. split; [tauto|]. split; [auto|].
  split; [lia|].
  unfold region_access in Q. destruct (nth_error (cx_regs c) (N.to_nat region)) as [ri|]; [|injection Q as <- <- <- <-; auto].
  destruct ((region =? CFG_REGION) && negb (has (ri_flags ri) REGION_FLAG_ALWAYS_CB)) eqn:K.
  - destruct write.
    + destruct (config_write (env_of c) (cx_pci c) (or_access o) (or_reset o) off data) as [[o1 p1] e1]. injection Q as <- <- <- <-.
      right. change CFG_REGION with 7 in K. split; [lia|]. split; [reflexivity|]. now exists p1.
    + destruct (config_read (env_of c) (cx_pci c) (or_access o) off count) as [[o1 p1] e1]. injection Q as <- <- <- <-. auto.
  - destruct (ri_cb ri); [|injection Q as <- <- <- <-; auto]. destruct (or_access o 0%nat off count); injection Q as <- <- <- <-; auto.
Qed.
Print Assumptions C19_access_bounds.
(* A write of the last four bytes of region 0 reaches the device; one byte further does not, nor does an offset
   near 2^64, nor anything in stop-and-copy. *)
Example C19_nonvacuous :
  let o := ex_oracle (fun _ _ n => AccOk n []) in
  regs_wf (ex_ctx None) /\ access_ok (ex_ctx None) true 4092 0 4 [1; 2; 3; 4] /\
  snd (dispatch (ex_ctx None) o 10 (access_req 4092 0 4 [1; 2; 3; 4]) []) = [EvAccess 0 true 4092 4 [1; 2; 3; 4]] /\
  ~ access_ok (ex_ctx None) true 4093 0 4 [1; 2; 3; 4] /\ ~ access_ok (ex_ctx None) false (2 ^ 64 - 2) 0 4 [] /\
  ~ access_ok (ex_ctx (Some 3)) false 0 0 4 [].
Proof.
  split; [repeat constructor|]. split.
  { split; [exists ex_reg0; split; [reflexivity|cbn; lia]|]. split; [lia|]. split; [reflexivity|discriminate]. }
  split; [vm_compute; reflexivity|].
  split; [intros ((r & H & L) & _); injection H as <-; cbn in L; lia|].
  split; [intros ((r & H & L) & _); injection H as <-; cbn in L; lia|].
  intros (_ & _ & _ & H). now apply H.
Qed.

(* The whole payload space is covered: every sequence of bytes is either too short or an access_req. *)
Theorem C19_every_payload : forall body, Forall (fun b => b < 256) body ->
  (length body < 16)%nat \/ exists off region count data, in_range off region count /\ body = access_req off region count data.
Proof.
  intros body B. destruct (Nat.lt_ge_cases (length body) 16) as [L|L]; [now left|right].
  destruct (access_req_surj body B L) as (off & region & count & data & R & E & _). now exists off, region, count, data.
Qed.
Print Assumptions C19_every_payload.

(* C20.  Accesses that go to the region's callback: one callback, for exactly the access, and the reply says what
   it did. *)
Theorem C20_access_reply : forall c o write off region count data fds ri,
  regs_wf c -> in_range off region count -> access_ok c write off region count data -> 0 < count ->
  nth_error (cx_regs c) (N.to_nat region) = Some ri -> to_callback region ri -> ri_cb ri = true ->
  exists err body,
    dispatch c o (cmd_of write) (access_req off region count data) fds =
      (HReply err body [], c, fds, [EvAccess region write off count (if write then data else [])]) /\
    match or_access o 0%nat off count with
    | AccErr e => err = e
    | AccOk n buf =>
        (n <> count -> err = EINVAL) /\
        (n = count -> err = 0 /\
           (write = true -> body = access_req off region count []) /\
           (write = false -> length buf = N.to_nat count -> body = access_req off region count buf))
    end.
Proof.
  intros c o write off region count data fds ri W R A P En T CB.
  rewrite dispatch_access. unfold handle_region_access.
  rewrite access_req_length. replace (N.of_nat (16 + length data) <? 16) with false by lia.
  rewrite access_req_off, access_req_region, access_req_count by apply R. cbn [need].
  pose proof (proj2 (valid_access c write off region count data W R) A) as V. rewrite V. cbn [negb].
  replace (count =? 0) with false by lia. rewrite access_req_data. unfold region_access. rewrite En.
  assert (K : (region =? CFG_REGION) && negb (has (ri_flags ri) REGION_FLAG_ALWAYS_CB) = false).
  { change CFG_REGION with 7. destruct T as [T|T]; [lia|]. unfold REGION_FLAG_ALWAYS_CB. change 8 with (2 ^ 3).
    rewrite has_pow2, T. cbn [negb]. now rewrite andb_false_r. }
  rewrite K, CB. cbn [negb]. destruct (or_access o 0%nat off count) as [n buf|e].
  - destruct (n =? count) eqn:Q.
    + do 2 eexists. split; [reflexivity|]. split; [lia|]. intros _. split; [reflexivity|]. unfold access_req. split.
      * intros ->. now rewrite !app_nil_r.
      * intros -> L. unfold fit. rewrite (fit_exact _ _ _ L). reflexivity.
    + do 2 eexists. split; [reflexivity|]. split; [reflexivity|lia].
  - do 2 eexists. split; reflexivity.
Qed.
Print Assumptions C20_access_reply.
(* A read of four bytes at 8 of region 0, with a device that answers, answers short, and fails. *)
Example C20_nonvacuous :
  let o a := ex_oracle (fun _ _ _ => a) in
  access_ok (ex_ctx None) false 8 0 4 [] /\ to_callback 0 ex_reg0 /\ ri_cb ex_reg0 = true /\
  fst (fst (fst (dispatch (ex_ctx None) (o (AccOk 4 [1; 2; 3; 4])) 9 (access_req 8 0 4 []) []))) = HReply 0 (access_req 8 0 4 [1; 2; 3; 4]) [] /\
  fst (fst (fst (dispatch (ex_ctx None) (o (AccOk 4 [])) 10 (access_req 8 0 4 [9; 8; 7; 6]) []))) = HReply 0 (access_req 8 0 4 []) [] /\
  (exists b, fst (fst (fst (dispatch (ex_ctx None) (o (AccOk 3 [1; 2; 3])) 9 (access_req 8 0 4 []) []))) = HReply EINVAL b []) /\
  (exists b, fst (fst (fst (dispatch (ex_ctx None) (o (AccErr EIO)) 9 (access_req 8 0 4 []) []))) = HReply EIO b []).
Proof.
  split. { split; [exists ex_reg0; split; [reflexivity|cbn; lia]|]. split; [lia|]. split; discriminate. }
  split; [left; discriminate|]. split; [reflexivity|]. split; [vm_compute; reflexivity|]. split; [vm_compute; reflexivity|].
  split; eexists; vm_compute; reflexivity.
Qed.

(* A region without callback (other than config space) cannot be accessed. *)
Theorem C20_no_callback : forall c o write off region count data fds ri,
  regs_wf c -> in_range off region count -> 0 < count ->
  nth_error (cx_regs c) (N.to_nat region) = Some ri -> to_callback region ri -> ri_cb ri = false ->
  exists body, dispatch c o (cmd_of write) (access_req off region count data) fds = (HReply EINVAL body [], c, fds, []).
Proof.
  intros c o write off region count data fds ri W R P En T CB.
  rewrite dispatch_access. unfold handle_region_access.
  rewrite access_req_length. replace (N.of_nat (16 + length data) <? 16) with false by lia.
  rewrite access_req_off, access_req_region, access_req_count by apply R. cbn [need].
  destruct (valid_region_access c (N.of_nat (16 + length data)) write off region count); cbn [negb]; [|now eexists].
  replace (count =? 0) with false by lia. rewrite access_req_data. unfold region_access. rewrite En.
  assert (K : (region =? CFG_REGION) && negb (has (ri_flags ri) REGION_FLAG_ALWAYS_CB) = false).
  { change CFG_REGION with 7. destruct T as [T|T]; [lia|]. unfold REGION_FLAG_ALWAYS_CB. change 8 with (2 ^ 3).
    rewrite has_pow2, T. cbn [negb]. now rewrite andb_false_r. }
  rewrite K, CB. cbn [negb]. now eexists.
Qed.
Print Assumptions C20_no_callback.
Example C20_no_callback_nonvacuous :
  let c := mk_ctx None 0 [mk_reg 3 64 false [] (-1)%Z 0 []] (mk_pci [] [] [] None) false false false false None (mk_irq_cfg [] []) None 0 in
  regs_wf c /\ access_ok c false 0 0 4 [] /\
  fst (fst (fst (dispatch c (ex_oracle (fun _ _ n => AccOk n [])) 9 (access_req 0 0 4 []) []))) = HReply EINVAL (access_req 0 0 4 [0; 0; 0; 0]) [].
Proof.
  split; [repeat constructor|]. split.
  { split; [eexists; split; [reflexivity|cbn; lia]|]. split; [lia|]. split; discriminate. }
  vm_compute. reflexivity.
Qed.

(* Every successful access reply, config space included, echoes the request, and carries count bytes for a read
   and none for a write. *)
Theorem C20_reply_shape : forall c o write off region count data fds body rfds c' fds' ev,
  in_range off region count -> 0 < count ->
  dispatch c o (cmd_of write) (access_req off region count data) fds = (HReply 0 body rfds, c', fds', ev) ->
  rfds = [] /\ exists x, body = access_req off region count x /\ length x = (if write then 0%nat else N.to_nat count).
Proof.
  intros c o write off region count data fds body rfds c' fds' ev R P H.
  rewrite dispatch_access in H. unfold handle_region_access in H.
  rewrite access_req_length in H. replace (N.of_nat (16 + length data) <? 16) with false in H by lia.
  rewrite access_req_off, access_req_region, access_req_count in H by apply R. cbn [need] in H.
  destruct (valid_region_access c (N.of_nat (16 + length data)) write off region count); cbn [negb] in H; [|discriminate H].
  replace (count =? 0) with false in H by lia.
  destruct (region_access c o region write off count _) as [[[res buf] c1] ev1].
  assert (X : rfds = [] /\ body = le_bytes 8 off ++ le_bytes 4 region ++ le_bytes 4 count ++ (if write then [] else fit (N.to_nat count) buf))
    by (destruct res as [n|e|cr]; [destruct (n =? count)| |]; first [discriminate H|injection H; intros; subst; auto]).
  destruct X as (-> & ->). split; [reflexivity|]. eexists. split; [reflexivity|]. destruct write; [reflexivity|]. apply fit_length.
Qed.
Print Assumptions C20_reply_shape.

(* Config space without a config region callback: a read is answered with the bytes of config space. *)
Theorem C20_config_read : forall c o off count data fds ri,
  regs_wf c -> in_range off 7 count -> access_ok c false off 7 count data -> 0 < count ->
  nth_error (cx_regs c) 7 = Some ri -> N.testbit (ri_flags ri) 3 = false -> ri_cb ri = false ->
  ri_size ri = N.of_nat (length (pc_cfg (cx_pci c))) ->
  dispatch c o (cmd_of false) (access_req off 7 count data) fds =
    (HReply 0 (access_req off 7 count (firstn (N.to_nat count) (skipn (N.to_nat off) (pc_cfg (cx_pci c))))) [], c, fds, []).
Proof.
  intros c o off count data fds ri W R A P En T CB Sz.
  rewrite dispatch_access. unfold handle_region_access.
  rewrite access_req_length. replace (N.of_nat (16 + length data) <? 16) with false by lia.
  rewrite access_req_off, access_req_region, access_req_count by apply R. cbn [need].
  pose proof (proj2 (valid_access c false off 7 count data W R) A) as V. rewrite V. cbn [negb].
  replace (count =? 0) with false by lia. unfold region_access. change (N.to_nat 7) with 7%nat. rewrite En.
  change (7 =? CFG_REGION) with true. unfold REGION_FLAG_ALWAYS_CB. change 8 with (2 ^ 3) at 1. rewrite has_pow2, T. cbn [negb andb].
  destruct A as ((r' & E' & L) & _). change (N.to_nat 7) with 7%nat in E'. rewrite En in E'. injection E' as <-.
  rewrite C43_read_returns_config_space; [|unfold env_of; cbn [pe_cfg_cb]; now rewrite En|lia].
  rewrite N.eqb_refl. set (x := firstn (N.to_nat count) (skipn (N.to_nat off) (pc_cfg (cx_pci c)))).
  assert (Lx : length x = N.to_nat count) by (unfold x; rewrite firstn_length, skipn_length; lia).
  unfold fit. rewrite (fit_exact _ _ _ Lx). reflexivity.
Qed.
Print Assumptions C20_config_read.
Example C20_config_nonvacuous :
  let cfg := map N.of_nat (seq 0 256) in
  let c := mk_ctx None 0 (firstn 7 ex_regs ++ [mk_reg 3 256 false [] (-1)%Z 0 []]) (mk_pci cfg [] [] None) false false false false None (mk_irq_cfg [] []) None 0 in
  regs_wf c /\ access_ok c false 62 7 4 [] /\
  dispatch c (ex_oracle (fun _ _ n => AccErr EIO)) 9 (access_req 62 7 4 []) [] = (HReply 0 (access_req 62 7 4 [62; 63; 64; 65]) [], c, [], []).
Proof.
  split; [repeat constructor|]. split.
  { split; [eexists; split; [reflexivity|cbn; lia]|]. split; [lia|]. split; discriminate. }
  vm_compute. reflexivity.
Qed.

(* ---------- C38 *)

(* The reply to a region info request: the fixed part, with the capability's position and the flag saying there
   is one (8), and the capability. *)
Definition region_info_reply (ri : reg_info) (index : N) (with_cap : bool) (tail : list N) : list N :=
  region_info_req (region_info_size ri) (region_info_flags ri + if with_cap then 8 else 0) index (if with_cap then 32 else 0) (ri_size ri) (ri_off ri) tail.
Definition has_areas (ri : reg_info) : Prop := ri_size ri <> 0 /\ ri_areas ri <> [].

Theorem C38_region_info : forall c o argsz flags index cap_off size off rest fds ri,
  argsz < 2 ^ 32 -> index < 2 ^ 32 -> 32 <= argsz ->
  nth_error (cx_regs c) (N.to_nat index) = Some ri -> region_info_size ri < 2 ^ 32 ->
  exists body rfds,
    dispatch c o 5 (region_info_req argsz flags index cap_off size off rest) fds = (HReply 0 body rfds, c, fds, []) /\
    N.of_nat (length body) <= argsz /\
    (has_areas ri -> region_info_size ri <= argsz ->
       body = region_info_reply ri index true (areas_cap (ri_areas ri)) /\ N.of_nat (length body) = region_info_size ri /\ rfds = [ri_fd ri]) /\
    (~ has_areas ri \/ argsz < region_info_size ri ->
       exists n, body = region_info_reply ri index false (repeat 0 n) /\ rfds = []).
Proof.
  intros c o argsz flags index cap_off size off rest fds ri A I L En Sz.
  change (dispatch c o 5 ?b fds) with (get_region_info c b, c, fds, @nil event). unfold get_region_info.
  unfold region_info_req at 1. layout.
  match goal with |- context [N.of_nat ?x <? 32] => replace (N.of_nat x <? 32) with false by lia end.
  unfold region_info_req at 1 2. rewrite rd_front by exact A. rdsk. rewrite rd_front by exact I. cbn [need].
  replace (argsz <? 32) with false by lia. rewrite En.
  set (cs := if 0 <? ri_size ri then caps_size ri else 0).
  assert (CS : 32 + cs = region_info_size ri).
  { unfold cs, region_info_size, caps_size. destruct (ri_size ri =? 0) eqn:E0; cbn [orb].
    - replace (0 <? ri_size ri) with false by lia. reflexivity.
    - replace (0 <? ri_size ri) with true by lia. destruct (ri_areas ri) as [|a l]; [reflexivity|]. cbn [length].
      replace (N.of_nat (S (length l)) =? 0) with false by lia. reflexivity. }
  assert (CP : (0 <? cs) = true <-> has_areas ri).
  { unfold cs, has_areas, caps_size. destruct (0 <? ri_size ri) eqn:E0.
    - destruct (ri_areas ri); split; try lia; try tauto. intros _. split; [lia|discriminate].
    - split; [lia|]. intros [H _]. lia. }
  rewrite CS. unfold w32, two32. change 4294967296 with (2 ^ 32). rewrite N.mod_small by exact Sz.
  assert (FL : (if has (ri_flags ri) REGION_FLAG_READ then 1 else 0) + (if has (ri_flags ri) REGION_FLAG_WRITE then 2 else 0) + (if (ri_fd ri =? -1)%Z then 0 else 4) = region_info_flags ri).
  { unfold REGION_FLAG_READ, REGION_FLAG_WRITE, region_info_flags. change 1 with (2 ^ 0) at 1. change 2 with (2 ^ 1) at 2. now rewrite !has_pow2. }
  rewrite FL.
  assert (AL : forall l : list (N * N), length (flat_map (fun a => le_bytes 8 (fst a) ++ le_bytes 8 (snd a)) l) = (16 * length l)%nat).
  { induction l as [|x l IH]; [reflexivity|]. cbn [flat_map]. rewrite !app_length, !le_bytes_length, IH. cbn [length]. lia. }
  destruct ((0 <? cs) && (region_info_size ri <=? argsz)) eqn:G.
  - apply andb_prop in G. destruct G as [G1 G2]. replace (N.min (region_info_size ri) argsz <? region_info_size ri) with false by lia.
    assert (LB : N.of_nat (length ((le_bytes 4 (region_info_size ri) ++ le_bytes 4 (region_info_flags ri + 8) ++ le_bytes 4 index ++ le_bytes 4 32 ++ le_bytes 8 (ri_size ri) ++ le_bytes 8 (ri_off ri)) ++ sparse_cap ri)) = region_info_size ri).
    { unfold sparse_cap. rewrite !app_length, !le_bytes_length, AL. apply CP in G1. destruct G1 as [G1 G3]. unfold region_info_size.
      destruct (ri_areas ri) as [|x l]; [now exfalso|]. cbn [length]. replace (ri_size ri =? 0) with false by lia.
      replace (N.of_nat (S (length l)) =? 0) with false by lia. cbn [orb]. lia. }
    do 2 eexists. split; [reflexivity|]. rewrite LB. split; [lia|]. split.
    + intros _ _. split; [|auto]. unfold region_info_reply, region_info_req, areas_cap, sparse_cap. rewrite <- !app_assoc.
      rewrite flat_map_concat_map. reflexivity.
    + intros [H|H]; [apply CP in G1; contradiction|lia].
  - do 2 eexists. split; [reflexivity|]. split; [|split].
    + unfold zeros. rewrite !app_length, !le_bytes_length, repeat_length. unfold region_info_size. lia.
    + intros H1 H2. apply CP in H1. rewrite H1 in G. cbn [andb] in G. lia.
    + intros _. eexists. split; [|reflexivity]. unfold region_info_reply, region_info_req. rewrite <- !app_assoc, N.add_0_r. reflexivity.
Qed.
Print Assumptions C38_region_info.

(* Refused requests. *)
Theorem C38_refused : forall c o body fds,
  Forall (fun b => b < 256) body ->
  (length body < 32)%nat \/
  (exists argsz flags index cap_off size off rest, body = region_info_req argsz flags index cap_off size off rest /\
     argsz < 2 ^ 32 /\ index < 2 ^ 32 /\ (argsz < 32 \/ N.of_nat (length (cx_regs c)) <= index)) ->
  dispatch c o 5 body fds = (HReply EINVAL [] [], c, fds, []).
Proof.
  intros c o body fds B H. change (dispatch c o 5 ?b fds) with (get_region_info c b, c, fds, @nil event). unfold get_region_info.
  destruct H as [H|(argsz & flags & index & cap_off & size & off & rest & -> & A & I & H)].
  - replace (N.of_nat (length body) <? 32) with true by lia. reflexivity.
  - destruct (N.of_nat _ <? 32); [reflexivity|]. unfold region_info_req. rewrite rd_front by exact A. rdsk. rewrite rd_front by exact I. cbn [need].
    destruct (argsz <? 32) eqn:E; [reflexivity|]. destruct H as [H|H]; [lia|].
    destruct (nth_error (cx_regs c) (N.to_nat index)) eqn:En; [|reflexivity].
    assert (N.to_nat index < length (cx_regs c))%nat by (apply nth_error_Some; now rewrite En). lia.
Qed.
Print Assumptions C38_refused.

(* A client that repeats its request with the size announced in the first reply gets the complete list. *)
Theorem C38_second_request : forall c o o' argsz flags index cap_off size off rest flags' cap_off' size' off' rest' fds ri body rfds c' fds' ev,
  argsz < 2 ^ 32 -> index < 2 ^ 32 -> 32 <= argsz ->
  nth_error (cx_regs c) (N.to_nat index) = Some ri -> region_info_size ri < 2 ^ 32 -> has_areas ri ->
  dispatch c o 5 (region_info_req argsz flags index cap_off size off rest) fds = (HReply 0 body rfds, c', fds', ev) ->
  exists argsz', rd body 0 4 = Some argsz' /\
    dispatch c' o' 5 (region_info_req argsz' flags' index cap_off' size' off' rest') [] =
      (HReply 0 (region_info_reply ri index true (areas_cap (ri_areas ri))) [ri_fd ri], c, [], []).
Proof.
  intros c o o' argsz flags index cap_off size off rest flags' cap_off' size' off' rest' fds ri body rfds c' fds' ev A I L En Sz HA H.
  destruct (C38_region_info c o argsz flags index cap_off size off rest fds ri A I L En Sz) as (b1 & f1 & D & _ & Y & No).
  rewrite D in H. injection H as <- <- <- <- <-.
  assert (Q : rd b1 0 4 = Some (region_info_size ri)).
  { destruct (N.le_gt_cases (region_info_size ri) argsz) as [G|G].
    - destruct (Y HA G) as (-> & _). unfold region_info_reply, region_info_req. now rewrite rd_front.
    - destruct (No (or_intror G)) as (n & -> & _). unfold region_info_reply, region_info_req. now rewrite rd_front. }
  exists (region_info_size ri). split; [exact Q|].
  assert (L' : 32 <= region_info_size ri) by (unfold region_info_size; lia).
  destruct (C38_region_info c o' (region_info_size ri) flags' index cap_off' size' off' rest' [] ri Sz I L' En Sz) as (b2 & f2 & D2 & _ & Y2 & _).
  destruct (Y2 HA (N.le_refl _)) as (-> & _ & ->). exact D2.
Qed.
Print Assumptions C38_second_request.
(* Region 0 has two areas: with argsz 32 the client learns that it takes 80 bytes, and then gets them. *)
Example C38_nonvacuous :
  let o := ex_oracle (fun _ _ n => AccOk n []) in
  has_areas ex_reg0 /\ region_info_size ex_reg0 = 80 /\
  fst (fst (fst (dispatch (ex_ctx None) o 5 (region_info_req 32 0 0 0 0 0 []) []))) = HReply 0 (region_info_req 80 7 0 0 4096 0 []) [] /\
  fst (fst (fst (dispatch (ex_ctx None) o 5 (region_info_req 80 0 0 0 0 0 []) []))) = HReply 0 (region_info_req 80 15 0 32 4096 0 (areas_cap [(0, 1024); (2048, 1024)])) [5%Z].
Proof. split; [split; discriminate|]. split; [reflexivity|]. split; vm_compute; reflexivity. Qed.

(* ---------- C55, device information *)
Theorem C55_device_info : forall c o argsz rest fds, argsz < 2 ^ 32 ->
  dispatch c o 4 (le_bytes 4 argsz ++ rest) fds =
    (if (length rest <? 12)%nat || (argsz <? 16) then HReply EINVAL [] []
     else HReply 0 (le_bytes 4 16 ++ le_bytes 4 3 ++ le_bytes 4 (N.of_nat (length (cx_regs c))) ++ le_bytes 4 5) [], c, fds, []).
Proof.
  intros c o argsz rest fds A. change (dispatch c o 4 ?b fds) with (get_info c b, c, fds, @nil event). unfold get_info.
  layout. rewrite rd_front by exact A. cbn [need]. destruct (length rest <? 12)%nat eqn:E; cbn [orb].
  - replace (N.of_nat (4 + length rest) <? 16) with true by lia. reflexivity.
  - replace (N.of_nat (4 + length rest) <? 16) with false by lia. destruct (argsz <? 16); reflexivity.
Qed.
Print Assumptions C55_device_info.
Theorem C55_device_info_short : forall c o body fds, (length body < 4)%nat -> dispatch c o 4 body fds = (HReply EINVAL [] [], c, fds, []).
Proof.
  intros c o body fds L. change (dispatch c o 4 ?b fds) with (get_info c b, c, fds, @nil event). unfold get_info.
  replace (N.of_nat (length body) <? 16) with true by lia. reflexivity.
Qed.
Print Assumptions C55_device_info_short.
Example C55_device_info_nonvacuous :
  fst (fst (fst (dispatch (ex_ctx None) (ex_oracle (fun _ _ n => AccOk n [])) 4 (le_bytes 4 16 ++ zeros 12) []))) =
  HReply 0 [16; 0; 0; 0; 3; 0; 0; 0; 9; 0; 0; 0; 5; 0; 0; 0] [].
Proof. vm_compute. reflexivity. Qed.
