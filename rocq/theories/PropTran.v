(* C40: version negotiation; C41: the transfer size it settles. *)
From Coq Require Import NArith ZArith String List Bool Lia ZifyBool ZifyNat ZifyN.
From Verif Require Import Base Types Bytes BytesProofs BufProofs Migr Irq Pci Handlers Server SpecServer Wire Tran SpecWire WireProofs PropWire.
Import ListNotations.
Open Scope N_scope.
Ltac Zify.zify_post_hook ::= idtac.

(* ---------- receiving a message *)

Lemma u16_firstn n b off : (off + 2 <= n)%nat -> u16 (firstn n b) off = u16 b off.
Proof. intros H. unfold u16. rewrite !nth_firstn by lia. reflexivity. Qed.
Lemma u32_firstn n b off : (off + 4 <= n)%nat -> u32 (firstn n b) off = u32 b off.
Proof. intros H. unfold u32. rewrite !u16_firstn by lia. reflexivity. Qed.
Lemma u16_skipn n b off : u16 (skipn n b) off = u16 b (n + off).
Proof. unfold u16. rewrite !nth_skipn. replace (n + S off)%nat with (S (n + off)) by lia. reflexivity. Qed.
Lemma u32_skipn n b off : u32 (skipn n b) off = u32 b (n + off).
Proof. unfold u32. rewrite !u16_skipn. replace (n + (2 + off))%nat with (2 + (n + off))%nat by lia. reflexivity. Qed.

Lemma get_msg_wire w avail : (16 <= avail)%nat -> (16 <= length w)%nat ->
  get_msg avail w = (Ok (mk_header (u16 w 0) (u16 w 2) (u32 w 4) (u32 w 8) (u32 w 12)), skipn 16 w).
Proof.
  intros A L. unfold get_msg, recv_some. replace (Nat.min 16 (Nat.max 1 avail)) with 16%nat by lia.
  assert (LF : length (firstn 16 w) = 16%nat) by (rewrite firstn_length; lia).
  pose proof (dec_wire (firstn 16 w) ltac:(lia)) as D. rewrite !u16_firstn, !u32_firstn in D by lia.
  destruct (firstn 16 w) as [|x l]; [discriminate LF|]. rewrite D. reflexivity.
Qed.

Lemma type_mask f : (N.land f F_TYPE_MASK =? F_TYPE_COMMAND) = (f mod 16 =? 0).
Proof. unfold F_TYPE_MASK, F_TYPE_COMMAND. change 15 with (N.ones 4). rewrite N.land_ones. reflexivity. Qed.

Lemma u16_prefix b rest off : (off + 2 <= length b)%nat -> u16 (b ++ rest) off = u16 b off.
Proof. intros H. unfold u16. rewrite !app_nth1 by lia. reflexivity. Qed.
Lemma u32_prefix b rest off : (off + 4 <= length b)%nat -> u32 (b ++ rest) off = u32 b off.
Proof. intros H. unfold u32. rewrite !u16_prefix by lia. reflexivity. Qed.

Lemma recv_alloc_message b rest id cmd flags error payload avail :
  message b id cmd flags error payload -> flags mod 16 = 0 -> N.of_nat (length b) <= 1024 * 1024 + 32 -> (16 <= avail)%nat ->
  recv_alloc avail (b ++ rest) = (Ok (mk_header id cmd (N.of_nat (length b)) flags error, payload), rest).
Proof.
  intros [I C S F E P L] F16 M A. unfold recv_alloc, recv_alloc_as, recv_msg.
  rewrite get_msg_wire by (rewrite ?app_length; lia).
  rewrite !u16_prefix, !u32_prefix, I, C, S, F, E by lia. cbn [hd_id hd_cmd hd_size hd_flags hd_error].
  rewrite type_mask, F16. cbn [N.eqb negb].
  replace ((N.of_nat (length b) <? 16) || (SERVER_MAX_MSG_SIZE <? N.of_nat (length b))) with false by (unfold SERVER_MAX_MSG_SIZE; lia).
  change (0 <? 0) with false. cbn [andb].
  rewrite skipn_app, P. replace (16 - length b)%nat with 0%nat by lia. change (skipn 0 rest) with rest.
  assert (LP : length payload = (length b - 16)%nat) by (rewrite <- P, skipn_length; reflexivity).
  cbn [hd_size]. destruct (N.of_nat (length b) - 16 =? 0) eqn:Z.
  - destruct payload; [reflexivity|]. cbn [length] in LP. lia.
  - unfold recv_all. replace (N.to_nat (N.of_nat (length b) - 16)) with (length payload) by lia.
    rewrite firstn_app, skipn_app, Nat.sub_diag, firstn_all, skipn_all. cbn [firstn skipn]. rewrite app_nil_r. cbn [app].
    replace (N.of_nat (length payload) =? 0) with false by lia.
    replace (N.of_nat (length payload) =? N.of_nat (length b) - 16) with true by lia. reflexivity.
Qed.

(* ---------- the capabilities *)

Lemma assoc_find k l : assoc k l = match find (fun p => String.eqb (fst p) k) l with Some (_, v) => Some v | None => None end.
Proof.
  induction l as [|(k', v) l IH]; [reflexivity|]. cbn [assoc find fst]. rewrite String.eqb_sym. destruct (String.eqb k' k); [reflexivity|exact IH].
Qed.
Lemma get_ex_path j k : get_ex j k = at_path j [k].
Proof. unfold get_ex, at_path. destruct j; try reflexivity. rewrite assoc_find. destruct (find _ l) as [(?, ?)|]; reflexivity. Qed.
Lemma at_path_cons j k path : at_path j (k :: path) = match at_path j [k] with Some v => at_path v path | None => None end.
Proof. cbn [at_path]. destruct j; try reflexivity. destruct (find _ l) as [(?, ?)|]; reflexivity. Qed.

Definition int_of (o : option json) (d : Z) (f : Z -> Z) : Z := match o with Some (JInt v _) => f v | _ => d end.
Definition size_of (o : option json) (d : N) (f : Z -> N) : N := match o with Some (JInt v _) => f v | _ => d end.
Definition bool_of (o : option json) (d : bool) : bool := match o with Some (JBool b) => b | _ => d end.

Lemma parse_spec text p ok p' : parse_version text p = (ok, p') ->
  (ok = true <-> caps_typed text) /\
  (ok = true ->
    lm_fds p' = int_of (capability text ["max_msg_fds"%string]) (lm_fds p) to_int /\
    lm_xfer p' = size_of (capability text ["max_data_xfer_size"%string]) (lm_xfer p) (fun v => to_size (to_int v)) /\
    lm_pgsize p' = size_of (capability text ["migration"%string; "pgsize"%string]) (lm_pgsize p) to_size /\
    lm_twin p' = bool_of (capability text ["twin_socket"%string; "supported"%string]) (lm_twin p)).
Proof.
  unfold parse_version, caps_typed, capability.
  destruct text as [j|]; [|intros H; injection H as <- <-; split; [split; [discriminate|tauto]|discriminate]].
  rewrite get_ex_path. rewrite (at_path_cons j "capabilities" ["max_msg_fds"%string]), (at_path_cons j "capabilities" ["max_data_xfer_size"%string]),
    (at_path_cons j "capabilities" ["migration"%string]), (at_path_cons j "capabilities" ["migration"%string; "pgsize"%string]),
    (at_path_cons j "capabilities" ["twin_socket"%string]), (at_path_cons j "capabilities" ["twin_socket"%string; "supported"%string]).
  destruct (at_path j ["capabilities"%string]) as [caps|].
  2: { intros H; injection H as <- <-. cbn. split; [split; [intros _; repeat split; try discriminate|reflexivity]|auto]. }
  destruct caps as [| b | v e | |l].
  1-4: intros H; injection H as <- <-; split; [split; [discriminate|cbn; tauto]|discriminate].
  unfold cap_fds, cap_xfer, cap_migration, cap_twin. rewrite !get_ex_path.
  rewrite (at_path_cons (JObj l) "migration" ["pgsize"%string]), (at_path_cons (JObj l) "twin_socket" ["supported"%string]).
  destruct (at_path (JObj l) ["max_msg_fds"%string]) as [[| | v1 [|] | |]|];
    try (intros H; injection H as <- <-; cbn [negb is_obj is_int]; split; [split; [discriminate|intros (_ & _ & X & _); first [discriminate X|destruct X]]|discriminate]).
  all: destruct (at_path (JObj l) ["max_data_xfer_size"%string]) as [[| | v2 [|] | |]|];
    try (intros H; injection H as <- <-; cbn [negb is_obj is_int]; split; [split; [discriminate|intros (_ & _ & _ & X & _); first [discriminate X|destruct X]]|discriminate]).
  all: destruct (at_path (JObj l) ["migration"%string]) as [[| | | | m]|];
    try (intros H; injection H as <- <-; cbn [negb is_obj is_int]; split; [split; [discriminate|intros (_ & _ & _ & _ & X & _); first [discriminate X|destruct X]]|discriminate]).
  all: rewrite ?get_ex_path.
  all: try (destruct (at_path (JObj m) ["pgsize"%string]) as [[| | v3 [|] | |]|];
    try (intros H; injection H as <- <-; cbn [negb is_obj is_int]; split; [split; [discriminate|intros (_ & _ & _ & _ & _ & X & _); first [discriminate X|destruct X]]|discriminate])).
  all: destruct (at_path (JObj l) ["twin_socket"%string]) as [[| | | | t]|];
    try (intros H; injection H as <- <-; cbn [negb is_obj is_int]; split; [split; [discriminate|intros (_ & _ & _ & _ & _ & _ & X & _); first [discriminate X|destruct X]]|discriminate]).
  all: rewrite ?get_ex_path.
  all: try (destruct (at_path (JObj t) ["supported"%string]) as [[| bt | | |]|];
    try (intros H; injection H as <- <-; cbn [negb is_obj is_int is_bool]; split; [split; [discriminate|intros (_ & _ & _ & _ & _ & _ & _ & X); first [discriminate X|destruct X]]|discriminate])).
  all: intros H; injection H as <- <-; cbn; split; [split; [intros _; repeat split; discriminate|reflexivity]|auto].
Qed.

Lemma to_int_id v : (-2147483648 <= v < 2147483648)%Z -> to_int v = v.
Proof. intros H. unfold to_int. rewrite Z.mod_small by lia. lia. Qed.
Lemma to_size_id v : (0 <= v < 18446744073709551616)%Z -> to_size v = Z.to_N v.
Proof. intros H. unfold to_size. rewrite Z.mod_small by lia. reflexivity. Qed.

(* ---------- checking the version message *)

(* The page size of a device with migration is the host's, or not mentioned. *)
Definition pgsize_ok (mig : option N) (text : option json) : Prop :=
  mig = None \/
  match capability text ["migration"%string; "pgsize"%string] with
  | Some (JInt v _) => to_size v = 0 \/ to_size v = 4096
  | _ => True
  end.
Definition fd_limit_ok (text : option json) : Prop := (0 <= int_of (capability text ["max_msg_fds"%string]) 1 to_int <= 1024)%Z.

Lemma nego_pgsize_spec old p ok pg : nego_pgsize old p = (ok, pg) -> (ok = true <-> old = None \/ p = 0 \/ p = 4096) /\
  (ok = true -> pg = match old with None => None | Some o => Some (if p =? 0 then o else 4096) end).
Proof.
  unfold nego_pgsize, PAGE_SIZE. destruct old; [|intros H; injection H as <- <-; tauto].
  destruct (N.eqb_spec p 0); [intros H; injection H as <- <-; split; [tauto|reflexivity]|].
  destruct (N.eqb_spec p 4096); cbn [negb]; intros H; injection H as <- <-; (split; [|congruence]); [tauto|].
  split; [discriminate|]. intros [X|[X|X]]; [discriminate X|contradiction|contradiction].
Qed.

(* The page size after a message: the host's if the client names one. *)
Definition told_pgsize (mig : option N) (text : option json) : option N :=
  match mig with
  | None => None
  | Some o =>
      Some (match capability text ["migration"%string; "pgsize"%string] with
            | Some (JInt v _) => if to_size v =? 0 then o else 4096
            | _ => o
            end)
  end.

Lemma last_skipn n : forall l : list N, (n < length l)%nat -> last (skipn n l) 1 = last l 1.
Proof.
  induction n; intros l Hl; [reflexivity|]. destruct l as [|x l]; [cbn in Hl; lia|]. cbn [skipn]. rewrite IHn by (cbn in Hl; lia).
  destruct l; [cbn in Hl; lia|reflexivity].
Qed.

Lemma check_version_spec parse h b id major minor text g r g' :
  version_msg parse b id major minor text ->
  check_version parse h (skipn 16 b) g = (r, g') -> hd_cmd h = 1 ->
  (major = 0 /\ caps_typed text /\ pgsize_ok (ng_pgsize g) text /\ fd_limit_ok text /\
   r = Ok (minor, bool_of (capability text ["twin_socket"%string; "supported"%string]) false) /\
   ng_fds g' = int_of (capability text ["max_msg_fds"%string]) 1 to_int /\
   ng_xfer g' = size_of (capability text ["max_data_xfer_size"%string]) (1024 * 1024) (fun v => to_size (to_int v)) /\
   ng_pgsize g' = told_pgsize (ng_pgsize g) text)
  \/
  (~ (major = 0 /\ caps_typed text /\ pgsize_ok (ng_pgsize g) text /\ fd_limit_ok text) /\ r = Err EINVAL).
Proof.
  intros V H HC. pose proof (vm_length _ _ _ _ _ _ V) as LB. unfold check_version in H. rewrite HC in H. change (1 =? CMD_VERSION) with true in H. cbn [negb] in H.
  rewrite skipn_length in H.
  replace (N.of_nat (length b - 16) <? 4) with false in H by lia.
  rewrite !rd_u16, !u16_skipn in H by (rewrite skipn_length; lia). unfold need in H.
  change (16 + 0)%nat with 16%nat in H. change (16 + 2)%nat with 18%nat in H.
  rewrite (vm_major _ _ _ _ _ _ V), (vm_minor _ _ _ _ _ _ V) in H. unfold LIB_MAJOR in H.
  destruct (N.eqb_spec major 0) as [->|NZ]; cbn [negb] in H; [|injection H as <- <-; right; split; [tauto|reflexivity]].
  destruct (vm_text _ _ _ _ _ _ V) as [(L20 & ->)|(L20 & LAST & TX)].
  - replace (4 <? N.of_nat (length b - 16)) with false in H by lia. cbn [negb] in H. injection H as <- <-. left.
    unfold caps_typed, pgsize_ok, fd_limit_ok, told_pgsize, capability. cbn. repeat split; auto; try discriminate; try lia; destruct (ng_pgsize g); reflexivity.
  - replace (4 <? N.of_nat (length b - 16)) with true in H by lia. cbn [negb] in H.
    assert (SK : skipn 4 (skipn 16 b) = skipn 20 b).
    { clear - LB. do 16 (destruct b as [|? b]; [cbn in LB; lia|]). reflexivity. }
    rewrite SK in H.
    assert (LS : last (skipn 20 b) 1 = 0).
    { rewrite <- LAST. apply last_skipn. exact L20. }
    rewrite LS in H. cbn [N.eqb negb] in H. rewrite <- TX in H.
    destruct (parse_version text (mk_limits 1 DEFAULT_XFER 0 false)) as (ok, p') eqn:PV. apply parse_spec in PV. destruct PV as (PV1 & PV2).
    cbn [lm_fds lm_xfer lm_pgsize lm_twin] in PV2.
    destruct ok; cbn [negb] in H; [|injection H as <- <-; right; split; [|reflexivity]; intros (_ & X & _); apply PV1 in X; discriminate X].
    destruct (PV2 eq_refl) as (E1 & E2 & E3 & E4). clear PV2.
    destruct (nego_pgsize (ng_pgsize g) (lm_pgsize p')) as (okp, pg) eqn:NP. apply nego_pgsize_spec in NP. destruct NP as (NP & NP2).
    assert (PG : okp = true <-> pgsize_ok (ng_pgsize g) text).
    { rewrite NP, E3. unfold pgsize_ok, size_of. destruct (capability text ["migration"%string; "pgsize"%string]) as [[]|]; tauto. }
    destruct okp; cbn [negb] in H; [|injection H as <- <-; right; split; [|reflexivity]; intros (_ & _ & X & _); apply PG in X; discriminate X].
    destruct ((lm_fds p' <? 0) || (CLIENT_MAX_FDS_LIMIT <? lm_fds p'))%Z eqn:FL; unfold CLIENT_MAX_FDS_LIMIT in FL.
    + injection H as <- <-. right. split; [|reflexivity]. intros (_ & _ & _ & X). unfold fd_limit_ok in X. lia.
    + injection H as <- <-. left. cbn [ng_fds ng_xfer ng_pgsize]. rewrite E4.
      assert (TP : pg = told_pgsize (ng_pgsize g) text).
      { rewrite (NP2 eq_refl), E3. unfold told_pgsize, size_of. destruct (ng_pgsize g); [|reflexivity].
        destruct (capability text ["migration"%string; "pgsize"%string]) as [[]|]; reflexivity. }
      repeat split; try tauto; try congruence; try (apply PV1; reflexivity); try (apply PG; reflexivity); unfold fd_limit_ok; lia.
Qed.

(* ---------- C40 *)

Lemma attach_cases parse print t g a fd id major minor text r t' g' ev :
  connecting parse t a fd id major minor text ->
  attach parse print t g a = (r, t', g', ev) ->
  (major = 0 /\ caps_typed text /\ pgsize_ok (ng_pgsize g) text /\ fd_limit_ok text /\
   ng_fds g' = int_of (capability text ["max_msg_fds"%string]) 1 to_int /\
   ng_xfer g' = size_of (capability text ["max_data_xfer_size"%string]) (1024 * 1024) (fun v => to_size (to_int v)) /\
   ng_pgsize g' = told_pgsize (ng_pgsize g) text /\
   exists o evs, finish_negotiate print id minor (bool_of (capability text ["twin_socket"%string; "supported"%string]) false) g' a = (o, evs) /\
     match o with
     | Ok cmd => r = Ok tt /\ t' = mk_tran fd cmd /\ ev = evs
     | Err e => r = Err e /\ t' = mk_tran (-1) (tr_cmd t) /\ ev = evs ++ [AtClosed fd]
     | Crash c => False
     end)
  \/
  (~ (major = 0 /\ caps_typed text /\ pgsize_ok (ng_pgsize g) text /\ fd_limit_ok text) /\ r = Err EINVAL /\ t' = mk_tran (-1) (tr_cmd t) /\
   ev = match send_result 16 (at_send a) with Ok _ => [AtSent (send_bytes id true 1 EINVAL []) []] | _ => [] end ++ [AtClosed fd]).
Proof.
  intros [CF CA AV (b & rest & ST & V)] H. unfold attach in H. rewrite CF in H. cbn [Z.eqb negb] in H. change (negb (-1 =? -1)%Z) with false in H. cbn iota in H. rewrite CA in H.
  destruct (vm_msg _ _ _ _ _ _ V) as (flags & error & VM & VF).
  unfold negotiate in H. rewrite ST, (recv_alloc_message b rest id 1 flags error (skipn 16 b) (at_avail a) VM VF (vm_max _ _ _ _ _ _ V) AV) in H.
  destruct (check_version parse (mk_header id 1 (N.of_nat (length b)) flags error) (skipn 16 b) g) as (r1, g1) eqn:CV.
  destruct (check_version_spec _ _ _ _ _ _ _ _ _ _ V CV eq_refl) as [(A1 & A2 & A3 & A4 & -> & A6 & A7 & A8)|(A1 & ->)].
  - cbn [hd_id] in H. destruct (finish_negotiate print id minor (bool_of (capability text ["twin_socket"%string; "supported"%string]) false) g1 a) as (o, evs) eqn:FN.
    left. assert (G : g' = g1) by (destruct o; injection H as _ _ X _; congruence). subst g'. repeat (split; [assumption|]). exists o, evs. split; [assumption|].
    destruct o as [cmd|e|c].
    + injection H as <- <- <-. auto.
    + injection H as <- <- <-. auto.
    + exfalso. unfold finish_negotiate in FN. destruct (if _ && _ then _ else _) as [[[f0 f1] paired]|]; [|discriminate FN].
      unfold send_iovec, send_result in FN. destruct (at_send a) as [e|n]; [discriminate FN|]. destruct (n <? _); discriminate FN.
  - right. cbn [hd_id hd_cmd] in H. unfold send_iovec in H.
    change (hd_size (send_header id true 1 EINVAL [])) with 16 in H.
    injection H as <- <- <- <-. repeat split; auto.
Qed.

(* A client that is accepted has the same major version; it is told the lower of the two minor versions, in a reply to
   its message; limits it did not mention take their defaults, those it did mention (as numbers that fit an int) are
   taken over; and its descriptor limit is between 0 and 1024. *)
Theorem C40_established : forall parse print t g a fd id major minor text t' g' ev,
  connecting parse t a fd id major minor text -> id < 65536 -> (forall j, N.of_nat (length (print j)) < 4294967200) ->
  attach parse print t g a = (Ok tt, t', g', ev) ->
  major = 0 /\ tr_conn t' = fd /\
  (exists reply fds payload, In (AtSent reply fds) ev /\ message reply id 1 1 0 payload /\ u16 payload 0 = 0 /\ u16 payload 2 = N.min minor 2) /\
  (0 <= ng_fds g' <= 1024)%Z /\
  (capability text ["max_msg_fds"%string] = None -> ng_fds g' = 1%Z) /\
  (capability text ["max_data_xfer_size"%string] = None -> ng_xfer g' = 1024 * 1024) /\
  (forall v e, capability text ["max_msg_fds"%string] = Some (JInt v e) -> (-2147483648 <= v < 2147483648)%Z -> ng_fds g' = v) /\
  (forall v e, capability text ["max_data_xfer_size"%string] = Some (JInt v e) -> (0 <= v < 2147483648)%Z -> ng_xfer g' = Z.to_N v).
Proof.
  intros parse print t g a fd id major minor text t' g' ev CN ID PL H.
  destruct (attach_cases _ _ _ _ _ _ _ _ _ _ _ _ _ _ CN H) as [(A1 & A2 & A3 & A4 & A5 & A6 & A7 & o & evs & FN & R)|(_ & R & _)]; [|discriminate R].
  destruct o as [cmd|e|c]; [|destruct R as (R & _); discriminate R|destruct R].
  destruct R as (_ & -> & ->). split; [exact A1|]. split; [reflexivity|]. split.
  - unfold finish_negotiate in FN. destruct (if _ && _ then _ else _) as [[[f0 f1] paired]|] in FN; [|discriminate FN].
    set (payload := le_bytes 2 LIB_MAJOR ++ le_bytes 2 (N.min minor LIB_MINOR) ++ print (server_caps (ng_pgsize g') (0 <=? f0)%Z) ++ [0]) in *.
    unfold send_iovec in FN. destruct (send_result _ (at_send a)) as [[]|e|c]; [|discriminate FN|discriminate FN].
    injection FN as <- <-. exists (send_bytes id true CMD_VERSION 0 payload), (if (0 <=? f0)%Z then [f0] else []), payload.
    split; [apply in_or_app; right; left; reflexivity|]. split; [|split].
    + pose proof (C50_reply (mk_reply id 1 0 payload [])) as W. cbn [rp_id rp_cmd rp_error rp_body] in W. cbn [N.eqb] in W. apply W; try lia.
      unfold payload. rewrite !app_length, !le_bytes_length. specialize (PL (server_caps (ng_pgsize g') (0 <=? f0)%Z)). cbn [length]. lia.
    + unfold payload. apply u16_le. reflexivity.
    + unfold payload. rewrite u16_app by (rewrite le_bytes_length; lia). rewrite le_bytes_length. cbn [Nat.sub]. apply u16_le. unfold LIB_MINOR. lia.
  - split; [rewrite A5; exact A4|]. split; [|split; [|split]].
    + intros E. rewrite A5, E. reflexivity.
    + intros E. rewrite A6, E. reflexivity.
    + intros v e E B. rewrite A5, E. cbn [int_of]. apply to_int_id. exact B.
    + intros v e E B. rewrite A6, E. cbn [size_of]. rewrite to_int_id by lia. apply to_size_id. lia.
Qed.
Print Assumptions C40_established.

(* What an accepted client is told, as a JSON text after the version numbers: at most 8 descriptors and 1 MiB of data in
   a message; for a device with migration the page size, which is the host's if the client named one; and the twin socket
   exactly if a descriptor comes with the reply. *)
Theorem C40_announced : forall parse print t g a fd id major minor text t' g' ev,
  connecting parse t a fd id major minor text -> id < 65536 -> (forall j, N.of_nat (length (print j)) < 4294967200) ->
  attach parse print t g a = (Ok tt, t', g', ev) ->
  exists reply fds payload j,
    In (AtSent reply fds) ev /\ message reply id 1 1 0 payload /\ skipn 4 payload = print j ++ [0] /\
    capability (Some j) ["max_msg_fds"%string] = Some (JInt 8 false) /\
    capability (Some j) ["max_data_xfer_size"%string] = Some (JInt 1048576 false) /\
    (ng_pgsize g = None -> ng_pgsize g' = None /\ capability (Some j) ["migration"%string] = None) /\
    (forall p, ng_pgsize g = Some p -> exists q, ng_pgsize g' = Some q /\
       capability (Some j) ["migration"%string; "pgsize"%string] = Some (JInt (Z.of_N q) false) /\
       q = match capability text ["migration"%string; "pgsize"%string] with
           | Some (JInt v _) => if to_size v =? 0 then p else 4096
           | _ => p
           end) /\
    (fds = [] -> capability (Some j) ["twin_socket"%string] = None) /\
    (fds <> [] -> length fds = 1%nat /\ capability (Some j) ["twin_socket"%string; "supported"%string] = Some (JBool true) /\
       capability (Some j) ["twin_socket"%string; "fd_index"%string] = Some (JInt 0 false)).
Proof.
  intros parse print t g a fd id major minor text t' g' ev CN ID PL H.
  destruct (attach_cases _ _ _ _ _ _ _ _ _ _ _ _ _ _ CN H) as [(A1 & A2 & A3 & A4 & A5 & A6 & A7 & o & evs & FN & R)|(_ & R & _)]; [|discriminate R].
  destruct o as [cmd|e|c]; [|destruct R as (R & _); discriminate R|destruct R].
  destruct R as (_ & -> & ->).
  unfold finish_negotiate in FN. destruct (if _ && _ then _ else _) as [[[f0 f1] paired]|] in FN; [|discriminate FN].
  set (j := server_caps (ng_pgsize g') (0 <=? f0)%Z) in *.
  set (payload := le_bytes 2 LIB_MAJOR ++ le_bytes 2 (N.min minor LIB_MINOR) ++ print j ++ [0]) in *.
  unfold send_iovec in FN. destruct (send_result _ (at_send a)) as [[]|e|c]; [|discriminate FN|discriminate FN].
  injection FN as <- <-. exists (send_bytes id true CMD_VERSION 0 payload), (if (0 <=? f0)%Z then [f0] else []), payload, j.
  split; [apply in_or_app; right; left; reflexivity|]. split; [|split; [reflexivity|]].
  { pose proof (C50_reply (mk_reply id 1 0 payload [])) as W. cbn [rp_id rp_cmd rp_error rp_body] in W. cbn [N.eqb] in W. apply W; try lia.
    unfold payload. rewrite !app_length, !le_bytes_length. specialize (PL j). cbn [length]. lia. }
  unfold j. rewrite A7. unfold told_pgsize. destruct (ng_pgsize g) as [p|].
  - split; [destruct (0 <=? f0)%Z; reflexivity|]. split; [destruct (0 <=? f0)%Z; reflexivity|]. split; [discriminate|]. split.
    + intros p0 E. injection E as <-. eexists. split; [reflexivity|]. split; [destruct (0 <=? f0)%Z; reflexivity|reflexivity].
    + destruct (0 <=? f0)%Z; (split; [intros X; try discriminate X; reflexivity|intros X]); [repeat split|contradiction].
  - split; [destruct (0 <=? f0)%Z; reflexivity|]. split; [destruct (0 <=? f0)%Z; reflexivity|]. split; [|split; [discriminate|]].
    + intros _. split; [reflexivity|]. destruct (0 <=? f0)%Z; reflexivity.
    + destruct (0 <=? f0)%Z; (split; [intros X; try discriminate X; reflexivity|intros X]); [repeat split|contradiction].
Qed.
Print Assumptions C40_announced.

(* A connection exists only after such a message: whatever bytes the client sends, they begin with a version message of
   major version 0. *)
Theorem C40_only_same_major : forall parse print t g a t' g' ev,
  bytes (at_stream a) -> attach parse print t g a = (Ok tt, t', g', ev) ->
  exists b rest id minor text, at_stream a = b ++ rest /\ version_msg parse b id 0 minor text.
Proof.
  intros parse print t g a t' g' ev B H. unfold attach in H. destruct (negb _); [discriminate H|]. destruct (at_accept a) as [fd|e]; [|discriminate H].
  unfold negotiate in H. destruct (recv_alloc (at_avail a) (at_stream a)) as (r, w) eqn:RA. destruct r as [(h, body)|e|c]; try discriminate H.
  destruct (check_version parse h body g) as (r1, g1) eqn:CV.
  destruct r1 as [(minor, twin)|e|c]; [|destruct (send_iovec _ _ _ _ _ _); discriminate H|discriminate H].
  clear H. set (w0 := at_stream a) in *.
  unfold recv_alloc, recv_alloc_as, recv_msg in RA. destruct (get_msg (at_avail a) w0) as (rh, w1) eqn:GM. destruct rh as [h0|e|c]; try discriminate RA.
  assert (G : (16 <= length w0)%nat /\ h0 = mk_header (u16 w0 0) (u16 w0 2) (u32 w0 4) (u32 w0 8) (u32 w0 12) /\ w1 = skipn 16 w0).
  { unfold get_msg, recv_some in GM.
    set (n := Nat.min 16 (Nat.max 1 (at_avail a))) in *. destruct (firstn n w0) as [|x l] eqn:FN; [discriminate GM|]. rewrite <- FN in GM.
    destruct (le_lt_dec 16 (length (firstn n w0))) as [GE|LT]; [|rewrite dec_short in GM by exact LT; discriminate GM].
    rewrite firstn_length in GE. assert (n = 16%nat) by lia. rewrite dec_wire in GM by (rewrite firstn_length; lia).
    rewrite !u16_firstn, !u32_firstn in GM by lia. injection GM as <- <-. replace n with 16%nat. repeat split; lia. }
  destruct G as (L16 & -> & ->). cbn [hd_id hd_cmd hd_size hd_flags hd_error] in RA.
  rewrite type_mask in RA. destruct (N.eqb_spec (u32 w0 8 mod 16) 0) as [FT|]; cbn [negb] in RA; [|discriminate RA].
  destruct ((u32 w0 4 <? 16) || (SERVER_MAX_MSG_SIZE <? u32 w0 4)) eqn:SZ; [discriminate RA|]. change (0 <? 0) with false in RA. cbn [andb hd_size] in RA.
  unfold SERVER_MAX_MSG_SIZE in SZ. set (size := u32 w0 4) in *.
  assert (HB : h = mk_header (u16 w0 0) (u16 w0 2) size (u32 w0 8) (u32 w0 12) /\ body = firstn (N.to_nat (size - 16)) (skipn 16 w0) /\ length body = N.to_nat (size - 16)).
  { remember (skipn 16 w0) as w1 eqn:W1. clear W1. destruct (size - 16 =? 0) eqn:Z.
    - injection RA as <- <- _. replace (N.to_nat (size - 16)) with 0%nat by lia. auto.
    - unfold recv_all in RA. destruct (N.of_nat (length (firstn (N.to_nat (size - 16)) w1)) =? 0); [discriminate RA|].
      destruct (N.eqb_spec (N.of_nat (length (firstn (N.to_nat (size - 16)) w1))) (size - 16)) as [LE|]; cbn [negb] in RA; [|discriminate RA].
      injection RA as <- <- _. repeat split; lia. }
  destruct HB as (-> & BD & LB). clear RA.
  assert (LW : (N.to_nat size <= length w0)%nat).
  { rewrite BD, firstn_length, skipn_length in LB. lia. }
  set (b := firstn (N.to_nat size) w0).
  assert (LEN : length b = N.to_nat size) by (unfold b; rewrite firstn_length; lia).
  assert (SB : skipn 16 b = body).
  { unfold b. rewrite BD. rewrite skipn_firstn_comm. f_equal. lia. }
  unfold check_version in CV. cbn [hd_cmd] in CV. unfold CMD_VERSION in CV.
  destruct (N.eqb_spec (u16 w0 2) 1) as [CM|]; cbn [negb] in CV; [|discriminate CV].
  destruct (N.of_nat (length body) <? 4) eqn:L4; [discriminate CV|].
  rewrite !rd_u16 in CV by lia. unfold need in CV. unfold LIB_MAJOR in CV.
  destruct (N.eqb_spec (u16 body 0) 0) as [MJ|]; cbn [negb] in CV; [|discriminate CV].
  assert (US : forall o, u16 body o = u16 b (16 + o)) by (intros o; rewrite <- SB; apply u16_skipn).
  assert (LAST : (20 < length b)%nat -> last b 1 = 0).
  { intros G20. replace (4 <? N.of_nat (length body)) with true in CV by lia. cbn [negb] in CV.
    destruct (N.eqb_spec (last (skipn 4 body) 1) 0) as [LZ|]; cbn [negb] in CV; [|discriminate CV]. rewrite <- LZ, <- SB.
    rewrite !last_skipn; [reflexivity|lia|rewrite skipn_length; lia]. }
  exists b, (skipn (N.to_nat size) w0), (u16 w0 0), (u16 b 18), (if (Nat.ltb 20 (length b)) then parse (skipn 20 b) else Some (JObj [])).
  split; [unfold b; symmetry; apply firstn_skipn|]. split.
  - exists (u32 w0 8), (u32 w0 12). split; [|exact FT]. split; unfold b; rewrite ?u16_firstn, ?u32_firstn by lia; auto; fold b; lia.
  - lia.
  - unfold b. apply bytes_firstn. exact B.
  - lia.
  - rewrite <- MJ, US. reflexivity.
  - reflexivity.
  - destruct (Nat.ltb_spec 20 (length b)); [right; auto|left; split; [lia|reflexivity]].
Qed.
Print Assumptions C40_only_same_major.

(* A client of another major version, or with a descriptor limit (as a number that fits an int) outside 0..1024, or
   whose capabilities are not of the right types, is refused with an error reply and disconnected. *)
Theorem C40_refused_partial : forall parse print t g a fd id major minor text r t' g' ev n,
  connecting parse t a fd id major minor text -> id < 65536 -> at_send a = Sent n -> 16 <= n ->
  attach parse print t g a = (r, t', g', ev) ->
  (major <> 0 \/
   (exists v e, capability text ["max_msg_fds"%string] = Some (JInt v e) /\ (-2147483648 <= v < 2147483648)%Z /\ ~ (0 <= v <= 1024)%Z) \/
   ~ caps_typed text \/
   (ng_pgsize g <> None /\ exists v e, capability text ["migration"%string; "pgsize"%string] = Some (JInt v e) /\ (0 < v < 18446744073709551616)%Z /\ v <> 4096%Z)) ->
  r = Err EINVAL /\ tr_conn t' = (-1)%Z /\
  exists reply, message reply id 1 33 EINVAL [] /\ ev = [AtSent reply []; AtClosed fd].
Proof.
  intros parse print t g a fd id major minor text r t' g' ev n CN ID SE N16 H W.
  destruct (attach_cases _ _ _ _ _ _ _ _ _ _ _ _ _ _ CN H) as [(A1 & A2 & A3 & A4 & _)|(_ & -> & -> & ->)].
  - exfalso. destruct W as [W|[(v & e & W & B & O)|[W|(M & v & e & W & B & O)]]].
    + contradiction.
    + unfold fd_limit_ok in A4. rewrite W in A4. cbn [int_of] in A4. rewrite to_int_id in A4 by exact B. contradiction.
    + contradiction.
    + unfold pgsize_ok in A3. rewrite W in A3. rewrite to_size_id in A3 by lia. destruct A3 as [A3|A3]; [contradiction|]. lia.
  - split; [reflexivity|]. split; [reflexivity|]. rewrite SE. unfold send_result. replace (n <? 16) with false by lia.
    eexists. split; [|reflexivity]. exact (C50_reply (mk_reply id 1 EINVAL [] []) ID eq_refl eq_refl eq_refl).
Qed.
Print Assumptions C40_refused_partial.

(* Nothing is left of a failed attempt: the connection is closed, and a later client starts from the same state. *)
Theorem C40_failed_closes : forall parse print t g a fd e t' g' ev,
  tr_conn t = (-1)%Z -> at_accept a = inl fd -> attach parse print t g a = (Err e, t', g', ev) ->
  t' = t /\ last ev (AtClosed (-1)) = AtClosed fd.
Proof.
  intros parse print t g a fd e t' g' ev C A H. unfold attach in H. rewrite C, A in H. change (negb (-1 =? -1)%Z) with false in H. cbn iota in H.
  destruct (negotiate parse print g a) as ((o, g1), ev1). destruct o; [discriminate H| |discriminate H].
  injection H as <- <- <- <-. split; [destruct t; cbn in *; congruence|apply last_last].
Qed.
Print Assumptions C40_failed_closes.

(* The twin socket is made exactly if the client supports it and takes descriptors; the client gets one end, with the
   reply, and the server keeps the other. *)
Theorem C40_twin : forall parse print t g a fd id major minor text t' g' ev,
  connecting parse t a fd id major minor text -> attach parse print t g a = (Ok tt, t', g', ev) ->
  let twin := bool_of (capability text ["twin_socket"%string; "supported"%string]) false in
  (twin = true /\ (0 < ng_fds g')%Z -> exists f0 f1 b, at_pair a = inl (f0, f1) /\ tr_cmd t' = f1 /\
     ((0 <= f0)%Z -> ev = [AtPaired f0 f1; AtSent b [f0]; AtClosed f0])) /\
  (~ (twin = true /\ (0 < ng_fds g')%Z) -> exists b, tr_cmd t' = (-1)%Z /\ ev = [AtSent b []]).
Proof.
  intros parse print t g a fd id major minor text t' g' ev CN H.
  destruct (attach_cases _ _ _ _ _ _ _ _ _ _ _ _ _ _ CN H) as [(A1 & A2 & A3 & A4 & A5 & A6 & A7 & o & evs & FN & R)|(_ & R & _)]; [|discriminate R].
  destruct o as [cmd|e|c]; [|destruct R as (R & _); discriminate R|destruct R]. destruct R as (_ & -> & ->). cbv zeta.
  set (twin := bool_of _ false) in *. unfold finish_negotiate in FN. cbn [tr_cmd].
  destruct (twin && (0 <? ng_fds g')%Z) eqn:T.
  - apply andb_true_iff in T. destruct T as [T1 T2]. apply Z.ltb_lt in T2. split; [intros _|intros N; destruct N; auto].
    destruct (at_pair a) as [[f0 f1]|e]; [|discriminate FN]. unfold send_iovec in FN. destruct (send_result _ (at_send a)) as [[]|e|c]; [|discriminate FN|discriminate FN].
    injection FN as <- <-. exists f0, f1. eexists. split; [reflexivity|]. split; [reflexivity|]. intros F.
    replace (0 <=? f0)%Z with true by lia. replace (f0 =? -1)%Z with false by lia. cbn [app]. reflexivity.
  - split; [intros (X & Y); apply Z.ltb_lt in Y; rewrite X, Y in T; discriminate T|]. intros _.
    unfold send_iovec in FN. destruct (send_result _ (at_send a)) as [[]|e|c]; [|discriminate FN|discriminate FN].
    injection FN as <- <-. eexists. split; reflexivity.
Qed.
Print Assumptions C40_twin.

(* No descriptor is lost or closed twice by an attempt, whatever comes of it: those of the connection and of the twin
   socket are kept in the transport or closed. *)
Theorem C40_descriptors : forall parse print t g a fd r t' g' ev,
  tr_conn t = (-1)%Z -> tr_cmd t = (-1)%Z -> at_accept a = inl fd -> attach parse print t g a = (r, t', g', ev) -> (forall c, r <> Crash c) ->
  forall x, (0 <= x)%Z ->
    (times x (fd :: pair_fds ev) = times x (closed_fds ev) + times x [tr_conn t'; tr_cmd t'])%nat.
Proof.
  assert (M1 : forall x, (0 <= x)%Z -> times x [(-1)%Z] = 0%nat) by (intros x X; unfold times; rewrite count_occ_cons_neq by lia; reflexivity).
  assert (CONS : forall x y l, times x (y :: l) = (times x [y] + times x l)%nat) by (intros x y l; exact (count_occ_app Z.eq_dec [y] l x)).
  assert (APP : forall x l1 l2, times x (l1 ++ l2) = (times x l1 + times x l2)%nat) by (intros; apply count_occ_app).
  assert (CLO : forall x f, (0 <= x)%Z -> times x (closed_fds (if (f =? -1)%Z then [] else [AtClosed f])) = times x [f]).
  { intros x f X. destruct (Z.eqb_spec f (-1)) as [->|]; [now rewrite M1|reflexivity]. }
  assert (PCL : forall f, pair_fds (if (f =? -1)%Z then [] else [AtClosed f]) = []) by (intros f; now destruct (f =? -1)%Z).
  assert (CA : forall e1 e2, closed_fds (e1 ++ e2) = closed_fds e1 ++ closed_fds e2) by (intros; unfold closed_fds; apply flat_map_app).
  assert (PA : forall e1 e2, pair_fds (e1 ++ e2) = pair_fds e1 ++ pair_fds e2) by (intros; unfold pair_fds; apply flat_map_app).
  assert (FIN : forall print id minor twin g a o ev x, finish_negotiate print id minor twin g a = (o, ev) -> (0 <= x)%Z ->
    (times x (pair_fds ev) = times x (closed_fds ev) + match o with Ok c => times x [c] | Err _ => 0 | Crash _ => times x (pair_fds ev) - times x (closed_fds ev) end)%nat \/ exists c, o = Crash c).
  { intros print id minor twin g a o ev x FN X. unfold finish_negotiate in FN.
    assert (G : forall f0 f1 paired, pair_fds paired = [f0; f1] \/ (paired = [] /\ f0 = (-1)%Z /\ f1 = (-1)%Z) -> closed_fds paired = [] -> 
      forall b (sent : list attach_event), closed_fds sent = [] -> pair_fds sent = [] ->
      (times x (pair_fds (paired ++ sent ++ b)) = times x [f0] + times x [f1] + times x (pair_fds b))%nat /\
      closed_fds (paired ++ sent ++ b) = closed_fds b).
    { intros f0 f1 paired P C b sent S1 S2. rewrite !PA, !CA, !APP, C, S1, S2. split; [|reflexivity]. destruct P as [->|(-> & -> & ->)].
      - rewrite (CONS x f0 [f1]). unfold times at 3. cbn [count_occ]. lia.
      - rewrite (M1 x X). cbn. lia. }
    destruct (if twin && _ then _ else _) as [[[f0 f1] paired]|e] eqn:E in FN; [|injection FN as <- <-; left; reflexivity].
    assert (P : (pair_fds paired = [f0; f1] \/ (paired = [] /\ f0 = (-1)%Z /\ f1 = (-1)%Z)) /\ closed_fds paired = []).
    { destruct (twin && (0 <? ng_fds g)%Z); [|injection E as <- <- <-; auto]. destruct (at_pair a) as [[y z]|]; [|discriminate E]. injection E as <- <- <-. split; [left|]; reflexivity. }
    destruct P as [P C]. destruct (send_iovec _ _ _ _ _ _) as [o1 b]. destruct o1 as [u|e|c]; [| |right; eexists; injection FN as <- <-; reflexivity]; left; injection FN as <- <-.
    - destruct (G f0 f1 paired P C (if (f0 =? -1)%Z then [] else [AtClosed f0]) [AtSent b (if (0 <=? f0)%Z then [f0] else [])] eq_refl eq_refl) as [G1 G2]. cbn [app] in G1, G2 |- *.
      rewrite G1, G2, CLO, PCL by exact X. cbn. lia.
    - destruct (G f0 f1 paired P C ((if (f0 =? -1)%Z then [] else [AtClosed f0]) ++ (if (f1 =? -1)%Z then [] else [AtClosed f1])) [] eq_refl eq_refl) as [G1 G2]. cbn [app] in G1, G2 |- *.
      rewrite G1, G2, CA, PA, !APP, !CLO, !PCL by exact X. cbn. lia. }
  intros parse print t g a fd r t' g' ev C1 C2 A H NC x X. unfold attach in H. rewrite C1, A in H. change (negb (-1 =? -1)%Z) with false in H. cbn iota in H.
  assert (NEG : forall o g1 ev1, negotiate parse print g a = (o, g1, ev1) -> (forall c, o <> Crash c) ->
    (times x (pair_fds ev1) = times x (closed_fds ev1) + match o with Ok c => times x [c] | _ => 0 end)%nat).
  { intros o g1 ev1 N NO. unfold negotiate in N. destruct (recv_alloc (at_avail a) (at_stream a)) as [[[h body]|e|c] w]; [| |now injection N as <- _ _; destruct (NO c)].
    - destruct (check_version parse h body g) as [[[minor twin]|e|c] g2]; [| |now injection N as <- _ _; destruct (NO c)].
      + destruct (finish_negotiate print (hd_id h) minor twin g2 a) as [o2 ev2] eqn:F. injection N as -> <- <-.
        destruct (FIN _ _ _ _ _ _ _ _ x F X) as [K|[c K]]; [|now destruct (NO c)]. destruct o; [exact K|exact K|now destruct (NO c)].
      + destruct (send_iovec _ _ _ _ _ _) as [o1 b]. injection N as <- <- <-. destruct o1; reflexivity.
    - injection N as <- <- <-. reflexivity. }
  destruct (negotiate parse print g a) as ((o, g1), ev1) eqn:N. specialize (NEG _ _ _ eq_refl). destruct o as [cmd|e|c].
  - injection H as <- <- <- <-. cbn [tr_conn tr_cmd]. rewrite (CONS x fd), (CONS x fd [cmd]), NEG by discriminate. lia.
  - injection H as <- <- <- <-. cbn [tr_conn tr_cmd]. rewrite C2, (CONS x fd), PA, CA, !APP, NEG by discriminate. rewrite (CONS x (-1)%Z), (M1 x X).
    change (closed_fds [AtClosed fd]) with [fd]. change (pair_fds [AtClosed fd]) with (@nil Z). change (times x []) with 0%nat. lia.
  - injection H as <- _ _ _. now destruct (NC c).
Qed.
Print Assumptions C40_descriptors.

(* No version message crashes the server, whatever its length and contents. *)
Theorem C53_attach : forall parse print t g a r t' g' ev,
  attach parse print t g a = (r, t', g', ev) -> forall c, r <> Crash c.
Proof.
  assert (GM : forall avail w o w1, get_msg avail w = (o, w1) -> forall c, o <> Crash c).
  { intros avail w o w1 H c ->. unfold get_msg in H. destruct (recv_some 16 avail w) as [[|x b] w2]; [discriminate H|].
    destruct (dec_header (x :: b)); discriminate H. }
  assert (RM : forall avail w o w1, recv_msg false None 0 avail w = (o, w1) -> forall c, o <> Crash c).
  { intros avail w o w1 H c ->. unfold recv_msg in H. destruct (get_msg avail w) as [[h|e|cr] w2] eqn:G; [|discriminate H|exact (GM _ _ _ _ G cr eq_refl)].
    destruct (if negb _ then Some EINVAL else None); [discriminate H|]. destruct (_ || _); discriminate H. }
  assert (RA : forall avail w o w1, recv_alloc avail w = (o, w1) -> forall c, o <> Crash c).
  { intros avail w o w1 H c ->. unfold recv_alloc, recv_alloc_as in H. destruct (recv_msg false None 0 avail w) as [[[h b]|e|cr] w2] eqn:G; [|discriminate H|exact (RM _ _ _ _ G cr eq_refl)].
    cbv zeta in H. destruct (hd_size h - 16 =? 0); [discriminate H|]. unfold recv_all in H. destruct (_ =? 0); [discriminate H|]. destruct (negb _); discriminate H. }
  assert (CV : forall parse h body g o g1, check_version parse h body g = (o, g1) -> forall c, o <> Crash c).
  { intros parse h body g o g1 H c ->. unfold check_version in H. destruct (negb _); [discriminate H|]. destruct (_ <? 4) eqn:L; [discriminate H|].
    destruct (rd_some body 0 2) as [v1 E1]; [lia|]. destruct (rd_some body 2 2) as [v2 E2]; [lia|]. rewrite E1, E2 in H. cbn [need] in H.
    destruct (negb _); [discriminate H|]. cbv zeta in H. destruct (negb _); [discriminate H|]. destruct (negb _); [discriminate H|].
    destruct (parse_version _ _) as [ok p]. destruct (negb ok); [discriminate H|]. destruct (nego_pgsize _ _) as [okp pg]. destruct (negb okp); [discriminate H|].
    destruct ((_ || _)%Z); discriminate H. }
  assert (FN : forall print id minor twin g a o ev, finish_negotiate print id minor twin g a = (o, ev) -> forall c, o <> Crash c).
  { intros print id minor twin g a o ev H c ->. unfold finish_negotiate in H. destruct (if twin && _ then _ else _) as [[[f0 f1] paired]|e]; [|discriminate H].
    unfold send_iovec, send_result in H. destruct (at_send a) as [e|n]; [discriminate H|]. destruct (n <? _); discriminate H. }
  intros parse print t g a r t' g' ev H c ->. unfold attach in H. destruct (negb _); [discriminate H|]. destruct (at_accept a) as [fd|e]; [|discriminate H].
  destruct (negotiate parse print g a) as [[[cmd|e|cr] g1] ev1] eqn:N; [discriminate H|discriminate H|]. clear H. unfold negotiate in N.
  destruct (recv_alloc _ _) as [[[h body]|e|cr1] w] eqn:R; [|discriminate N|exact (RA _ _ _ _ R cr1 eq_refl)].
  destruct (check_version parse h body g) as [[[minor twin]|e|cr1] g2] eqn:V; [| |exact (CV _ _ _ _ _ _ V cr1 eq_refl)].
  - destruct (finish_negotiate _ _ _ _ _ _) as [o1 ev2] eqn:F. injection N as -> _ _. exact (FN _ _ _ _ _ _ _ _ F cr eq_refl).
  - destruct (send_iovec _ _ _ _ _ _). discriminate N.
Qed.
Print Assumptions C53_attach.

(* Over any sequence of clients, every descriptor of a connection or of a twin socket is held by the transport or has
   been closed, once; after the last client has left none is held. *)
Theorem C40_descriptors_sessions : forall parse print g l t acc ev,
  visits parse print (mk_tran (-1) (-1)) g l = (t, acc, ev) ->
  Forall (fun v => match v with Arrives a => match at_accept a with inl fd => (0 <= fd)%Z | inr _ => True end | Leaves => True end) l ->
  (forall x, (0 <= x)%Z -> (times x (acc ++ pair_fds ev) = times x (closed_fds ev) + times x [tr_conn t; tr_cmd t])%nat) /\
  (last l Leaves = Leaves -> tr_conn t = (-1)%Z /\ tr_cmd t = (-1)%Z).
Proof.
  assert (M1 : forall x, (0 <= x)%Z -> times x [(-1)%Z] = 0%nat) by (intros x X; unfold times; rewrite count_occ_cons_neq by lia; reflexivity).
  assert (M2 : forall x y z, times x [y; z] = (times x [y] + times x [z])%nat) by (intros x y z; exact (count_occ_app Z.eq_dec [y] [z] x)).
  assert (APP : forall x l1 l2, times x (l1 ++ l2) = (times x l1 + times x l2)%nat) by (intros; apply count_occ_app).
  assert (CA : forall e1 e2, closed_fds (e1 ++ e2) = closed_fds e1 ++ closed_fds e2) by (intros; unfold closed_fds; apply flat_map_app).
  assert (PA : forall e1 e2, pair_fds (e1 ++ e2) = pair_fds e1 ++ pair_fds e2) by (intros; unfold pair_fds; apply flat_map_app).
  assert (CLO : forall x f, (0 <= x)%Z -> times x (closed_fds (if (f =? -1)%Z then [] else [AtClosed f])) = times x [f]).
  { intros x f X. destruct (Z.eqb_spec f (-1)) as [->|]; [now rewrite M1|reflexivity]. }
  assert (PCL : forall f, pair_fds (if (f =? -1)%Z then [] else [AtClosed f]) = []) by (intros f; now destruct (f =? -1)%Z).
  assert (G : forall parse print l t0 g t acc ev, visits parse print t0 g l = (t, acc, ev) -> ((0 <= tr_conn t0)%Z \/ (tr_conn t0 = (-1)%Z /\ tr_cmd t0 = (-1)%Z)) ->
    Forall (fun v => match v with Arrives a => match at_accept a with inl fd => (0 <= fd)%Z | inr _ => True end | Leaves => True end) l ->
    (forall x, (0 <= x)%Z -> (times x [tr_conn t0; tr_cmd t0] + times x (acc ++ pair_fds ev) = times x (closed_fds ev) + times x [tr_conn t; tr_cmd t])%nat) /\
    (last l (Arrives (mk_attach (inr 0) [] 0 (Sent 0) (inr 0))) = Leaves -> tr_conn t = (-1)%Z /\ tr_cmd t = (-1)%Z)).
  { intros parse print l. induction l as [|v l IH]; intros t0 g t acc ev H I F.
    { injection H as <- <- <-. split; [|discriminate]. intros x X. cbn [app]. change (times x (pair_fds [])) with 0%nat. change (times x (closed_fds [])) with 0%nat. lia. }
    inversion_clear F as [|? ? Fv Fl].
    assert (L : forall d, last (v :: l) d = match l with [] => v | _ => last l d end) by (intros d; destruct l; reflexivity).
    destruct v as [a|]; cbn [visits] in H.
    - destruct (attach parse print t0 g a) as [[[r t1] g1] ev1] eqn:A. destruct (visits parse print t1 g1 l) as [[t2 acc2] ev2] eqn:V. injection H as <- <- <-.
      pose proof (C53_attach _ _ _ _ _ _ _ _ _ A) as NC.
      assert (I1 : (0 <= tr_conn t1)%Z \/ (tr_conn t1 = (-1)%Z /\ tr_cmd t1 = (-1)%Z)).
      { pose proof A as A'. unfold attach in A'. destruct I as [I|[I1 I2]].
        - replace (tr_conn t0 =? -1)%Z with false in A' by lia. injection A' as _ <- _ _. left. exact I.
        - rewrite I1 in A'. change (negb (-1 =? -1)%Z) with false in A'. cbn iota in A'. destruct (at_accept a) as [fd|e]; [|injection A' as _ <- _ _; right; auto].
          destruct (negotiate parse print g a) as [[[cmd|e|cr] g2] ev3]; injection A' as <- <- _ _; cbn [tr_conn tr_cmd]; [left; exact Fv|right; auto|now destruct (NC cr)]. }
      destruct (IH _ _ _ _ _ V I1 Fl) as [K1 K2]. split.
      + intros x X. specialize (K1 x X). rewrite CA, PA, !APP in *.
        enough (E : (times x [tr_conn t0; tr_cmd t0] + (times x (match at_accept a with inl fd => if (tr_conn t0 <? 0)%Z then [fd] else [] | inr _ => [] end) + times x (pair_fds ev1)) =
                     times x (closed_fds ev1) + times x [tr_conn t1; tr_cmd t1])%nat) by lia.
        destruct I as [I|[J1 J2]].
        * unfold attach in A. replace (tr_conn t0 =? -1)%Z with false in A by lia. injection A as _ <- _ <-. replace (tr_conn t0 <? 0)%Z with false by lia.
          change (times x (pair_fds [])) with 0%nat. change (times x (closed_fds [])) with 0%nat. destruct (at_accept a); change (times x []) with 0%nat; lia.
        * destruct (at_accept a) as [fd|e] eqn:E.
          -- pose proof (C40_descriptors _ _ _ _ _ _ _ _ _ _ J1 J2 E A NC x X) as K. rewrite J1, J2. change (-1 <? 0)%Z with true. cbn iota.
             rewrite (M2 x (-1)%Z), (M1 x X). change (fd :: pair_fds ev1) with ([fd] ++ pair_fds ev1) in K. rewrite APP in K. lia.
          -- unfold attach in A. rewrite J1, E in A. change (negb (-1 =? -1)%Z) with false in A. cbn iota in A. injection A as _ <- _ <-.
             change (times x (pair_fds [])) with 0%nat. change (times x (closed_fds [])) with 0%nat. change (times x []) with 0%nat. lia.
      + rewrite L. destruct l; [discriminate|exact K2].
    - unfold detach in H. destruct (visits parse print (mk_tran (-1) (-1)) g l) as [[t2 acc2] ev2] eqn:V. injection H as <- <- <-.
      destruct (IH _ _ _ _ _ V (or_intror (conj eq_refl eq_refl)) Fl) as [K1 K2]. split.
      + intros x X. specialize (K1 x X). cbn [tr_conn tr_cmd] in K1. rewrite !CA, !PA, !APP, !PCL, !CLO in * by exact X.
        rewrite (M2 x (tr_conn t0)). rewrite (M2 x (-1)%Z), (M1 x X) in K1. change (times x []) with 0%nat. lia.
      + rewrite L. destruct l; [|exact K2]. injection V as <- _ _. auto. }
  intros parse print g l t acc ev H F. destruct (G _ _ _ _ _ _ _ _ H (or_intror (conj eq_refl eq_refl)) F) as [K1 K2]. split.
  - intros x X. specialize (K1 x X). cbn [tr_conn tr_cmd] in K1. rewrite (M2 x (-1)%Z), (M1 x X) in K1. exact K1.
  - destruct l as [|v l]; [injection H as <- _ _; auto|]. intros E. apply K2. rewrite <- E. generalize v. clear. induction l as [|w l IH]; intros v; [reflexivity|]. apply (IH w).
Qed.
Print Assumptions C40_descriptors_sessions.

(* Examples.  The parser is a table. *)
Definition ex_text : list N := [123; 125; 0].
Definition ex_caps (l : list (string * json)) : json := JObj [("capabilities"%string, JObj l)].
Definition ex_parse (j : json) (b : list N) : option json := if list_eq_dec N.eq_dec b ex_text then Some j else None.
Definition ex_print (j : json) : list N := [123; 125].
Definition ex_version (major minor : N) : list N :=
  enc_header (mk_header 7 1 23 0 0) ++ le_bytes 2 major ++ le_bytes 2 minor ++ ex_text.
Definition ex_attach (major minor : N) : attach_env := mk_attach (inl 11%Z) (ex_version major minor) 100 (Sent 23) (inl (20, 21)%Z).
Definition ex_tran : tran := mk_tran (-1) (-1).
Definition ex_nego : nego := mk_nego 0 0 (Some 4096).

Lemma ex_version_msg j minor : minor < 65536 -> version_msg (ex_parse j) (ex_version 0 minor) 7 0 minor (Some j).
Proof.
  intros H. split.
  - exists 0, 0. split; [|reflexivity]. exact (enc_wire (mk_header 7 1 23 0 0) _ ltac:(repeat split)).
  - vm_compute. discriminate.
  - unfold ex_version. rewrite !bytes_app. repeat split; try apply enc_bytes; try apply le_bytes_bytes. repeat constructor.
  - cbn. lia.
  - reflexivity.
  - unfold ex_version. rewrite u16_app by (rewrite enc_length; lia). rewrite enc_length. rewrite u16_app by (rewrite le_bytes_length; cbn; lia).
    rewrite le_bytes_length. cbn [Nat.sub]. apply u16_le. exact H.
  - right. repeat split; cbn; lia.
Qed.

Definition ex_client : json :=
  ex_caps [("max_msg_fds"%string, JInt 4 false); ("max_data_xfer_size"%string, JInt 65536 false); ("twin_socket"%string, JObj [("supported"%string, JBool true)])].
Example C40_case :
  connecting (ex_parse ex_client) ex_tran (ex_attach 0 9) 11 7 0 9 (Some ex_client) /\
  attach (ex_parse ex_client) ex_print ex_tran ex_nego (ex_attach 0 9) =
    (Ok tt, mk_tran 11 21, mk_nego 4 65536 (Some 4096),
     [AtPaired 20 21; AtSent ([7; 0; 1; 0; 23; 0; 0; 0; 1; 0; 0; 0; 0; 0; 0; 0] ++ [0; 0; 2; 0; 123; 125; 0]) [20%Z]; AtClosed 20]).
Proof.
  split; [|vm_compute; reflexivity]. split; try reflexivity.
  - cbn. lia.
  - exists (ex_version 0 9), []. split; [symmetry; apply app_nil_r|]. apply ex_version_msg. reflexivity.
Qed.
(* Sending the reply fails after the twin socket was made. *)
Example C40_descriptors_case : exists g',
  attach (ex_parse ex_client) ex_print ex_tran ex_nego (mk_attach (inl 11%Z) (ex_version 0 9) 100 (SentErr EPIPE) (inl (20, 21)%Z)) =
    (Err ECONNRESET, ex_tran, g', [AtPaired 20 21; AtClosed 20; AtClosed 21; AtClosed 11]).
Proof. eexists. vm_compute. reflexivity. Qed.
(* A client with a twin socket, refused while connected, leaves; a second one fails. *)
Example C40_descriptors_sessions_case :
  let a := ex_attach 0 9 in
  let '(t, acc, ev) := visits (ex_parse ex_client) ex_print ex_tran ex_nego
     [Arrives a; Arrives a; Leaves; Arrives (mk_attach (inl 12%Z) [] 0 (Sent 0) (inr 0)); Leaves] in
  acc = [11; 12]%Z /\ pair_fds ev = [20; 21]%Z /\ closed_fds ev = [20; 11; 21; 12]%Z /\ t = ex_tran.
Proof. vm_compute. auto. Qed.
Example C40_refused_case : attach (ex_parse ex_client) ex_print ex_tran ex_nego (ex_attach 1 0) =
    (Err EINVAL, mk_tran (-1) (-1), ex_nego, [AtSent [7; 0; 1; 0; 16; 0; 0; 0; 33; 0; 0; 0; 22; 0; 0; 0] []; AtClosed 11]) /\
  let c := ex_caps [("max_msg_fds"%string, JInt 1025 false)] in
  fst (fst (fst (attach (ex_parse c) ex_print ex_tran ex_nego (ex_attach 0 0)))) = Err EINVAL.
Proof. vm_compute. auto. Qed.

(* The full statement is false: the limit is converted to an int before it is checked, so that a client announcing
   2^32 * k + v is accepted, with the limit v. *)
Theorem C40_huge_limit_accepted_refuted : forall k v,
  (1 <= k < 2147483648)%Z -> (0 <= v <= 1024)%Z ->
  let c := ex_caps [("max_msg_fds"%string, JInt (4294967296 * k + v) false)] in
  capability (Some c) ["max_msg_fds"%string] = Some (JInt (4294967296 * k + v) false) /\ (1024 < 4294967296 * k + v < 9223372036854775808)%Z /\
  exists g' ev, attach (ex_parse c) ex_print ex_tran ex_nego (ex_attach 0 0) = (Ok tt, mk_tran 11 (-1), g', ev) /\ ng_fds g' = v.
Proof.
  intros k v K V c. split; [reflexivity|]. split; [lia|].
  assert (T : to_int (4294967296 * k + v) = v).
  { unfold to_int. replace (4294967296 * k + v + 2147483648)%Z with (v + 2147483648 + k * 4294967296)%Z by lia. rewrite Z_mod_plus_full.
    rewrite Z.mod_small by lia. lia. }
  assert (CN : connecting (ex_parse c) ex_tran (ex_attach 0 0) 11 7 0 0 (Some c)).
  { split; try reflexivity; [cbn; lia|]. exists (ex_version 0 0), []. split; [symmetry; apply app_nil_r|]. apply ex_version_msg. reflexivity. }
  destruct (attach (ex_parse c) ex_print ex_tran ex_nego (ex_attach 0 0)) as (((r, t'), g'), ev) eqn:H.
  destruct (attach_cases _ _ _ _ _ _ _ _ _ _ _ _ _ _ CN H) as [(_ & _ & _ & _ & A5 & _ & _ & o & evs & FN & R)|(NA & _)].
  - assert (G : ng_fds g' = v) by (rewrite A5; exact T). exists g', ev.
    cbn in FN. injection FN as <- <-. destruct R as (-> & -> & _). auto.
  - exfalso. apply NA. unfold caps_typed, pgsize_ok, fd_limit_ok, capability, c, ex_caps. cbn -[to_int Z.mul Z.add]. rewrite T. repeat split; auto; try discriminate; lia.
Qed.
Print Assumptions C40_huge_limit_accepted_refuted.

(* ---------- C41, the announced value *)

Theorem C41_announced_partial : forall parse print t g a fd id major minor text t' g' ev v e,
  connecting parse t a fd id major minor text -> attach parse print t g a = (Ok tt, t', g', ev) ->
  capability text ["max_data_xfer_size"%string] = Some (JInt v e) -> (0 <= v < 2147483648)%Z ->
  ng_xfer g' = Z.to_N v.
Proof.
  intros parse print t g a fd id major minor text t' g' ev v e CN H C B.
  destruct (attach_cases _ _ _ _ _ _ _ _ _ _ _ _ _ _ CN H) as [(_ & _ & _ & _ & _ & A6 & _)|(_ & R & _)]; [|discriminate R].
  rewrite A6, C. cbn [size_of]. rewrite to_int_id by lia. apply to_size_id. lia.
Qed.
Print Assumptions C41_announced_partial.

Lemma ex_attach_xfer v : let c := ex_caps [("max_data_xfer_size"%string, JInt v false)] in
  exists g' ev, attach (ex_parse c) ex_print ex_tran ex_nego (ex_attach 0 0) = (Ok tt, mk_tran 11 (-1), g', ev) /\ ng_xfer g' = to_size (to_int v).
Proof.
  intros c.
  assert (CN : connecting (ex_parse c) ex_tran (ex_attach 0 0) 11 7 0 0 (Some c)).
  { split; try reflexivity; [cbn; lia|]. exists (ex_version 0 0), []. split; [symmetry; apply app_nil_r|]. apply ex_version_msg. reflexivity. }
  destruct (attach (ex_parse c) ex_print ex_tran ex_nego (ex_attach 0 0)) as (((r, t'), g'), ev) eqn:H.
  destruct (attach_cases _ _ _ _ _ _ _ _ _ _ _ _ _ _ CN H) as [(_ & _ & _ & _ & _ & A6 & _ & o & evs & FN & R)|(NA & _)].
  - exists g', ev. cbn in FN. injection FN as <- <-. destruct R as (-> & -> & _). rewrite A6. auto.
  - exfalso. apply NA. unfold caps_typed, pgsize_ok, fd_limit_ok, capability, c, ex_caps. cbn -[to_int to_size]. repeat split; auto; try discriminate; lia.
Qed.

Example C41_case : exists g' ev, attach (ex_parse (ex_caps [("max_data_xfer_size"%string, JInt 2147483647 false)])) ex_print ex_tran ex_nego (ex_attach 0 0) =
  (Ok tt, mk_tran 11 (-1), g', ev) /\ ng_xfer g' = 2147483647.
Proof. exact (ex_attach_xfer 2147483647). Qed.

(* The full statement is false: 4 GiB becomes 0, 3 GiB becomes almost 2^64. *)
Theorem C41_truncated_refuted :
  (forall k, (1 <= k < 2147483648)%Z ->
    exists g' ev, attach (ex_parse (ex_caps [("max_data_xfer_size"%string, JInt (4294967296 * k) false)])) ex_print ex_tran ex_nego (ex_attach 0 0) =
      (Ok tt, mk_tran 11 (-1), g', ev) /\ ng_xfer g' = 0) /\
  (forall v, (2147483648 <= v < 4294967296)%Z ->
    exists g' ev, attach (ex_parse (ex_caps [("max_data_xfer_size"%string, JInt v false)])) ex_print ex_tran ex_nego (ex_attach 0 0) =
      (Ok tt, mk_tran 11 (-1), g', ev) /\ ng_xfer g' = 18446744073709551616 - 4294967296 + Z.to_N v).
Proof.
  split.
  - intros k K. destruct (ex_attach_xfer (4294967296 * k)) as (g' & ev & H & X). exists g', ev. split; [exact H|]. rewrite X.
    unfold to_int. replace (4294967296 * k + 2147483648)%Z with (2147483648 + k * 4294967296)%Z by lia. rewrite Z_mod_plus_full. reflexivity.
  - intros v V. destruct (ex_attach_xfer v) as (g' & ev & H & X). exists g', ev. split; [exact H|]. rewrite X.
    unfold to_int. replace (v + 2147483648)%Z with (v - 2147483648 + 1 * 4294967296)%Z by lia. rewrite Z_mod_plus_full, Z.mod_small by lia.
    unfold to_size. replace (v - 2147483648 - 2147483648)%Z with (18446744073709551616 - 4294967296 + v + (-1) * 18446744073709551616)%Z by lia.
    rewrite Z_mod_plus_full, Z.mod_small by lia. lia.
Qed.
Print Assumptions C41_truncated_refuted.
