(* C50, C51: messages on the wire. *)
From Coq Require Import NArith ZArith String List Bool Lia ZifyBool ZifyNat ZifyN.
From Verif Require Import Base Types Bytes BytesProofs BufProofs Spec Dma Migr Irq SpecIrq Pci Handlers HandlersProofs PropHandlers PropIrq
  Server SpecServer ServerProofs PropServer PropFds Wire Tran SpecWire WireProofs.
Import ListNotations.
Open Scope N_scope.
Ltac Zify.zify_post_hook ::= idtac.

(* ---------- C50 *)

Theorem C50_header_round_trip :
  (forall h, hdr_ok h ->
     length (enc_header h) = 16%nat /\ on_wire (enc_header h) (hd_id h) (hd_cmd h) (hd_size h) (hd_flags h) (hd_error h) [] /\
     dec_header (enc_header h) = Some h) /\
  (forall b, length b = 16%nat -> bytes b ->
     exists h, dec_header b = Some h /\ hdr_ok h /\ enc_header h = b).
Proof.
  split.
  - intros h H. split; [apply enc_length|]. split.
    + pose proof (enc_wire h [] H) as W. now rewrite app_nil_r in W.
    + pose proof (dec_enc h [] H) as W. now rewrite app_nil_r in W.
  - intros b L B. apply enc_dec; assumption.
Qed.
Print Assumptions C50_header_round_trip.

Example C50_header_case : hdr_ok (mk_header 65535 13 4294967295 33 4096) /\
  enc_header (mk_header 258 13 4294967295 33 4096) = [2; 1; 13; 0; 255; 255; 255; 255; 33; 0; 0; 0; 0; 16; 0; 0].
Proof. vm_compute. repeat split; reflexivity. Qed.

Lemma send_header_ok id isr cmd err payload : hdr_ok (send_header id isr cmd err payload).
Proof.
  unfold hdr_ok, send_header; cbn. repeat split; try (apply N.mod_lt; discriminate).
  - destruct isr, (err =? 0); reflexivity.
  - destruct (isr && negb (err =? 0)); [apply N.mod_lt; discriminate|reflexivity].
Qed.

(* A reply says its own length, who asked for what, and carries an error number exactly when it is flagged as an
   error (flags 1: reply; 33: reply and error). *)
Theorem C50_reply : forall r,
  rp_id r < 65536 -> rp_cmd r < 65536 -> rp_error r < 4294967296 -> N.of_nat (length (rp_body r)) < 4294967280 ->
  message (reply_bytes r) (rp_id r) (rp_cmd r) (if rp_error r =? 0 then 1 else 33) (rp_error r) (rp_body r).
Proof.
  intros r I C E L. unfold message, reply_bytes, send_bytes.
  pose proof (enc_wire _ (rp_body r) (send_header_ok (rp_id r) true (rp_cmd r) (rp_error r) (rp_body r))) as W.
  rewrite app_length, enc_length. unfold send_header in *. cbn [hd_id hd_cmd hd_size hd_flags hd_error] in W.
  unfold w16, w32, two32 in *. rewrite (N.mod_small _ _ I), (N.mod_small _ _ C) in *.
  rewrite (N.mod_small (16 + _)) in * by lia. replace (N.of_nat (16 + length (rp_body r))) with (16 + N.of_nat (length (rp_body r))) by lia.
  destruct (rp_error r =? 0) eqn:Z; cbn [negb andb] in *.
  - apply N.eqb_eq in Z. rewrite Z. exact W.
  - rewrite (N.mod_small _ _ E) in *. exact W.
Qed.
Print Assumptions C50_reply.

(* Commands of the server likewise. *)
Theorem C50_command : forall id cmd payload,
  id < 65536 -> cmd < 65536 -> N.of_nat (length payload) < 4294967280 ->
  message (send_bytes id false cmd 0 payload) id cmd 0 0 payload.
Proof.
  intros id cmd payload I C L. unfold message, send_bytes.
  pose proof (enc_wire _ payload (send_header_ok id false cmd 0 payload)) as W.
  rewrite app_length, enc_length. unfold send_header in *. cbn [hd_id hd_cmd hd_size hd_flags hd_error] in W.
  unfold w16, w32, two32 in *. rewrite (N.mod_small _ _ I), (N.mod_small _ _ C) in *.
  rewrite (N.mod_small (16 + _)) in * by lia. replace (N.of_nat (16 + length payload)) with (16 + N.of_nat (length payload)) by lia.
  exact W.
Qed.
Print Assumptions C50_command.

(* Every reply the server sends in any history is for a request that arrived, and its bytes say so. *)
Theorem C50_history : forall s0 l s arr ev r,
  fresh s0 -> history s0 l s arr ev -> In (EvReply r) ev ->
  Forall (fun p => fst p < 65536 /\ snd p < 65536) arr -> rp_error r < 4294967296 -> N.of_nat (length (rp_body r)) < 4294967280 ->
  exists id cmd, In (id, cmd) arr /\
    message (reply_bytes r) id cmd (if rp_error r =? 0 then 1 else 33) (rp_error r) (rp_body r).
Proof.
  intros s0 l s arr ev r F H I B E L.
  assert (In (rp_id r, rp_cmd r) arr) as J.
  { pose proof (C22_at_most_once _ _ _ _ _ (fresh_reachable _ F) H) as S.
    assert (O : owed s0 = []) by (destruct F as (_ & P & _); unfold owed; now rewrite P). rewrite O in S. cbn [app] in S.
    assert (SI : forall A (l1 l2 : list A), subseq l1 l2 -> forall x, In x l1 -> In x l2).
    { induction 1; intros y Y; cbn in *; intuition. }
    assert (In (rp_id r, rp_cmd r) (replies ev)) as K.
    { unfold replies. apply in_flat_map. exists (EvReply r). split; [exact I|]. left. reflexivity. }
    apply (SI _ _ _ S). apply in_or_app. left. exact K. }
  exists (rp_id r), (rp_cmd r). split; [exact J|].
  rewrite Forall_forall in B. destruct (B _ J) as (Bi & Bc). apply C50_reply; assumption.
Qed.
Print Assumptions C50_history.

(* A client using the library's own receive function gets back what was sent. *)
Lemma get_msg_enc h rest avail : hdr_ok h -> (16 <= avail)%nat -> get_msg avail (enc_header h ++ rest) = (Ok h, rest).
Proof.
  intros H A. unfold get_msg, recv_some. replace (Nat.min 16 (Nat.max 1 avail)) with 16%nat by lia.
  rewrite firstn_app, skipn_app, enc_length. rewrite (firstn_all2 (enc_header h)) by (rewrite enc_length; lia).
  rewrite (skipn_all2 (enc_header h)) by (rewrite enc_length; lia). cbn [Nat.sub firstn skipn]. rewrite app_nil_r.
  pose proof (dec_enc h [] H) as D. rewrite app_nil_r in D.
  pose proof (enc_length h) as L. destruct (enc_header h) eqn:Q; [discriminate L|]. rewrite D. reflexivity.
Qed.

Theorem C50_client_reads_reply : forall r rest avail id, id = None \/ id = Some (rp_id r) ->
  rp_id r < 65536 -> rp_cmd r < 65536 -> rp_error r < 2 ^ 32 -> N.of_nat (length (rp_body r)) <= 1024 * 1024 + 16 ->
  (16 <= avail)%nat ->
  fst (recv_msg true id (N.of_nat (length (rp_body r))) avail (reply_bytes r ++ rest)) =
    (if rp_error r =? 0
     then Ok (mk_header (rp_id r) (rp_cmd r) (16 + N.of_nat (length (rp_body r))) 1 0, rp_body r)
     else Err (if rp_error r <=? 4096 then rp_error r else EINVAL)) /\
  (rp_error r = 0 -> snd (recv_msg true id (N.of_nat (length (rp_body r))) avail (reply_bytes r ++ rest)) = rest).
Proof.
  intros r rest avail id ID I C E L A. unfold recv_msg, reply_bytes, send_bytes. rewrite <- app_assoc.
  rewrite (get_msg_enc _ _ _ (send_header_ok _ _ _ _ _) A).
  unfold send_header. cbn [hd_id hd_cmd hd_size hd_flags hd_error].
  replace (match id with Some i => negb (w16 (rp_id r) =? w16 i) | None => false end) with false by (destruct ID as [->| ->]; now rewrite ?N.eqb_refl).
  unfold w16, w32, two32.
  rewrite (N.mod_small _ _ I), (N.mod_small _ _ C), (N.mod_small (16 + _)) by lia. cbn [negb].
  destruct (rp_error r =? 0) eqn:Z; cbn [negb andb].
  - change (N.land F_TYPE_REPLY F_TYPE_MASK =? F_TYPE_REPLY) with true. change (has F_TYPE_REPLY F_ERROR) with false. cbn [negb].
    replace ((16 + N.of_nat (length (rp_body r)) <? 16) || (SERVER_MAX_MSG_SIZE <? 16 + N.of_nat (length (rp_body r)))) with false
      by (unfold SERVER_MAX_MSG_SIZE; lia).
    destruct (rp_body r) as [|b l] eqn:Q.
    + cbn. split; auto.
    + replace ((0 <? N.of_nat (length (b :: l))) && (16 <? 16 + N.of_nat (length (b :: l)))) with true by (cbn [length]; lia).
      unfold recv_all.
      replace (N.to_nat (N.min (16 + N.of_nat (length (b :: l)) - 16) (N.of_nat (length (b :: l))))) with (length (b :: l)) by lia.
      rewrite firstn_app, skipn_app, Nat.sub_diag, firstn_all, skipn_all. cbn [firstn skipn]. rewrite app_nil_r. cbn [app].
      replace (N.of_nat (length (b :: l)) =? 0) with false by (cbn [length]; lia).
      rewrite N.eqb_refl. cbn [negb]. split; reflexivity.
  - change (N.land (N.lor F_TYPE_REPLY F_ERROR) F_TYPE_MASK =? F_TYPE_REPLY) with true.
    change (has (N.lor F_TYPE_REPLY F_ERROR) F_ERROR) with true. cbn [negb].
    change (2 ^ 32) with 4294967296 in E. rewrite (N.mod_small _ 4294967296) by lia. rewrite Z. unfold SERVER_MAX_ERROR_NO.
    replace (rp_error r <=? 4096) with (negb (4096 <? rp_error r)) by lia. cbn [orb fst]. destruct (4096 <? rp_error r); cbn [negb]; (split; [reflexivity|]; apply N.eqb_neq in Z; congruence).
Qed.
Print Assumptions C50_client_reads_reply.

(* The same when it lets that function allocate as much as the reply has, as the sample client does for the reply to its
   version request.  A client that expects the reply to another request is not given this one. *)
Theorem C50_client_reads_any : forall r rest avail id,
  rp_id r < 65536 -> rp_cmd r < 65536 -> rp_error r < 2 ^ 32 -> N.of_nat (length (rp_body r)) <= 1024 * 1024 + 16 ->
  (16 <= avail)%nat ->
  (id = None \/ id = Some (rp_id r) -> rp_error r = 0 ->
    recv_alloc_as true id avail (reply_bytes r ++ rest) =
      (Ok (mk_header (rp_id r) (rp_cmd r) (16 + N.of_nat (length (rp_body r))) 1 0, rp_body r), rest)) /\
  (id = None \/ id = Some (rp_id r) -> rp_error r <> 0 ->
    fst (recv_alloc_as true id avail (reply_bytes r ++ rest)) = Err (if rp_error r <=? 4096 then rp_error r else EINVAL)) /\
  (forall i want, id = Some i -> i < 65536 -> i <> rp_id r ->
    fst (recv_alloc_as true id avail (reply_bytes r ++ rest)) = Err EPROTO /\ fst (recv_msg true id want avail (reply_bytes r ++ rest)) = Err EPROTO).
Proof.
  intros r rest avail id I C E L A. unfold recv_alloc_as, recv_msg, reply_bytes, send_bytes. rewrite <- app_assoc.
  rewrite (get_msg_enc _ _ _ (send_header_ok _ _ _ _ _) A).
  unfold send_header. cbn [hd_id hd_cmd hd_size hd_flags hd_error].
  assert (ID : id = None \/ id = Some (rp_id r) -> match id with Some i => negb (w16 (rp_id r) =? w16 i) | None => false end = false)
    by (intros [->| ->]; now rewrite ?N.eqb_refl).
  split; [|split].
  - intros D Z. rewrite (ID D), Z. cbn [N.eqb negb andb].
    change (N.land F_TYPE_REPLY F_TYPE_MASK =? F_TYPE_REPLY) with true. change (has F_TYPE_REPLY F_ERROR) with false. cbn [negb].
    unfold w16, w32, two32. rewrite (N.mod_small _ _ I), (N.mod_small _ _ C), (N.mod_small (16 + _)) by lia.
    replace ((16 + N.of_nat (length (rp_body r)) <? 16) || (SERVER_MAX_MSG_SIZE <? 16 + N.of_nat (length (rp_body r)))) with false
      by (unfold SERVER_MAX_MSG_SIZE; lia).
    change (0 <? 0) with false. cbn [andb hd_size].
    replace (16 + N.of_nat (length (rp_body r)) - 16) with (N.of_nat (length (rp_body r))) by lia.
    destruct (rp_body r) as [|b l] eqn:Q; [reflexivity|].
    replace (N.of_nat (length (b :: l)) =? 0) with false by (cbn [length]; lia).
    unfold recv_all. rewrite Nat2N.id, firstn_app, skipn_app, Nat.sub_diag, firstn_all, skipn_all. cbn [firstn skipn]. rewrite app_nil_r. cbn [app].
    replace (N.of_nat (length (b :: l)) =? 0) with false by (cbn [length]; lia). rewrite N.eqb_refl. reflexivity.
  - intros D Z. rewrite (ID D). apply N.eqb_neq in Z. rewrite Z. cbn [negb andb].
    change (N.land (N.lor F_TYPE_REPLY F_ERROR) F_TYPE_MASK =? F_TYPE_REPLY) with true.
    change (has (N.lor F_TYPE_REPLY F_ERROR) F_ERROR) with true. cbn [negb]. unfold w32, two32.
    change (2 ^ 32) with 4294967296 in E. rewrite (N.mod_small _ 4294967296) by lia. rewrite Z. unfold SERVER_MAX_ERROR_NO.
    replace (rp_error r <=? 4096) with (negb (4096 <? rp_error r)) by lia. cbn [orb fst]. now destruct (4096 <? rp_error r).
  - intros i want -> B NE. unfold w16. rewrite (N.mod_small _ _ I), (N.mod_small _ _ B). replace (rp_id r =? i) with false by lia. cbn [negb]. split; reflexivity.
Qed.
Print Assumptions C50_client_reads_any.
Example C50_client_reads_any_case : let r := mk_reply 513 9 0 [7; 8; 9] [] in
  rp_id r < 65536 /\ rp_cmd r < 65536 /\ rp_error r < 2 ^ 32 /\ N.of_nat (length (rp_body r)) <= 1024 * 1024 + 16 /\
  recv_alloc_as true None 16 (reply_bytes r ++ [1]) = (Ok (mk_header 513 9 19 1 0, [7; 8; 9]), [1]) /\
  fst (recv_alloc_as true (Some 514) 16 (reply_bytes r ++ [1])) = Err EPROTO.
Proof. vm_compute. repeat split; discriminate. Qed.

Example C50_reply_case :
  reply_bytes (mk_reply 513 9 0 [7; 8; 9] []) = [1; 2; 9; 0; 19; 0; 0; 0; 1; 0; 0; 0; 0; 0; 0; 0; 7; 8; 9] /\
  reply_bytes (mk_reply 513 9 EINVAL [] []) = [1; 2; 9; 0; 16; 0; 0; 0; 33; 0; 0; 0; 22; 0; 0; 0] /\
  map (fun e => match e with EvReply r => reply_bytes r | _ => [] end) (snd (sv_step (ex_busy false) (SRun (ex_unmap 77 None)))) =
    [[]; []; []; [77; 0; 3; 0; 40; 0; 0; 0; 1; 0; 0; 0; 0; 0; 0; 0] ++ le_bytes 4 24 ++ le_bytes 4 0 ++ le_bytes 8 65536 ++ le_bytes 8 65536].
Proof. vm_compute. auto. Qed.

(* ---------- C51 *)

Lemma sock_rx_framed h body fds w k1 k2 : framed (h, body) -> (16 <= k1)%nat -> (length body <= k2)%nat ->
  sock_rx k1 k2 fds (enc_header h ++ body ++ w) = (RxMsg h fds (inr body), w).
Proof.
  intros (H & V & S & _) A B. cbn [fst snd] in *. unfold sock_rx. rewrite (get_msg_enc _ _ _ H A).
  rewrite (proj2 (valid_hdr_iff h) V). rewrite S. destruct body as [|b l].
  - cbn. reflexivity.
  - replace (16 + N.of_nat (length (b :: l)) =? 16) with false by (cbn [length]; lia). cbn [negb andb].
    unfold recv_some. replace (N.to_nat (16 + N.of_nat (length (b :: l)) - 16)) with (length (b :: l)) by lia.
    replace (Nat.min (length (b :: l)) (Nat.max 1 k2)) with (length (b :: l)) by lia.
    rewrite firstn_app, skipn_app, Nat.sub_diag, firstn_all, skipn_all. cbn [firstn skipn app]. rewrite app_nil_r. reflexivity.
Qed.

Lemma sock_rx_end fds k1 k2 : sock_rx k1 k2 fds [] = (RxErr ENOMSG, []).
Proof. unfold sock_rx, get_msg, recv_some. now rewrite firstn_nil, skipn_nil. Qed.

Lemma framed_len h body : framed (h, body) -> N.of_nat (length body) <= 1024 * 1024 + 16.
Proof. intros (_ & (_ & S & _) & Q & _). cbn [fst snd] in *. lia. Qed.

Lemma taken_cons st l : taken (st :: l) = taken [st] ++ taken l.
Proof. unfold taken. cbn [flat_map]. now rewrite app_nil_r. Qed.

(* One act takes nothing, or the next request. *)
Lemma act_step_framed s a rs : Forall framed rs -> complete a ->
  (reads s = true /\ (exists d, a = ARun d) /\ exists r rs', rs = r :: rs' /\ taken [fst (act_step s (stream rs) a)] = [r] /\ snd (act_step s (stream rs) a) = stream rs') \/
  (taken [fst (act_step s (stream rs) a)] = [] /\ snd (act_step s (stream rs) a) = stream rs).
Proof.
  intros F C. destruct a as [d|st]; cbn [act_step complete] in *.
  - destruct (reads s) eqn:R; [|right; split; reflexivity].
    destruct rs as [|(h, body) rs].
    + right. change (stream []) with (@nil N). rewrite sock_rx_end. split; reflexivity.
    + left. split; [reflexivity|]. split; [eauto|]. exists (h, body), rs. split; [reflexivity|].
      change (stream ((h, body) :: rs)) with ((enc_header h ++ body) ++ stream rs). rewrite <- app_assoc.
      inversion F as [|? ? F1 F2]; subst. pose proof (framed_len _ _ F1).
      rewrite sock_rx_framed by (auto; lia). split; reflexivity.
  - right. destruct st; try contradiction; split; reflexivity.
Qed.

(* If all that was sent has arrived whenever the server reads, the requests it takes off the socket are the
   first n requests sent, in order and complete, and what is left are the bytes of the others. *)
Theorem C51_unfragmented_partial : forall acts s rs,
  Forall framed rs -> Forall complete acts ->
  exists n, taken (fst (drive s (stream rs) acts)) = firstn n rs /\ snd (drive s (stream rs) acts) = stream (skipn n rs).
Proof.
  induction acts as [|a acts IH]; intros s rs F C.
  - exists 0%nat. split; reflexivity.
  - inversion C as [|? ? C1 C2]; subst. cbn [drive].
    pose proof (act_step_framed s a rs F C1) as ST. destruct (act_step s (stream rs) a) as (st, w1). cbn [fst snd] in ST.
    assert (exists n rs1, rs = firstn n rs ++ rs1 /\ rs1 = skipn n rs /\ w1 = stream rs1 /\ taken [st] = firstn n rs) as (n & rs1 & E1 & E2 & E3 & E4).
    { destruct ST as [(_ & _ & r & rs' & -> & T & W)|(T & W)].
      - exists 1%nat, rs'. repeat split; auto.
      - exists 0%nat, rs. repeat split; auto. }
    assert (F1 : Forall framed rs1) by (rewrite E1 in F; apply Forall_app in F; tauto).
    subst w1.
    assert (SK : forall k m (l : list (header * list N)), skipn k (skipn m l) = skipn (m + k) l).
    { intros k m. induction m as [|m IHm]; intros l; [reflexivity|]. destruct l; [now rewrite !skipn_nil|]. cbn [skipn Nat.add]. apply IHm. }
    assert (FK : forall k m (l : list (header * list N)), firstn m l ++ firstn k (skipn m l) = firstn (m + k) l).
    { intros k m. induction m as [|m IHm]; intros l; [reflexivity|]. destruct l; [now rewrite !firstn_nil|]. cbn [skipn Nat.add firstn app]. f_equal. apply IHm. }
    destruct (sv_step s st) as ((o, s'), ev).
    specialize (IH s' rs1 F1 C2). destruct IH as (m & T & W).
    destruct (drive s' (stream rs1) acts) as (sts, w2). cbn [fst snd] in *.
    destruct o; cbn [fst snd].
    + exists (n + m)%nat. rewrite taken_cons, E4, T, W, E2, FK, SK. split; reflexivity.
    + exists (n + m)%nat. rewrite taken_cons, E4, T, W, E2, FK, SK. split; reflexivity.
    + exists n. rewrite E4, E2. split; reflexivity.
Qed.
Print Assumptions C51_unfragmented_partial.

Lemma serving_reads s : serving s <-> reads s = true.
Proof.
  unfold serving, reads. destruct (sv_realized s), (sv_conn s), (sv_pending s); cbn; intuition congruence.
Qed.

Lemma calm_serving s en h fds body : serving s -> en_rx en = RxMsg h fds (inr body) -> en_send en = None -> en_quiesce en <> Some EBUSY ->
  match sv_step s (SRun en) with (Crash _, _, _) => True | (_, s', _) => serving s' end.
Proof.
  intros SV X S Q. pose proof SV as (R & P & C).
  assert (DR : forall s1 e b f, exists ev, do_reply s1 en h e b f = (Ok tt, s1, ev)).
  { intros s1 e b f. unfold do_reply. rewrite S. destruct (has _ _); eauto. }
  assert (RF : forall e, exists ev, refuse s en h fds e = (GotErr ENOMSG, s, ev)).
  { intros e. unfold refuse. destruct (DR s e [] []) as (ev & ->). eauto. }
  assert (HR : forall s1 m, serving s1 -> mg_hdr m = h -> match handle_request s1 en m with (Crash _, _, _, _) => True | (_, s2, _, _) => serving s2 end).
  { intros s1 m SV1 Hm. unfold handle_request. destruct (dispatch _ _ _ _ _) as (((r, c'), fds'), ev).
    destruct r as [err b f|]; [|exact I]. rewrite Hm. destruct (DR (set_ctx s1 c') err b f) as (ev2 & ->). exact SV1. }
  assert (K : forall s1 m, serving s1 -> mg_hdr m = h ->
    match (let '(o, s2, fds', ev2) := handle_request s1 en m in
      match o with
      | Crash cr => (Crash cr, s2, ev2)
      | Err e => (Err e, set_quiesced s2 false, ev2 ++ free_msg fds')
      | Ok _ => (Ok 1, set_quiesced s2 false, ev2 ++ free_msg fds')
      end) with (Crash _, _, _) => True | (_, s', _) => serving s' end).
  { intros s1 m SV1 Hm. specialize (HR s1 m SV1 Hm). destruct (handle_request s1 en m) as (((o, s2), f2), e2). destruct o; exact HR. }
  cbn [sv_step]. rewrite R, P. cbn [negb]. unfold run_iter, get_request. rewrite C, X. cbn [negb].
  destruct (is_valid_header h); cbn [negb].
  2: { destruct (RF EINVAL) as (ev & ->). exact SV. }
  destruct (if hd_size h =? 16 then Ok [] else recv_body (hd_size h - 16) (inr body)) as [b|e|c] eqn:Rb.
  2: { destruct (RF e) as (ev & ->). destruct ((ENOMSG =? ENOMSG) || (ENOMSG =? EAGAIN)); exact SV. }
  2: exact I.
  destruct (should_exec _ _); cbn [negb].
  2: { destruct (RF EINVAL) as (ev & ->). exact SV. }
  destruct (needs_quiesce _ _ _).
  - destruct (en_quiesce en) as [e|] eqn:Qe.
    + replace (e =? EBUSY) with false by (symmetry; apply N.eqb_neq; congruence). destruct (RF e) as (ev & ->). exact SV.
    + pose proof (K (set_quiesced s true) (mk_msg h b fds) SV eq_refl) as G.
      destruct (handle_request (set_quiesced s true) en (mk_msg h b fds)) as (((o, s2), f2), e2). destruct o; exact G.
  - pose proof (K s (mk_msg h b fds) SV eq_refl) as G.
    destruct (handle_request s en (mk_msg h b fds)) as (((o, s2), f2), e2). destruct o; exact G.
Qed.

(* The steps in which a server receives the requests as messages. *)
Definition as_messages (rs : list (header * list N)) (ds : list delivery) : list step :=
  map (fun p => SRun (set_rx (dl_env (snd p)) (RxMsg (fst (fst p)) (dl_fds (snd p)) (inr (snd (fst p)))))) (combine rs ds).

(* With one iteration per request, replies that can be sent and no postponed quiesce, the server does exactly what it
   does when it is handed the requests one by one (until it crashes, if it does). *)
Theorem C51_all_handled_partial : forall rs ds s,
  serving s -> Forall framed rs -> length ds = length rs -> Forall complete (map ARun ds) -> Forall calm (map ARun ds) ->
  sv_run s (fst (drive s (stream rs) (map ARun ds))) = sv_run s (as_messages rs ds) /\
  ((exists s' t, sv_run s (as_messages rs ds) = (s', t) /\ Forall (fun x => forall c, fst x <> Crash c) t) ->
   fst (drive s (stream rs) (map ARun ds)) = as_messages rs ds /\ snd (drive s (stream rs) (map ARun ds)) = []).
Proof.
  induction rs as [|(h, body) rs IH]; intros ds s SV F L C K; destruct ds as [|d ds]; try discriminate L.
  { cbn. split; auto. }
  cbn [map] in *. inversion C as [|? ? C1 C2]; subst. inversion K as [|? ? K1 K2]; subst. inversion F as [|? ? F1 F2]; subst.
  cbn [complete calm] in C1, K1. pose proof (framed_len _ _ F1) as FL.
  set (st := SRun (set_rx (dl_env d) (RxMsg h (dl_fds d) (inr body)))).
  assert (AS : act_step s (stream ((h, body) :: rs)) (ARun d) = (st, stream rs)).
  { cbn [act_step]. rewrite (proj1 (serving_reads s) SV).
    change (stream ((h, body) :: rs)) with ((enc_header h ++ body) ++ stream rs). rewrite <- app_assoc.
    rewrite sock_rx_framed by (auto; lia). reflexivity. }
  change (as_messages ((h, body) :: rs) (d :: ds)) with (st :: as_messages rs ds).
  cbn [drive]. rewrite AS.
  pose proof (calm_serving s (set_rx (dl_env d) (RxMsg h (dl_fds d) (inr body))) h (dl_fds d) body SV eq_refl (proj1 K1) (proj2 K1)) as G.
  fold st in G. destruct (sv_step s st) as ((o, s'), ev) eqn:E. cbn [length] in L.
  assert (X : match o with Crash _ => True | _ => serving s' end) by (destruct o; exact G). clear G.
  destruct o as [n|e|c].
  - specialize (IH ds s' X F2 (eq_add_S _ _ L) C2 K2). destruct (drive s' (stream rs) (map ARun ds)) as (sts, w2). cbn [fst snd] in *.
    cbn [sv_run]. rewrite E. destruct IH as (IH & IH2). rewrite IH. split; [reflexivity|].
    intros (s2 & t & Q & NC). destruct (sv_run s' (as_messages rs ds)) as (s3, t3) eqn:Q3. injection Q as <- <-.
    inversion NC; subst. destruct IH2 as (-> & ->); [eauto|]. split; reflexivity.
  - specialize (IH ds s' X F2 (eq_add_S _ _ L) C2 K2). destruct (drive s' (stream rs) (map ARun ds)) as (sts, w2). cbn [fst snd] in *.
    cbn [sv_run]. rewrite E. destruct IH as (IH & IH2). rewrite IH. split; [reflexivity|].
    intros (s2 & t & Q & NC). destruct (sv_run s' (as_messages rs ds)) as (s3, t3) eqn:Q3. injection Q as <- <-.
    inversion NC; subst. destruct IH2 as (-> & ->); [eauto|]. split; reflexivity.
  - cbn [fst snd sv_run]. rewrite E. split; [reflexivity|]. intros (s2 & t & Q & NC). injection Q as <- <-.
    inversion NC; subst. exfalso. cbn in *. congruence.
Qed.
Print Assumptions C51_all_handled_partial.

(* Two requests on the same socket: unmap a region, then write eight bytes to a region. *)
Definition ex_delivery (n : nat) : delivery := mk_delivery n (N.to_nat 2000000) [] (ex_env (RxErr 0)).
Definition ex_write_body (data : list N) : list N := le_bytes 8 0 ++ le_bytes 4 1 ++ le_bytes 4 (N.of_nat (length data)) ++ data.
Definition ex_write_hdr (id : N) (data : list N) : header := mk_header id 10 (32 + N.of_nat (length data)) 0 0.
Definition ex_reqs : list (header * list N) :=
  [(ex_unmap_hdr 3, ex_unmap_body); (ex_write_hdr 4 [1; 2; 3; 4; 5; 6; 7; 8], ex_write_body [1; 2; 3; 4; 5; 6; 7; 8])].

Example C51_case : Forall framed ex_reqs /\ serving (ex_busy true) /\ Forall complete (map ARun [ex_delivery 16; ex_delivery 100]) /\
  Forall calm (map ARun [ex_delivery 16; ex_delivery 100]) /\ length (stream ex_reqs) = 80%nat /\
  map (fun x => match fst x with Ok 1 => true | _ => false end)
    (snd (sv_run (ex_busy true) (fst (drive (ex_busy true) (stream ex_reqs) (map ARun [ex_delivery 16; ex_delivery 100]))))) = [true; true].
Proof.
  split; [|split; [|split; [|split; [|split]]]].
  - repeat constructor; vm_compute; intuition congruence.
  - repeat split; vm_compute; reflexivity.
  - repeat constructor; cbn -[N.of_nat N.to_nat]; try lia.
  - repeat constructor; discriminate.
  - reflexivity.
  - vm_compute. reflexivity.
Qed.

(* The full statement is false.  If the first eight bytes of a header arrive alone, the connection is dropped. *)
Theorem C51_header_fragment_refuted : forall s rs d,
  serving s -> (1 <= dl_hdr d < 16)%nat -> rs <> [] -> Forall framed rs ->
  fst (drive s (stream rs) [ARun d]) = [SRun (set_rx (dl_env d) (RxErr ECONNRESET))].
Proof.
  intros s rs d SV K NE F. destruct rs as [|(h, body) rs]; [congruence|].
  assert (ST : sock_rx (dl_hdr d) (dl_body d) (dl_fds d) (stream ((h, body) :: rs)) = (RxErr ECONNRESET, skipn (dl_hdr d) (stream ((h, body) :: rs)))).
  { unfold sock_rx, get_msg, recv_some. replace (Nat.min 16 (Nat.max 1 (dl_hdr d))) with (dl_hdr d) by lia.
    assert (LL : (16 <= length (stream ((h, body) :: rs)))%nat).
    { change (stream ((h, body) :: rs)) with ((enc_header h ++ body) ++ stream rs). rewrite !app_length, enc_length. lia. }
    assert (LF : length (firstn (dl_hdr d) (stream ((h, body) :: rs))) = dl_hdr d) by (rewrite firstn_length; lia).
    destruct (firstn (dl_hdr d) (stream ((h, body) :: rs))) as [|x l] eqn:Q; [cbn in LF; lia|].
    rewrite dec_short by (rewrite LF; lia). reflexivity. }
  cbn [drive act_step]. rewrite (proj1 (serving_reads s) SV), ST. destruct (sv_step s _) as ((o, s'), ev). destruct o; reflexivity.
Qed.
Print Assumptions C51_header_fragment_refuted.

Definition ex_frag (k1 k2 : nat) : delivery := mk_delivery k1 k2 [] (ex_env (RxErr 0)).
Example C51_header_fragment_case :
  let sts := fst (drive (ex_busy true) (stream ex_reqs) [ARun (ex_frag 8 100)]) in
  map (fun e => match e with EvDetach => true | _ => false end) (concat (map snd (snd (sv_run (ex_busy true) sts)))) = [false; false; false; false; false; false; true] /\
  sv_conn (fst (sv_run (ex_busy true) sts)) = false.
Proof. vm_compute. auto. Qed.

(* If the payload of a write arrives in two pieces, the first is refused and the second is taken for messages: data the
   client meant to store in a device register is executed, here as a device reset (command 13). *)
Definition ex_reset_data : list N := enc_header (mk_header 99 13 16 0 0).
Definition ex_trojan : list (header * list N) := [(ex_write_hdr 4 ex_reset_data, ex_write_body ex_reset_data)].
Theorem C51_body_fragment_refuted :
  Forall framed ex_trojan /\ serving (ex_busy true) /\ length (stream ex_trojan) = 48%nat /\
  (* in one piece: the write callback runs and one reply is sent *)
  concat (map snd (snd (sv_run (ex_busy true) (fst (drive (ex_busy true) (stream ex_trojan) [ARun (ex_frag 16 32)]))))) =
    [EvAccess 1 true 0 16 ex_reset_data; EvReply (mk_reply 4 10 0 (le_bytes 8 0 ++ le_bytes 4 1 ++ le_bytes 4 16) [])] /\
  (* in two pieces *)
  concat (map snd (snd (sv_run (ex_busy true) (fst (drive (ex_busy true) (stream ex_trojan) [ARun (ex_frag 16 16); ARun (ex_frag 16 16)]))))) =
    [EvReply (mk_reply 4 10 EINVAL [] []); EvQuiesce None; EvReset ResetDevice; EvReply (mk_reply 99 13 0 [] [])].
Proof.
  split; [|split; [|split; [|split]]].
  - repeat constructor; vm_compute; intuition congruence.
  - repeat split; vm_compute; reflexivity.
  - reflexivity.
  - vm_compute. reflexivity.
  - vm_compute. reflexivity.
Qed.
Print Assumptions C51_body_fragment_refuted.
