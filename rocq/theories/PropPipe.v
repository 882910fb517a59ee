(* C57: the pipe transport. *)
From Coq Require Import NArith ZArith String List Bool Lia ZifyBool ZifyNat ZifyN.
From Verif Require Import Base Types Bytes BytesProofs BufProofs Migr Irq Pci Handlers HandlersDma Server SpecServer ServerProofs PropServer
  Wire Tran SpecWire WireProofs PropWire PropTran Pipe SpecPipe.
Import ListNotations.
Open Scope N_scope.
Ltac Zify.zify_post_hook ::= idtac.

Lemma pipe_header_ok id isr cmd err : hdr_ok (pipe_header id isr cmd err).
Proof.
  unfold hdr_ok, pipe_header; cbn. repeat split; try (apply N.mod_lt; discriminate).
  - destruct isr, (err =? 0); reflexivity.
  - destruct (isr && negb (err =? 0)); [apply N.mod_lt; discriminate|reflexivity].
Qed.

(* A reply says who asked for what and carries an error number exactly when it is flagged as an error.  Missing: it
   should be a message that says its own length (message instead of on_wire), C57_reply_size_refuted. *)
Theorem C57_reply_partial : forall r,
  rp_id r < 65536 -> rp_cmd r < 65536 -> rp_error r < 4294967296 ->
  on_wire (pipe_reply_bytes r) (rp_id r) (rp_cmd r) 0 (if rp_error r =? 0 then 1 else 33) (rp_error r) (rp_body r) /\
  length (pipe_reply_bytes r) = (16 + length (rp_body r))%nat.
Proof.
  intros r I C E. unfold pipe_reply_bytes, pipe_bytes. split; [|now rewrite app_length, enc_length].
  pose proof (enc_wire _ (rp_body r) (pipe_header_ok (rp_id r) true (rp_cmd r) (rp_error r))) as W.
  unfold pipe_header in *. cbn [hd_id hd_cmd hd_size hd_flags hd_error] in W.
  unfold w16, w32, two32 in *. rewrite (N.mod_small _ _ I), (N.mod_small _ _ C) in *.
  destruct (rp_error r =? 0) eqn:Z; cbn [negb andb] in *.
  - apply N.eqb_eq in Z. rewrite Z. exact W.
  - rewrite (N.mod_small _ _ E) in *. exact W.
Qed.
Print Assumptions C57_reply_partial.

(* No reply says its own length, whatever it is. *)
Theorem C57_reply_size_refuted : forall r id cmd flags error payload,
  ~ message (pipe_reply_bytes r) id cmd flags error payload.
Proof.
  intros r id cmd flags error payload [_ _ S _ _ _ L].
  pose proof (enc_wire _ (rp_body r) (pipe_header_ok (rp_id r) true (rp_cmd r) (rp_error r))) as W.
  change (enc_header (pipe_header (rp_id r) true (rp_cmd r) (rp_error r)) ++ rp_body r) with (pipe_reply_bytes r) in W.
  rewrite (ow_size _ _ _ _ _ _ _ W) in S. cbn in S. lia.
Qed.
Print Assumptions C57_reply_size_refuted.

Lemma pipe_get_msg_enc h rest avail : hdr_ok h -> (16 <= avail)%nat -> pipe_get_msg avail (enc_header h ++ rest) = (Ok h, rest).
Proof. exact (get_msg_enc h rest avail). Qed.

(* So a client that reads a reply with the library's own function gets the error number of an error reply, but takes
   every successful reply for a malformed message. *)
Theorem C57_client_reads_reply_refuted : forall r rest ah ab want,
  rp_id r < 65536 -> rp_error r < 4294967296 -> (16 <= ah)%nat ->
  fst (pipe_recv true (Some (rp_id r)) want ah ab (pipe_reply_bytes r ++ rest)) =
    Err (if (0 <? rp_error r) && (rp_error r <=? 4096) then rp_error r else EINVAL).
Proof.
  intros r rest ah ab want I E A. unfold pipe_recv, pipe_reply_bytes, pipe_bytes. rewrite <- app_assoc.
  rewrite (pipe_get_msg_enc _ _ _ (pipe_header_ok _ _ _ _) A). unfold pipe_header. cbn [hd_id hd_cmd hd_size hd_flags hd_error].
  rewrite N.eqb_refl. cbn [negb]. unfold w32, two32. rewrite (N.mod_small _ _ E).
  destruct (rp_error r =? 0) eqn:Z; cbn [negb andb].
  - change (N.land F_TYPE_REPLY F_TYPE_MASK =? F_TYPE_REPLY) with true. change (has F_TYPE_REPLY F_ERROR) with false. cbn [negb].
    change ((0 <? 16) || (SERVER_MAX_MSG_SIZE <? 0)) with true. cbn [fst]. replace (0 <? rp_error r) with false by lia. reflexivity.
  - change (N.land (N.lor F_TYPE_REPLY F_ERROR) F_TYPE_MASK =? F_TYPE_REPLY) with true.
    change (has (N.lor F_TYPE_REPLY F_ERROR) F_ERROR) with true. cbn [negb fst]. rewrite Z. cbn [orb]. unfold SERVER_MAX_ERROR_NO.
    replace (0 <? rp_error r) with true by lia. replace (rp_error r <=? 4096) with (negb (4096 <? rp_error r)) by lia.
    destruct (4096 <? rp_error r); reflexivity.
Qed.
Print Assumptions C57_client_reads_reply_refuted.

(* A write cut short, even one that writes nothing, should be reported (a failed one is); it passes for a complete one. *)
Theorem C57_short_write_refuted : forall id isr cmd err payload n,
  pipe_send id isr cmd err payload (Sent n) = (Ok tt, firstn (N.to_nat n) (pipe_bytes id isr cmd err payload)).
Proof. intros. unfold pipe_send. cbn [pipe_header hd_size]. replace (n <? 0) with false by lia. reflexivity. Qed.
Print Assumptions C57_short_write_refuted.

Example C57_bytes_case :
  pipe_reply_bytes (mk_reply 513 9 0 [7; 8; 9] []) = [1; 2; 9; 0; 0; 0; 0; 0; 1; 0; 0; 0; 0; 0; 0; 0; 7; 8; 9] /\
  fst (pipe_recv true (Some 513) 3 16 3 (pipe_reply_bytes (mk_reply 513 9 0 [7; 8; 9] []))) = Err EINVAL /\
  fst (pipe_recv true (Some 513) 3 16 3 (pipe_reply_bytes (mk_reply 513 9 5 [] []))) = Err 5 /\
  pipe_send 513 true 9 0 [7; 8; 9] (Sent 2) = (Ok tt, [1; 2]).
Proof. vm_compute. auto. Qed.

(* ---------- replies to the library's own requests *)

Lemma type_mask1 x : (N.land x F_TYPE_MASK =? F_TYPE_REPLY) = (x mod 16 =? 1).
Proof. unfold F_TYPE_MASK, F_TYPE_REPLY. change 15 with (N.ones 4). now rewrite N.land_ones. Qed.
Lemma has5 x : has x F_ERROR = N.testbit x 5.
Proof.
  unfold has, F_ERROR. change 32 with (2 ^ 5). destruct (N.testbit x 5) eqn:T.
  - assert (N.testbit (N.land x (2 ^ 5)) 5 = true) by (rewrite N.land_spec, T, N.pow2_bits_true; reflexivity).
    destruct (N.land x (2 ^ 5)) eqn:Q; [rewrite N.bits_0 in H; discriminate H|reflexivity].
  - replace (N.land x (2 ^ 5)) with 0; [reflexivity|]. symmetry. apply N.bits_inj_0. intros i. rewrite N.land_spec, N.pow2_bits_eqb.
    destruct (N.eqb_spec 5 i) as [<-|]; [now rewrite T|apply andb_false_r].
Qed.

(* What is accepted as a reply is one, whatever is on the pipe and however it arrives; what is behind it stays there. *)
Theorem C57_reply_accepted : forall id want ah ab w h payload rest, id < 65536 ->
  pipe_recv true (Some id) want ah ab w = (Ok (h, payload), rest) ->
  answers w id want payload rest /\ h = mk_header (u16 w 0) (u16 w 2) (u32 w 4) (u32 w 8) (u32 w 12).
Proof.
  intros id want ah ab w h payload rest ID H. unfold pipe_recv in H. destruct (pipe_get_msg ah w) as [[h0|e|c] w1] eqn:G; try discriminate H.
  assert (GM : (16 <= length w)%nat /\ h0 = mk_header (u16 w 0) (u16 w 2) (u32 w 4) (u32 w 8) (u32 w 12) /\ w1 = skipn 16 w).
  { unfold pipe_get_msg, recv_some in G. set (n := Nat.min 16 (Nat.max 1 ah)) in *.
    destruct (firstn n w) as [|x l] eqn:FN; [discriminate G|]. rewrite <- FN in G.
    destruct (le_lt_dec 16 (length (firstn n w))) as [GE|LT]; [|rewrite dec_short in G by exact LT; discriminate G].
    rewrite firstn_length in GE. assert (n = 16%nat) by lia. rewrite dec_wire in G by (rewrite firstn_length; lia).
    rewrite !u16_firstn, !u32_firstn in G by lia. injection G as <- <-. replace n with 16%nat. repeat split; lia. }
  destruct GM as (L & -> & ->). clear G. cbn [hd_id hd_cmd hd_size hd_flags hd_error] in H.
  unfold w16 in H. rewrite (N.mod_small id 65536 ID) in H. destruct (N.eqb_spec (u16 w 0) id) as [Q1|]; cbn [negb] in H; [|discriminate H].
  rewrite type_mask1 in H. destruct (N.eqb_spec (u32 w 8 mod 16) 1) as [Q2|]; cbn [negb] in H; [|discriminate H].
  rewrite has5 in H. destruct (N.testbit (u32 w 8) 5) eqn:Q3; [discriminate H|].
  destruct ((u32 w 4 <? 16) || (SERVER_MAX_MSG_SIZE <? u32 w 4)) eqn:Q4; [discriminate H|]. unfold SERVER_MAX_MSG_SIZE in Q4.
  destruct ((0 <? want) && (16 <? u32 w 4)) eqn:Q5.
  - unfold recv_some in H. set (n := Nat.min (N.to_nat (N.min (u32 w 4 - 16) want)) (Nat.max 1 ab)) in *.
    destruct (N.of_nat (length (firstn n (skipn 16 w))) =? 0); [discriminate H|].
    destruct (N.eqb_spec (N.of_nat (length (firstn n (skipn 16 w)))) want) as [Q6|]; cbn [negb] in H; [|discriminate H].
    injection H as <- <- <-. split; [|reflexivity]. constructor; auto; [lia|rewrite firstn_skipn; symmetry; apply firstn_skipn|].
    replace ((want =? 0) || (u32 w 4 =? 16)) with false by lia. split; [exact Q6|]. rewrite firstn_length in Q6. lia.
  - injection H as <- <- <-. split; [|reflexivity]. constructor; auto; [lia|symmetry; apply firstn_skipn|].
    replace ((want =? 0) || (u32 w 4 =? 16)) with true by lia. reflexivity.
Qed.
Print Assumptions C57_reply_accepted.

(* A reply that has arrived whole is accepted. *)
Theorem C57_reply_delivered_partial : forall id want ah ab w payload rest, id < 65536 -> (16 <= ah)%nat -> (length payload <= ab)%nat ->
  answers w id want payload rest ->
  pipe_recv true (Some id) want ah ab w =
    (Ok (mk_header (u16 w 0) (u16 w 2) (u32 w 4) (u32 w 8) (u32 w 12), payload), rest).
Proof.
  intros id want ah ab w payload rest ID A B [A1 A2 A3 A4 A5 A6 A7]. unfold pipe_recv.
  assert (G : pipe_get_msg ah w = (Ok (mk_header (u16 w 0) (u16 w 2) (u32 w 4) (u32 w 8) (u32 w 12)), skipn 16 w)).
  { unfold pipe_get_msg, recv_some. replace (Nat.min 16 (Nat.max 1 ah)) with 16%nat by lia.
    destruct (firstn 16 w) as [|x l] eqn:FN; [apply (f_equal (@length N)) in FN; rewrite firstn_length in FN; change (length (@nil N)) with 0%nat in FN; lia|].
    rewrite <- FN. rewrite dec_wire by (rewrite firstn_length; lia). now rewrite !u16_firstn, !u32_firstn by lia. }
  rewrite G. cbn [hd_id hd_cmd hd_size hd_flags hd_error]. unfold w16. rewrite (N.mod_small id 65536 ID), A1, N.eqb_refl. cbn [negb].
  rewrite type_mask1, A2. cbn [N.eqb Pos.eqb negb]. rewrite has5, A3. unfold SERVER_MAX_MSG_SIZE.
  replace ((u32 w 4 <? 16) || (1048576 + 16 + 16 <? u32 w 4)) with false by lia.
  assert (SK : skipn 16 w = payload ++ rest).
  { apply (f_equal (skipn 16)) in A5. rewrite A5 at 1. rewrite skipn_app, firstn_length. replace (16 - Nat.min 16 (length w))%nat with 0%nat by lia.
    rewrite skipn_all2 by (rewrite firstn_length; lia). reflexivity. }
  rewrite SK. destruct ((want =? 0) || (u32 w 4 =? 16)) eqn:Q.
  - subst payload. replace ((0 <? want) && (16 <? u32 w 4)) with false by lia. reflexivity.
  - replace ((0 <? want) && (16 <? u32 w 4)) with true by lia. destruct A7 as (A7 & A8). unfold recv_some.
    replace (Nat.min (N.to_nat (N.min (u32 w 4 - 16) want)) (Nat.max 1 ab)) with (length payload) by lia.
    rewrite firstn_app, skipn_app, Nat.sub_diag, firstn_all, skipn_all. cbn [firstn skipn]. rewrite app_nil_r. cbn [app].
    replace (N.of_nat (length payload) =? 0) with false by lia. rewrite A7, N.eqb_refl. reflexivity.
Qed.
Print Assumptions C57_reply_delivered_partial.

Definition ex_pipe_reply : list N := enc_header (mk_header 513 11 20 1 0) ++ [1; 2; 3; 4].
Example C57_reply_accepted_case : answers (ex_pipe_reply ++ [9]) 513 4 [1; 2; 3; 4] [9] /\
  pipe_recv true (Some 513) 4 16 4 (ex_pipe_reply ++ [9]) = (Ok (mk_header 513 11 20 1 0, [1; 2; 3; 4]), [9]) /\
  pipe_send_msg 513 11 [7] 4 (Sent 17) 16 4 (ex_pipe_reply ++ [9]) = (Ok [1; 2; 3; 4], [9], enc_header (mk_header 513 11 0 0 0) ++ [7]).
Proof.
  split; [|split; vm_compute; reflexivity]. split; try reflexivity; [vm_compute; intuition congruence|cbn; lia|vm_compute; intuition congruence].
Qed.

(* The library's own requests (vfu_sgl_read, vfu_sgl_write): one succeeds only if the whole request (but for the length
   in its header) was handed to the pipe and is answered. *)
Theorem C57_transfer_partial : forall id cmd payload want a ah ab w r rest b, id < 65536 -> cmd < 65536 ->
  pipe_send_msg id cmd payload want a ah ab w = (Ok r, rest, b) ->
  answers w id want r rest /\
  exists n m, a = Sent n /\ on_wire m id cmd 0 0 0 payload /\ b = firstn (N.to_nat n) m.
Proof.
  intros id cmd payload want a ah ab w r rest b ID CMD H. unfold pipe_send_msg in H. destruct a as [e|n]; [discriminate H|].
  rewrite C57_short_write_refuted in H. destruct (pipe_recv true (Some id) want ah ab w) as [[(h, r1)|e|c] w1] eqn:R; try discriminate H.
  injection H as <- <- <-. destruct (C57_reply_accepted _ _ _ _ _ _ _ _ ID R) as (A & _). split; [exact A|].
  exists n, (pipe_bytes id false cmd 0 payload). split; [reflexivity|]. split; [|reflexivity].
  pose proof (enc_wire _ payload (pipe_header_ok id false cmd 0)) as W. unfold pipe_bytes, pipe_header in *. cbn [hd_id hd_cmd hd_size hd_flags hd_error andb] in W.
  unfold w16 in *. rewrite (N.mod_small _ _ ID), (N.mod_small _ _ CMD) in *. exact W.
Qed.
Print Assumptions C57_transfer_partial.

(* Why it fails: the write fails, and nothing is read; or the client refuses, and its error number is reported if it is
   one; or what comes back is for another request, or no reply. *)
Theorem C57_transfer_fails : forall id cmd payload want ah ab w, id < 65536 ->
  (forall e, pipe_send_msg id cmd payload want (SentErr e) ah ab w = (Err (if e =? 32 then ECONNRESET else e), w, [])) /\
  (forall n, w = [] -> fst (fst (pipe_send_msg id cmd payload want (Sent n) ah ab w)) = Err ENOMSG) /\
  (forall n, (1 <= length w < 16)%nat -> fst (fst (pipe_send_msg id cmd payload want (Sent n) ah ab w)) = Err ECONNRESET) /\
  (forall n, (16 <= ah)%nat -> (16 <= length w)%nat ->
     (u16 w 0 <> id -> fst (fst (pipe_send_msg id cmd payload want (Sent n) ah ab w)) = Err EPROTO) /\
     (u16 w 0 = id -> u32 w 8 mod 16 <> 1 -> fst (fst (pipe_send_msg id cmd payload want (Sent n) ah ab w)) = Err EINVAL) /\
     (u16 w 0 = id -> u32 w 8 mod 16 = 1 -> N.testbit (u32 w 8) 5 = true ->
        fst (fst (pipe_send_msg id cmd payload want (Sent n) ah ab w)) = Err (if (1 <=? u32 w 12) && (u32 w 12 <=? 4096) then u32 w 12 else EINVAL))).
Proof.
  intros id cmd payload want ah ab w ID. split; [reflexivity|]. unfold pipe_send_msg.
  assert (GS : (length w < 16)%nat -> pipe_get_msg ah w = (Err (match w with [] => ENOMSG | _ => ECONNRESET end), skipn (Nat.min 16 (Nat.max 1 ah)) w)).
  { intros L. unfold pipe_get_msg, recv_some. destruct (firstn (Nat.min 16 (Nat.max 1 ah)) w) as [|x l] eqn:FN.
    - destruct w as [|y w]; [reflexivity|]. exfalso. apply (f_equal (@length N)) in FN. rewrite firstn_length in FN. cbn [length] in FN. lia.
    - rewrite <- FN. rewrite dec_short by (rewrite firstn_length; lia). destruct w; [rewrite firstn_nil in FN; discriminate FN|reflexivity]. }
  split; [|split].
  - intros n ->. rewrite C57_short_write_refuted. unfold pipe_recv. rewrite GS by (cbn; lia). reflexivity.
  - intros n L. rewrite C57_short_write_refuted. unfold pipe_recv. rewrite GS by lia. destruct w; [cbn in L; lia|reflexivity].
  - intros n A L. rewrite C57_short_write_refuted. unfold pipe_recv.
    assert (G : pipe_get_msg ah w = (Ok (mk_header (u16 w 0) (u16 w 2) (u32 w 4) (u32 w 8) (u32 w 12)), skipn 16 w)).
    { unfold pipe_get_msg, recv_some. replace (Nat.min 16 (Nat.max 1 ah)) with 16%nat by lia.
      destruct (firstn 16 w) as [|x l] eqn:FN; [apply (f_equal (@length N)) in FN; rewrite firstn_length in FN; change (length (@nil N)) with 0%nat in FN; lia|].
      rewrite <- FN. rewrite dec_wire by (rewrite firstn_length; lia). now rewrite !u16_firstn, !u32_firstn by lia. }
    rewrite G. cbn [hd_id hd_cmd hd_size hd_flags hd_error]. unfold w16. rewrite (N.mod_small id 65536 ID), type_mask1, has5.
    split; [|split].
    + intros NE. replace (u16 w 0 =? id) with false by lia. reflexivity.
    + intros -> NE. rewrite N.eqb_refl. replace (u32 w 8 mod 16 =? 1) with false by (symmetry; apply N.eqb_neq; exact NE). reflexivity.
    + intros -> -> ->. rewrite N.eqb_refl. cbn [N.eqb Pos.eqb negb fst]. unfold SERVER_MAX_ERROR_NO.
      replace ((u32 w 12 =? 0) || (4096 <? u32 w 12)) with (negb ((1 <=? u32 w 12) && (u32 w 12 <=? 4096))) by lia.
      destruct ((1 <=? u32 w 12) && (u32 w 12 <=? 4096)); reflexivity.
Qed.
Print Assumptions C57_transfer_fails.

Example C57_transfer_case :
  pipe_send_msg 513 11 [7] 4 (Sent 17) 16 4 (ex_pipe_reply ++ [9]) = (Ok [1; 2; 3; 4], [9], enc_header (mk_header 513 11 0 0 0) ++ [7]) /\
  fst (fst (pipe_send_msg 514 11 [7] 4 (Sent 17) 16 4 ex_pipe_reply)) = Err EPROTO /\
  fst (fst (pipe_send_msg 513 11 [7] 4 (Sent 17) 16 4 (enc_header (mk_header 513 11 16 33 13)))) = Err 13.
Proof. vm_compute. auto. Qed.

(* Missing: a payload that arrives in two pieces passes for the end of the connection. *)
Theorem C57_reply_fragment_refuted :
  pipe_recv true (Some 513) 4 16 3 (ex_pipe_reply ++ [9]) = (Err ECONNRESET, [4; 9]).
Proof. reflexivity. Qed.
Print Assumptions C57_reply_fragment_refuted.

(* ---------- requests *)

Lemma set_conn_id s : sv_conn s = true -> set_conn s true = s.
Proof. destruct s; cbn. now intros ->. Qed.

Lemma pipe_rx_sock k1 k2 w : pipe_rx k1 k2 w = sock_rx k1 k2 [] w.
Proof. reflexivity. Qed.

Lemma pipe_act_framed s a rs : Forall framed rs -> complete a ->
  (exists r rs', rs = r :: rs' /\ taken [fst (pipe_act s (stream rs) a)] = [r] /\ snd (pipe_act s (stream rs) a) = stream rs') \/
  (taken [fst (pipe_act s (stream rs) a)] = [] /\ snd (pipe_act s (stream rs) a) = stream rs).
Proof.
  intros F C. destruct a as [d|st]; cbn [pipe_act complete] in *.
  - destruct (reads s) eqn:R; [|right; split; reflexivity]. rewrite pipe_rx_sock.
    destruct rs as [|(h, body) rs].
    + right. change (stream []) with (@nil N). rewrite sock_rx_end. split; reflexivity.
    + left. exists (h, body), rs. split; [reflexivity|].
      change (stream ((h, body) :: rs)) with ((enc_header h ++ body) ++ stream rs). rewrite <- app_assoc.
      inversion F as [|? ? F1 F2]; subst. pose proof (framed_len _ _ F1).
      rewrite sock_rx_framed by (auto; lia). split; reflexivity.
  - right. destruct st; try contradiction; split; reflexivity.
Qed.

(* If all that was sent has arrived whenever the server reads, the requests it takes off the pipe are the first n
   requests sent, in order and complete, and what is left are the bytes of the others. *)
Theorem C57_requests_partial : forall acts s rs,
  Forall framed rs -> Forall complete acts ->
  exists n, taken (fst (pipe_drive s (stream rs) acts)) = firstn n rs /\ snd (pipe_drive s (stream rs) acts) = stream (skipn n rs).
Proof.
  induction acts as [|a acts IH]; intros s rs F C.
  - exists 0%nat. split; reflexivity.
  - inversion C as [|? ? C1 C2]; subst. cbn [pipe_drive].
    pose proof (pipe_act_framed s a rs F C1) as ST. destruct (pipe_act s (stream rs) a) as (st, w1). cbn [fst snd] in ST.
    assert (exists n rs1, rs = firstn n rs ++ rs1 /\ rs1 = skipn n rs /\ w1 = stream rs1 /\ taken [st] = firstn n rs) as (n & rs1 & E1 & E2 & E3 & E4).
    { destruct ST as [(r & rs' & -> & T & W)|(T & W)].
      - exists 1%nat, rs'. repeat split; auto.
      - exists 0%nat, rs. repeat split; auto. }
    assert (F1 : Forall framed rs1) by (rewrite E1 in F; apply Forall_app in F; tauto).
    subst w1.
    assert (SK : forall k m (l : list (header * list N)), skipn k (skipn m l) = skipn (m + k) l).
    { intros k m. induction m as [|m IHm]; intros l; [reflexivity|]. destruct l; [now rewrite !skipn_nil|]. cbn [skipn Nat.add]. apply IHm. }
    assert (FK : forall k m (l : list (header * list N)), firstn m l ++ firstn k (skipn m l) = firstn (m + k) l).
    { intros k m. induction m as [|m IHm]; intros l; [reflexivity|]. destruct l; [now rewrite !firstn_nil|]. cbn [skipn Nat.add firstn app]. f_equal. apply IHm. }
    destruct (pipe_step s st) as ((o, s'), ev).
    specialize (IH s' rs1 F1 C2). destruct IH as (m & T & W).
    destruct (pipe_drive s' (stream rs1) acts) as (sts, w2). cbn [fst snd] in *.
    destruct o; cbn [fst snd].
    + exists (n + m)%nat. rewrite taken_cons, E4, T, W, E2, FK, SK. split; reflexivity.
    + exists (n + m)%nat. rewrite taken_cons, E4, T, W, E2, FK, SK. split; reflexivity.
    + exists n. rewrite E4, E2. split; reflexivity.
Qed.
Print Assumptions C57_requests_partial.

(* With one iteration per request, replies that can be sent and no postponed quiesce, the server does what it does when
   it is handed the requests one by one. *)
Theorem C57_all_handled_partial : forall rs ds s,
  serving s -> Forall framed rs -> length ds = length rs -> Forall complete (map ARun ds) -> Forall calm (map ARun ds) ->
  Forall (fun d => dl_fds d = []) ds ->
  snd (pipe_run s (fst (pipe_drive s (stream rs) (map ARun ds)))) =
    map (fun x => (fst x, filter keeps_conn (snd x))) (snd (sv_run s (as_messages rs ds))).
Proof.
  induction rs as [|(h, body) rs IH]; intros ds s SV F L C K Z; destruct ds as [|d ds]; try discriminate L; [reflexivity|].
  cbn [map] in *. inversion C as [|? ? C1 C2]; subst. inversion K as [|? ? K1 K2]; subst. inversion F as [|? ? F1 F2]; subst.
  inversion Z as [|? ? Z1 Z2]; subst. cbn [complete calm] in C1, K1. pose proof (framed_len _ _ F1) as FL.
  set (st := SRun (set_rx (dl_env d) (RxMsg h [] (inr body)))).
  assert (AS : pipe_act s (stream ((h, body) :: rs)) (ARun d) = (st, stream rs)).
  { cbn [pipe_act]. rewrite (proj1 (serving_reads s) SV), pipe_rx_sock.
    change (stream ((h, body) :: rs)) with ((enc_header h ++ body) ++ stream rs). rewrite <- app_assoc.
    rewrite sock_rx_framed by (auto; lia). reflexivity. }
  assert (AM : as_messages ((h, body) :: rs) (d :: ds) = st :: as_messages rs ds) by (unfold as_messages; cbn; now rewrite Z1).
  rewrite AM. cbn [pipe_drive]. rewrite AS.
  pose proof (calm_serving s (set_rx (dl_env d) (RxMsg h [] (inr body))) h [] body SV eq_refl (proj1 K1) (proj2 K1)) as CS. fold st in CS.
  pose proof SV as (_ & _ & CO).
  assert (PS : pipe_step s st = let '(o, s', ev) := sv_step s st in (o, set_conn s' true, filter keeps_conn ev)).
  { unfold st. cbn [pipe_step]. rewrite CO. cbn [negb]. rewrite andb_false_r. reflexivity. }
  rewrite PS. cbn [sv_run]. destruct (sv_step s st) as ((o, s'), ev).
  assert (NX : serving s' -> snd (let '(s'', t) := pipe_run (set_conn s' true) (fst (pipe_drive (set_conn s' true) (stream rs) (map ARun ds))) in (s'', (o, filter keeps_conn ev) :: t)) =
    map (fun x => (fst x, filter keeps_conn (snd x))) (snd (let '(s'', t) := sv_run s' (as_messages rs ds) in (s'', (o, ev) :: t)))).
  { intros SV'. pose proof SV' as (_ & _ & CO'). rewrite (set_conn_id s' CO'). specialize (IH ds s' SV' F2 ltac:(cbn in L; lia) C2 K2 Z2).
    destruct (pipe_run s' _) as (sa, ta). destruct (sv_run s' _) as (sb, tb). cbn [snd map fst] in *. now rewrite IH. }
  destruct o.
  - destruct (pipe_drive (set_conn s' true) (stream rs) (map ARun ds)) as (sts, w2). cbn [fst pipe_run]. rewrite PS. cbn [fst] in NX. exact (NX CS).
  - destruct (pipe_drive (set_conn s' true) (stream rs) (map ARun ds)) as (sts, w2). cbn [fst pipe_run]. rewrite PS. cbn [fst] in NX. exact (NX CS).
  - cbn [fst pipe_run]. rewrite PS. reflexivity.
Qed.
Print Assumptions C57_all_handled_partial.

Example C57_requests_case : Forall framed ex_reqs /\ serving (ex_busy true) /\
  map (fun x => match fst x with Ok 1 => true | _ => false end)
    (snd (pipe_run (ex_busy true) (fst (pipe_drive (ex_busy true) (stream ex_reqs) (map ARun [ex_frag 16 100; ex_frag 20 1000]))))) = [true; true] /\
  taken (fst (pipe_drive (ex_busy true) (stream ex_reqs) (map ARun [ex_frag 16 100; ex_frag 20 1000]))) = ex_reqs.
Proof.
  split; [repeat constructor; vm_compute; intuition congruence|]. split; [repeat split; vm_compute; reflexivity|]. split; vm_compute; reflexivity.
Qed.

(* Missing: the payload of a write that arrives in two pieces is refused, and its second half is executed as a message. *)
Theorem C57_request_fragment_refuted :
  Forall framed ex_trojan /\ serving (ex_busy true) /\
  concat (map snd (snd (pipe_run (ex_busy true) (fst (pipe_drive (ex_busy true) (stream ex_trojan) [ARun (ex_frag 16 32)]))))) =
    [EvAccess 1 true 0 16 ex_reset_data; EvReply (mk_reply 4 10 0 (le_bytes 8 0 ++ le_bytes 4 1 ++ le_bytes 4 16) [])] /\
  concat (map snd (snd (pipe_run (ex_busy true) (fst (pipe_drive (ex_busy true) (stream ex_trojan) [ARun (ex_frag 16 16); ARun (ex_frag 16 16)]))))) =
    [EvReply (mk_reply 4 10 EINVAL [] []); EvQuiesce None; EvReset ResetDevice; EvReply (mk_reply 99 13 0 [] [])].
Proof.
  split; [|split; [|split]].
  - repeat constructor; vm_compute; intuition congruence.
  - repeat split; vm_compute; reflexivity.
  - vm_compute. reflexivity.
  - vm_compute. reflexivity.
Qed.
Print Assumptions C57_request_fragment_refuted.

(* ---------- histories *)

Lemma pipe_step_sock s st o s1 ev : sv_conn s = true -> is_attach st = false -> pipe_step s st = (o, s1, ev) ->
  exists s2 ev2, sv_step s st = (o, s2, ev2) /\ s1 = set_conn s2 true /\ ev = filter keeps_conn ev2.
Proof.
  intros C A H. unfold pipe_step in H.
  assert (G : (let '(o, s', ev) := sv_step s st in (o, set_conn s' (sv_conn s), filter stays ev)) = (o, s1, ev)).
  { destruct st; try discriminate A; try exact H. rewrite C in H |- *. cbn [negb] in H. rewrite andb_false_r in H. exact H. }
  destruct (sv_step s st) as ((o', s'), ev'). injection G as <- <- <-. rewrite C. eauto.
Qed.

Lemma reattach s : sv_conn s = false -> sv_step s (SAttach (cx_max_xfer (sv_ctx s))) = (Ok 0, set_conn s true, []).
Proof. intros C. cbn [sv_step]. rewrite C. destruct s as [c p q b r]; destruct c; reflexivity. Qed.

(* What a server does on pipes is what it does on a socket whose client comes back whenever the connection is lost:
   same requests, same observable effects, same state. *)
Theorem C57_as_on_a_socket : forall s l s' arr ev,
  sv_conn s = true -> forallb (fun st => negb (is_attach st)) l = true -> pipe_history s l s' arr ev ->
  exists l' s'' ev', history s l' s'' arr ev' /\ filter (fun st => negb (is_attach st)) l' = l /\
    filter keeps_conn ev' = ev /\ s' = s''.
Proof.
  intros s l s' arr ev C A H. induction H as [s|s st o s1 ev1 l s2 arr ev2 H NC T IH].
  - exists [], s, []. repeat split. constructor.
  - cbn [forallb] in A. apply andb_true_iff in A. destruct A as (A1 & A2). apply negb_true_iff in A1.
    destruct (pipe_step_sock _ _ _ _ _ C A1 H) as (sx & evx & S & -> & ->).
    destruct (IH eq_refl A2) as (l' & s'' & ev' & HI & L' & EV & ->).
    destruct (sv_conn sx) eqn:CX.
    + rewrite (set_conn_id sx CX) in HI. exists (st :: l'), s'', (evx ++ ev'). split; [econstructor; eauto|].
      cbn [filter]. rewrite A1. cbn [negb]. rewrite L', filter_app, EV. auto.
    + exists (st :: SAttach (cx_max_xfer (sv_ctx sx)) :: l'), s'', (evx ++ [] ++ ev'). split.
      * change arr with ([] ++ arr). econstructor; [exact S|exact NC|].
        change (@nil (N * N)) with (arrived sx (SAttach (cx_max_xfer (sv_ctx sx)))).
        econstructor; [apply reattach; exact CX|discriminate|exact HI].
      * cbn [filter is_attach negb]. rewrite A1. cbn [negb app]. rewrite L', filter_app, EV. auto.
Qed.
Print Assumptions C57_as_on_a_socket.

Lemma history_app s l1 s1 arr1 ev1 l2 s2 arr2 ev2 : history s l1 s1 arr1 ev1 -> history s1 l2 s2 arr2 ev2 ->
  history s (l1 ++ l2) s2 (arr1 ++ arr2) (ev1 ++ ev2).
Proof.
  induction 1 as [s|s st o sx evx l sy arr evy H NC T IH]; intros H2; [exact H2|].
  cbn [app]. rewrite <- !app_assoc. econstructor; eauto.
Qed.

(* So everything proved about the states a server can reach holds on pipes, and no request is answered twice. *)
Theorem C57_states : forall s l s' arr ev,
  reachable s -> sv_conn s = true -> forallb (fun st => negb (is_attach st)) l = true -> pipe_history s l s' arr ev ->
  reachable s' /\ subseq (replies ev ++ owed s') (owed s ++ arr).
Proof.
  intros s l s' arr ev Rc C A H. destruct (C57_as_on_a_socket _ _ _ _ _ C A H) as (l' & s'' & ev' & HI & _ & EV & ->).
  split.
  - destruct Rc as (s0 & l0 & arr0 & ev0 & F & H0). exists s0, (l0 ++ l'), (arr0 ++ arr), (ev0 ++ ev'). split; [exact F|].
    eapply history_app; eassumption.
  - replace (replies ev) with (replies ev'); [exact (C22_at_most_once _ _ _ _ _ Rc HI)|]. rewrite <- EV. unfold replies. clear.
    induction ev' as [|e ev' IH]; [reflexivity|]. cbn [flat_map filter]. rewrite IH. destruct e; reflexivity.
Qed.
Print Assumptions C57_states.

(* the client goes away in the middle and requests come in after that *)
Definition C57_steps : list step := [SRun (ex_unmap 3 None); SRun (ex_env (RxErr ENOMSG)); SRun (ex_unmap 7 (Some 5)); SRun (ex_env (RxMsg (mk_header 8 99 17 0 0) [] (inr [1])))].
Example C57_states_case : exists s' arr ev, pipe_history (ex_busy true) C57_steps s' arr ev /\ sv_conn (ex_busy true) = true /\ sv_conn s' = true /\
  forallb (fun st => negb (is_attach st)) C57_steps = true /\ replies ev = [(3, 3); (7, 3); (8, 99)] /\ arr = [(3, 3); (7, 3); (8, 99)] /\ losses ev = 1%nat.
Proof.
  do 3 eexists. split; [repeat (eapply ph_cons; [vm_compute; reflexivity|discriminate|]); apply ph_nil|].
  repeat split; vm_compute; reflexivity.
Qed.

(* ---------- no client, and a client that is gone *)

(* Before a client has attached vfu_run_ctx should fail with ENOTCONN, as it does on a socket (C29_no_client). *)
Theorem C57_no_client_refuted : forall s en, fresh s ->
  pipe_step s (SRun en) = (Err EBADF, s, []) /\ EBADF <> ENOTCONN.
Proof.
  intros s en (_ & P & _ & C & R). split; [|discriminate]. cbn [pipe_step]. rewrite R, C, P. reflexivity.
Qed.
Print Assumptions C57_no_client_refuted.

(* Once attached it serves: the next iterations take requests, and the limit the client announced holds. *)
Theorem C57_attached : forall s max, sv_realized s = true -> sv_pending s = PNone ->
  exists s', pipe_step s (SAttach max) = (Ok 0, s', []) /\ serving s' /\ cx_max_xfer (sv_ctx s') = max /\
    cx_dma (sv_ctx s') = cx_dma (sv_ctx s) /\ cx_pci (sv_ctx s') = cx_pci (sv_ctx s) /\ cx_irqs (sv_ctx s') = cx_irqs (sv_ctx s) /\
    cx_mig (sv_ctx s') = cx_mig (sv_ctx s) /\ sv_quiesced s' = sv_quiesced s /\
    forall en, pipe_step s' (SRun en) = (let '(o, s2, ev) := sv_step s' (SRun en) in (o, set_conn s2 true, filter keeps_conn ev)).
Proof.
  intros s max R P. eexists. split; [reflexivity|]. split; [split; [exact R|split; [exact P|reflexivity]]|]. repeat (split; [reflexivity|]).
  intros en. cbn [pipe_step]. cbn [set_conn sv_conn negb]. rewrite andb_false_r. reflexivity.
Qed.
Print Assumptions C57_attached.
Example C57_attached_case : exists s', pipe_step (ex_server false) (SAttach 4096) = (Ok 0, s', []) /\ serving s' /\ cx_max_xfer (sv_ctx s') = 4096.
Proof. destruct (C57_attached (ex_server false) 4096 eq_refl eq_refl) as (s' & A & B & C & _). exists s'. auto. Qed.

(* When standard input ends the device is told that the client is gone and everything of the client is given up... *)
Theorem C57_disconnect : forall s en e, reachable s -> serving s -> en_rx en = RxErr e -> conn_lost e -> quiesces s en ->
  exists s', pipe_step s (SRun en) = (Err ENOTCONN, s', filter keeps_conn (quiesce_call s ++ lost_events s)) /\
    regions_of s' = [] /\ (forall fd, In fd (irq_fds s') -> fd = (-1)%Z) /\ sv_quiesced s' = false /\ sv_pending s' = PNone.
Proof.
  intros s en e Rc SV X CL Q. destruct (C28_disconnect s en e Rc SV X CL Q) as (s' & H & (A1 & A2 & _ & A4 & _) & P).
  destruct SV as (_ & _ & C). exists (set_conn s' true). split; [|repeat split; auto].
  cbn [pipe_step]. rewrite C. cbn [negb]. rewrite andb_false_r. cbn [andb]. rewrite H. reflexivity.
Qed.
Print Assumptions C57_disconnect.

Example C57_disconnect_case : reachable (ex_busy true) /\ serving (ex_busy true) /\ quiesces (ex_busy true) (ex_env (RxErr ENOMSG)) /\ regions_of (ex_busy true) <> [] /\
  map (fun e => match e with EvQuiesce _ => 1 | EvUnregister _ => 2 | EvMunmap _ _ => 3 | EvClose 5 => 4 | EvClose 9 => 5 | EvReset ResetLostConn => 6 | EvDetach => 7 | _ => 0 end)
      (snd (pipe_step (ex_busy true) (SRun (ex_env (RxErr ENOMSG))))) = [1; 2; 3; 4; 6; 5] /\
  fresh (ex_server true).
Proof.
  split; [apply ex_busy_reachable|]. split; [repeat split; vm_compute; reflexivity|]. split; [intros _; reflexivity|]. split; [vm_compute; discriminate|].
  split; [vm_compute; reflexivity|]. apply ex_fresh.
Qed.

(* ... but again with every further vfu_run_ctx, unlike on a socket. *)
Lemma losses_app e1 e2 : losses (e1 ++ e2) = (losses e1 + losses e2)%nat.
Proof. unfold losses. now rewrite filter_app, app_length. Qed.
Lemma losses_once s : cx_reset (sv_ctx s) = true -> losses (filter keeps_conn (quiesce_call s ++ lost_events s)) = 1%nat.
Proof.
  intros R. unfold lost_events. rewrite R. rewrite !filter_app, !losses_app.
  assert (G : forall l, Forall (fun e => match e with EvReset _ => False | _ => True end) l -> losses (filter keeps_conn l) = 0%nat).
  { intros l F. unfold losses. induction F as [|e l E F IH]; [reflexivity|]. cbn [filter]. destruct e; try contradiction; cbn [keeps_conn filter]; auto. }
  rewrite (G (quiesce_call s)), (G (concat _)), (G (closes_of _)).
  - reflexivity.
  - unfold closes_of. apply Forall_map. apply Forall_forall. auto.
  - apply Forall_concat. apply Forall_map. apply Forall_forall. intros r _. unfold gives_up. apply Forall_app. split.
    + destruct (cx_unregister (sv_ctx s)); repeat constructor.
    + destruct (rg_fd r =? -1)%Z; repeat constructor.
  - unfold quiesce_call. destruct (cx_quiesce (sv_ctx s)); repeat constructor.
Qed.
Theorem C57_lost_again_refuted : forall n s d, reachable s -> serving s -> quiesces s (dl_env d) -> cx_reset (sv_ctx s) = true ->
  losses (concat (map snd (snd (pipe_run s (fst (pipe_drive s [] (repeat (ARun d) n))))))) = n.
Proof.
  induction n as [|n IH]; intros s d Rc SV Q RS; [reflexivity|].
  set (en := set_rx (dl_env d) (RxErr ENOMSG)).
  assert (PA : pipe_act s [] (ARun d) = (SRun en, [])).
  { cbn [pipe_act]. rewrite (proj1 (serving_reads s) SV), pipe_rx_sock, sock_rx_end. reflexivity. }
  destruct (C28_disconnect s en ENOMSG Rc SV eq_refl (or_introl eq_refl) Q) as (s' & H & (_ & _ & C' & _) & P).
  pose proof SV as (R & P0 & C).
  assert (PS : pipe_step s (SRun en) = (Err ENOTCONN, set_conn s' true, filter keeps_conn (quiesce_call s ++ lost_events s))).
  { cbn [pipe_step]. rewrite C. cbn [negb]. rewrite andb_false_r. cbn [andb]. rewrite H. reflexivity. }
  pose proof (step_cases _ _ _ _ _ (reachable_sinv _ Rc) H ltac:(discriminate)) as SC.
  destruct (step_kept _ _ _ _ _ (reachable_sinv _ Rc) SC) as (KE & _).
  assert (Rc' : reachable (set_conn s' true)).
  { eapply reachable_step; [eapply reachable_step; [exact Rc|exact H|discriminate]|apply reattach; exact C'|discriminate]. }
  assert (SET : cx_reset (sv_ctx s') = cx_reset (sv_ctx s) /\ cx_quiesce (sv_ctx s') = cx_quiesce (sv_ctx s)).
  { pose proof (k_setup _ _ KE) as SE. unfold same_setup in SE. intuition congruence. }
  specialize (IH (set_conn s' true) d Rc').
  cbn [repeat pipe_drive]. rewrite PA, PS.
  destruct (pipe_drive (set_conn s' true) [] (repeat (ARun d) n)) as (sts, w2) eqn:PD. cbn [fst pipe_run]. rewrite PS.
  cbn [fst] in IH. destruct (pipe_run (set_conn s' true) sts) as (sz, t). cbn [snd map concat] in *. rewrite losses_app, losses_once by exact RS.
  rewrite IH; [reflexivity|..].
  - split; [cbn; rewrite (k_real _ _ KE); exact R|]. split; [exact P|reflexivity].
  - unfold quiesces in *. cbn. destruct SET as (_ & ->). exact Q.
  - cbn. destruct SET as (-> & _). exact RS.
Qed.
Print Assumptions C57_lost_again_refuted.

Example C57_lost_again_case : reachable (ex_busy true) /\ serving (ex_busy true) /\ cx_reset (sv_ctx (ex_busy true)) = true /\
  losses (concat (map snd (snd (pipe_run (ex_busy true) (fst (pipe_drive (ex_busy true) [] (repeat (ARun (ex_frag 16 100)) 3))))))) = 3%nat /\
  losses (concat (map snd (snd (sv_run (ex_busy true) (fst (drive (ex_busy true) [] (repeat (ARun (ex_frag 16 100)) 3))))))) = 1%nat.
Proof. split; [apply ex_busy_reachable|]. repeat split; vm_compute; reflexivity. Qed.

(* ---------- negotiation *)

Lemma recv_alloc_same sa pa : same_client sa pa ->
  fst (recv_alloc (at_avail sa) (at_stream sa)) = fst (pipe_recv_alloc (pe_hdr pa) (pe_body pa) (pe_in pa)).
Proof.
  intros [_ SS (A1 & A2 & A3) _ _]. rewrite SS. set (w := pe_in pa) in *. unfold recv_alloc, recv_alloc_as, pipe_recv_alloc, recv_msg, pipe_recv.
  assert (G : get_msg (at_avail sa) w = pipe_get_msg (pe_hdr pa) w).
  { unfold get_msg, pipe_get_msg, recv_some. replace (Nat.min 16 (Nat.max 1 (at_avail sa))) with 16%nat by lia.
    replace (Nat.min 16 (Nat.max 1 (pe_hdr pa))) with 16%nat by lia. reflexivity. }
  rewrite G. destruct (pipe_get_msg (pe_hdr pa) w) as [[h|e|c] w1] eqn:GM; [|reflexivity|reflexivity].
  assert (LW : (length w1 <= length w)%nat).
  { unfold pipe_get_msg, recv_some in GM. destruct (firstn _ w); [discriminate GM|]. destruct (dec_header _); [|discriminate GM].
    injection GM as _ <-. rewrite skipn_length. lia. }
  destruct (if negb _ then Some EINVAL else None); [reflexivity|]. destruct ((hd_size h <? 16) || _); [reflexivity|].
  cbn [N.ltb N.compare andb]. cbv zeta. destruct (hd_size h - 16 =? 0); [reflexivity|]. unfold recv_all, recv_some.
  assert (FE : firstn (Nat.min (N.to_nat (hd_size h - 16)) (Nat.max 1 (pe_body pa))) w1 = firstn (N.to_nat (hd_size h - 16)) w1).
  { destruct (le_lt_dec (N.to_nat (hd_size h - 16)) (Nat.max 1 (pe_body pa))); [now rewrite Nat.min_l by lia|].
    rewrite Nat.min_r by lia. rewrite !firstn_all2 by lia. reflexivity. }
  rewrite FE. destruct (N.of_nat (length _) =? 0); [reflexivity|]. destruct (negb _); reflexivity.
Qed.

Lemma sized_same id cmd err payload n m : 4294967296 <= n -> 4294967296 <= m -> N.of_nat (length payload) < 4294967200 ->
  let b := snd (pipe_send id true cmd err payload (Sent m)) in
  send_result (hd_size (send_header id true cmd err payload)) (Sent n) = Ok tt /\
  same_but_size b (send_bytes id true cmd err payload) /\ fst (pipe_send id true cmd err payload (Sent m)) = Ok tt.
Proof.
  intros A B L b.
  assert (S : hd_size (send_header id true cmd err payload) < 4294967296) by (cbn [send_header hd_size]; apply N.mod_lt; discriminate).
  split; [unfold send_result; replace (n <? _) with false by lia; reflexivity|]. split.
  - unfold b. rewrite C57_short_write_refuted. cbn [snd]. rewrite firstn_all2.
    2: { unfold pipe_bytes. rewrite app_length, enc_length. lia. }
    unfold pipe_bytes, send_bytes. split; reflexivity.
  - rewrite C57_short_write_refuted. reflexivity.
Qed.

(* A client that negotiates over pipes gets what it would get over a socket: accepted or refused alike, with the same
   limits, and unless it is given a twin socket (never over pipes) with the same reply up to the size in its header. *)
Theorem C57_negotiation_partial : forall parse print g sa pa attached r t g' ev,
  same_client sa pa -> (forall j, N.of_nat (length (print j)) < 4294967000) ->
  attach parse print (mk_tran (-1) (-1)) g sa = (r, t, g', ev) ->
  exists b, pipe_attach parse print attached g pa = (r, match r with Err _ => false | _ => true end, g', b) /\
    (pair_fds ev = [] -> forall b' fds, In (AtSent b' fds) ev -> same_but_size b b').
Proof.
  intros parse print g sa pa attached r t g' ev SC PL H. pose proof SC as [(fd & AC) _ _ (n & m & SN & SM & LN & LM) (x & y & PR)].
  unfold attach in H. cbn [tr_conn] in H. change (negb (-1 =? -1)%Z) with false in H. cbn iota in H. rewrite AC in H.
  unfold negotiate in H. unfold pipe_attach, pipe_negotiate. pose proof (recv_alloc_same sa pa SC) as RA.
  destruct (recv_alloc (at_avail sa) (at_stream sa)) as (r1, w1). destruct (pipe_recv_alloc (pe_hdr pa) (pe_body pa) (pe_in pa)) as (r2, w2).
  cbn [fst] in RA. subst r2. destruct r1 as [(h, body)|e|c].
  2: { injection H as <- _ <- <-. exists []. split; [reflexivity|]. intros _ b' fds [J|[]]. discriminate J. }
  2: { injection H as <- _ <- <-. exists []. split; [reflexivity|]. intros _ b' fds []. }
  destruct (check_version parse h body g) as (r1, g1). destruct r1 as [(minor, twin)|e|c].
  2: { unfold send_iovec in H. rewrite SN in H. destruct (sized_same (hd_id h) (hd_cmd h) e [] n m LN LM ltac:(cbn; lia)) as (S1 & S2 & S3).
       rewrite S1 in H. injection H as <- _ <- <-. rewrite SM. eexists. split; [reflexivity|]. intros _ b' fds [J|[J|[]]]; [|discriminate J].
       injection J as <- _. exact S2. }
  2: { injection H as <- _ <- <-. exists []. split; [reflexivity|]. intros _ b' fds []. }
  set (pl := le_bytes 2 LIB_MAJOR ++ le_bytes 2 (N.min minor LIB_MINOR) ++ print (server_caps (ng_pgsize g1) false) ++ [0]).
  assert (LP : forall f, N.of_nat (length (le_bytes 2 LIB_MAJOR ++ le_bytes 2 (N.min minor LIB_MINOR) ++ print (server_caps (ng_pgsize g1) f) ++ [0])) < 4294967200).
  { intros f. rewrite !app_length, !le_bytes_length. specialize (PL (server_caps (ng_pgsize g1) f)). cbn [length]. lia. }
  destruct (sized_same (hd_id h) CMD_VERSION 0 pl n m LN LM (LP false)) as (S1 & S2 & S3). rewrite SM.
  destruct (pipe_send (hd_id h) true CMD_VERSION 0 pl (Sent m)) as (po, pb). cbn [fst snd] in *. subst po.
  unfold finish_negotiate, send_iovec in H. rewrite SN, PR in H. destruct (twin && (0 <? ng_fds g1)%Z).
  - destruct (sized_same (hd_id h) CMD_VERSION 0 _ n m LN LM (LP (0 <=? x)%Z)) as (T1 & _ & _). rewrite T1 in H.
    injection H as <- _ <- <-. exists pb. split; [reflexivity|]. intros J. discriminate J.
  - change (0 <=? -1)%Z with false in H. fold pl in H. rewrite S1 in H. injection H as <- _ <- <-. exists pb. split; [reflexivity|].
    intros _ b' fds [J|[]]. injection J as <- _. exact S2.
Qed.
Print Assumptions C57_negotiation_partial.

(* Missing: a second vfu_attach_ctx should be refused while a client is attached, as it is on a socket; it is taken for a
   new client's, and if it fails the first client is forgotten. *)
Theorem C57_attach_twice_refuted : forall parse print g pa,
  pipe_attach parse print true g pa = pipe_attach parse print false g pa /\
  (forall t a, (0 <= tr_conn t)%Z -> attach parse print t g a = (Err EINVAL, t, g, [])).
Proof.
  intros parse print g pa. split; [reflexivity|]. intros t a T. unfold attach. replace (negb (tr_conn t =? -1)%Z) with true by lia. reflexivity.
Qed.
Print Assumptions C57_attach_twice_refuted.

(* clients with version 0.5, refused with version 1.5, and a message cut short *)
Definition ex_pipe (b : list N) : pipe_env := mk_pipe_env b 16 (length b) (Sent 4294967296).
Definition ex_sock (b : list N) : attach_env := mk_attach (inl 11%Z) b 16 (Sent 4294967296) (inl (12%Z, 13%Z)).
Example C57_negotiation_case :
  same_client (ex_sock (ex_version 0 5)) (ex_pipe (ex_version 0 5)) /\
  fst (fst (fst (pipe_attach (ex_parse (ex_caps [])) ex_print false ex_nego (ex_pipe (ex_version 0 5))))) = Ok tt /\
  fst (fst (fst (pipe_attach (ex_parse (ex_caps [])) ex_print true ex_nego (ex_pipe (ex_version 1 5))))) = Err EINVAL /\
  snd (pipe_attach (ex_parse (ex_caps [])) ex_print false ex_nego (ex_pipe (ex_version 1 5))) = [7; 0; 1; 0; 0; 0; 0; 0; 33; 0; 0; 0; 22; 0; 0; 0].
Proof.
  split; [|split; [|split]; lazy; reflexivity].
  constructor.
  - exists 11%Z. reflexivity.
  - reflexivity.
  - repeat split; cbn; lia.
  - exists 4294967296, 4294967296. repeat split; discriminate.
  - exists 12%Z, 13%Z. reflexivity.
Qed.
