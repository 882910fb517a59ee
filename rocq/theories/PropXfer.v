(* C42, C41, C08: DMA by messages to the client. *)
From Coq Require Import NArith ZArith String List Bool Lia ZifyBool ZifyNat ZifyN.
From Verif Require Import Base Types Bytes BytesProofs BufProofs Spec Dma DmaProofs DmaRemap Migr Irq SpecIrq Pci Handlers HandlersProofs PropHandlers PropIrq
  Server SpecServer ServerProofs PropServer PropDma Wire Tran SpecWire WireProofs PropWire PropTran Xfer XferProofs SpecXfer.
Import ListNotations.
Open Scope N_scope.
Ltac Zify.zify_post_hook ::= idtac.

(* The loop of a call. *)
Definition xf_of (g : sg) (max : N) (write : bool) (e : xenv) : xfer := mk_xfer max write (start_of g) (xe_client e).
Definition xs_of (g : sg) (max id : N) (data : list N) (e : xenv) : xstate :=
  mk_xstate 0 id 0 (sg_len g) (zeros (N.to_nat (16 + N.min (sg_len g) max))) (xe_junk e) data (xe_in e).

Lemma zeros_length n : length (zeros n) = n.
Proof. apply repeat_length. Qed.

Lemma start_inv g max write id data e : xfer_ok g max data e -> xinv (xf_of g max write e) (sg_len g) (xs_of g max id data e).
Proof.
  intros [R S D Z J C]. split; cbn [xs_of xf_of xs_count xs_left xs_data xs_rbuf xs_dma xf_addr xf_max]; auto.
  rewrite zeros_length. lia.
Qed.

Lemma dma_transfer_eq fuel s max write g id data e : xfer_ok g max data e -> (write = true -> sg_writeable g = true) ->
  dma_transfer fuel s max write g id data e =
  match xfer_loop fuel (xf_of g max write e) (xs_of g max id data e) with
  | (None, m) => (None, m, [])
  | (Some (Ok _, xs), m) => (Some (Ok tt, xs_data xs, s), m, [])
  | (Some (Crash c, xs), m) => (Some (Crash c, xs_data xs, s), m, [])
  | (Some (Err er, xs), m) =>
      if (er =? ENOMSG) || (er =? ECONNRESET) then
        let '(r, s', ev) := reset_ctx s (xe_quiesce e) (xe_lost e) in
        (Some (match r with Crash c => Crash c | _ => Err ENOTCONN end, xs_data xs, s'), m, ev)
      else (Some (Err er, xs_data xs, s), m, [])
  end.
Proof.
  intros [R S D Z J C] W. unfold dma_transfer. rewrite C.
  replace (write && negb (sg_writeable g)) with false by (destruct write; [rewrite W|]; reflexivity).
  unfold xf_of, xs_of, start_of in *. cbn [negb].
  change (2 ^ 64) with two64 in *. change (2 ^ 32) with 4294967296 in Z.
  replace (w64 (16 + N.min (sg_len g) max)) with (16 + N.min (sg_len g) max) by (symmetry; apply N.mod_small; unfold two64; lia).
  replace (w64 (sg_base g + sg_off g)) with (sg_base g + sg_off g) by (symmetry; apply N.mod_small; exact S). reflexivity.
Qed.

(* ---------- the messages *)

Lemma xmsg_request x len s : xinv x len s -> 0 < xs_left s -> dma_request (xf_write x) (xmsg x s) (addr_of x s) (cnt_of x s) (out_chunk x s).
Proof.
  intros I POS. pose proof (cnt_le _ _ _ I) as (A & B & C). pose proof (out_chunk_length _ _ _ I) as OL. pose proof (req_length x s) as RL.
  pose proof (xi_size _ _ _ I) as SZ. pose proof (xi_addr _ _ _ I) as AD. pose proof (xi_sum _ _ _ I). unfold two64, two32 in *.
  exists (xs_id s mod 65536), (req_of x s ++ out_chunk x s). split; [|split; [|split; [|split]]].
  - unfold xmsg. pose proof (C50_command (xs_id s mod 65536) (if xf_write x then 12 else 11) (req_of x s ++ out_chunk x s)) as W.
    replace (send_bytes (xs_id s mod 65536) false (if xf_write x then 12 else 11) 0 (req_of x s ++ out_chunk x s))
      with (send_bytes (xs_id s) false (if xf_write x then CMD_DMA_WRITE else CMD_DMA_READ) 0 (req_of x s ++ out_chunk x s)) in W.
    + apply W; [apply N.mod_lt; discriminate|destruct (xf_write x); reflexivity|]. rewrite app_length. destruct (xf_write x); lia.
    + unfold send_bytes, send_header, w16. rewrite N.mod_mod by discriminate. destruct (xf_write x); reflexivity.
  - rewrite app_length. lia.
  - unfold req_of. rewrite <- !app_assoc. apply u64_le. unfold addr_of. lia.
  - unfold req_of. rewrite <- !app_assoc. rewrite u64_app by (rewrite le_bytes_length; lia). rewrite le_bytes_length. apply u64_le. lia.
  - rewrite skipn_app, RL, (skipn_all2 (req_of x s)) by lia. reflexivity.
Qed.

Lemma xnext_fields x s body w : xs_k (xnext x s body w) = S (xs_k s) /\ xs_id (xnext x s body w) = xs_id s + 1 /\
  xs_count (xnext x s body w) = xs_count s + cnt_of x s /\ xs_in (xnext x s body w) = w /\
  (xf_write x = true -> xs_data (xnext x s body w) = xs_data s).
Proof. unfold xnext. destruct (xf_write x); repeat split; auto; discriminate. Qed.

Lemma run_covers x len g data max : 0 < xf_max x -> xf_addr x = start_of g -> xf_max x = max -> len = sg_len g ->
  forall s ms o s', xrun x s ms o s' -> xinv x len s -> (xf_write x = true -> xs_data s = data) ->
  exists segs, consecutive (addr_of x s) segs /\ total segs <= xs_left s /\ Forall (fun p => snd p <= max) segs /\
    Forall2 (fun m p => dma_request (xf_write x) m (fst p) (snd p) (if xf_write x then part g data (fst p) (snd p) else [])) ms segs /\
    (o = Ok tt -> total segs = xs_left s).
Proof.
  intros MP XA XM XL. induction 1 as [s Z|s e w POS R|s body w ms o s2 POS Q M1 M2 RUN IH]; intros I D.
  - exists []. cbn [total fold_right consecutive]. repeat split; auto; lia.
  - pose proof (cnt_le _ _ _ I) as (A & B & C). specialize (C MP POS). pose proof (xmsg_request _ _ _ I POS) as RQ.
    exists [(addr_of x s, cnt_of x s)]. cbn [total fold_right consecutive fst snd]. split; [auto|]. split; [unfold cnt_of; lia|]. split; [repeat constructor; cbn; unfold cnt_of; lia|].
    split; [|discriminate]. repeat constructor. cbn [fst snd]. unfold out_chunk in RQ. destruct (xf_write x) eqn:WR; [|exact RQ].
    unfold part. replace (addr_of x s - start_of g) with (xs_count s) by (unfold addr_of; lia). rewrite (D eq_refl) in RQ. exact RQ.
  - pose proof (cnt_le _ _ _ I) as (A & B & C). specialize (C MP POS). pose proof (xmsg_request _ _ _ I POS) as RQ.
    assert (LB : N.of_nat (length body) <= want_of x s) by (eapply reply_of_len; [exact I|]; rewrite Q; reflexivity).
    destruct (xnext_fields x s body w) as (_ & _ & XC & _ & XD).
    destruct (IH (xnext_inv _ _ _ _ w I LB)) as (segs & S1 & S2 & S3 & S4 & S5); [intros WR; rewrite (XD WR); auto|].
    exists ((addr_of x s, cnt_of x s) :: segs). rewrite xnext_left in S2, S5. unfold addr_of in S1. rewrite XC in S1.
    cbn [total fold_right consecutive fst snd]. fold (total segs). split; [|split; [|split; [|split]]].
    + repeat split; auto. unfold addr_of. replace (xf_addr x + xs_count s + cnt_of x s) with (xf_addr x + (xs_count s + cnt_of x s)) by lia. exact S1.
    + unfold cnt_of in *. lia.
    + constructor; [|exact S3]. cbn. unfold cnt_of. lia.
    + constructor; [|exact S4]. cbn [fst snd]. unfold out_chunk in RQ. destruct (xf_write x) eqn:WR; [|exact RQ].
      unfold part. replace (addr_of x s - start_of g) with (xs_count s) by (unfold addr_of; lia). rewrite (D eq_refl) in RQ. exact RQ.
    + intros E. specialize (S5 E). unfold cnt_of in *. lia.
Qed.

(* Whatever the client does, the messages sent ask for (or carry) consecutive pieces of the segment, none longer than the client's
   maximum; when the call succeeds they cover it. *)
Theorem C42_messages : forall fuel s max write g id data e r data' s' msgs ev,
  xfer_ok g max data e -> 0 < max -> (write = true -> sg_writeable g = true) ->
  dma_transfer fuel s max write g id data e = (Some (r, data', s'), msgs, ev) ->
  exists segs, covers write g max data msgs segs /\ (r = Ok tt -> total segs = sg_len g).
Proof.
  intros fuel s max write g id data e r data' s' msgs ev O M W H. rewrite (dma_transfer_eq _ _ _ _ _ _ _ _ O W) in H.
  pose proof (start_inv g max write id data e O) as I.
  destruct (xfer_loop fuel (xf_of g max write e) (xs_of g max id data e)) as (lr, m) eqn:L.
  pose proof (xfer_loop_run (xf_of g max write e) (sg_len g) M _ _ _ _ I L) as RUN. destruct lr as [(o, xs)|]; [|discriminate H].
  assert (m = msgs /\ (r = Ok tt -> o = Ok tt)) as (-> & RO).
  { destruct o as [[]|er|c]; [injection H as <- <- <- <- <-; auto| |injection H as <- <- <- <- <-; split; [reflexivity|discriminate]].
    destruct ((er =? ENOMSG) || (er =? ECONNRESET)).
    - destruct (reset_ctx s (xe_quiesce e) (xe_lost e)) as ((rr, s1), ev1). injection H as <- <- <- <- <-. split; [reflexivity|]. destruct rr; discriminate.
    - injection H as <- <- <- <- <-. split; [reflexivity|discriminate]. }
  destruct (run_covers (xf_of g max write e) (sg_len g) g data max M eq_refl eq_refl eq_refl _ _ _ _ RUN I (fun _ => eq_refl)) as (segs & S1 & S2 & S3 & S4 & S5).
  exists segs. unfold addr_of in S1. cbn [xs_of xf_of xf_addr xs_count xs_left xf_write] in *. rewrite N.add_0_r in S1.
  split; [repeat split; auto|]. intros E. apply S5, RO, E.
Qed.
Print Assumptions C42_messages.

(* No client can make the call crash, and it terminates after at most as many messages as the segment has bytes. *)
Theorem C42_terminates : forall fuel s max write g id data e,
  reachable s -> xfer_ok g max data e -> 0 < max -> (N.to_nat (sg_len g) <= fuel)%nat ->
  exists r data' s' msgs ev, dma_transfer fuel s max write g id data e = (Some (r, data', s'), msgs, ev) /\ forall c, r <> Crash c.
Proof.
  intros fuel s max write g id data e RC O M F.
  destruct (write && negb (sg_writeable g)) eqn:W.
  { unfold dma_transfer. rewrite W. do 5 eexists. split; [reflexivity|discriminate]. }
  assert (W' : write = true -> sg_writeable g = true) by (destruct write; [|discriminate]; cbn [andb] in W; apply negb_false_iff in W; auto).
  rewrite (dma_transfer_eq _ _ _ _ _ _ _ _ O W').
  pose proof (start_inv g max write id data e O) as I.
  destruct (xfer_loop fuel (xf_of g max write e) (xs_of g max id data e)) as (lr, m) eqn:L.
  pose proof (xfer_loop_run (xf_of g max write e) (sg_len g) M _ _ _ _ I L) as RUN. destruct lr as [(o, xs)|]; [|cbn [xs_of xs_left] in RUN; lia].
  destruct o as [[]|er|c].
  - do 5 eexists. split; [reflexivity|discriminate].
  - destruct ((er =? ENOMSG) || (er =? ECONNRESET)); [|do 5 eexists; split; [reflexivity|discriminate]].
    pose proof (reachable_sinv _ RC) as (CI & _).
    destruct (reset_ctx_spec s (xe_quiesce e) (xe_lost e) CI) as [(e' & _ & _ & _ & Rs)|(s1 & _ & Rs & _)]; rewrite Rs; do 5 eexists; (split; [reflexivity|discriminate]).
  - exfalso. clear - RUN. remember (Crash c) as o eqn:Q. induction RUN; try discriminate Q. auto.
Qed.
Print Assumptions C42_terminates.

(* ---------- the data *)

Lemma reply_of_ok x s body w : reply_of x s = (Ok body, w) ->
  exists hdr, reply_ok (xs_id s mod 65536) hdr /\ xs_in s ++ xa_bytes (xf_client x (xs_k s) (xmsg x s)) = hdr ++ body ++ w /\
    (body = [] \/ N.of_nat (length body) = want_of x s).
Proof.
  unfold reply_of. destruct (send_result _ _); try discriminate.
  set (w0 := xs_in s ++ xa_bytes (xf_client x (xs_k s) (xmsg x s))).
  destruct (recv_msg true (Some (xs_id s)) (want_of x s) (xa_avail (xf_client x (xs_k s) (xmsg x s))) w0) as ([(h, r)|e|c], w') eqn:R; try discriminate.
  intros Q. injection Q as -> ->.
  apply recv_msg_inv in R; [|unfold want_of; destruct (xf_write x); lia]. destruct R as (L & HH & (G1 & G2 & G3) & SZ & SK & B).
  exists (firstn 16 w0). split; [|split].
  - subst h. cbn [hd_id hd_flags] in *. split; rewrite ?u16_firstn, ?u32_firstn, ?firstn_length by lia; auto; lia.
  - rewrite <- SK. symmetry. apply firstn_skipn.
  - destruct B as [(_ & ->)|(B & _)]; auto.
Qed.

Lemma answers_sent client : forall msgs k, answers client k msgs = sent_by client k msgs.
Proof. induction msgs; intros k; cbn; congruence. Qed.

Lemma run_replies x len : 0 < xf_max x -> forall s ms o s', xrun x s ms o s' -> o = Ok tt -> xinv x len s ->
  (u64 (stale_of x s) 8 = 0 \/ u64 (stale_of x s) 0 <> addr_of x s) ->
  exists segs rs, consecutive (addr_of x s) segs /\ total segs = xs_left s /\ replies_for (xf_write x) (xs_id s) segs rs /\
    xs_in s ++ sent_by (xf_client x) (xs_k s) ms = flat_map (fun r => fst r ++ snd r) rs ++ xs_in s' /\
    xs_data s' = if xf_write x then xs_data s else
      firstn (N.to_nat (xs_count s)) (xs_data s) ++ flat_map (fun r => skipn 16 (snd r)) rs ++ skipn (N.to_nat len) (xs_data s).
Proof.
  intros MP. induction 1 as [s Z|s e w POS R|s body w ms o s2 POS Q M1 M2 RUN IH]; intros E I ST; [|discriminate E|].
  - exists [], []. pose proof (xi_sum _ _ _ I) as S. assert (C : xs_count s = len) by lia. cbn [flat_map app consecutive total fold_right replies_for sent_by].
    rewrite C, firstn_skipn, app_nil_r. repeat split; auto. destruct (xf_write x); reflexivity.
  - pose proof (cnt_le _ _ _ I) as (A & B & C). specialize (C MP POS).
    assert (LB : N.of_nat (length body) <= want_of x s) by (eapply reply_of_len; [exact I|]; rewrite Q; reflexivity).
    destruct (reply_of_ok _ _ _ _ Q) as (hdr & RO & SE & BL).
    destruct BL as [->|BL]; [exfalso; unfold overlay in M1, M2; cbn [app length skipn] in M1, M2; destruct ST; lia|].
    pose proof (xi_rbuf _ _ _ I) as RB. pose proof (xi_data _ _ _ I) as DL. pose proof (xi_dma _ _ _ I) as DM.
    assert (WL : 16 <= want_of x s) by (unfold want_of; destruct (xf_write x); lia).
    assert (B0 : u64 body 0 = addr_of x s) by (rewrite <- M1; unfold overlay; symmetry; apply u64_prefix; lia).
    assert (B8 : u64 body 8 = cnt_of x s) by (rewrite <- M2; unfold overlay; symmetry; apply u64_prefix; lia).
    pose proof (xnext_inv x len s body w I LB) as I'.
    destruct (xnext_fields x s body w) as (XK & XI & XC & XIN & XD).
    destruct (IH E I') as (segs & rs & S1 & S2 & S3 & S4 & S5).
    { right. replace (stale_of x (xnext x s body w)) with (overlay (stale_of x s) body) by (unfold stale_of, xnext; destruct (xf_write x); reflexivity).
      rewrite M1. unfold addr_of. rewrite XC. lia. }
    exists ((addr_of x s, cnt_of x s) :: segs), ((hdr, body) :: rs).
    rewrite XK, XI, XIN in *. rewrite xnext_left in S2. unfold addr_of in S1. rewrite XC in S1.
    cbn [consecutive total fold_right replies_for flat_map fst snd sent_by]. fold (total segs).
    split; [|split; [|split; [|split]]].
    + repeat split; auto. unfold addr_of. replace (xf_addr x + xs_count s + cnt_of x s) with (xf_addr x + (xs_count s + cnt_of x s)) by lia. exact S1.
    + unfold cnt_of in *. lia.
    + repeat split; auto; try apply RO. unfold want_of in BL. destruct (xf_write x); lia.
    + rewrite app_assoc, SE, <- !app_assoc. do 2 f_equal. exact S4.
    + rewrite S5, XC. destruct (xf_write x) eqn:WR; [exact (XD eq_refl)|]. clear XD. unfold xnext, want_of in *. rewrite WR in *. cbn [xs_data].
      set (o1 := N.to_nat (xs_count s)) in *. set (n := N.to_nat (cnt_of x s)) in *.
      assert (OV : firstn n (skipn 16 (overlay (xs_rbuf s) body)) = skipn 16 body).
      { unfold overlay. rewrite skipn_app, firstn_app. replace (16 - length body)%nat with 0%nat by lia.
        rewrite firstn_all2 by (rewrite skipn_length; unfold n; lia). replace (n - length (skipn 16 body))%nat with 0%nat by (rewrite skipn_length; unfold n; lia).
        cbn [firstn]. apply app_nil_r. }
      rewrite OV. assert (LS : length (skipn 16 body) = n) by (rewrite skipn_length; unfold n; lia).
      assert (LF : length (firstn o1 (xs_data s)) = o1) by (rewrite firstn_length; unfold o1; lia).
      replace (N.to_nat (xs_count s + cnt_of x s)) with (o1 + n)%nat by (unfold o1, n; lia).
      rewrite (app_assoc (firstn o1 (xs_data s)) (skipn 16 body)).
      set (X := firstn o1 (xs_data s) ++ skipn 16 body).
      assert (LX : length X = (o1 + n)%nat) by (unfold X; rewrite app_length; lia).
      rewrite firstn_app, LX, (firstn_all2 X) by lia. replace (o1 + n - (o1 + n))%nat with 0%nat by lia. cbn [firstn]. rewrite app_nil_r.
      rewrite skipn_app, LX, (skipn_all2 X) by (unfold o1, n in *; lia). cbn [app].
      unfold X. rewrite <- !app_assoc. do 3 f_equal.
      rewrite skipn_add. f_equal. unfold o1, n. lia.
Qed.

Lemma success_run fuel s max write g id data e data' s' msgs ev :
  xfer_ok g max data e -> 0 < max -> (write = true -> sg_writeable g = true) ->
  dma_transfer fuel s max write g id data e = (Some (Ok tt, data', s'), msgs, ev) ->
  exists xs, xrun (xf_of g max write e) (xs_of g max id data e) msgs (Ok tt) xs /\ data' = xs_data xs /\ s' = s /\ ev = [].
Proof.
  intros O M W H. rewrite dma_transfer_eq in H by auto.
  pose proof (start_inv g max write id data e O) as I.
  destruct (xfer_loop fuel (xf_of g max write e) (xs_of g max id data e)) as (lr, m) eqn:L.
  pose proof (xfer_loop_run (xf_of g max write e) (sg_len g) M _ _ _ _ I L) as RUN. destruct lr as [(o, xs)|]; [|discriminate H].
  destruct o as [[]|er|c]; [|exfalso|discriminate H].
  - injection H as <- <- <- <-. exists xs. auto.
  - destruct ((er =? ENOMSG) || (er =? ECONNRESET)).
    + destruct (reset_ctx s (xe_quiesce e) (xe_lost e)) as ((rr, s1), ev1). destruct rr; discriminate H.
    + discriminate H.
Qed.

(* A read that succeeds: the client's bytes begin with one reply for each piece, with the address and the count of the piece, and the
   caller's buffer holds exactly the data of these replies; nothing else of the buffer changes. *)
Theorem C42_read_delivers : forall fuel s max g id data e data' s' msgs ev,
  xfer_ok g max data e -> 0 < max ->
  dma_transfer fuel s max false g id data e = (Some (Ok tt, data', s'), msgs, ev) ->
  exists segs rs rest, consecutive (start_of g) segs /\ total segs = sg_len g /\ replies_for false id segs rs /\
    xe_in e ++ answers (xe_client e) 0 msgs = flat_map (fun r => fst r ++ snd r) rs ++ rest /\
    data' = flat_map (fun r => skipn 16 (snd r)) rs ++ skipn (N.to_nat (sg_len g)) data /\
    s' = s /\ ev = [].
Proof.
  intros fuel s max g id data e data' s' msgs ev O M H.
  pose proof (start_inv g max false id data e O) as I.
  assert (NW : false = true -> sg_writeable g = true) by discriminate.
  destruct (success_run _ _ _ _ _ _ _ _ _ _ _ _ O M NW H) as (xs & RUN & -> & -> & ->).
  destruct (run_replies (xf_of g max false e) (sg_len g) M _ _ _ _ RUN eq_refl I) as (segs & rs & S1 & S2 & S3 & S4 & S5).
  { left. unfold stale_of. cbn [xs_of xs_rbuf xf_of xf_write]. replace (N.to_nat (16 + N.min (sg_len g) max)) with (16 + N.to_nat (N.min (sg_len g) max))%nat by lia.
    unfold zeros. rewrite repeat_app. rewrite u64_prefix by (rewrite repeat_length; lia). reflexivity. }
  exists segs, rs, (xs_in xs). unfold addr_of in S1. cbn [xs_of xf_of xf_addr xs_count xs_left xs_id xs_in xs_k xs_data xf_client xf_write] in *. rewrite N.add_0_r in S1.
  rewrite answers_sent. repeat (split; [assumption|]). auto.
Qed.
Print Assumptions C42_read_delivers.

(* A write that succeeds: the client answered every piece with its address and count, and the caller's buffer is unchanged.  Missing:
   without the hypothesis on the uninitialised struct the first reply may lack the body (see C42_write_unconfirmed_refuted). *)
Theorem C42_write_confirmed_partial : forall fuel s max g id data e data' s' msgs ev,
  xfer_ok g max data e -> 0 < max -> sg_writeable g = true -> u64 (xe_junk e) 0 <> start_of g ->
  dma_transfer fuel s max true g id data e = (Some (Ok tt, data', s'), msgs, ev) ->
  exists segs rs rest, consecutive (start_of g) segs /\ total segs = sg_len g /\ replies_for true id segs rs /\
    xe_in e ++ answers (xe_client e) 0 msgs = flat_map (fun r => fst r ++ snd r) rs ++ rest /\
    data' = data /\ s' = s /\ ev = [].
Proof.
  intros fuel s max g id data e data' s' msgs ev O M W J H.
  pose proof (start_inv g max true id data e O) as I.
  destruct (success_run _ _ _ _ _ _ _ _ _ _ _ _ O M (fun _ => W) H) as (xs & RUN & -> & -> & ->).
  destruct (run_replies (xf_of g max true e) (sg_len g) M _ _ _ _ RUN eq_refl I) as (segs & rs & S1 & S2 & S3 & S4 & S5).
  { right. unfold stale_of, addr_of. cbn [xs_of xs_dma xf_of xf_write xf_addr xs_count]. rewrite N.add_0_r. exact J. }
  exists segs, rs, (xs_in xs). unfold addr_of in S1. cbn [xs_of xf_of xf_addr xs_count xs_left xs_id xs_in xs_k xs_data xf_client xf_write] in *. rewrite N.add_0_r in S1.
  rewrite answers_sent. repeat (split; [assumption|]). auto.
Qed.
Print Assumptions C42_write_confirmed_partial.

(* ---------- a client that answers *)

Lemma mem_bytes_length mem a n : length (mem_bytes mem a n) = N.to_nat n.
Proof. unfold mem_bytes. now rewrite map_length, seq_length. Qed.

Lemma mem_bytes_app mem a n m : mem_bytes mem a (n + m) = mem_bytes mem a n ++ mem_bytes mem (a + n) m.
Proof.
  unfold mem_bytes. replace (N.to_nat (n + m)) with (N.to_nat n + N.to_nat m)%nat by lia. rewrite seq_app, map_app. f_equal.
  cbn [Nat.add]. rewrite <- (Nat.add_0_r (N.to_nat n)) at 1. generalize 0%nat as k.
  induction (N.to_nat m) as [|j IH]; intros k; [reflexivity|]. cbn [seq map]. f_equal; [f_equal; lia|]. rewrite <- IH. do 2 f_equal. lia.
Qed.

Lemma talk_reply x len s f mem : xinv x len s -> 0 < xs_left s -> xs_in s = [] -> xf_client x = talk f mem (xf_write x) -> bounded f ->
  (xf_write x = false -> cnt_of x s <= 1024 * 1024) ->
  exists body, reply_of x s = (Ok body, []) /\
    u64 (overlay (stale_of x s) body) 0 = fst (f (xs_k s) (addr_of x s) (cnt_of x s)) /\
    u64 (overlay (stale_of x s) body) 8 = snd (f (xs_k s) (addr_of x s) (cnt_of x s)) /\
    (xf_write x = false -> firstn (N.to_nat (cnt_of x s)) (skipn 16 (overlay (stale_of x s) body)) = mem_bytes mem (addr_of x s) (cnt_of x s)).
Proof.
  intros I POS XIN XCL BF MX. pose proof (cnt_le _ _ _ I) as (A & B & C).
  pose proof (xi_size _ _ _ I) as SZ. pose proof (xi_addr _ _ _ I) as AD. pose proof (xi_sum _ _ _ I) as SUM. pose proof (xi_rbuf _ _ _ I) as RB. pose proof (xi_dma _ _ _ I) as DM.
  unfold two64, two32 in *.
  pose proof (out_chunk_length _ _ _ I) as OL. pose proof (req_length x s) as RL.
  set (h := send_header (xs_id s) false (if xf_write x then CMD_DMA_WRITE else CMD_DMA_READ) 0 (req_of x s ++ out_chunk x s)).
  assert (XM : xmsg x s = enc_header h ++ req_of x s ++ out_chunk x s) by reflexivity.
  pose proof (enc_wire h (req_of x s ++ out_chunk x s) (send_header_ok _ _ _ _ _)) as OW. rewrite <- XM in OW.
  pose proof (ow_id _ _ _ _ _ _ _ OW) as U0. pose proof (ow_cmd _ _ _ _ _ _ _ OW) as U2. cbn [h send_header hd_id hd_cmd] in U0, U2.
  assert (UA : u64 (xmsg x s) 16 = addr_of x s).
  { rewrite XM, u64_app by (rewrite enc_length; lia). rewrite enc_length. unfold req_of. rewrite <- !app_assoc. apply u64_le. unfold addr_of. lia. }
  assert (UC : u64 (xmsg x s) 24 = cnt_of x s).
  { rewrite XM, u64_app by (rewrite enc_length; lia). rewrite enc_length. unfold req_of. rewrite <- !app_assoc. rewrite u64_app by (rewrite le_bytes_length; lia). rewrite le_bytes_length. apply u64_le. lia. }
  assert (ML : length (xmsg x s) = (16 + length (req_of x s ++ out_chunk x s))%nat) by (rewrite XM, app_length, enc_length; reflexivity).
  destruct (f (xs_k s) (addr_of x s) (cnt_of x s)) as (a', n') eqn:F. destruct (BF (xs_k s) (addr_of x s) (cnt_of x s)) as (F1 & F2); [unfold addr_of; change (2 ^ 64) with 18446744073709551616; lia|change (2 ^ 64) with 18446744073709551616; lia|]. rewrite F in F1, F2. cbn [fst snd] in *.
  change (2 ^ 64) with 18446744073709551616 in *.
  set (tail := if xf_write x then [] else mem_bytes mem (addr_of x s) (cnt_of x s)).
  exists (le_bytes 8 a' ++ le_bytes 8 n' ++ tail).
  assert (TL : N.of_nat (length (le_bytes 8 a' ++ le_bytes 8 n' ++ tail)) = want_of x s).
  { rewrite !app_length, !le_bytes_length. unfold tail, want_of. destruct (xf_write x); [reflexivity|]. rewrite mem_bytes_length. lia. }
  assert (WM : 16 <= want_of x s <= 1024 * 1024 + 16) by (unfold want_of; destruct (xf_write x); [lia|]; specialize (MX eq_refl); lia).
  split; [|split; [|split]].
  - unfold reply_of. rewrite XCL, XIN. unfold talk. rewrite U0, U2, UA, UC, F. cbn [xa_send xa_bytes xa_avail fst snd app].
    unfold send_result. rewrite ML. replace (N.of_nat (16 + length (req_of x s ++ out_chunk x s)) <? w32 (16 + N.of_nat (length (req_of x s ++ out_chunk x s)))) with false.
    2:{ symmetry. apply N.ltb_ge. unfold w32, two32. rewrite N.mod_small; [lia|]. rewrite app_length. destruct (xf_write x); lia. }
    fold tail. unfold reply_bytes, send_bytes. cbn [rp_id rp_cmd rp_error rp_body].
    set (hr := send_header (w16 (xs_id s)) true (w16 (if xf_write x then CMD_DMA_WRITE else CMD_DMA_READ)) 0 (le_bytes 8 a' ++ le_bytes 8 n' ++ tail)).
    rewrite <- (app_nil_r (le_bytes 8 a' ++ le_bytes 8 n' ++ tail)) at 1. rewrite (recv_msg_good hr _ [] (xs_id s) (want_of x s) 16); try lia; [reflexivity|apply send_header_ok| |].
    + split; [|split; reflexivity]. cbn [hr send_header hd_id]. unfold w16. apply N.mod_mod. discriminate.
    + cbn [hr send_header hd_size]. unfold w32, two32. rewrite N.mod_small by lia. reflexivity.
  - unfold overlay. rewrite <- !app_assoc. now apply u64_le.
  - unfold overlay. rewrite <- !app_assoc. rewrite u64_app by (rewrite le_bytes_length; lia). rewrite le_bytes_length. now apply u64_le.
  - intros WR. unfold overlay, tail. rewrite WR. rewrite <- !app_assoc.
    rewrite (app_assoc (le_bytes 8 a')). rewrite skipn_app, app_length, !le_bytes_length, skipn_all2 by (rewrite app_length, !le_bytes_length; lia).
    cbn [Nat.add Nat.sub skipn app]. rewrite firstn_app, mem_bytes_length, Nat.sub_diag, firstn_all2 by (rewrite mem_bytes_length; lia). cbn [firstn]. apply app_nil_r.
Qed.

Definition asks (write : bool) (g : sg) (data m : list N) (p : N * N) : Prop :=
  dma_request write m (fst p) (snd p) (if write then part g data (fst p) (snd p) else []).

Lemma xmsg_asks x s g data : xinv x (sg_len g) s -> 0 < xs_left s -> xf_addr x = start_of g -> (xf_write x = true -> xs_data s = data) ->
  asks (xf_write x) g data (xmsg x s) (addr_of x s, cnt_of x s).
Proof.
  intros I POS XA D. pose proof (xmsg_request _ _ _ I POS) as RQ. unfold asks. cbn [fst snd]. unfold out_chunk in RQ. destruct (xf_write x) eqn:WR; [|exact RQ].
  unfold part. replace (addr_of x s - start_of g) with (xs_count s) by (unfold addr_of; lia). rewrite (D eq_refl) in RQ. exact RQ.
Qed.

Lemma run_talk x f mem g data : 0 < xf_max x -> xf_addr x = start_of g ->
  xf_client x = talk f mem (xf_write x) -> bounded f -> (xf_write x = false -> N.min (sg_len g) (xf_max x) <= 1024 * 1024) ->
  forall s ms o s', xrun x s ms o s' -> xinv x (sg_len g) s -> xs_in s = [] -> (xf_write x = true -> xs_data s = data) ->
  exists good segs, consecutive (addr_of x s) segs /\ total segs <= xs_left s /\ Forall (fun p => snd p <= xf_max x) segs /\
    Forall2 (asks (xf_write x) g data) ms segs /\ agree f (xs_k s) good /\
    xs_data s' = (if xf_write x then xs_data s else
      firstn (N.to_nat (xs_count s)) (xs_data s) ++ mem_bytes mem (addr_of x s) (total good) ++ skipn (N.to_nat (xs_count s + total good)) (xs_data s)) /\
    ((o = Ok tt /\ segs = good /\ total segs = xs_left s) \/
     (exists a n, o = Err EINVAL /\ segs = good ++ [(a, n)] /\ f (xs_k s + length good)%nat a n <> (a, n))).
Proof.
  intros MP XA XCL BF MX. induction 1 as [s Z|s e w POS R|s body w ms o s2 POS Q M1 M2 RUN IH]; intros I XIN D.
  - exists [], []. cbn [consecutive total fold_right agree mem_bytes]. unfold mem_bytes. cbn [N.to_nat seq map app]. rewrite N.add_0_r, firstn_skipn.
    do 5 (split; [auto; lia|]). split; [destruct (xf_write x); reflexivity|]. left. repeat split. lia.
  - pose proof (cnt_le _ _ _ I) as (A & B & C). specialize (C MP POS). pose proof (xmsg_asks _ _ g data I POS XA D) as RQ.
    destruct (talk_reply x (sg_len g) s f mem I POS XIN XCL BF) as (body & RP & F1 & F2 & F3); [intros W; specialize (MX W); lia|].
    rewrite RP in R. cbn [fst snd round_of] in R. rewrite F1, F2 in R.
    destruct (f (xs_k s) (addr_of x s) (cnt_of x s)) as (a', n') eqn:F. cbn [fst snd] in R.
    destruct (negb (a' =? addr_of x s) || negb (n' =? cnt_of x s)) eqn:NE; [|discriminate R]. injection R as <- <-.
    exists [], [(addr_of x s, cnt_of x s)]. cbn [consecutive total fold_right fst snd agree xs_data]. unfold mem_bytes. cbn [N.to_nat seq map app]. rewrite (N.add_0_r (xs_count s)), firstn_skipn.
    split; [auto|]. split; [unfold cnt_of; lia|]. split; [repeat constructor; cbn; unfold cnt_of; lia|]. split; [repeat constructor; exact RQ|].
    split; [exact Logic.I|]. split; [destruct (xf_write x); reflexivity|]. right. exists (addr_of x s), (cnt_of x s). split; [reflexivity|]. split; [reflexivity|].
    cbn [length]. rewrite Nat.add_0_r, F. intros E. injection E as -> ->. rewrite !N.eqb_refl in NE. discriminate NE.
  - pose proof (cnt_le _ _ _ I) as (A & B & C). specialize (C MP POS). pose proof (xmsg_asks _ _ g data I POS XA D) as RQ.
    assert (LB : N.of_nat (length body) <= want_of x s) by (eapply reply_of_len; [exact I|]; rewrite Q; reflexivity).
    destruct (talk_reply x (sg_len g) s f mem I POS XIN XCL BF) as (body' & RP & F1 & F2 & F3); [intros W; specialize (MX W); lia|].
    rewrite Q in RP. injection RP as -> ->. rewrite M1 in F1. rewrite M2 in F2.
    assert (F : f (xs_k s) (addr_of x s) (cnt_of x s) = (addr_of x s, cnt_of x s)) by (destruct (f (xs_k s) (addr_of x s) (cnt_of x s)); cbn [fst snd] in *; congruence).
    destruct (xnext_fields x s body' []) as (XK & XI & XC & XN & XD).
    destruct (IH (xnext_inv _ _ _ _ _ I LB) XN) as (good & segs & S1 & S2 & S3 & S4 & S5 & S6 & S7); [intros W; rewrite (XD W); auto|].
    rewrite XK in *. rewrite xnext_left in *. unfold addr_of in S1, S6. rewrite XC in *.
    exists ((addr_of x s, cnt_of x s) :: good), ((addr_of x s, cnt_of x s) :: segs).
    cbn [consecutive total fold_right fst snd agree]. fold (total segs). fold (total good).
    split; [|split; [|split; [|split; [|split; [|split]]]]].
    + repeat split; auto. unfold addr_of. replace (xf_addr x + xs_count s + cnt_of x s) with (xf_addr x + (xs_count s + cnt_of x s)) by lia. exact S1.
    + unfold cnt_of in *. lia.
    + constructor; [|exact S3]. cbn. unfold cnt_of. lia.
    + constructor; [exact RQ|exact S4].
    + auto.
    + rewrite S6. destruct (xf_write x) eqn:WR; [exact (XD eq_refl)|]. clear XD S6. unfold xnext, stale_of in *. rewrite WR in *. cbn [xs_data].
      rewrite (F3 eq_refl). pose proof (xi_data _ _ _ I) as DL.
      set (o1 := N.to_nat (xs_count s)) in *. set (n := N.to_nat (cnt_of x s)) in *.
      assert (LF : length (firstn o1 (xs_data s)) = o1) by (rewrite firstn_length; unfold o1; lia).
      set (c1 := mem_bytes mem (addr_of x s) (cnt_of x s)). assert (LS : length c1 = n) by apply mem_bytes_length.
      rewrite (app_assoc (firstn o1 (xs_data s)) c1). set (X := firstn o1 (xs_data s) ++ c1).
      assert (LX : length X = (o1 + n)%nat) by (unfold X; rewrite app_length; lia).
      replace (N.to_nat (xs_count s + cnt_of x s)) with (o1 + n)%nat by (unfold o1, n; lia).
      rewrite firstn_app, LX, (firstn_all2 X) by lia. replace (o1 + n - (o1 + n))%nat with 0%nat by lia. cbn [firstn]. rewrite app_nil_r.
      rewrite mem_bytes_app. fold c1. rewrite skipn_app, LX, (skipn_all2 X) by (unfold o1, n in *; lia). cbn [app].
      unfold X. rewrite <- !app_assoc. do 2 f_equal. f_equal; [f_equal; unfold addr_of; lia|]. rewrite skipn_add. f_equal. unfold o1, n. lia.
    + destruct S7 as [(-> & -> & T)|(a & n & -> & -> & NE)].
      * left. repeat split. unfold cnt_of in *. lia.
      * right. exists a, n. repeat split. cbn [length]. intros E. apply NE. rewrite <- E. f_equal. lia.
Qed.

(* A client with the memory mem answers every message: the call succeeds exactly if each answer names the address and the count asked
   for; the first that does not fails it with EINVAL and is the last.  A read delivers the client's memory, up to there. *)
Theorem C42_client : forall fuel s max write g id data f mem e,
  xfer_ok g max data e -> 0 < max -> (write = true -> sg_writeable g = true) ->
  (N.to_nat (sg_len g) <= fuel)%nat -> (write = false -> N.min (sg_len g) max <= 1024 * 1024) ->
  bounded f -> xe_client e = talk f mem write -> xe_in e = [] ->
  exists r data' msgs segs good, dma_transfer fuel s max write g id data e = (Some (r, data', s), msgs, []) /\
    covers write g max data msgs segs /\ agree f 0 good /\
    data' = (if write then data else mem_bytes mem (start_of g) (total good) ++ skipn (N.to_nat (total good)) data) /\
    ((r = Ok tt /\ segs = good /\ total segs = sg_len g) \/
     (exists a n, r = Err EINVAL /\ segs = good ++ [(a, n)] /\ f (length good) a n <> (a, n))).
Proof.
  intros fuel s max write g id data f mem e O M W F MX BF CL IN. rewrite (dma_transfer_eq _ _ _ _ _ _ _ _ O W).
  pose proof (start_inv g max write id data e O) as I.
  destruct (xfer_loop fuel (xf_of g max write e) (xs_of g max id data e)) as (lr, m) eqn:L.
  pose proof (xfer_loop_run (xf_of g max write e) (sg_len g) M _ _ _ _ I L) as RUN. destruct lr as [(o, xs)|]; [|cbn [xs_of xs_left] in RUN; lia].
  destruct (run_talk (xf_of g max write e) f mem g data M eq_refl CL BF MX _ _ _ _ RUN I IN (fun _ => eq_refl)) as (good & segs & S1 & S2 & S3 & S4 & S5 & S6 & S7).
  unfold addr_of in S1, S6. cbn [xs_of xf_of xf_addr xs_count xs_left xf_write xs_data xf_max xs_k Nat.add] in *. rewrite N.add_0_r, N.add_0_l in *.
  cbn [N.to_nat firstn app] in S6.
  assert (CV : covers write g max data m segs) by (repeat split; assumption).
  destruct S7 as [(-> & -> & T)|(a & n & -> & -> & NE)].
  - exists (Ok tt), (xs_data xs), m, good, good. repeat split; auto; apply CV.
  - exists (Err EINVAL), (xs_data xs), m, (good ++ [(a, n)]), good. cbn [N.eqb Pos.eqb orb ENOMSG EINVAL ECONNRESET]. repeat split; auto; try apply CV. right. exists a, n. auto.
Qed.
Print Assumptions C42_client.

Lemma honest_bounded : bounded honest.
Proof. intros k a n A N. auto. Qed.
Lemma honest_agree segs : forall k, agree honest k segs.
Proof. induction segs as [|(a, n) l IH]; intros k; cbn; auto. Qed.

(* With a maximum up to 1 MiB and an honest client both calls succeed. *)
Theorem C41_progress_partial : forall fuel s max write g id data mem e,
  xfer_ok g max data e -> 0 < max -> (write = true -> sg_writeable g = true) ->
  (N.to_nat (sg_len g) <= fuel)%nat -> (write = false -> max <= 1024 * 1024) ->
  xe_client e = talk honest mem write -> xe_in e = [] ->
  exists msgs segs, covers write g max data msgs segs /\ total segs = sg_len g /\
    dma_transfer fuel s max write g id data e =
      (Some (Ok tt, if write then data else mem_bytes mem (start_of g) (sg_len g) ++ skipn (N.to_nat (sg_len g)) data, s), msgs, []).
Proof.
  intros fuel s max write g id data mem e O M W F MX CL IN.
  destruct (C42_client fuel s max write g id data honest mem e O M W F) as (r & data' & msgs & segs & good & H & CV & AG & D & C); auto using honest_bounded.
  { intros E. specialize (MX E). lia. }
  exists msgs, segs. destruct C as [(-> & -> & T)|(a & n & _ & _ & NE)]; [|elim NE; reflexivity]. split; [exact CV|]. split; [exact T|]. rewrite H, D, T. reflexivity.
Qed.
Print Assumptions C41_progress_partial.

(* With the maximum 0 (announced, or left of an announced multiple of 4 GiB) the calls send messages for ever. *)
Theorem C41_zero_never_ends_refuted : forall fuel s write g id data mem e,
  xfer_ok g 0 data e -> 0 < sg_len g -> (write = true -> sg_writeable g = true) ->
  xe_client e = talk honest mem write -> xe_in e = [] ->
  exists msgs, dma_transfer fuel s 0 write g id data e = (None, msgs, []) /\ length msgs = fuel.
Proof.
  intros fuel s write g id data mem e O P W CL IN. rewrite (dma_transfer_eq _ _ _ _ _ _ _ _ O W).
  pose proof (start_inv g 0 write id data e O) as I.
  assert (L : forall xs, xinv (xf_of g 0 write e) (sg_len g) xs -> 0 < xs_left xs -> xs_in xs = [] ->
    exists msgs, xfer_loop fuel (xf_of g 0 write e) xs = (None, msgs) /\ length msgs = fuel).
  { clear I. induction fuel as [|fuel IH]; intros xs I PX XIN; cbn [xfer_loop]; (destruct (N.eqb_spec (xs_left xs) 0); [lia|]); [exists []; auto|].
    rewrite (xfer_round_eq _ _ _ I PX).
    destruct (talk_reply (xf_of g 0 write e) (sg_len g) xs honest mem I PX XIN CL honest_bounded) as (body & RP & F1 & F2 & _).
    { intros _. unfold cnt_of. cbn [xf_of xf_max]. lia. }
    assert (LB : N.of_nat (length body) <= want_of (xf_of g 0 write e) xs) by (eapply reply_of_len; [exact I|]; rewrite RP; reflexivity).
    rewrite RP. cbn [fst snd round_of]. rewrite F1, F2. cbn [honest fst snd]. rewrite !N.eqb_refl. cbn [negb orb].
    destruct (IH _ (xnext_inv _ _ _ _ [] I LB)) as (ms & E & LM).
    - rewrite xnext_left. unfold cnt_of. cbn [xf_of xf_max]. lia.
    - apply xnext_fields.
    - rewrite E. eexists. split; [reflexivity|]. cbn [app length]. now rewrite LM. }
  destruct (L _ I P IN) as (msgs & E & LM). rewrite E. exists msgs. auto.
Qed.
Print Assumptions C41_zero_never_ends_refuted.

(* With a maximum above 1 MiB a read that needs it fails, as the reply is longer than a message may be. *)
Theorem C41_large_read_refuted : forall fuel s max g id data mem e,
  xfer_ok g max data e -> 1024 * 1024 < N.min (sg_len g) max -> (0 < fuel)%nat ->
  xe_client e = talk honest mem false -> xe_in e = [] ->
  exists m, dma_transfer fuel s max false g id data e = (Some (Err EINVAL, data, s), [m], []) /\
    dma_request false m (start_of g) (N.min (sg_len g) max) [].
Proof.
  intros fuel s max g id data mem e O BIG F CL IN. rewrite dma_transfer_eq by (auto; discriminate).
  pose proof (start_inv g max false id data e O) as I. set (x := xf_of g max false e) in *. set (xs := xs_of g max id data e) in *.
  assert (POS : 0 < xs_left xs) by (cbn [xs xs_of xs_left]; lia).
  pose proof (xmsg_request _ _ _ I POS) as RQ.
  assert (CQ : cnt_of x xs = N.min (sg_len g) max) by reflexivity.
  assert (AQ : addr_of x xs = start_of g) by (unfold addr_of; cbn [x xf_of xf_addr xs xs_of xs_count]; lia).
  exists (xmsg x xs). split; [|rewrite CQ, AQ in RQ; exact RQ].
  destruct fuel as [|fuel]; [lia|]. cbn [xfer_loop]. destruct (N.eqb_spec (xs_left xs) 0); [lia|]. rewrite (xfer_round_eq _ _ _ I POS).
  assert (RP : exists w, reply_of x xs = (Err EINVAL, w)).
  { destruct RQ as (mid & pl & MS & PL & U0 & U8 & SK). pose proof MS as MS'. unfold message in MS'.
    pose proof (ow_payload _ _ _ _ _ _ _ MS') as SP. pose proof (ow_length _ _ _ _ _ _ _ MS') as ML.
    assert (UA : u64 (xmsg x xs) 16 = start_of g) by (rewrite <- AQ, <- U0, <- SP; unfold u64; rewrite !u32_skipn; reflexivity).
    assert (UC : u64 (xmsg x xs) 24 = N.min (sg_len g) max) by (rewrite <- CQ, <- U8, <- SP; unfold u64; rewrite !u32_skipn; reflexivity).
    pose proof (xo_size _ _ _ _ O) as SZ. change (2 ^ 32) with 4294967296 in SZ.
    unfold reply_of. cbn [x xf_of xf_client]. fold x. replace (xs_in xs) with (@nil N) by (symmetry; exact IN). rewrite CL. unfold talk. rewrite UA, UC. cbn [honest fst snd xa_send xa_bytes xa_avail app].
    assert (LM : length (xmsg x xs) = (16 + length (req_of x xs ++ out_chunk x xs))%nat) by (unfold xmsg, send_bytes; rewrite app_length, enc_length; reflexivity).
    unfold send_result. rewrite LM. replace (N.of_nat (16 + length (req_of x xs ++ out_chunk x xs)) <? w32 (16 + N.of_nat (length (req_of x xs ++ out_chunk x xs)))) with false.
    2:{ symmetry. apply N.ltb_ge. unfold w32. etransitivity; [apply N.mod_le; discriminate|lia]. }
    unfold reply_bytes, send_bytes. cbn [rp_id rp_cmd rp_error rp_body].
    set (body := le_bytes 8 (start_of g) ++ le_bytes 8 (N.min (sg_len g) max) ++ mem_bytes mem (start_of g) (N.min (sg_len g) max)).
    assert (LB : N.of_nat (length body) = 16 + N.min (sg_len g) max) by (unfold body; rewrite !app_length, !le_bytes_length, mem_bytes_length; lia).
    unfold recv_msg. rewrite get_msg_enc by (auto using send_header_ok). cbn [send_header hd_id hd_flags hd_size].
    assert (UI : u16 (xmsg x xs) 0 = w16 (xs_id xs)).
    { unfold xmsg, send_bytes. rewrite (ow_id _ _ _ _ _ _ _ (enc_wire _ _ (send_header_ok _ _ _ _ _))). reflexivity. }
    rewrite UI. unfold w16. rewrite N.mod_mod by discriminate. rewrite N.eqb_refl. cbn [negb].
    change (N.land F_TYPE_REPLY F_TYPE_MASK =? F_TYPE_REPLY) with true. change (has F_TYPE_REPLY F_ERROR) with false. cbn [negb].
    fold body. rewrite LB. unfold w32, two32. rewrite (N.mod_small (16 + (16 + N.min (sg_len g) max))) by lia. unfold SERVER_MAX_MSG_SIZE.
    replace ((16 + (16 + N.min (sg_len g) max) <? 16) || (1048576 + 16 + 16 <? 16 + (16 + N.min (sg_len g) max))) with true by lia. eexists. reflexivity. }
  destruct RP as (w & RP). rewrite RP. cbn [fst snd round_of]. reflexivity.
Qed.
Print Assumptions C41_large_read_refuted.

(* ---------- C08, C28 *)

Theorem C08_write_refused : forall fuel s max d hint addr len nmax prot l hint' id data e,
  addr_to_sgl d hint addr len nmax prot = (SglOk l, hint') -> N.testbit prot 1 = false -> sv_pending s = PNone ->
  sgl_transfer fuel s max true l id data e = (Some (Err (if Nat.eqb (length l) 1 then EPERM else ENOTSUP), data, s), [], []).
Proof.
  intros fuel s max d hint addr len nmax prot l hint' id data e H P PN. unfold sgl_transfer. rewrite PN.
  destruct l as [|g [|g2 l]]; try reflexivity. cbn [length Nat.eqb]. unfold dma_transfer. pose proof (read_only_entries _ _ _ _ _ _ _ _ H P) as F. inversion F as [|? ? W ?]; subst.
  rewrite W. reflexivity.
Qed.
Print Assumptions C08_write_refused.

(* vfu_sgl_read and vfu_sgl_write handle lists of one entry only: all others are refused, nothing is sent. *)
Theorem C42_one_entry : forall fuel s max write l id data e, sv_pending s = PNone -> length l <> 1%nat ->
  sgl_transfer fuel s max write l id data e = (Some (Err ENOTSUP, data, s), [], []).
Proof. intros fuel s max write l id data e P L. unfold sgl_transfer. rewrite P. destruct l as [|g [|g2 l]]; [reflexivity|now destruct L|reflexivity]. Qed.
Print Assumptions C42_one_entry.
Example C42_one_entry_case : sv_pending (ex_busy false) = PNone.
Proof. reflexivity. Qed.

Theorem C28_lost_during_dma : forall fuel s max write g id data e r data' s' msgs ev,
  reachable s -> serving s -> (cx_quiesce (sv_ctx s) = true -> xe_quiesce e = None) ->
  sgl_transfer fuel s max write [g] id data e = (Some (r, data', s'), msgs, ev) ->
  (s' = s /\ ev = []) \/
  (r = Err ENOTCONN /\ ev = quiesce_call s ++ lost_events s /\ after_loss s s' (xe_lost e) /\ sv_pending s' = PNone).
Proof.
  intros fuel s max write g id data e r data' s' msgs ev RC SV Q H. pose proof SV as (R & P & C). unfold sgl_transfer in H. rewrite P in H.
  unfold dma_transfer in H. destruct (write && negb (sg_writeable g)); [injection H as <- <- <- <- <-; auto|].
  destruct (negb (xe_calloc e)); [injection H as <- <- <- <- <-; auto|].
  destruct (xfer_loop _ _ _) as ([([[]|er|c], xs)|], m); [injection H as <- <- <- <- <-; auto| |injection H as <- <- <- <- <-; auto|discriminate H].
  destruct ((er =? ENOMSG) || (er =? ECONNRESET)); [|injection H as <- <- <- <- <-; auto].
  pose proof (reachable_sinv _ RC) as (I & Q0 & _).
  destruct (reset_ctx_spec s (xe_quiesce e) (xe_lost e) I) as [(e' & Qe & Qq & Qp & Rs)|(s1 & Qe & Rs & Po)]; [rewrite (Q Qq) in Qe; discriminate Qe|].
  rewrite Rs in H. rewrite P in *. injection H as <- <- <- <- <-. right. split; [reflexivity|]. split; [reflexivity|].
  assert (Pq : sv_pending s1 = sv_pending s /\ sv_quiesced s1 = sv_quiesced s) by (destruct Po as (_ & _ & _ & _ & A & B & _); auto). destruct Pq as [Pp Pq].
  split; [apply loss_after; [exact Po|congruence]|congruence].
Qed.
Print Assumptions C28_lost_during_dma.

(* ---------- cases *)

Definition ex_sg : sg := mk_sg 65536 0 10 6 true.
Definition ex_mem (a : N) : N := a mod 251.
Definition ex_xenv (f : nat -> N -> N -> N * N) (write : bool) : xenv := mk_xenv (talk f ex_mem write) [] true (repeat 204 16) None None.
Definition ex_lie (k : nat) (a n : N) : N * N := if (k =? 1)%nat then (a, (n + 1) mod 65536) else (a, n).

Lemma ex_xfer_ok max f write : xfer_ok ex_sg max (repeat 7 12) (ex_xenv f write).
Proof.
  split; unfold start_of; cbn [ex_sg sg_len sg_base sg_off ex_xenv xe_junk xe_calloc]; try reflexivity; change (2 ^ 64) with 18446744073709551616; change (2 ^ 32) with 4294967296.
  - lia.
  - rewrite repeat_length. lia.
  - lia.
Qed.
Lemma ex_lie_bounded : bounded ex_lie.
Proof.
  intros k a n A N. unfold ex_lie. destruct (k =? 1)%nat; cbn [fst snd]; split; auto.
  eapply N.lt_trans; [apply N.mod_lt; discriminate|reflexivity].
Qed.

(* Ten bytes at 0x10006 in pieces of four. *)
Example C42_case : exists m1 m2 m3,
  dma_transfer 10 (ex_busy false) 4 false ex_sg 65535 (repeat 7 12) (ex_xenv honest false) =
    (Some (Ok tt, [31; 32; 33; 34; 35; 36; 37; 38; 39; 40; 7; 7], ex_busy false), [m1; m2; m3], []) /\
  map (fun m => (u16 m 0, u16 m 2, u64 m 16, u64 m 24)) [m1; m2; m3] = [(65535, 11, 65542, 4); (0, 11, 65546, 4); (1, 11, 65550, 2)].
Proof. do 3 eexists. vm_compute. auto. Qed.
Example C42_write_case : exists m1 m2 m3,
  dma_transfer 10 (ex_busy false) 4 true ex_sg 0 [1; 2; 3; 4; 5; 6; 7; 8; 9; 10] (ex_xenv honest true) =
    (Some (Ok tt, [1; 2; 3; 4; 5; 6; 7; 8; 9; 10], ex_busy false), [m1; m2; m3], []) /\
  map (fun m => (u16 m 2, u64 m 16, u64 m 24, skipn 32 m)) [m1; m2; m3] =
    [(12, 65542, 4, [1; 2; 3; 4]); (12, 65546, 4, [5; 6; 7; 8]); (12, 65550, 2, [9; 10])].
Proof. do 3 eexists. vm_compute. auto. Qed.
Example C42_lie_case : exists m1 m2,
  dma_transfer 10 (ex_busy false) 4 false ex_sg 0 (repeat 7 12) (ex_xenv ex_lie false) =
    (Some (Err EINVAL, [31; 32; 33; 34; 7; 7; 7; 7; 7; 7; 7; 7], ex_busy false), [m1; m2], []).
Proof. do 2 eexists. vm_compute. reflexivity. Qed.

(* The client goes away. *)
Example C28_dma_case : exists m s',
  sgl_transfer 10 (ex_busy false) 4 true [ex_sg] 0 (repeat 7 10) (mk_xenv (fun _ _ => mk_xanswer (SentErr EPIPE) [] 0) [] true (repeat 0 16) None None) =
    (Some (Err ENOTCONN, repeat 7 10, s'), [m], quiesce_call (ex_busy false) ++ lost_events (ex_busy false)) /\ regions_of s' = [] /\ regions_of (ex_busy false) <> [].
Proof. do 2 eexists. vm_compute. repeat split. discriminate. Qed.

(* A reply to a write that consists of a header only is accepted when the uninitialised struct on the stack, into which the body should
   have been received, happens to hold the address and the count; so the client need not have confirmed anything. *)
Theorem C42_write_unconfirmed_refuted : exists e data' msgs,
  xfer_ok ex_sg 4096 (repeat 7 12) e /\ length (answers (xe_client e) 0 msgs) = 16%nat /\ xe_in e = [] /\
  dma_transfer 10 (ex_busy false) 4096 true ex_sg 0 (repeat 7 12) e = (Some (Ok tt, data', ex_busy false), msgs, []).
Proof.
  exists (mk_xenv (fun _ m => mk_xanswer (Sent (N.of_nat (length m))) (reply_bytes (mk_reply (u16 m 0) (u16 m 2) 0 [] [])) 16) [] true
            (le_bytes 8 65542 ++ le_bytes 8 10) None None).
  do 2 eexists. split; [|split; [|split; [reflexivity|vm_compute; reflexivity]]]; [|vm_compute; reflexivity].
  split; unfold start_of; cbn [ex_sg sg_len sg_base sg_off xe_junk xe_calloc]; try reflexivity; change (2 ^ 64) with 18446744073709551616; change (2 ^ 32) with 4294967296.
  - lia.
  - rewrite repeat_length. lia.
Qed.
Print Assumptions C42_write_unconfirmed_refuted.

Example C08_write_case : exists l h, addr_to_sgl PropDma.ex_d 0 4096 100 8 1 = (SglOk l, h) /\ length l = 1%nat /\
  sgl_transfer 10 (ex_busy false) 4 true l 0 (repeat 7 100) (ex_xenv honest true) = (Some (Err EPERM, repeat 7 100, ex_busy false), [], []).
Proof. do 2 eexists. split; [vm_compute; reflexivity|]. split; vm_compute; reflexivity. Qed.
