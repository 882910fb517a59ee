(* Lemmas about DMA by messages. *)
From Coq Require Import NArith ZArith String List Bool Lia ZifyBool ZifyNat ZifyN.
From Verif Require Import Base Types Bytes BytesProofs BufProofs Migr Irq Pci Handlers Server SpecServer Wire Tran SpecWire WireProofs PropWire PropTran Xfer.
Import ListNotations.
Open Scope N_scope.
Ltac Zify.zify_post_hook ::= idtac.

Lemma skipn_add {A} m n (l : list A) : skipn m (skipn n l) = skipn (n + m) l.
Proof. revert l. induction n; intros l; [reflexivity|]. destruct l; [now rewrite !skipn_nil|]. cbn [skipn Nat.add]. apply IHn. Qed.

Lemma slice_eq l off n : (off + n <= length l)%nat -> slice l off n = Some (firstn n (skipn off l)).
Proof. intros H. unfold slice. destruct (Nat.leb_spec (off + n) (length l)); [reflexivity|lia]. Qed.
Lemma put_slice_eq l off new : (off + length new <= length l)%nat -> put_slice l off new = Some (firstn off l ++ new ++ skipn (off + length new) l).
Proof. intros H. unfold put_slice. destruct (Nat.leb_spec (off + length new) (length l)); [reflexivity|lia]. Qed.

(* Receiving a reply. *)
Definition good_hdr (h : header) (id : N) : Prop := hd_id h = id mod 65536 /\ hd_flags h mod 16 = 1 /\ N.testbit (hd_flags h) 5 = false.

Lemma has32 f : has f 32 = N.testbit f 5.
Proof.
  unfold has. destruct (N.testbit f 5) eqn:T.
  - destruct (N.eqb_spec (N.land f 32) 0) as [E|]; [|reflexivity]. exfalso. assert (X : N.testbit (N.land f 32) 5 = true) by (rewrite N.land_spec, T; reflexivity).
    rewrite E in X. discriminate X.
  - replace (N.land f 32) with 0; [reflexivity|]. symmetry. change 32 with (2 ^ 5). apply N.bits_inj_0. intros i. rewrite N.land_spec.
    destruct (N.eq_dec i 5) as [->|NE]; [now rewrite T|]. rewrite N.pow2_bits_false by congruence. apply andb_false_r.
Qed.

Lemma type_mask_reply f : (N.land f F_TYPE_MASK =? F_TYPE_REPLY) = (f mod 16 =? 1).
Proof. unfold F_TYPE_MASK, F_TYPE_REPLY. change 15 with (N.ones 4). rewrite N.land_ones. reflexivity. Qed.

Lemma get_msg_inv avail w h w' : get_msg avail w = (Ok h, w') ->
  (16 <= length w)%nat /\ w' = skipn 16 w /\ h = mk_header (u16 w 0) (u16 w 2) (u32 w 4) (u32 w 8) (u32 w 12).
Proof.
  intros GM. unfold get_msg, recv_some in GM. set (n := Nat.min 16 (Nat.max 1 avail)) in *. destruct (firstn n w) as [|x l] eqn:FN; [discriminate GM|].
  rewrite <- FN in GM. destruct (le_lt_dec 16 (length (firstn n w))) as [GE|LT]; [|rewrite dec_short in GM by exact LT; discriminate GM].
  rewrite firstn_length in GE. assert (N16 : n = 16%nat) by lia. rewrite dec_wire in GM by (rewrite firstn_length; lia).
  rewrite !u16_firstn, !u32_firstn in GM by lia. injection GM as <- <-. rewrite N16. repeat split; lia.
Qed.

Lemma recv_msg_inv id want avail w h r w' : 0 < want -> recv_msg true (Some id) want avail w = (Ok (h, r), w') ->
  (16 <= length w)%nat /\ h = mk_header (u16 w 0) (u16 w 2) (u32 w 4) (u32 w 8) (u32 w 12) /\ good_hdr h id /\
  16 <= hd_size h <= 1024 * 1024 + 32 /\ skipn 16 w = r ++ w' /\
  ((hd_size h = 16 /\ r = []) \/ (N.of_nat (length r) = want /\ 16 + want <= hd_size h)).
Proof.
  intros W H. unfold recv_msg in H. destruct (get_msg avail w) as (o, w1) eqn:GM. destruct o as [h0|e|c]; try discriminate H.
  destruct (get_msg_inv _ _ _ _ GM) as (L & -> & HH).
  unfold w16 in H. destruct (N.eqb_spec (hd_id h0) (id mod 65536)) as [ID|]; cbn [negb] in H; [|discriminate H].
  rewrite type_mask_reply in H. destruct (N.eqb_spec (hd_flags h0 mod 16) 1) as [FT|]; cbn [negb] in H; [|discriminate H].
  unfold F_ERROR in H. rewrite has32 in H. destruct (N.testbit (hd_flags h0) 5) eqn:FE; [discriminate H|].
  unfold SERVER_MAX_MSG_SIZE in H. destruct ((hd_size h0 <? 16) || (1048576 + 16 + 16 <? hd_size h0)) eqn:SZ; [discriminate H|].
  replace (0 <? want) with true in H by lia. cbn [andb] in H.
  destruct (16 <? hd_size h0) eqn:B.
  - unfold recv_all in H. remember (skipn 16 w) as w2 eqn:W2.
    set (n := N.to_nat (N.min (hd_size h0 - 16) want)) in *.
    destruct (N.of_nat (length (firstn n w2)) =? 0); [discriminate H|].
    destruct (N.eqb_spec (N.of_nat (length (firstn n w2))) want) as [LE|]; cbn [negb] in H; [|discriminate H].
    injection H as <- <- <-. split; [exact L|]. split; [exact HH|]. split; [repeat split; auto|]. split; [lia|]. split; [symmetry; apply firstn_skipn|].
    right. split; [exact LE|]. rewrite firstn_length in LE. lia.
  - remember (skipn 16 w) as w2 eqn:W2. injection H as <- <- <-. split; [exact L|]. split; [exact HH|]. split; [repeat split; auto|]. split; [lia|].
    split; [reflexivity|]. left. split; [lia|reflexivity].
Qed.

Lemma recv_msg_good h body rest id want avail : hdr_ok h -> good_hdr h id -> hd_size h = 16 + N.of_nat (length body) ->
  N.of_nat (length body) <= 1024 * 1024 + 16 -> want = N.of_nat (length body) -> 0 < want -> (16 <= avail)%nat ->
  recv_msg true (Some id) want avail (enc_header h ++ body ++ rest) = (Ok (h, body), rest).
Proof.
  intros HO (A & B & C) S M -> W AV. unfold recv_msg. rewrite (get_msg_enc _ _ _ HO AV). unfold w16. rewrite A, N.eqb_refl. cbn [negb].
  rewrite type_mask_reply, B. cbn [N.eqb Pos.eqb negb]. unfold F_ERROR. rewrite has32, C. rewrite S.
  replace ((16 + N.of_nat (length body) <? 16) || (SERVER_MAX_MSG_SIZE <? 16 + N.of_nat (length body))) with false by (unfold SERVER_MAX_MSG_SIZE; lia).
  replace ((0 <? N.of_nat (length body)) && (16 <? 16 + N.of_nat (length body))) with true by lia.
  unfold recv_all. replace (N.to_nat (N.min (16 + N.of_nat (length body) - 16) (N.of_nat (length body)))) with (length body) by lia.
  rewrite firstn_app, skipn_app, Nat.sub_diag, firstn_all, skipn_all. cbn [firstn skipn app]. rewrite app_nil_r.
  replace (N.of_nat (length body) =? 0) with false by lia. rewrite N.eqb_refl. reflexivity.
Qed.

Lemma u64_prefix b rest off : (off + 8 <= length b)%nat -> u64 (b ++ rest) off = u64 b off.
Proof. intros H. unfold u64. rewrite !u32_prefix by lia. reflexivity. Qed.


(* The state of the loop, len being the length of the segment. *)
Record xinv (x : xfer) (len : N) (s : xstate) : Prop := {
  xi_sum : xs_count s + xs_left s = len;
  xi_data : (N.to_nat len <= length (xs_data s))%nat;
  xi_rbuf : N.of_nat (length (xs_rbuf s)) = 16 + N.min len (xf_max x);
  xi_dma : length (xs_dma s) = 16%nat;
  xi_addr : xf_addr x + len <= two64;
  xi_size : N.min len (xf_max x) + 32 < two32
}.
Definition cnt_of (x : xfer) (s : xstate) : N := N.min (xs_left s) (xf_max x).
Definition addr_of (x : xfer) (s : xstate) : N := xf_addr x + xs_count s.
Definition req_of (x : xfer) (s : xstate) : list N := le_bytes 8 (addr_of x s) ++ le_bytes 8 (cnt_of x s).
Definition out_chunk (x : xfer) (s : xstate) : list N :=
  if xf_write x then firstn (N.to_nat (cnt_of x s)) (skipn (N.to_nat (xs_count s)) (xs_data s)) else [].
Definition xmsg (x : xfer) (s : xstate) : list N :=
  send_bytes (xs_id s) false (if xf_write x then CMD_DMA_WRITE else CMD_DMA_READ) 0 (req_of x s ++ out_chunk x s).
Definition want_of (x : xfer) (s : xstate) : N := if xf_write x then 16 else cnt_of x s + 16.
Definition stale_of (x : xfer) (s : xstate) : list N := if xf_write x then xs_dma s else xs_rbuf s.
Definition overlay (buf new : list N) : list N := new ++ skipn (length new) buf.
(* The state after a round in which the reply had the body body. *)
Definition xnext (x : xfer) (s : xstate) (body w : list N) : xstate :=
  let o := N.to_nat (xs_count s) in
  let n := N.to_nat (cnt_of x s) in
  if xf_write x then
    mk_xstate (S (xs_k s)) (xs_id s + 1) (xs_count s + cnt_of x s) (xs_left s - cnt_of x s)
      (overlay (xs_rbuf s) (req_of x s ++ out_chunk x s)) (overlay (xs_dma s) body) (xs_data s) w
  else
    mk_xstate (S (xs_k s)) (xs_id s + 1) (xs_count s + cnt_of x s) (xs_left s - cnt_of x s)
      (overlay (xs_rbuf s) body) (xs_dma s)
      (firstn o (xs_data s) ++ firstn n (skipn 16 (overlay (xs_rbuf s) body)) ++ skipn (o + n) (xs_data s)) w.

(* One round, in terms of the reply that is received. *)
Definition round_of (x : xfer) (s : xstate) (r : outcome (list N)) (w : list N) : xround :=
  match r with
  | Err e => XErr e w
  | Crash c => XCrash c
  | Ok body =>
      let st := overlay (stale_of x s) body in
      if negb (u64 st 0 =? addr_of x s) || negb (u64 st 8 =? cnt_of x s) then XErr EINVAL w else XNext (xnext x s body w)
  end.
Definition reply_of (x : xfer) (s : xstate) : outcome (list N) * list N :=
  let a := xf_client x (xs_k s) (xmsg x s) in
  match send_result (w32 (16 + N.of_nat (length (req_of x s ++ out_chunk x s)))) (xa_send a) with
  | Ok _ =>
      match recv_msg true (Some (xs_id s)) (want_of x s) (xa_avail a) (xs_in s ++ xa_bytes a) with
      | (Ok (_, r), w') => (Ok r, w')
      | (Err e, w') => (Err e, w')
      | (Crash c, w') => (Crash c, w')
      end
  | Err e => (Err e, xs_in s)
  | Crash c => (Crash c, xs_in s)
  end.

Lemma overlay_put buf new : (length new <= length buf)%nat -> put_slice buf 0 new = Some (overlay buf new).
Proof. intros H. rewrite put_slice_eq by exact H. reflexivity. Qed.
Lemma overlay_length buf new : (length new <= length buf)%nat -> length (overlay buf new) = length buf.
Proof. intros H. unfold overlay. rewrite app_length, skipn_length. lia. Qed.

Lemma recv_msg_len id want avail w h r w' : 0 < want -> recv_msg true (Some id) want avail w = (Ok (h, r), w') -> N.of_nat (length r) <= want.
Proof. intros W H. destruct (recv_msg_inv _ _ _ _ _ _ _ W H) as (_ & _ & _ & _ & _ & [(_ & ->)|(-> & _)]); cbn [length]; lia. Qed.

Lemma req_length x s : length (req_of x s) = 16%nat.
Proof. unfold req_of. rewrite app_length, !le_bytes_length. reflexivity. Qed.

Lemma cnt_le x s len : xinv x len s -> cnt_of x s <= N.min len (xf_max x) /\ xs_count s + cnt_of x s <= len /\ (0 < xf_max x -> 0 < xs_left s -> 0 < cnt_of x s).
Proof. intros [A B C D E F]. unfold cnt_of. lia. Qed.

Lemma out_chunk_length x s len : xinv x len s -> length (out_chunk x s) = if xf_write x then N.to_nat (cnt_of x s) else 0%nat.
Proof.
  intros I. pose proof (cnt_le _ _ _ I) as (A & B & _). pose proof (xi_data _ _ _ I). unfold out_chunk. destruct (xf_write x); [|reflexivity].
  rewrite firstn_length, skipn_length. lia.
Qed.

Lemma send_msg_eq id cmd payload want a w :
  send_msg id cmd payload want a w =
  (match send_result (w32 (16 + N.of_nat (length payload))) (xa_send a) with
   | Ok _ =>
      match recv_msg true (Some id) want (xa_avail a) (w ++ xa_bytes a) with
      | (Ok (_, r), w') => (Ok r, w')
      | (Err e, w') => (Err e, w')
      | (Crash c, w') => (Crash c, w')
      end
   | Err e => (Err e, w)
   | Crash c => (Crash c, w)
   end, send_bytes id false cmd 0 payload).
Proof.
  unfold send_msg, send_iovec. cbn [send_header hd_size]. destruct (send_result _ _); try reflexivity.
  destruct (recv_msg _ _ _ _ _) as ([(h, r)|e|c], w'); reflexivity.
Qed.

Lemma xfer_round_eq x len s : xinv x len s -> 0 < xs_left s ->
  xfer_round x s = (round_of x s (fst (reply_of x s)) (snd (reply_of x s)), [xmsg x s]).
Proof.
  intros I POS. pose proof (cnt_le _ _ _ I) as (A & B & C). pose proof (out_chunk_length _ _ _ I) as OL. pose proof (xi_addr _ _ _ I) as AD. pose proof (xi_size _ _ _ I) as SZ.
  pose proof (xi_sum _ _ _ I) as SUM. pose proof (xi_data _ _ _ I) as DL. pose proof (xi_rbuf _ _ _ I) as RB. pose proof (xi_dma _ _ _ I) as DM.
  pose proof (req_length x s) as RL.
  unfold xfer_round, xfer_request.
  assert (AQ : w64 (xf_addr x + xs_count s) = addr_of x s) by (unfold addr_of; apply N.mod_small; lia).
  rewrite AQ. fold (cnt_of x s). fold (req_of x s). unfold two32 in SZ.
  destruct (xf_write x) eqn:WR.
  - rewrite slice_eq by lia. unfold need at 1.
    assert (OC : firstn (N.to_nat (cnt_of x s)) (skipn (N.to_nat (xs_count s)) (xs_data s)) = out_chunk x s) by (unfold out_chunk; now rewrite WR).
    rewrite OC. rewrite overlay_put by (rewrite app_length; lia). unfold need at 1. rewrite send_msg_eq.
    unfold reply_of, xmsg, want_of. rewrite WR.
    remember (xf_client x (xs_k s) (send_bytes (xs_id s) false CMD_DMA_WRITE 0 (req_of x s ++ out_chunk x s))) as a eqn:QA.
    destruct (send_result (w32 (16 + N.of_nat (length (req_of x s ++ out_chunk x s)))) (xa_send a)) as [u|e|c]; [|reflexivity|reflexivity].
    destruct (recv_msg true (Some (xs_id s)) 16 (xa_avail a) (xs_in s ++ xa_bytes a)) as ([(h, r)|e|c], w') eqn:RM; [|reflexivity|reflexivity].
    assert (LR : N.of_nat (length r) <= 16) by (apply recv_msg_len in RM; [exact RM|lia]).
    rewrite overlay_put by lia. unfold need. cbn [fst snd round_of]. unfold stale_of, xnext. rewrite WR.
    rewrite !rd_u64 by (rewrite overlay_length; lia).
    destruct (negb (u64 (overlay (xs_dma s) r) 0 =? addr_of x s) || negb (u64 (overlay (xs_dma s) r) 8 =? cnt_of x s)); reflexivity.
  - assert (OC : out_chunk x s = []) by (unfold out_chunk; now rewrite WR).
    assert (WQ : w64 (cnt_of x s + 16) = cnt_of x s + 16) by (apply N.mod_small; unfold two64; lia). rewrite WQ.
    rewrite send_msg_eq. unfold reply_of, xmsg, want_of. rewrite WR, OC, app_nil_r.
    remember (xf_client x (xs_k s) (send_bytes (xs_id s) false CMD_DMA_READ 0 (req_of x s))) as a eqn:QA.
    destruct (send_result (w32 (16 + N.of_nat (length (req_of x s)))) (xa_send a)) as [u|e|c]; [|reflexivity|reflexivity].
    destruct (recv_msg true (Some (xs_id s)) (cnt_of x s + 16) (xa_avail a) (xs_in s ++ xa_bytes a)) as ([(h, r)|e|c], w') eqn:RM; [|reflexivity|reflexivity].
    assert (LR : N.of_nat (length r) <= cnt_of x s + 16) by (apply recv_msg_len in RM; [exact RM|lia]).
    rewrite overlay_put by lia. unfold need at 1. cbn [fst snd round_of]. unfold stale_of, xnext. rewrite WR.
    rewrite !rd_u64 by (rewrite overlay_length; lia).
    destruct (negb (u64 (overlay (xs_rbuf s) r) 0 =? addr_of x s) || negb (u64 (overlay (xs_rbuf s) r) 8 =? cnt_of x s)); [reflexivity|].
    rewrite slice_eq by (rewrite overlay_length; lia). unfold need at 1.
    assert (LC : length (firstn (N.to_nat (cnt_of x s)) (skipn 16 (overlay (xs_rbuf s) r))) = N.to_nat (cnt_of x s)).
    { rewrite firstn_length, skipn_length, overlay_length by lia. lia. }
    rewrite put_slice_eq by lia. unfold need. rewrite LC. reflexivity.
Qed.

Lemma send_result_crash n a c : send_result n a <> Crash c.
Proof. unfold send_result. destruct a; [discriminate|]. destruct (_ <? _); discriminate. Qed.
Lemma get_msg_crash avail w c w' : get_msg avail w <> (Crash c, w').
Proof. unfold get_msg. destruct (recv_some 16 avail w) as (b, w1). destruct b; [discriminate|]. destruct (dec_header _); discriminate. Qed.
Lemma recv_msg_crash b id want avail w c w' : recv_msg b id want avail w <> (Crash c, w').
Proof.
  unfold recv_msg. destruct (get_msg avail w) as ([h|e|c'], w1) eqn:G; [|discriminate|now apply get_msg_crash in G].
  destruct (if b then _ else _); [discriminate|]. destruct (_ || _); [discriminate|]. destruct (_ && _); [|discriminate].
  destruct (recv_all _ _) as (r, w2). destruct (_ =? 0); [discriminate|]. destruct (negb _); discriminate.
Qed.
Lemma reply_of_crash x s c : fst (reply_of x s) <> Crash c.
Proof.
  unfold reply_of. destruct (send_result _ _) eqn:S; try discriminate; [|now apply send_result_crash in S].
  destruct (recv_msg _ _ _ _ _) as ([(h, r)|e|c'], w') eqn:R; try discriminate. now apply recv_msg_crash in R.
Qed.

Lemma reply_of_len x s len r : xinv x len s -> fst (reply_of x s) = Ok r -> N.of_nat (length r) <= want_of x s.
Proof.
  intros I. unfold reply_of. destruct (send_result _ _) eqn:S; try discriminate.
  destruct (recv_msg _ _ _ _ _) as ([(h, r')|e|c'], w') eqn:R; try discriminate. cbn [fst]. intros Q. injection Q as ->.
  apply recv_msg_len in R; [exact R|]. unfold want_of. destruct (xf_write x); lia.
Qed.

Lemma xnext_inv x len s body w : xinv x len s -> N.of_nat (length body) <= want_of x s -> xinv x len (xnext x s body w).
Proof.
  intros I L. pose proof (cnt_le _ _ _ I) as (A & B & C). pose proof (out_chunk_length _ _ _ I) as OL. pose proof (req_length x s) as RL.
  destruct I as [S D R M AD SZ]. unfold xnext, want_of in *. destruct (xf_write x) eqn:WR; split; cbn [xs_count xs_left xs_data xs_rbuf xs_dma]; auto; try (unfold cnt_of in *; lia).
  - rewrite overlay_length; [exact R|]. rewrite app_length. lia.
  - rewrite overlay_length; lia.
  - rewrite !app_length, !firstn_length, !skipn_length, overlay_length by lia. lia.
  - rewrite overlay_length by lia. exact R.
Qed.

(* What the client puts on the socket during the messages of a run, the first of which is number k. *)
Fixpoint sent_by (client : nat -> list N -> xanswer) (k : nat) (msgs : list (list N)) : list N :=
  match msgs with
  | [] => []
  | m :: l => xa_bytes (client k m) ++ sent_by client (S k) l
  end.

(* The states a successful run goes through. *)
Inductive xrun (x : xfer) : xstate -> list (list N) -> outcome unit -> xstate -> Prop :=
| xr_done : forall s, xs_left s = 0 -> xrun x s [] (Ok tt) s
| xr_err : forall s e w, 0 < xs_left s -> round_of x s (fst (reply_of x s)) (snd (reply_of x s)) = XErr e w ->
    xrun x s [xmsg x s] (Err e) (mk_xstate (xs_k s) (xs_id s) (xs_count s) (xs_left s) (xs_rbuf s) (xs_dma s) (xs_data s) w)
| xr_next : forall s body w ms o s2, 0 < xs_left s -> reply_of x s = (Ok body, w) ->
    u64 (overlay (stale_of x s) body) 0 = addr_of x s -> u64 (overlay (stale_of x s) body) 8 = cnt_of x s ->
    xrun x (xnext x s body w) ms o s2 -> xrun x s (xmsg x s :: ms) o s2.

Lemma round_crash x s c : round_of x s (fst (reply_of x s)) (snd (reply_of x s)) <> XCrash c.
Proof.
  unfold round_of. destruct (reply_of x s) as (r, w) eqn:Q. cbn [fst snd]. destruct r as [b|e|c']; try discriminate.
  - destruct (_ || _); discriminate.
  - pose proof (reply_of_crash x s c') as N. rewrite Q in N. cbn [fst] in N. congruence.
Qed.

Lemma xnext_left x s body w : xs_left (xnext x s body w) = xs_left s - cnt_of x s.
Proof. unfold xnext. destruct (xf_write x); reflexivity. Qed.

Lemma xfer_loop_run x len : 0 < xf_max x -> forall fuel s r ms, xinv x len s -> xfer_loop fuel x s = (r, ms) ->
  match r with
  | Some (o, s') => xrun x s ms o s'
  | None => N.of_nat fuel < xs_left s
  end.
Proof.
  intros MP. induction fuel as [|fuel IH]; intros s r ms I H; cbn [xfer_loop] in H; destruct (N.eqb_spec (xs_left s) 0) as [Z|NZ];
    try (injection H as <- <-; now constructor).
  - injection H as <- <-. lia.
  - assert (POS : 0 < xs_left s) by lia. rewrite (xfer_round_eq x len s I POS) in H.
    destruct (round_of x s (fst (reply_of x s)) (snd (reply_of x s))) as [s1|e w|c] eqn:R.
    + destruct (xfer_loop fuel x s1) as (r1, m1) eqn:L. injection H as <- <-.
      unfold round_of in R. destruct (reply_of x s) as (rr, w) eqn:Q. cbn [fst snd] in R. destruct rr as [body|e|c]; try discriminate R.
      destruct (negb (u64 (overlay (stale_of x s) body) 0 =? addr_of x s) || negb (u64 (overlay (stale_of x s) body) 8 =? cnt_of x s)) eqn:M; [discriminate R|].
      injection R as <-. apply orb_false_iff in M. destruct M as (M1 & M2). apply negb_false_iff, N.eqb_eq in M1, M2.
      assert (LB : N.of_nat (length body) <= want_of x s) by (eapply reply_of_len; [exact I|]; rewrite Q; reflexivity).
      specialize (IH _ _ _ (xnext_inv _ _ _ _ w I LB) L). destruct r1 as [(o, s')|].
      * eapply xr_next; eauto.
      * rewrite xnext_left in IH. pose proof (cnt_le _ _ _ I) as (_ & _ & C). specialize (C MP POS). lia.
    + injection H as <- <-. now apply xr_err.
    + now apply round_crash in R.
Qed.

(* Conversely the loop finds the run. *)
Lemma xrun_loop x len : 0 < xf_max x -> forall s ms o s', xrun x s ms o s' -> xinv x len s -> forall fuel, (N.to_nat (xs_left s) <= fuel)%nat ->
  xfer_loop fuel x s = (Some (o, s'), ms).
Proof.
  intros MP. induction 1 as [s Z|s e w POS R|s body w ms o s2 POS Q M1 M2 RUN IH]; intros I fuel F.
  - destruct fuel; cbn [xfer_loop]; rewrite Z; reflexivity.
  - destruct fuel as [|fuel]; [lia|]. cbn [xfer_loop]. destruct (N.eqb_spec (xs_left s) 0); [lia|]. rewrite (xfer_round_eq x len s I POS), R. reflexivity.
  - destruct fuel as [|fuel]; [lia|]. cbn [xfer_loop]. destruct (N.eqb_spec (xs_left s) 0); [lia|]. rewrite (xfer_round_eq x len s I POS).
    unfold round_of. rewrite Q. cbn [fst snd]. rewrite M1, M2, !N.eqb_refl. cbn [negb orb].
    assert (LB : N.of_nat (length body) <= want_of x s) by (eapply reply_of_len; [exact I|]; rewrite Q; reflexivity).
    rewrite (IH (xnext_inv _ _ _ _ w I LB)); [reflexivity|]. rewrite xnext_left. pose proof (cnt_le _ _ _ I) as (_ & _ & C). specialize (C MP POS). lia.
Qed.
