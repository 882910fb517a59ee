(* C57, continued: exactly when the library's own requests succeed on pipes, and how they fail otherwise. *)
From Coq Require Import NArith ZArith String List Bool Lia ZifyBool ZifyNat ZifyN.
From Verif Require Import Base Types Bytes BytesProofs BufProofs Migr Irq Pci Handlers HandlersDma Server SpecServer ServerProofs PropServer
  Wire Tran SpecWire WireProofs PropWire PropTran Pipe SpecPipe PropPipe.
Import ListNotations.
Open Scope N_scope.
Ltac Zify.zify_post_hook ::= idtac.

(* What the caller is told, by what is on the pipe (w) and by how much of the header (ah) and of the payload (ab) has arrived
   when they are read; a read returns at least one byte unless the pipe has ended.  The cases are tried in order. *)
Definition told (id want : N) (ah ab : nat) (w : list N) : outcome (list N) :=
  if Nat.eqb (List.length w) 0 then Err ENOMSG
  else if Nat.ltb ah 16 || Nat.ltb (List.length w) 16 then Err ECONNRESET
  else if negb (u16 w 0 =? id) then Err EPROTO
  else if negb (u32 w 8 mod 16 =? 1) then Err EINVAL
  else if N.testbit (u32 w 8) 5 then Err (if (1 <=? u32 w 12) && (u32 w 12 <=? 4096) then u32 w 12 else EINVAL)
  else if (u32 w 4 <? 16) || (1024 * 1024 + 32 <? u32 w 4) then Err EINVAL
  else if (want =? 0) || (u32 w 4 =? 16) then Ok []
  else if Nat.eqb (List.length w) 16 then Err ENOMSG
  else if (u32 w 4 - 16 <? want) || (N.of_nat (Nat.max 1 ab) <? want) || (N.of_nat (List.length w) - 16 <? want) then Err ECONNRESET
  else Ok (firstn (N.to_nat want) (skipn 16 w)).

Theorem C57_transfer_exact : forall id cmd payload want a ah ab w, id < 65536 ->
  fst (fst (pipe_send_msg id cmd payload want a ah ab w)) =
    match a with SentErr e => Err (if e =? 32 then ECONNRESET else e) | Sent _ => told id want ah ab w end.
Proof.
  intros id cmd payload want a ah ab w ID. destruct a as [e|n]; [reflexivity|]. unfold pipe_send_msg. rewrite C57_short_write_refuted. unfold told.
  set (r := pipe_recv true (Some id) want ah ab w).
  assert (E : forall x, fst r = match x with Ok p => Ok (mk_header (u16 w 0) (u16 w 2) (u32 w 4) (u32 w 8) (u32 w 12), p) | Err e => Err e | Crash c => Crash c end ->
    fst (fst (let '(o, w', b) := match r with
      | (Ok (_, p), w') => (Ok p, w', firstn (N.to_nat n) (pipe_bytes id false cmd 0 payload))
      | (Err e, w') => (Err e, w', firstn (N.to_nat n) (pipe_bytes id false cmd 0 payload))
      | (Crash c, w') => (Crash c, w', firstn (N.to_nat n) (pipe_bytes id false cmd 0 payload)) end in (o, w', b))) = x).
  { intros x X. destruct r as [[[h p]|e|c] w1]; cbn [fst] in X; destruct x; try discriminate X; injection X; intros; subst; reflexivity. }
  match goal with |- _ = ?x => enough (X : fst r = match x with Ok p => Ok (mk_header (u16 w 0) (u16 w 2) (u32 w 4) (u32 w 8) (u32 w 12), p) | Err e => Err e | Crash c => Crash c end);
    [specialize (E x X); destruct r as [[[h p]|e|c] w1]; exact E|] end.
  clear E. subst r. unfold pipe_recv.
  destruct (Nat.eqb_spec (List.length w) 0) as [L0|L0]; [destruct w; [|discriminate L0]; unfold pipe_get_msg, recv_some; rewrite firstn_nil; reflexivity|].
  destruct (Nat.ltb ah 16 || Nat.ltb (List.length w) 16) eqn:SH.
  { assert (LL : (List.length (firstn (Nat.min 16 (Nat.max 1 ah)) w) < 16)%nat) by (rewrite firstn_length; lia). unfold pipe_get_msg, recv_some.
    destruct (firstn (Nat.min 16 (Nat.max 1 ah)) w) as [|x l] eqn:FN; [exfalso; apply (f_equal (@List.length N)) in FN; rewrite firstn_length in FN; change (List.length (@nil N)) with 0%nat in FN; lia|].
    rewrite dec_short by exact LL. reflexivity. }
  assert (G : pipe_get_msg ah w = (Ok (mk_header (u16 w 0) (u16 w 2) (u32 w 4) (u32 w 8) (u32 w 12)), skipn 16 w)).
  { unfold pipe_get_msg, recv_some. replace (Nat.min 16 (Nat.max 1 ah)) with 16%nat by lia.
    destruct (firstn 16 w) as [|x l] eqn:FN; [apply (f_equal (@List.length N)) in FN; rewrite firstn_length in FN; change (List.length (@nil N)) with 0%nat in FN; lia|].
    rewrite <- FN. rewrite dec_wire by (rewrite firstn_length; lia). now rewrite !u16_firstn, !u32_firstn by lia. }
  rewrite G. cbn [hd_id hd_cmd hd_size hd_flags hd_error]. unfold w16. rewrite (N.mod_small id 65536 ID), type_mask1, has5.
  destruct (u16 w 0 =? id); cbn [negb]; [|reflexivity]. destruct (u32 w 8 mod 16 =? 1); cbn [negb]; [|reflexivity].
  destruct (N.testbit (u32 w 8) 5).
  { unfold SERVER_MAX_ERROR_NO. cbn [fst]. f_equal. replace ((u32 w 12 =? 0) || (4096 <? u32 w 12)) with (negb ((1 <=? u32 w 12) && (u32 w 12 <=? 4096))) by lia.
    destruct ((1 <=? u32 w 12) && (u32 w 12 <=? 4096)); reflexivity. }
  unfold SERVER_MAX_MSG_SIZE. change (1048576 + 16 + 16) with (1024 * 1024 + 32). destruct ((u32 w 4 <? 16) || (1024 * 1024 + 32 <? u32 w 4)) eqn:SZ; [reflexivity|].
  replace ((0 <? want) && (16 <? u32 w 4)) with (negb ((want =? 0) || (u32 w 4 =? 16))) by lia. destruct ((want =? 0) || (u32 w 4 =? 16)) eqn:WZ; cbn [negb]; [reflexivity|].
  unfold recv_some. set (k := Nat.min (N.to_nat (N.min (u32 w 4 - 16) want)) (Nat.max 1 ab)). assert (LK : List.length (firstn k (skipn 16 w)) = Nat.min k (List.length w - 16)) by (rewrite firstn_length, skipn_length; reflexivity).
  rewrite LK. destruct (Nat.eqb_spec (List.length w) 16) as [L16|L16]; [replace (N.of_nat (Nat.min k (List.length w - 16)) =? 0) with true by lia; reflexivity|].
  replace (N.of_nat (Nat.min k (List.length w - 16)) =? 0) with false by (subst k; lia).
  destruct ((u32 w 4 - 16 <? want) || (N.of_nat (Nat.max 1 ab) <? want) || (N.of_nat (List.length w) - 16 <? want)) eqn:SW.
  - replace (N.of_nat (Nat.min k (List.length w - 16)) =? want) with false by (subst k; lia). reflexivity.
  - replace (N.of_nat (Nat.min k (List.length w - 16)) =? want) with true by (subst k; lia). cbn [negb fst]. replace k with (N.to_nat want) by (subst k; lia). reflexivity.
Qed.
Print Assumptions C57_transfer_exact.

(* A reply of four bytes: whole, without its payload, with a payload of which one byte is late, with one that is too short,
   with a header that is late, and nothing at all. *)
Example C57_transfer_exact_case :
  told 513 4 16 4 ex_pipe_reply = Ok [1; 2; 3; 4] /\ told 513 4 16 4 (firstn 16 ex_pipe_reply) = Err ENOMSG /\ told 513 4 16 3 ex_pipe_reply = Err ECONNRESET /\
  told 513 5 16 9 (ex_pipe_reply ++ [5]) = Err ECONNRESET /\ told 513 4 15 4 ex_pipe_reply = Err ECONNRESET /\ told 513 4 16 4 [] = Err ENOMSG.
Proof. vm_compute. repeat split. Qed.
