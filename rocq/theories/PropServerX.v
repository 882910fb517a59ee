(* C21: what a message gets whose payload does not arrive whole. *)
From Coq Require Import NArith ZArith List Bool Lia ZifyBool ZifyNat ZifyN.
From Verif Require Import Base Types Bytes Spec Dma Migr Irq Pci Handlers Server SpecServer ServerProofs PropServer.
Import ListNotations.
Open Scope N_scope.
Ltac Zify.zify_post_hook ::= idtac.

(* Receiving the payload announced by the header fails with error number e: recv fails with e, finds the stream at its end
   (ENOMSG, 42), or gets fewer bytes than announced (EINVAL, 22). *)
Definition incomplete (h : header) (rbody : N + list N) (e : N) : Prop :=
  16 < hd_size h /\
  match rbody with
  | inl e' => e = e'
  | inr l => (l = [] /\ e = 42) \/ (l <> [] /\ N.of_nat (length l) < hd_size h - 16 /\ e = 22)
  end.

(* Each message with a valid header arrives whole, or fails to with one error number. *)
Theorem C21_whole_or_not : forall h rbody, valid_hdr h ->
  (exists body, payload h rbody body) \/ (exists e, incomplete h rbody e /\ forall e', incomplete h rbody e' -> e' = e).
Proof.
  intros h rbody (_ & (L & _) & _). destruct (N.eq_dec (hd_size h) 16) as [E|E]; [left; exists []; left; auto|].
  unfold payload, incomplete. destruct rbody as [e|l].
  - right. exists e. split; [split; [lia|reflexivity]|]. now intros e' (_ & ->).
  - destruct (N.lt_ge_cases (N.of_nat (length l)) (hd_size h - 16)) as [Q|Q].
    + right. destruct l as [|b l].
      * exists 42. split; [split; [lia|left; auto]|]. intros e' (_ & [(_ & ->)|(N & _)]); [reflexivity|congruence].
      * exists 22. split; [split; [lia|right; split; [discriminate|auto]]|]. intros e' (_ & [(N & _)|(_ & _ & ->)]); [discriminate|reflexivity].
    + left. eexists. right. split; [lia|]. exists l. split; [reflexivity|]. split; [reflexivity|lia].
Qed.
Print Assumptions C21_whole_or_not.

(* One that does not arrive whole gets that error number as its reply; nothing of it is carried out. *)
Theorem C21_incomplete_refused : forall s en h fds rbody e,
  serving s -> en_rx en = RxMsg h fds rbody -> en_send en = None -> valid_hdr h -> incomplete h rbody e ->
  sv_step s (SRun en) = (Ok 0, s, error_reply h e ++ closes_of fds).
Proof.
  intros s en h fds rbody e (R & P & C) X S V (L & B). cbn [sv_step]. rewrite R, P. cbn [negb]. unfold run_iter, get_request. rewrite C, X. cbn [negb].
  rewrite (proj2 (valid_hdr_iff h) V). cbn [negb].
  assert (E : (if hd_size h =? 16 then Ok [] else recv_body (hd_size h - 16) rbody) = Err e).
  { replace (hd_size h =? 16) with false by lia. unfold recv_body. destruct rbody as [e'|l]; [now subst|]. destruct B as [(-> & ->)|(N & Q & ->)].
    - rewrite firstn_nil. reflexivity.
    - rewrite firstn_all2 by lia. destruct l as [|b l]; [congruence|]. replace (N.of_nat (length (b :: l)) =? 0) with false by (cbn [length]; lia).
      replace (N.of_nat (length (b :: l)) =? hd_size h - 16) with false by lia. reflexivity. }
  rewrite E. unfold refuse. rewrite (send_ok_reply s en h e [] [] S). cbn [N.eqb ENOMSG Pos.eqb orb]. unfold free_msg, error_reply.
  now rewrite close_all_spec.
Qed.
Print Assumptions C21_incomplete_refused.

(* A map request of which half the payload, or none, has arrived, with a descriptor. *)
Example C21_incomplete_case : let h := mk_header 9 2 48 0 0 in
  valid_hdr h /\ serving (ex_busy true) /\ incomplete h (inr (repeat 0 16)) 22 /\ incomplete h (inr []) 42 /\ incomplete h (inl 104) 104 /\
  snd (sv_step (ex_busy true) (SRun (ex_env (RxMsg h [11%Z] (inr (repeat 0 16)))))) = [EvReply (mk_reply 9 2 22 [] []); EvClose 11] /\
  snd (sv_step (ex_busy true) (SRun (ex_env (RxMsg h [11%Z] (inr []))))) = [EvReply (mk_reply 9 2 42 [] []); EvClose 11].
Proof.
  cbv zeta. split; [unfold valid_hdr; cbn; repeat split; try lia; discriminate|]. split; [apply ex_busy_state|].
  split; [split; [reflexivity|right; split; [discriminate|split; reflexivity]]|]. split; [split; [reflexivity|left; auto]|].
  split; [split; reflexivity|]. split; vm_compute; reflexivity.
Qed.
