(* C51: what happens when a payload arrives in pieces, for every request and every cut. *)
From Coq Require Import NArith ZArith String List Bool Lia ZifyBool ZifyNat ZifyN.
From Verif Require Import Base Types Bytes BytesProofs BufProofs Spec Dma Migr Irq SpecIrq Pci Handlers HandlersProofs PropHandlers PropIrq
  Server SpecServer ServerProofs PropServer PropFds Wire Tran SpecWire WireProofs PropWire.
Import ListNotations.
Open Scope N_scope.
Ltac Zify.zify_post_hook ::= idtac.

(* Whatever the request and wherever it is cut: the request is refused with EINVAL, its descriptors are closed, nothing
   else happens, and the rest of the payload is what the server reads next, as if it were a message. *)
Theorem C51_body_fragment : forall s h body rs d,
  serving s -> framed (h, body) -> (16 <= dl_hdr d)%nat -> (1 <= dl_body d < length body)%nat -> en_send (dl_env d) = None ->
  let st := SRun (set_rx (dl_env d) (RxMsg h (dl_fds d) (inr (firstn (dl_body d) body)))) in
  drive s (stream ((h, body) :: rs)) [ARun d] = ([st], skipn (dl_body d) body ++ stream rs) /\
  sv_step s st = (Ok 0, s, error_reply h EINVAL ++ closes_of (dl_fds d)).
Proof.
  intros s h body rs d SV F K1 K2 Sd st. pose proof F as (Ho & V & S & _). cbn [fst snd] in *. pose proof SV as (R & P & C).
  assert (ST : sv_step s st = (Ok 0, s, error_reply h EINVAL ++ closes_of (dl_fds d))).
  { unfold st. cbn [sv_step]. rewrite R, P. cbn [negb]. unfold run_iter, get_request. rewrite C. cbn [negb en_rx set_rx].
    rewrite (proj2 (valid_hdr_iff h) V). cbn [negb]. rewrite S. replace (16 + N.of_nat (length body) =? 16) with false by lia.
    replace (16 + N.of_nat (length body) - 16) with (N.of_nat (length body)) by lia. unfold recv_body. rewrite Nat2N.id.
    assert (L : length (firstn (length body) (firstn (dl_body d) body)) = dl_body d) by (rewrite !firstn_length; lia).
    rewrite L. replace (N.of_nat (dl_body d) =? 0) with false by lia. replace (N.of_nat (dl_body d) =? N.of_nat (length body)) with false by lia. cbn [negb].
    unfold refuse, do_reply. cbn [en_send set_rx]. rewrite Sd, has_no_reply. unfold free_msg. rewrite close_all_spec. unfold error_reply.
    destruct (wants_reply h); reflexivity. }
  split; [|exact ST]. cbn [drive act_step]. rewrite (proj1 (serving_reads s) SV).
  assert (X : sock_rx (dl_hdr d) (dl_body d) (dl_fds d) (stream ((h, body) :: rs)) = (RxMsg h (dl_fds d) (inr (firstn (dl_body d) body)), skipn (dl_body d) body ++ stream rs)).
  { change (stream ((h, body) :: rs)) with ((enc_header h ++ body) ++ stream rs). rewrite <- app_assoc. unfold sock_rx. rewrite (get_msg_enc _ _ _ Ho K1).
    rewrite (proj2 (valid_hdr_iff h) V), S. replace (16 + N.of_nat (length body) =? 16) with false by lia. cbn [negb andb]. unfold recv_some.
    replace (N.to_nat (16 + N.of_nat (length body) - 16)) with (length body) by lia. replace (Nat.min (length body) (Nat.max 1 (dl_body d))) with (dl_body d) by lia.
    rewrite firstn_app, skipn_app. replace (dl_body d - length body)%nat with 0%nat by lia. cbn [firstn skipn]. rewrite app_nil_r. reflexivity. }
  rewrite X. fold st. rewrite ST. reflexivity.
Qed.
Print Assumptions C51_body_fragment.

(* The request of C51_body_fragment_refuted meets the hypotheses. *)
Example C51_body_fragment_case : exists h body, ex_trojan = [(h, body)] /\ serving (ex_busy true) /\ framed (h, body) /\ (1 <= 16 < length body)%nat /\ en_send (dl_env (ex_frag 16 16)) = None.
Proof.
  do 2 eexists. split; [reflexivity|]. split; [apply C51_body_fragment_refuted|].
  split; [pose proof (proj1 C51_body_fragment_refuted) as F; inversion F; assumption|]. split; [vm_compute; lia|reflexivity].
Qed.
