(* C40 and C41, continued: exactly which clients are accepted, and which transfer size is used for what they announce. *)
From Coq Require Import NArith ZArith String List Bool Lia ZifyBool ZifyNat ZifyN.
From Verif Require Import Base Types Bytes BytesProofs BufProofs Migr Irq Pci Handlers Server SpecServer Wire Tran SpecWire WireProofs PropWire PropTran.
Import ListNotations.
Open Scope N_scope.
Ltac Zify.zify_post_hook ::= idtac.

Lemma int_small v : (0 <= to_int v <= 1024)%Z <-> (v mod 4294967296 <= 1024)%Z.
Proof.
  unfold to_int. pose proof (Z.mod_pos_bound v 4294967296 ltac:(lia)) as B. rewrite <- Zplus_mod_idemp_l.
  destruct (Z.ltb_spec (v mod 4294967296) 2147483648) as [L|L].
  - rewrite Z.mod_small by lia. lia.
  - replace (v mod 4294967296 + 2147483648)%Z with (v mod 4294967296 - 2147483648 + 1 * 4294967296)%Z by lia. rewrite Z_mod_plus_full, Z.mod_small by lia. lia.
Qed.

Lemma sent_all id cmd payload n : 16 + N.of_nat (length payload) <= n -> send_result (hd_size (send_header id true cmd 0 payload)) (Sent n) = Ok tt.
Proof.
  intros L. unfold send_result. assert (X : hd_size (send_header id true cmd 0 payload) <= n).
  { unfold send_header. cbn [hd_size]. unfold w32. etransitivity; [apply N.mod_le; discriminate|]. lia. }
  destruct (N.ltb_spec n (hd_size (send_header id true cmd 0 payload))); [lia|reflexivity].
Qed.

(* If the reply can be sent and a pair of sockets be made, a client is accepted exactly if it has the same major version, its
   capabilities are of the right types, its page size, if the device can migrate, is 4096 or (modulo 2^64) not given, and its
   descriptor limit is, modulo 2^32, at most 1024.  Any other is refused with EINVAL. *)
Theorem C40_exact : forall parse print t g a fd id major minor text r t' g' ev n p,
  connecting parse t a fd id major minor text -> at_send a = Sent n -> (forall j, 21 + N.of_nat (length (print j)) <= n) -> at_pair a = inl p ->
  attach parse print t g a = (r, t', g', ev) ->
  (r = Ok tt <->
     major = 0 /\ caps_typed text /\
     (ng_pgsize g = None \/ forall v e, capability text ["migration"%string; "pgsize"%string] = Some (JInt v e) ->
        (v mod 18446744073709551616 = 0 \/ v mod 18446744073709551616 = 4096)%Z) /\
     (forall v e, capability text ["max_msg_fds"%string] = Some (JInt v e) -> (v mod 4294967296 <= 1024)%Z)) /\
  (r <> Ok tt -> r = Err EINVAL).
Proof.
  intros parse print t g a fd id major minor text r t' g' ev n p CN SE PR PA H.
  assert (PG : pgsize_ok (ng_pgsize g) text <-> (ng_pgsize g = None \/ forall v e, capability text ["migration"%string; "pgsize"%string] = Some (JInt v e) ->
        (v mod 18446744073709551616 = 0 \/ v mod 18446744073709551616 = 4096)%Z)).
  { unfold pgsize_ok. destruct (capability text ["migration"%string; "pgsize"%string]) as [[| |v e| |]|]; try (split; intros; right; auto; discriminate).
    unfold to_size. pose proof (Z.mod_pos_bound v 18446744073709551616 ltac:(lia)). split; (intros [X|X]; [now left|right]).
    - intros v' e' E. injection E as <- <-. lia.
    - specialize (X v e eq_refl). lia. }
  assert (FD : fd_limit_ok text <-> forall v e, capability text ["max_msg_fds"%string] = Some (JInt v e) -> (v mod 4294967296 <= 1024)%Z).
  { unfold fd_limit_ok. destruct (capability text ["max_msg_fds"%string]) as [[| |v e| |]|]; cbn [int_of]; try (split; intros; [discriminate|lia]).
    rewrite int_small. split; [intros X v' e' E; injection E as <- <-; exact X|intros X; exact (X v e eq_refl)]. }
  rewrite <- PG, <- FD.
  destruct (attach_cases _ _ _ _ _ _ _ _ _ _ _ _ _ _ CN H) as [(A1 & A2 & A3 & A4 & _ & _ & _ & o & evs & FN & R)|(NA & -> & _)].
  - assert (O : exists z, o = Ok z).
    { unfold finish_negotiate in FN. rewrite PA in FN. destruct p as (x, y).
      assert (SR : forall f0, send_result (hd_size (send_header id true CMD_VERSION 0 (le_bytes 2 LIB_MAJOR ++ le_bytes 2 (N.min minor LIB_MINOR) ++ print (server_caps (ng_pgsize g') f0) ++ [0]))) (at_send a) = Ok tt).
      { intros f0. rewrite SE. apply sent_all. specialize (PR (server_caps (ng_pgsize g') f0)). rewrite !app_length, !le_bytes_length. cbn [length]. lia. }
      destruct (bool_of _ false && (0 <? ng_fds g')%Z); unfold send_iovec in FN; rewrite SR in FN; injection FN as <- _; eauto. }
    destruct O as (z & ->). destruct R as (-> & _). split; [|intros X; now destruct X]. tauto.
  - split; [|reflexivity]. split; [discriminate|]. intros X. destruct (NA X).
Qed.
Print Assumptions C40_exact.

Example C40_exact_case :
  connecting (ex_parse (ex_caps [("max_msg_fds"%string, JInt 8 false)])) ex_tran (ex_attach 0 0) 11 7 0 0 (Some (ex_caps [("max_msg_fds"%string, JInt 8 false)])) /\
  at_send (ex_attach 0 0) = Sent 23 /\ (forall j, 21 + N.of_nat (length (ex_print j)) <= 23) /\ at_pair (ex_attach 0 0) = inl (20, 21)%Z /\
  fst (fst (fst (attach (ex_parse (ex_caps [("max_msg_fds"%string, JInt 8 false)])) ex_print ex_tran ex_nego (ex_attach 0 0)))) = Ok tt /\
  fst (fst (fst (attach (ex_parse (ex_caps [("max_msg_fds"%string, JInt 1025 false)])) ex_print ex_tran ex_nego (ex_attach 0 0)))) = Err EINVAL.
Proof.
  split; [|split; [reflexivity|split; [intros; vm_compute; discriminate|split; [reflexivity|vm_compute; auto]]]].
  split; try reflexivity; [cbn; lia|]. exists (ex_version 0 0), []. split; [symmetry; apply app_nil_r|]. apply ex_version_msg. reflexivity.
Qed.

(* The transfer size used is the announced one modulo 2^32, taken as a signed number of 32 bits and then as an unsigned one of
   64 bits; so it is the announced one exactly for numbers below 2^31. *)
Theorem C41_announced_exact : forall parse print t g a fd id major minor text t' g' ev v e,
  connecting parse t a fd id major minor text -> attach parse print t g a = (Ok tt, t', g', ev) ->
  capability text ["max_data_xfer_size"%string] = Some (JInt v e) -> (-9223372036854775808 <= v < 9223372036854775808)%Z ->
  (Z.of_N (ng_xfer g') = if v mod 4294967296 <? 2147483648 then v mod 4294967296 else 18446744073709551616 - 4294967296 + v mod 4294967296)%Z /\
  (Z.of_N (ng_xfer g') = v <-> (0 <= v < 2147483648)%Z).
Proof.
  intros parse print t g a fd id major minor text t' g' ev v e CN H C B.
  destruct (attach_cases _ _ _ _ _ _ _ _ _ _ _ _ _ _ CN H) as [(_ & _ & _ & _ & _ & A6 & _)|(_ & R & _)]; [|discriminate R].
  rewrite C in A6. cbn [size_of] in A6. pose proof (Z.mod_pos_bound v 4294967296 ltac:(lia)) as M.
  assert (E : (Z.of_N (ng_xfer g') = if v mod 4294967296 <? 2147483648 then v mod 4294967296 else 18446744073709551616 - 4294967296 + v mod 4294967296)%Z).
  { rewrite A6. unfold to_int. rewrite <- Zplus_mod_idemp_l. set (u := (v mod 4294967296)%Z) in *. clearbody u. clear - M. destruct (Z.ltb_spec u 2147483648) as [L|L].
    - rewrite (Z.mod_small (u + 2147483648)) by lia. rewrite to_size_id by lia. lia.
    - replace (u + 2147483648)%Z with (u - 2147483648 + 1 * 4294967296)%Z by lia. rewrite Z_mod_plus_full, Z.mod_small by lia. unfold to_size.
      replace (u - 2147483648 - 2147483648)%Z with (18446744073709551616 - 4294967296 + u + (-1) * 18446744073709551616)%Z by lia. rewrite Z_mod_plus_full, Z.mod_small by lia. lia. }
  split; [exact E|]. rewrite E. split.
  - destruct (Z.ltb_spec (v mod 4294967296) 2147483648); lia.
  - intros V. rewrite Z.mod_small by lia. destruct (Z.ltb_spec v 2147483648); lia.
Qed.
Print Assumptions C41_announced_exact.

Example C41_announced_exact_case : exists g' ev, attach (ex_parse (ex_caps [("max_data_xfer_size"%string, JInt (-1) false)])) ex_print ex_tran ex_nego (ex_attach 0 0) =
  (Ok tt, mk_tran 11 (-1), g', ev) /\ ng_xfer g' = 18446744073709551615.
Proof. exact (ex_attach_xfer (-1)). Qed.
