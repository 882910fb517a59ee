(* C32, continued: exactly how long the reply to a read is. *)
From Coq Require Import NArith ZArith List Bool Lia ZifyBool ZifyNat ZifyN.
From Verif Require Import Base Types Bytes BytesProofs Migr SpecMigr PropMigr.
Import ListNotations.
Open Scope N_scope.
Ltac Zify.zify_post_hook ::= idtac.

(* The reply has its header, the bytes asked for and one byte for each trailing byte of the request.  So it exceeds what the
   client announced exactly if the trailing bytes do not fit in what the client announced beyond that. *)
Theorem C32_fits_exact : forall m max n buf argsz size rest err body fds, argsz < two32 -> size < two32 -> may_read m max argsz size ->
  fst (mig_data_read m max (DataOk n buf) (mig_data_body argsz size rest)) = HReply err body fds ->
  err = 0 /\ fds = [] /\ N.of_nat (length body) = 8 + size + N.of_nat (length rest) /\
  (argsz < N.of_nat (length body) <-> argsz - (8 + size) < N.of_nat (length rest)).
Proof.
  intros m max n buf argsz size rest err body fds A S M H. destruct (C32_read m max (DataOk n buf) argsz size rest A S) as (R & _). specialize (R M). destruct R as (_ & tail & E & L).
  assert (Q : err = 0 /\ fds = [] /\ body = le_bytes 4 (8 + n) ++ le_bytes 4 n ++ firstn (N.to_nat size) (buf ++ repeat 0 (N.to_nat size)) ++ tail).
  { rewrite E in H. clear - H. injection H as <- B <-. split; [reflexivity|]. split; [reflexivity|]. symmetry. exact B. }
  destruct Q as (-> & -> & ->). clear H. split; [reflexivity|]. split; [reflexivity|].
  assert (X : N.of_nat (length (le_bytes 4 (8 + n) ++ le_bytes 4 n ++ firstn (N.to_nat size) (buf ++ repeat 0 (N.to_nat size)) ++ tail)) = 8 + size + N.of_nat (length rest)).
  { rewrite !app_length, !le_bytes_length, firstn_length, app_length, repeat_length, L. lia. }
  split; [exact X|]. rewrite X. destruct M as (_ & _ & M). lia.
Qed.
Print Assumptions C32_fits_exact.

Example C32_fits_exact_case : may_read (Some 3) 4096 12 4 /\
  fst (mig_data_read (Some 3) 4096 (DataOk 2 [7; 9]) (mig_data_body 12 4 [1])) = HReply 0 [10; 0; 0; 0; 2; 0; 0; 0; 7; 9; 0; 0; 0] [].
Proof. split; [unfold may_read; cbn; intuition lia|reflexivity]. Qed.
