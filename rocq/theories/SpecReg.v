(* Vocabulary for the property that configuration space keeps what was written to it. *)
From Coq Require Import NArith ZArith List Bool.
From Verif Require Import Base Types Bytes Handlers SpecHandlers Server.
Import ListNotations.
Open Scope N_scope.

(* A request with command cmd (10: write to a region) and payload body writes to configuration space (region 7), and
   offset x is among the bytes it covers. *)
Definition covers (cmd : N) (body : list N) (x : N) : Prop :=
  cmd = 10 /\ exists off count data, in_range off 7 count /\ body = access_req off 7 count data /\ off <= x < off + N.of_nat (length data).

(* In this step such a request arrives, or the device itself stores there. *)
Definition writes_over (st : step) (x : N) : Prop :=
  match st with
  | SRun en => match en_rx en with RxMsg h _ (inr b) => covers (hd_cmd h) (firstn (N.to_nat (hd_size h - 16)) b) x | _ => False end
  | SPoke off data => off <= x < off + N.of_nat (length data)
  | _ => False
  end.

(* Such a request has arrived and waits for the device to be quiesced. *)
Definition waiting_over (s : server) (x : N) : Prop :=
  match sv_pending s with PMsg m => covers (hd_cmd (mg_hdr m)) (mg_body m) x | _ => False end.
