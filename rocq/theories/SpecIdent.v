(* Vocabulary for the property that a client sees the device that was set up. *)
From Coq Require Import NArith ZArith List Bool.
From Verif Require Import Base Types Bytes Pci SpecPci SpecCaps Handlers Server SpecServer Setup SpecSetup.
Import ListNotations.
Open Scope N_scope.

(* What a client sends is bytes; so is what the device itself stores in configuration space, and the device leaves the
   read-only part of the header alone. *)
Definition sends_bytes (st : step) : Prop :=
  match st with
  | SRun en => match en_rx en with RxMsg _ _ (inr b) => bytes b | _ => True end
  | SPoke off data => bytes data /\ forall x, off <= x < off + N.of_nat (length data) -> 64 <= x \/ header_writable x
  | _ => True
  end.

(* A caller as above that adds capabilities at places the library chooses; what it gives are bytes, and a vendor
   capability is at least as long as its header; and that stores only in the header itself, as above. *)
Definition tidy (k : call) : Prop :=
  careful k /\ match k with CCap pos flags data => pos = 0 /\ good_request (flags, data) | CPoke off data => header_store off data | _ => True end.

(* The bytes of the header that a call sets. *)
Definition sets (k : call) (x : N) : Prop :=
  match k with
  | CPciId _ _ _ _ => x < 4 \/ 44 <= x < 48
  | CPciClass _ _ _ => 9 <= x < 12
  | CPoke off data => off <= x < off + N.of_nat (length data)
  | _ => False
  end.

(* Storing data at off leaves the n bytes at x alone. *)
Definition leaves (off : N) (data : list N) (x n : N) : Prop := off + N.of_nat (length data) <= x \/ x + n <= off.

(* d is a device that has been created and then set up by the calls l, none of which crashes. *)
Definition made (l : list call) (d : device) : Prop :=
  exists d0 os, create_ctx 0 0 0 None = Ok d0 /\ dev_calls d0 l = (Some d, os).

(* The standard capabilities lie in the first 256 bytes (C47_past_256_refuted). *)
Definition low_caps (d : device) : Prop := forall c, In c (pc_caps (cx_pci (dv_ctx d))) -> cap_end c <= 256.

(* s is the state, at some time, of a server whose device was made by the calls l and then realized; d is the device
   when it is realized. *)
Definition life (l : list call) (d : device) (s : server) : Prop :=
  exists d1 hist arr ev, made l d1 /\ Forall tidy l /\ low_caps d1 /\ realize_ctx d1 = (Ok tt, d) /\
    history (dv_sv d) hist s arr ev /\ Forall sends_bytes hist.

(* struct vfio_user_region_access, without data. *)
Definition read_req (off region count : N) : list N := le_bytes 8 off ++ le_bytes 4 region ++ le_bytes 4 count.
