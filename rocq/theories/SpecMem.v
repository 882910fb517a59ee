(* What the memory of messages should be. *)
From Coq Require Import NArith List Bool.
From Verif Require Import Base Heap SpecHeap Mem.
Import ListNotations.

Definition opt (p : option nat) : list nat := match p with Some b => [b] | None => [] end.

(* The buffers of a message. *)
Definition buffers (m : mmsg) : list nat := mm_self m :: opt (mm_infds m) ++ opt (mm_in m) ++ opt (mm_out m) ++ opt (mm_outfds m).

(* A request is being held until the device has quiesced: its buffers. *)
Definition held (e : mem) : list nat := match me_msg e with Some m => buffers m | None => [] end.

(* A negotiation with a client that is accepted but for which the socket pair cannot be made. *)
Definition no_pair (o : mem_op) : bool :=
  match o with
  | MoNegotiate g => match ng_body g, ng_twin g with Some BodyOk, Some false => ng_accept g | _, _ => false end
  | _ => false
  end.
Definition no_pairs (l : list mem_op) : nat := length (filter no_pair l).
