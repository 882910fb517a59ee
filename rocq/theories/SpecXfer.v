(* Vocabulary for the properties of DMA by messages. *)
From Coq Require Import NArith ZArith String List Bool.
From Verif Require Import Base Types Bytes Dma Dirty Migr Irq Pci Handlers Server SpecServer Wire Tran SpecWire Xfer.
Import ListNotations.
Open Scope N_scope.

(* A DMA read (command 11) or write (command 12) message for n bytes at guest address a; a write carries the data. *)
Definition dma_request (write : bool) (m : list N) (a n : N) (data : list N) : Prop :=
  exists id payload, message m id (if write then 12 else 11) 0 0 payload /\
    (16 <= length payload)%nat /\ u64 payload 0 = a /\ u64 payload 8 = n /\ skipn 16 payload = data.

(* The first guest address of a segment; the n bytes of the caller's buffer for the addresses from a on. *)
Definition start_of (g : sg) : N := sg_base g + sg_off g.
Definition part (g : sg) (data : list N) (a n : N) : list N := firstn (N.to_nat n) (skipn (N.to_nat (a - start_of g)) data).

(* A segment of a DMA region, a buffer that holds it, and a transfer size for which messages are below 4 GiB. *)
Record xfer_ok (g : sg) (max : N) (data : list N) (e : xenv) : Prop := {
  xo_range : start_of g + sg_len g <= 2 ^ 64;
  xo_start : start_of g < 2 ^ 64;
  xo_data : (N.to_nat (sg_len g) <= length data)%nat;
  xo_size : N.min (sg_len g) max + 32 < 2 ^ 32;
  xo_junk : length (xe_junk e) = 16%nat;
  xo_calloc : xe_calloc e = true
}.

(* The messages of a call cover the segment from its start on, in order, in pieces of at most max bytes. *)
Definition covers (write : bool) (g : sg) (max : N) (data : list N) (msgs : list (list N)) (segs : list (N * N)) : Prop :=
  consecutive (start_of g) segs /\ total segs <= sg_len g /\ Forall (fun p => snd p <= max) segs /\
  Forall2 (fun m p => dma_request write m (fst p) (snd p) (if write then part g data (fst p) (snd p) else [])) msgs segs.

(* Everything the client puts on the socket in answer to the messages, the first of which is number k. *)
Fixpoint answers (client : nat -> list N -> xanswer) (k : nat) (msgs : list (list N)) : list N :=
  match msgs with
  | [] => []
  | m :: l => xa_bytes (client k m) ++ answers client (S k) l
  end.

(* A reply on the socket without the error flag, for the message with that id. *)
Record reply_ok (id : N) (hdr : list N) : Prop := {
  ro_length : length hdr = 16%nat;
  ro_id : u16 hdr 0 = id;
  ro_type : u32 hdr 8 mod 16 = 1;
  ro_error : N.testbit (u32 hdr 8) 5 = false
}.

(* Replies as they come off the socket: header and body, for consecutive message ids and the pieces; the body repeats the address
   and the count of the piece, and for a read carries the data. *)
Fixpoint replies_for (write : bool) (id : N) (segs : list (N * N)) (rs : list (list N * list N)) : Prop :=
  match segs, rs with
  | [], [] => True
  | (a, n) :: segs', (hdr, body) :: rs' =>
      reply_ok (id mod 65536) hdr /\ u64 body 0 = a /\ u64 body 8 = n /\
      N.of_nat (length body) = 16 + (if write then 0 else n) /\ replies_for write (id + 1) segs' rs'
  | _, _ => False
  end.

(* A client whose memory is mem, that answers every message at once; asked for n bytes at a in message k it says (truthfully or
   not) that it answers for the range f k a n. *)
Definition mem_bytes (mem : N -> N) (a n : N) : list N := map (fun i => mem (a + N.of_nat i)) (seq 0 (N.to_nat n)).
Definition talk (f : nat -> N -> N -> N * N) (mem : N -> N) (write : bool) (k : nat) (m : list N) : xanswer :=
  let a := u64 m 16 in
  let n := u64 m 24 in
  mk_xanswer (Sent (N.of_nat (length m)))
    (reply_bytes (mk_reply (u16 m 0) (u16 m 2) 0
       (le_bytes 8 (fst (f k a n)) ++ le_bytes 8 (snd (f k a n)) ++ if write then [] else mem_bytes mem a n) []))
    16.

(* Its answers to the pieces are right, the first being number k; every number in them fits. *)
Fixpoint agree (f : nat -> N -> N -> N * N) (k : nat) (segs : list (N * N)) : Prop :=
  match segs with
  | [] => True
  | (a, n) :: l => f k a n = (a, n) /\ agree f (S k) l
  end.
Definition bounded (f : nat -> N -> N -> N * N) : Prop := 
  forall k a n, a < 2 ^ 64 -> n < 2 ^ 64 -> fst (f k a n) < 2 ^ 64 /\ snd (f k a n) < 2 ^ 64.

(* The client whose answers are all right. *)
Definition honest (k : nat) (a n : N) : N * N := (a, n).
