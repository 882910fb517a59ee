(* What the config space properties mean. *)
From Verif Require Import Base Types Bytes Pci.
From Coq Require Import NArith ZArith List Bool.
Import ListNotations.
Open Scope N_scope.

(* The byte at a config space offset. *)
Definition byte_at (p : pci) (o : N) : N := nth (N.to_nat o) (pc_cfg p) 0.

(* All registered capabilities, and the bytes a capability occupies. *)
Definition all_caps (p : pci) : list pci_cap := pc_caps p ++ pc_ext_caps p.
Definition cap_end (c : pci_cap) : N := cp_off c + cp_size c.
Definition in_cap (c : pci_cap) (o : N) : Prop := cp_off c <= o < cap_end c.

Definition read_only (c : pci_cap) : Prop := N.testbit (cp_flags c) 2 = true.
Definition by_callback (c : pci_cap) : Prop := N.testbit (cp_flags c) 1 = true.

(* Size and header size a capability has by its id: PM, PCI Express, MSI, MSI-X, vendor specific; extended:
   serial number and vendor specific.  (Vendor capabilities say how long they are; they must at least
   contain their header.) *)
Definition cap_wf (c : pci_cap) : Prop :=
  if cp_ext c then (cp_id c = 3 /\ cp_hdr_size c = 4 /\ cp_size c = 12) \/ (cp_id c = 11 /\ cp_hdr_size c = 8 /\ 8 <= cp_size c)
  else (cp_id c = 1 /\ cp_hdr_size c = 2 /\ cp_size c = 8) \/ (cp_id c = 16 /\ cp_hdr_size c = 2 /\ cp_size c = 60) \/
       (cp_id c = 5 /\ cp_hdr_size c = 2 /\ cp_size c = 24) \/ (cp_id c = 17 /\ cp_hdr_size c = 2 /\ cp_size c = 12) \/
       (cp_id c = 9 /\ cp_hdr_size c = 3 /\ 3 <= cp_size c).

(* Capabilities lie behind the standard header, inside config space, one after the other in the order they
   were added (what adding them without explicit positions gives: C47). *)
Record caps_ok (p : pci) : Prop := {
  co_bytes : bytes (pc_cfg p);
  co_size : (64 <= length (pc_cfg p))%nat;
  co_wf : forall c, In c (all_caps p) -> cap_wf c;
  co_low : forall c, In c (all_caps p) -> 64 <= cp_off c;
  co_high : forall c, In c (all_caps p) -> cap_end c <= N.of_nat (length (pc_cfg p));
  co_order : ForallOrdPairs (fun a b => cap_end a <= cp_off b) (all_caps p)
}.

(* An access of n bytes at off that starts in the middle of a capability and runs past its end. *)
Definition runs_past (c : pci_cap) (off n : N) : Prop := cp_off c < off /\ off < cap_end c /\ cap_end c < off + n.

(* A config region callback that handles everything it is asked to, or fails. *)
Definition full_callbacks (a : acc_oracle) : Prop := forall k off n m d, a k off n = AccOk m d -> m = n.

(* The registers of the standard header a client may change: command, cache line size, latency timer,
   BARs, expansion ROM address, interrupt line. *)
Definition header_writable (o : N) : Prop :=
  o = 4 \/ o = 5 \/ o = 12 \/ o = 13 \/ 16 <= o < 40 \/ 48 <= o < 52 \/ o = 60.

(* Command register: I/O, memory, bus master, memory write and invalidate, SERR, INTx disable. *)
Definition command_supported (b : N) : Prop := b = 0 \/ b = 1 \/ b = 2 \/ b = 4 \/ b = 8 \/ b = 10.

(* Which bits of each byte of a capability's registers a client can change (the numbers are positions from
   the start of the capability). *)
Definition msi_mask (i : N) : N :=
  if i =? 2 then 113            (* MSI enable, multiple message enable *)
  else if i =? 4 then 252       (* message address: bits 0-1 are reserved *)
  else if (5 <=? i) && (i <? 14) then 255  (* rest of the address, upper address, data *)
  else if (16 <=? i) && (i <? 20) then 255 (* mask bits *)
  else 0.
Definition msix_mask (i : N) : N := if i =? 3 then 192 else 0. (* function mask, MSI-X enable *)
Definition px_mask (i : N) : N :=
  if i =? 8 then 255 else if i =? 9 then 127     (* device control, but not initiate-FLR *)
  else if (i =? 40) || (i =? 41) || (i =? 48) || (i =? 49) then 255 (* device and link control 2 *)
  else 0.
Definition pm_mask (i : N) : N := if (i =? 4) || (i =? 5) then 255 else 0. (* control and status *)

(* A register byte after a client wrote w over it. *)
Definition merged (mask old w : N) : N := N.lor (N.ldiff old mask) (N.land w mask).

(* An n-byte little-endian register. *)
Definition field (p : pci) (off : N) (n : nat) : N := le_val (firstn n (skipn (N.to_nat off) (pc_cfg p))).

(* A byte the client must not change: any byte of a read-only capability, and the header of a capability
   the library handles. *)
Definition protected (p : pci) (o : N) : Prop :=
  exists c, In c (all_caps p) /\ in_cap c o /\ (read_only c \/ (~ by_callback c /\ o < cp_off c + cp_hdr_size c)).

(* Which bits of a capability's register bytes a client can change, by capability id; everything behind the
   header of a vendor capability. *)
Definition cap_mask (c : pci_cap) (i : N) : N :=
  if cp_ext c then (if cp_id c =? 3 then 0 else 255)
  else if cp_id c =? 1 then pm_mask i
  else if cp_id c =? 16 then px_mask i
  else if cp_id c =? 5 then msi_mask i
  else if cp_id c =? 17 then msix_mask i
  else 255.

(* The bytes a write of data at off would put at o. *)
Definition overlay (cfg : list N) (off : N) (data : list N) (o : N) : N :=
  if (off <=? o) && (o <? off + N.of_nat (length data)) then nth (N.to_nat (o - off)) data 0 else nth (N.to_nat o) cfg 0.

(* Which bits of the standard header a client can change. *)
Definition header_may (o b : N) : Prop :=
  header_writable o /\ (o = 4 -> command_supported b) /\ (o = 5 -> command_supported (8 + b)).

(* Which bits of config space a client can change: those, and the writable bits of the registers of
   capabilities that are neither read-only nor handled by the device. *)
Definition client_may (p : pci) (o b : N) : Prop :=
  header_may o b \/
  exists c, In c (all_caps p) /\ ~ read_only c /\ ~ by_callback c /\ cp_off c + cp_hdr_size c <= o < cap_end c /\
            N.testbit (cap_mask c (o - cp_off c)) b = true.

(* Bytes the library answers for: the standard header, and capabilities not handed to the device. *)
Definition library_byte (p : pci) (x : N) : Prop := x < 64 \/ exists c, In c (all_caps p) /\ in_cap c x /\ ~ by_callback c.

(* MSI message control, low byte: multiple message enable (bits 4-6) and capable (bits 1-3).  A new
   enable value must be at most 5 (32 messages) and at most what the device is capable of. *)
Definition mme_of (b2 : N) : N := N.land (N.shiftr b2 4) 7.
Definition mmc_of (b2 : N) : N := N.land (N.shiftr b2 1) 7.
Definition mme_bad (old new : N) : bool := negb (mme_of old =? mme_of new) && ((5 <? mme_of new) || (mmc_of old <? mme_of new)).

(* Bits of a BAR that describe it rather than address it: bits 0-3 of a memory BAR, 0-1 of an I/O BAR. *)
Definition bar_type_bits (e : pci_env) (i : nat) : N := if N.testbit (nth i (pe_bar_flags e) 0) 2 then 15 else 3.
