(* Vocabulary for property C53: which messages a server can be sent without crashing it. *)
From Coq Require Import NArith ZArith List Bool.
From Verif Require Import Base Types Bytes Spec Dma Migr Irq Pci SpecPci Handlers SpecHandlers Server SpecServer Setup.
From Verif Require SpecCaps.
Import ListNotations.
Open Scope N_scope.

(* A little-endian field of a payload; 0 if the payload is too short. *)
Definition word (body : list N) (off n : nat) : N := le_val (firstn n (skipn off body)).

(* A device whose configuration space has the size of its region (7), with capabilities as adding them without explicit
   positions places them; descriptors that are -1 or valid; and region descriptions that fit a 32-bit size. *)
Definition sound (c : ctx) : Prop :=
  caps_ok (cx_pci c) /\
  N.of_nat (length (pc_cfg (cx_pci c))) < 2 ^ 32 /\
  (exists r, nth_error (cx_regs c) 7 = Some r /\ ri_size r = N.of_nat (length (pc_cfg (cx_pci c)))) /\
  forall r, In r (cx_regs c) ->
    region_info_size r < 2 ^ 32 /\ 16 + 48 * N.of_nat (length (ri_subs r)) < 2 ^ 32 /\
    forall s, In s (ri_subs r) -> (-1 <= ie_fd s)%Z /\ (-1 <= ie_shadow_fd s)%Z.

(* A dirty page report of the len bytes at addr in pages of cpg bytes, while pages of spg bytes (0: none) are logged:
   the range does not wrap; with smaller pages than logged, a bitmap of at most 31 bytes, in which each logged page has
   whole bytes. *)
Definition report_ok (spg addr len cpg : N) : Prop :=
  addr + len < 2 ^ 64 /\
  (cpg < spg -> forall n, bitmap_bytes len cpg n -> n <= 31 /\ n mod (spg / cpg) = 0).

(* The size of the pages logged. *)
Definition logged_pages (c : ctx) : N := match cx_dma c with Some d => dm_pgsize d | None => 0 end.

(* DMA unmap (argsz at 0, flags at 4, address at 8, size at 16).  With flag 1, a report with page size at 24 and bitmap
   size at 32, made if argsz has room for it; with flag 2, all regions, if address and size are 0. *)
Definition harmless_unmap (c : ctx) (body : list N) : Prop :=
  let len := length body in
  (8 <= len)%nat /\
  (word body 4 4 = 1 -> (40 <= len)%nat /\
    (40 + word body 32 8 <= word body 0 4 <= 1024 * 1024 -> report_ok (logged_pages c) (word body 8 8) (word body 16 8) (word body 24 8))) /\
  (word body 4 4 = 2 -> (16 <= len)%nat /\ (word body 8 8 = 0 -> (24 <= len)%nat)).

(* Device feature (argsz at 0; flags at 4: bits 0-15 the feature, bit 16 get, bit 17 set), for a device that migrates.
   Feature 2: the migration state, at 8.  6 and 7: start (page size at 8) and stop logging.  8: report (address at 8,
   length at 16, page size at 24).  A request to set whose argsz is less than its length is refused. *)
Definition harmless_feature (c : ctx) (body : list N) : Prop :=
  let len := length body in
  let flags := word body 4 4 in
  cx_mig c <> None -> (8 <= len)%nat ->
  (flags = 2 + 2 ^ 17 -> N.of_nat len <= word body 0 4 -> (12 <= len)%nat /\ word body 8 4 <> 8) /\
  (flags = 6 + 2 ^ 17 -> N.of_nat len <= word body 0 4 -> (16 <= len)%nat /\ cx_dma c <> None) /\
  (flags = 7 + 2 ^ 17 -> N.of_nat len <= word body 0 4 -> cx_dma c <> None) /\
  (flags = 8 + 2 ^ 16 -> cx_dma c <> None ->
    (32 <= len)%nat /\ report_ok (logged_pages c) (word body 8 8) (word body 16 8) (word body 24 8)).

(* Unmap and feature requests that make the server read past the end of what the client sent (or of a table of its own),
   or that fail an assertion: an unmap request too short for its flags; setting the migration state without giving one,
   or to 8; starting to log without a page size, or starting or stopping without a DMA controller; a report that is too
   short. *)
Definition overruns (c : ctx) (cmd : N) (body : list N) : Prop :=
  let len := N.of_nat (length body) in
  let flags := word body 4 4 in
  (cmd = 3 /\ cx_dma c <> None /\
    (len < 8 \/ (flags = 1 /\ len < 40) \/ (flags = 2 /\ (len < 16 \/ (word body 8 8 = 0 /\ len < 24))))) \/
  (cmd = 16 /\ cx_mig c <> None /\ 8 <= len /\
    ((flags = 2 + 2 ^ 17 /\ len <= word body 0 4 /\ (len < 12 \/ word body 8 4 = 8)) \/
     (flags = 6 + 2 ^ 17 /\ len <= word body 0 4 /\ (len < 16 \/ cx_dma c = None)) \/
     (flags = 7 + 2 ^ 17 /\ len <= word body 0 4 /\ cx_dma c = None) \/
     (flags = 8 + 2 ^ 16 /\ cx_dma c <> None /\ len < 32))).

(* Those of them that ask for a report of dirty pages and are long enough to. *)
Definition reports (cmd : N) (body : list N) : Prop :=
  (cmd = 3 /\ word body 4 4 = 1 /\ 40 <= N.of_nat (length body)) \/ (cmd = 16 /\ word body 4 4 = 8 + 2 ^ 16 /\ 32 <= N.of_nat (length body)).

(* Write to configuration space (offset at 0, region at 8, data from 16): it does not start in the middle of a
   capability and run past its end; no register of the standard header is written in part (command at 4; base address
   registers 16 to 36; expansion ROM at 48). *)
Definition header_registers : list (N * N) := [(4, 2); (16, 4); (20, 4); (24, 4); (28, 4); (32, 4); (36, 4); (48, 4)].
Definition harmless_write (c : ctx) (body : list N) : Prop :=
  let off := word body 0 8 in
  let n := N.of_nat (length body - 16) in
  word body 8 4 = 7 ->
  (forall cap, In cap (all_caps (cx_pci c)) -> ~ runs_past cap off n) /\
  (forall reg size, In (reg, size) header_registers -> off <= reg < off + n -> reg + size <= off + n).

(* A message that does not crash the server, as far as the theorem goes. *)
Definition harmless (c : ctx) (cmd : N) (body : list N) : Prop :=
  (cmd = 3 -> cx_dma c <> None -> harmless_unmap c body) /\
  (cmd = 16 -> harmless_feature c body) /\
  (cmd = 10 -> harmless_write c body).

(* What a socket can deliver: bytes, and descriptors that are not negative. *)
Definition delivered (en : env) : Prop :=
  match en_rx en with
  | RxMsg _ fds (inr l) => bytes l /\ Forall (fun fd => (0 <= fd)%Z) fds
  | RxMsg _ fds (inl _) => Forall (fun fd => (0 <= fd)%Z) fds
  | RxErr _ => True
  end.

(* A step of a server in state s in which a client sends, if anything, a harmless message, and in which the device's own
   callback for configuration space handles what it is asked to, and its own calls and its own stores to configuration
   space do not overrun. *)
Definition harmless_step (s : server) (st : step) : Prop :=
  match st with
  | SRun en =>
      full_callbacks (or_access (en_or en)) /\ delivered en /\
      match en_rx en with
      | RxMsg h _ (inr l) => harmless (sv_ctx s) (hd_cmd h) (firstn (N.to_nat (hd_size h - 16)) l)
      | _ => True
      end
  | SQuiesced _ en => full_callbacks (or_access (en_or en))
  | SMark l => forall cr, fst (fst (sv_step s (SMark l))) <> Crash cr
  | SPoke off data => bytes data /\ off + N.of_nat (length data) <= N.of_nat (length (pc_cfg (cx_pci (sv_ctx s))))
  | SAttach _ | SLookup _ | STrigger _ _ => True
  end.
Fixpoint harmless_run (s : server) (l : list step) : Prop :=
  match l with
  | [] => True
  | st :: l' => harmless_step s st /\ harmless_run (snd (fst (sv_step s st))) l'
  end.

(* Setting a device up for that: capabilities are added at places the library chooses, are bytes and at least as long as
   their header; what the device stores itself are bytes of the header. *)
Definition plain (k : call) : Prop :=
  match k with CCap pos flags data => pos = 0 /\ SpecCaps.good_request (flags, data) | CPoke off data => SpecCaps.header_store off data | _ => True end.

(* A device that is about to be realized: its configuration space has the size of its region and a whole header; in one of
   more than 256 bytes, the standard capabilities lie in the first 256; the regions have few enough areas and I/O event
   descriptors for their descriptions to fit a 32-bit size, and the descriptors are -1 or valid. *)
Definition sensible (c : ctx) : Prop :=
  let n := match pc_cfg (cx_pci c) with [] => 0 | l => N.of_nat (length l) end in
  (forall r, nth_error (cx_regs c) 7 = Some r -> (n = 0 -> ri_size r = 0 \/ 64 <= ri_size r) /\ (n <> 0 -> ri_size r = n)) /\
  (n <> 256 -> forall cap, In cap (pc_caps (cx_pci c)) -> cap_end cap <= 256) /\
  forall r, In r (cx_regs c) ->
    N.of_nat (length (ri_areas r)) < 2 ^ 27 /\ N.of_nat (length (ri_subs r)) < 2 ^ 26 /\
    forall s, In s (ri_subs r) -> (-1 <= ie_fd s)%Z /\ (-1 <= ie_shadow_fd s)%Z.
