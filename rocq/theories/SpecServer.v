(* Vocabulary for the properties of the request loop. *)
From Coq Require Import NArith ZArith List Bool.
From Verif Require Import Base Types Bytes Spec Dma DmaOps SpecDma Migr Irq SpecIrq Pci Handlers Server.
Import ListNotations.
Open Scope N_scope.

(* A message the server may act upon: a command, of a size between the header and the maximum of 1 MiB of data
   with two 16-byte headers, and with a payload unless it is a device reset (command 13). *)
Definition valid_hdr (h : header) : Prop :=
  hd_flags h mod 16 = 0 /\ 16 <= hd_size h <= 1024 * 1024 + 32 /\ (hd_size h = 16 -> hd_cmd h = 13).

(* The client asks for a reply (flag 0x10 not set). *)
Definition wants_reply (h : header) : bool := negb (N.testbit (hd_flags h) 4).

(* The server is waiting for requests of a client. *)
Definition serving (s : server) : Prop := sv_realized s = true /\ sv_pending s = PNone /\ sv_conn s = true.

(* close() of every descriptor of a list; -1 stands for "no descriptor". *)
Definition closes_of (fds : list Z) : list event := map EvClose (filter (fun fd => negb (fd =? -1)%Z) fds).

(* An error reply with an empty payload. *)
Definition error_reply (h : header) (e : N) : list event :=
  if wants_reply h then [EvReply (mk_reply (hd_id h) (hd_cmd h) e [] [])] else [].

(* The requests for which a reply is still to come, as (message id, command). *)
Definition owed (s : server) : list (N * N) :=
  match sv_pending s with
  | PMsg m => if wants_reply (mg_hdr m) then [(hd_id (mg_hdr m), hd_cmd (mg_hdr m))] else []
  | _ => []
  end.

(* The request a step takes off the socket and that asks for a reply: vfu_run_ctx only receives while connected
   and with nothing pending. *)
Definition arrived (s : server) (st : step) : list (N * N) :=
  match st with
  | SRun en =>
      match sv_realized s, sv_pending s, sv_conn s, en_rx en with
      | true, PNone, true, RxMsg h _ _ => if wants_reply h then [(hd_id h, hd_cmd h)] else []
      | _, _, _, _ => []
      end
  | _ => []
  end.

(* The replies sent. *)
Definition replies (ev : list event) : list (N * N) :=
  flat_map (fun e => match e with EvReply r => [(rp_id r, rp_cmd r)] | _ => [] end) ev.

(* What a history of steps that does not crash does: final state, what arrived, everything observable. *)
Inductive history : server -> list step -> server -> list (N * N) -> list event -> Prop :=
| h_nil : forall s, history s [] s [] []
| h_cons : forall s st o s1 ev1 l s2 arr ev2,
    sv_step s st = (o, s1, ev1) -> (forall c, o <> Crash c) -> history s1 l s2 arr ev2 ->
    history s (st :: l) s2 (arrived s st ++ arr) (ev1 ++ ev2).

(* No reply fails to be sent, and no asynchronous quiesce fails. *)
Definition answered (st : step) : Prop :=
  match st with
  | SRun en => en_send en = None
  | SQuiesced errno en => en_send en = None /\ errno = 0
  | _ => True
  end.

(* l1 is obtained from l2 by leaving out elements. *)
Inductive subseq {A} : list A -> list A -> Prop :=
| ss_nil : subseq [] []
| ss_skip : forall x l1 l2, subseq l1 l2 -> subseq l1 (x :: l2)
| ss_keep : forall x l1 l2, subseq l1 l2 -> subseq (x :: l1) (x :: l2).

(* A context as vfu_realize_ctx leaves it: no DMA regions, every interrupt vector unbound, one error and one
   request interrupt, migration state running if migration is supported. *)
Definition realized_ctx (c : ctx) : Prop :=
  (cx_dma c = None \/ cx_dma c = Some dma_create) /\
  cx_irqs c = Some (irqs_create (cx_irq_cfg c)) /\
  length (ic_count (cx_irq_cfg c)) = 5%nat /\ Forall (fun n => n < two32 - 1) (ic_count (cx_irq_cfg c)) /\
  nth 3 (ic_count (cx_irq_cfg c)) 0 = 1 /\ nth 4 (ic_count (cx_irq_cfg c)) 0 = 1 /\
  (cx_mig c = None \/ cx_mig c = Some ST_RUNNING).
Definition fresh (s : server) : Prop :=
  realized_ctx (sv_ctx s) /\ sv_pending s = PNone /\ sv_quiesced s = false /\ sv_conn s = false /\ sv_realized s = true.

(* s can be the state of a server, after steps none of which crashed. *)
Definition reachable (s : server) : Prop := exists s0 l arr ev, fresh s0 /\ history s0 l s arr ev.

(* The DMA regions of the device. *)
Definition regions_of (s : server) : list region := match cx_dma (sv_ctx s) with Some d => dm_regions d | None => [] end.

(* Giving up one DMA region: the device is told, the memory is unmapped and the descriptor closed if there is one. *)
Definition gives_up (s : server) (r : region) : list event :=
  (if cx_unregister (sv_ctx s) then [EvUnregister (rg_info r)] else []) ++
  (if (rg_fd r =? -1)%Z then [] else [EvMunmap (di_map_base (rg_info r)) (di_map_len (rg_info r)); EvClose (rg_fd r)]).

(* The descriptors of the interrupt vectors. *)
Definition irq_fds (s : server) : list Z :=
  match cx_irqs (sv_ctx s) with Some t => iq_req t :: iq_err t :: iq_efds t | None => [] end.

(* Everything observable when the context is reset because the connection is lost. *)
Definition lost_events (s : server) : list event :=
  concat (map (gives_up s) (regions_of s)) ++
  (if cx_reset (sv_ctx s) then [EvReset ResetLostConn] else []) ++
  closes_of (irq_fds s) ++ [EvDetach].

(* The state after the reset.  lost is the answer of the reset callback. *)
Definition after_loss (s s' : server) (lost : option N) : Prop :=
  regions_of s' = [] /\ (forall fd, In fd (irq_fds s') -> fd = (-1)%Z) /\ sv_conn s' = false /\ sv_quiesced s' = false /\
  cx_mig (sv_ctx s') = (if cx_reset (sv_ctx s) && match lost with Some _ => true | None => false end then cx_mig (sv_ctx s)
                        else match cx_mig (sv_ctx s) with Some _ => Some ST_RUNNING | None => None end).

(* The quiesce callback, if there is one, reports success. *)
Definition quiesces (s : server) (en : env) : Prop := cx_quiesce (sv_ctx s) = true -> en_quiesce_reset en = None.
Definition quiesce_call (s : server) : list event := if cx_quiesce (sv_ctx s) then [EvQuiesce None] else [].

(* The errors that mean that the connection is lost. *)
Definition conn_lost (e : N) : Prop := e = ENOMSG \/ e = ECONNRESET.

(* The callbacks that need the device to be quiesced. *)
Definition disruptive (e : event) : Prop :=
  match e with EvRegister _ | EvUnregister _ | EvReset _ | EvTransition _ => True | _ => False end.

(* Along a list of events, disruptive callbacks are only made while the device is quiesced; q tells whether it is
   at the beginning, and each quiesce callback changes that according to its answer. *)
Fixpoint quiesced_along (q : bool) (ev : list event) : Prop :=
  match ev with
  | [] => True
  | EvQuiesce a :: l => quiesced_along (match a with None => true | Some _ => false end) l
  | e :: l => (disruptive e -> q = true) /\ quiesced_along q l
  end.

(* The device says that it is quiesced by calling vfu_device_quiesced for a pending operation. *)
Definition told_quiesced (s : server) (st : step) : bool :=
  match st, sv_pending s with
  | SQuiesced 0 _, PMsg _ | SQuiesced 0 _, PReset => true
  | _, _ => false
  end.

(* The device has at most one PCI Express capability, the one whose position the library remembers. *)
Definition one_exp (s : server) : Prop :=
  let p := cx_pci (sv_ctx s) in
  forall c, In c (pc_caps p ++ pc_ext_caps p) -> cp_ext c = false -> cp_id c = PCI_CAP_ID_EXP -> pc_exp_off p = Some (cp_off c).

(* A request that writes to the device control register (offset 8) of a PCI Express capability starts there. *)
Definition devctl_aligned (s : server) (st : step) : Prop :=
  match st with
  | SRun en =>
      match en_rx en with
      | RxMsg h _ (inr body) =>
          hd_cmd h = 10 -> forall off region count c,
          rd body 0 8 = Some off -> rd body 8 4 = Some region -> rd body 12 4 = Some count -> region = 7 ->
          In c (pc_caps (cx_pci (sv_ctx s)) ++ pc_ext_caps (cx_pci (sv_ctx s))) -> cp_ext c = false -> cp_id c = PCI_CAP_ID_EXP ->
          off <= cp_off c + 8 -> cp_off c + 8 < off + count -> off = cp_off c + 8
      | _ => True
      end
  | _ => True
  end.

(* File descriptors: how many times fd is held by a DMA region, an interrupt vector or the pending message. *)
Definition times (fd : Z) (l : list Z) : nat := count_occ Z.eq_dec l fd.
Definition held (s : server) (fd : Z) : nat :=
  (times fd (map rg_fd (regions_of s)) + times fd (irq_fds s) +
   match sv_pending s with PMsg m => times fd (mg_fds m) | _ => 0 end)%nat.
Definition closed (ev : list event) (fd : Z) : nat :=
  times fd (flat_map (fun e => match e with EvClose f => [f] | _ => [] end) ev).
(* The descriptors that come with the message a step takes off the socket. *)
Definition received (s : server) (st : step) : list Z :=
  match st with
  | SRun en =>
      match sv_realized s, sv_pending s, sv_conn s, en_rx en with
      | true, PNone, true, RxMsg _ fds _ => fds
      | _, _, _, _ => []
      end
  | _ => []
  end.

(* The two situations in which the library does not account for the descriptor of a DMA map request: the request
   repeats an existing mapping (same range, offset, protection and file), or mmap of a new mapping fails. *)
Definition map_accounted (rs : list region) (os : dma_os) (m : msg) : Prop :=
  hd_cmd (mg_hdr m) = 2 -> forall fd rest addr size off flags,
  mg_fds m = fd :: rest -> rd (mg_body m) 4 4 = Some flags -> rd (mg_body m) 8 8 = Some off ->
  rd (mg_body m) 16 8 = Some addr -> rd (mg_body m) 24 8 = Some size ->
  (exists base, os_mmap os = inl base) /\
  forall r, In r rs ->
    ~ (rg_base r = addr /\ rg_len r = size /\ rg_off r = off /\ (rg_fd r = fd \/ os_same_file os (rg_fd r) fd = true) /\
       di_prot (rg_info r) = (if N.testbit flags 0 then PROT_READ else 0) + (if N.testbit flags 1 then PROT_WRITE else 0)).
(* The message a step would handle is not of that kind. *)
Definition accounted (s : server) (st : step) : Prop :=
  match st with
  | SRun en =>
      match en_rx en with
      | RxMsg h fds (inr body) => map_accounted (regions_of s) (or_os (en_or en)) (mk_msg h (firstn (N.to_nat (hd_size h - 16)) body) fds)
      | _ => True
      end
  | SQuiesced _ en =>
      match sv_pending s with PMsg m => map_accounted (regions_of s) (or_os (en_or en)) m | _ => True end
  | _ => True
  end.
(* A history of such steps, with the descriptors received. *)
Inductive fd_history : server -> list step -> server -> list Z -> list event -> Prop :=
| fh_nil : forall s, fd_history s [] s [] []
| fh_cons : forall s st o s1 ev1 l s2 fds ev2,
    sv_step s st = (o, s1, ev1) -> (forall c, o <> Crash c) -> accounted s st -> fd_history s1 l s2 fds ev2 ->
    fd_history s (st :: l) s2 (received s st ++ fds) (ev1 ++ ev2).
(* The kernel hands out descriptors that are not in use. *)
Definition new_fds (s : server) (st : step) : Prop :=
  NoDup (received s st) /\ forall fd, In fd (received s st) -> (0 <= fd)%Z /\ held s fd = 0%nat.
Fixpoint kernel_ok (s : server) (l : list step) : Prop :=
  match l with [] => True | st :: l' => new_fds s st /\ kernel_ok (snd (fst (sv_step s st))) l' end.
