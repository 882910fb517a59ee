(* Which descriptor an interrupt vector is connected to, from what clients asked for. *)
From Coq Require Import NArith ZArith List Bool.
From Verif Require Import Base Types Bytes Dma Migr Irq SpecIrq Pci Handlers Server SpecServer SpecSafe.
Import ListNotations.
Open Scope N_scope.

(* In this step of a server in state s a valid SET_IRQS request (command 8) of the connected client is executed: it
   arrives complete, the device is not stopped for migration (states 1 and 3), and the request is one that is to be
   accepted. *)
Record irq_request (s : server) (st : step) (flags index start count : N) (fds : list Z) : Prop := {
  iq_serving : serving s;
  iq_state : cx_mig (sv_ctx s) <> Some 1 /\ cx_mig (sv_ctx s) <> Some 3;
  iq_msg : exists en h l argsz data, st = SRun en /\ en_rx en = RxMsg h fds (inr l) /\ valid_hdr h /\ hd_cmd h = 8 /\
    (argsz < two32 /\ flags < two32 /\ index < two32 /\ start < two32 /\ count < two32) /\
    firstn (N.to_nat (hd_size h - 16)) l = irq_set_body argsz flags index start count data /\
    hd_size h = 16 + (20 + N.of_nat (length data)) /\
    irq_request_ok (cx_irq_cfg (sv_ctx s)) argsz flags index start count data fds
}.

(* The request assigns descriptor fd to vector v of INTx, MSI or MSI-X (index 0, 1, 2, which share their vectors):
   trigger, with descriptors, of which fd is the one for v. *)
Definition assigns (s : server) (st : step) (v : N) (fd : Z) : Prop :=
  exists flags index start count fds, irq_request s st flags index start count fds /\ index < 3 /\
    is_trigger flags /\ data_eventfd flags /\ start <= v /\ nth_error fds (N.to_nat (v - start)) = Some fd.

(* The request takes vector v away from its descriptor: trigger, with the vectors [0,count) and no descriptors, or
   with no vectors and data "none" for all vectors of the interrupt type. *)
Definition unassigns (s : server) (st : step) (v : N) : Prop :=
  exists flags index count, irq_request s st flags index 0 count [] /\ index < 3 /\ is_trigger flags /\
    ((data_eventfd flags /\ v < count) \/
     (data_none flags /\ count = 0 /\ v < nth (N.to_nat index) (ic_count (cx_irq_cfg (sv_ctx s))) 0)).

(* A request to take away vectors that do not begin with vector 0; see C35_disable_refuted for what it does. *)
Definition odd_disable (s : server) (st : step) : Prop :=
  exists flags index start count, irq_request s st flags index start count [] /\ is_trigger flags /\ data_eventfd flags /\ start <> 0.

(* A history, with what the socket can deliver and without such requests. *)
Inductive irq_history : server -> list step -> server -> Prop :=
| ih_nil : forall s, irq_history s [] s
| ih_cons : forall s st o s1 ev l s2, sv_step s st = (o, s1, ev) -> (forall c, o <> Crash c) ->
    (forall en, st = SRun en -> delivered en) -> ~ odd_disable s st -> irq_history s1 l s2 -> irq_history s (st :: l) s2.

(* Nothing in the history concerns vector v: no request assigns it or takes it away, and the client stays. *)
Inductive leaves_vector (v : N) : server -> list step -> Prop :=
| lv_nil : forall s, leaves_vector v s []
| lv_cons : forall s st o s1 ev l, sv_step s st = (o, s1, ev) -> ~ In EvDetach ev -> ~ unassigns s st v -> (forall fd, ~ assigns s st v fd) ->
    leaves_vector v s1 l -> leaves_vector v s (st :: l).

(* Along the history hist from s0, the last thing that happened to vector v is that a client, still connected, assigned
   fd to it. *)
Definition connected_to (s0 : server) (hist : list step) (v : N) (fd : Z) : Prop :=
  exists l1 st l2 s1 o s2 ev, hist = l1 ++ st :: l2 /\ irq_history s0 l1 s1 /\ sv_step s1 st = (o, s2, ev) /\
    assigns s1 st v fd /\ ~ In EvDetach ev /\ leaves_vector v s2 l2.
