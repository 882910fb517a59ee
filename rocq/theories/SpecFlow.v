(* What a device and its clients see of a migration, over the whole life of the device. *)
From Coq Require Import NArith ZArith List Bool.
From Verif Require Import Base Types Bytes Dma Migr SpecMigr Irq Pci Handlers Server SpecServer SpecSafe.
Import ListNotations.
Open Scope N_scope.

(* What the device answers during a step: to the k-th transition callback, to a reset a client asked for and to the one
   because of a lost connection (None: accepted); and to the callback for migration data. *)
Definition trans_answer (st : step) : nat -> cb_answer :=
  match st with SRun en | SQuiesced _ en => or_trans (en_or en) | _ => fun _ => None end.
Definition reset_answer (st : step) : cb_answer :=
  match st with SRun en | SQuiesced _ en => or_reset (en_or en) 0%nat | _ => None end.
Definition lost_answer (st : step) : cb_answer :=
  match st with SRun en | SQuiesced _ en => en_lost en | _ => None end.
Definition data_answered (st : step) : option data_answer :=
  match st with SRun en | SQuiesced _ en => Some (or_data (en_or en)) | _ => None end.

(* In one of the two states in which the device does not run. *)
Definition halted (m : vfu_migr_state) : Prop := m = VFU_STOP \/ m = VFU_STOP_AND_COPY.

(* The device keeps track of its state on its own, knowing only its callbacks and how it answers them.  In state m it sees
   a list of events and is then in state m'; k counts the transitions of this step.  A transition it accepts takes it to
   the new state; a reset it accepts takes it to RUNNING, except that a PCI function level reset leaves its state.  The
   relation demands that the device is only ever asked for what its state allows: transitions along the edges of the state
   graph, reading migration data while PRE_COPY or STOP_COPY, writing it while RESUMING, and neither reset by the client
   nor given new DMA memory while it does not run. *)
Inductive device_view (st : step) : nat -> vfu_migr_state -> list event -> vfu_migr_state -> Prop :=
| dv_nil : forall k m, device_view st k m [] m
| dv_accepts : forall k m m1 l m', edge m m1 -> trans_answer st k = None -> device_view st (S k) m1 l m' ->
    device_view st k m (EvTransition m1 :: l) m'
| dv_refuses : forall k m m1 e l m', edge m m1 -> trans_answer st k = Some e -> device_view st (S k) m l m' ->
    device_view st k m (EvTransition m1 :: l) m'
| dv_reset : forall k m l m', ~ halted m -> device_view st k (match reset_answer st with None => VFU_RUNNING | Some _ => m end) l m' ->
    device_view st k m (EvReset ResetDevice :: l) m'
| dv_flr : forall k m l m', device_view st k m l m' -> device_view st k m (EvReset ResetPciFlr :: l) m'
| dv_lost : forall k m l m', device_view st k (match lost_answer st with None => VFU_RUNNING | Some _ => m end) l m' ->
    device_view st k m (EvReset ResetLostConn :: l) m'
| dv_read : forall k m n l m', m = VFU_PRE_COPY \/ m = VFU_STOP_AND_COPY -> device_view st k m l m' ->
    device_view st k m (EvReadData n :: l) m'
| dv_write : forall k m data l m', m = VFU_RESUME -> device_view st k m l m' -> device_view st k m (EvWriteData data :: l) m'
| dv_register : forall k m i l m', ~ halted m -> device_view st k m l m' -> device_view st k m (EvRegister i :: l) m'
| dv_other : forall k m e l m',
    match e with EvTransition _ | EvReset _ | EvReadData _ | EvWriteData _ | EvRegister _ => False | _ => True end ->
    device_view st k m l m' -> device_view st k m (e :: l) m'.

(* A history as the device sees it. *)
Inductive device_life : server -> vfu_migr_state -> list step -> server -> vfu_migr_state -> Prop :=
| dl_nil : forall s m, device_life s m [] s m
| dl_cons : forall s m st o s1 ev m1 l s2 m2, sv_step s st = (o, s1, ev) -> device_view st 0 m ev m1 ->
    device_life s1 m1 l s2 m2 -> device_life s m (st :: l) s2 m2.

(* ---- data *)

(* A history with, for every step, the state before it and what was observable.  The socket delivers bytes, and an error of
   the socket is not 0. *)
Inductive trace : server -> list (server * step * list event) -> server -> Prop :=
| tr_nil : forall s, trace s [] s
| tr_cons : forall s st o s1 ev l s2, sv_step s st = (o, s1, ev) -> (forall c, o <> Crash c) ->
    (forall en, st = SRun en -> delivered en /\ forall h fds e, en_rx en = RxMsg h fds (inl e) -> e <> 0) ->
    trace s1 l s2 -> trace s ((s, st, ev) :: l) s2.

(* The data in the payload of a migration data message: the field at 4 tells how much there is, from 8 on. *)
Definition chunk (payload : list N) : list N := firstn (N.to_nat (word payload 4 4)) (skipn 8 payload).

(* What the device hands out in a step: the bytes it says it has put into the buffer. *)
Definition handed_out (x : server * step * list event) : list N :=
  let '(_, st, ev) := x in
  flat_map (fun e => match e with
                     | EvReadData _ => match data_answered st with Some (DataOk n buf) => firstn (N.to_nat n) buf | _ => [] end
                     | _ => []
                     end) ev.
(* It says no more than fits and than it has written. *)
Definition honest (x : server * step * list event) : Prop :=
  let '(_, st, ev) := x in
  forall size n buf, In (EvReadData size) ev -> data_answered st = Some (DataOk n buf) -> n <= size /\ n <= N.of_nat (length buf).

(* What clients find in the replies to reads of migration data (command 17) that report success. *)
Definition obtained (x : server * step * list event) : list N :=
  let '(_, _, ev) := x in
  flat_map (fun e => match e with
                     | EvReply r => if (rp_cmd r =? 17) && (rp_error r =? 0) then chunk (rp_body r) else []
                     | _ => []
                     end) ev.
(* A step that has the device read data gets its reply to the client. *)
Definition replied (x : server * step * list event) : Prop :=
  let '(_, _, ev) := x in forall size, In (EvReadData size) ev -> exists r, In (EvReply r) ev.

(* The message with migration data (command 18) that arrives in a step. *)
Definition arriving (x : server * step * list event) : option (list N) :=
  let '(s, st, _) := x in
  match st with
  | SRun en =>
      match sv_realized s, sv_pending s, sv_conn s, en_rx en with
      | true, PNone, true, RxMsg h _ (inr l) =>
          if hd_cmd h =? 18 then Some (firstn (N.to_nat (hd_size h - 16)) l) else None
      | true, PNone, true, RxMsg h _ (inl _) => if hd_cmd h =? 18 then Some [] else None
      | _, _, _, _ => None
      end
  | _ => None
  end.
Definition supplied (x : server * step * list event) : list N := match arriving x with Some p => chunk p | None => [] end.
(* It is answered with success. *)
Definition acknowledged (x : server * step * list event) : Prop :=
  let '(_, _, ev) := x in arriving x <> None -> exists r, In (EvReply r) ev /\ rp_error r = 0.

(* What the device is given. *)
Definition given (x : server * step * list event) : list N :=
  let '(_, _, ev) := x in flat_map (fun e => match e with EvWriteData d => d | _ => [] end) ev.

(* All of a history. *)
Definition all (f : server * step * list event -> list N) (l : list (server * step * list event)) : list N := flat_map f l.
