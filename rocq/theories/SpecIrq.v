(* What the interrupt properties mean. *)
From Verif Require Import Base Types Bytes Irq.
From Coq Require Import NArith ZArith List Bool.
Import ListNotations.
Open Scope N_scope.

(* The payload of a SET_IRQS request: five 32-bit fields and the flag bytes. *)
Definition irq_set_body (argsz flags index start count : N) (data : list N) : list N :=
  le_bytes 4 argsz ++ le_bytes 4 flags ++ le_bytes 4 index ++ le_bytes 4 start ++ le_bytes 4 count ++ data.

(* The actions and data types a flags word selects. *)
Definition action_bits (flags : N) : list N := filter (fun b => N.testbit flags b) [3; 4; 5].
Definition data_bits (flags : N) : list N := filter (fun b => N.testbit flags b) [0; 1; 2].

Definition is_mask flags := action_bits flags = [3].
Definition is_unmask flags := action_bits flags = [4].
Definition is_trigger flags := action_bits flags = [5].
Definition data_none flags := data_bits flags = [0].
Definition data_bool flags := data_bits flags = [1].
Definition data_eventfd flags := data_bits flags = [2].

(* A request that may be executed: one action, one data type, vectors inside the configured ones, and
   flag bytes / descriptors that match the number of vectors. *)
Record irq_request_ok (c : irq_cfg) (argsz flags index start count : N) (data : list N) (fds : list Z) : Prop := {
  ro_argsz : 20 <= argsz;
  ro_index : index < 5;
  ro_action : is_mask flags \/ is_unmask flags \/ is_trigger flags;
  ro_data : data_none flags \/ data_bool flags \/ data_eventfd flags;
  ro_start : start < nth (N.to_nat index) (ic_count c) 0;
  ro_end : start + count <= nth (N.to_nat index) (ic_count c) 0;
  ro_single : index = 3 \/ index = 4 -> is_trigger flags /\ count <= 1;
  ro_zero : count = 0 -> start = 0 /\ is_trigger flags /\ data_none flags;
  ro_bools : data_bool flags -> N.of_nat (length data) = count;
  ro_fds : fds <> [] -> data_eventfd flags /\ N.of_nat (length fds) = count
}.

(* The interrupt table fits the configuration: every INTx/MSI/MSI-X vector has a slot, and there is one
   error and one request interrupt.  This is what vfu_realize_ctx sets up when the device leaves the
   default count of error and request interrupts. *)
Definition irq_table_ok (c : irq_cfg) (t : irqs) : Prop :=
  length (ic_count c) = 5%nat /\ Forall (fun n => n < two32 - 1) (ic_count c) /\
  (forall i, i < 3 -> nth (N.to_nat i) (ic_count c) 0 <= N.of_nat (length (iq_efds t))) /\
  nth 3 (ic_count c) 0 = 1 /\ nth 4 (ic_count c) 0 = 1.

(* The descriptor bound to vector v of an interrupt type; -1 when none.  INTx, MSI and MSI-X share their
   vectors, the error and request interrupts have one each. *)
Definition binding (t : irqs) (index v : N) : Z :=
  if index =? 3 then iq_err t
  else if index =? 4 then iq_req t
  else nth (N.to_nat v) (iq_efds t) (-1)%Z.

(* Two interrupt types use the same vectors. *)
Definition same_vectors (i j : N) : Prop := i = j \/ (i < 3 /\ j < 3).

(* Result of writing to a list of eventfds one after the other: the first failure stops; answers k is
   the result of the k-th write. *)
Inductive writes (answers : nat -> option N) : nat -> list Z -> outcome unit -> list event -> Prop :=
| w_done : forall k, writes answers k [] (Ok tt) []
| w_fail : forall k fd l e, answers k = Some e -> writes answers k (fd :: l) (Err e) [EvSignal fd]
| w_ok : forall k fd l o ev, answers k = None -> writes answers (S k) l o ev -> writes answers k (fd :: l) o (EvSignal fd :: ev).
