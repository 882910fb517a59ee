(* What the migration properties mean, independent of the transition tables of the code.
   The state graph is the one documented in include/vfio-user.h / linux/vfio.h for devices without
   peer-to-peer support:

     RUNNING <-> STOP,  STOP <-> STOP_COPY,  STOP <-> RESUMING,  RUNNING <-> PRE_COPY,
     PRE_COPY -> STOP_COPY. *)
From Verif Require Import Base Types.
From Coq Require Import NArith List.
Import ListNotations.
Open Scope N_scope.

(* The number each state has on the wire. *)
Definition wire (s : vfu_migr_state) : N :=
  match s with
  | VFU_STOP => 1 | VFU_RUNNING => 2 | VFU_STOP_AND_COPY => 3 | VFU_RESUME => 4 | VFU_PRE_COPY => 6
  end.

Inductive edge : vfu_migr_state -> vfu_migr_state -> Prop :=
| e_run_stop : edge VFU_RUNNING VFU_STOP
| e_stop_run : edge VFU_STOP VFU_RUNNING
| e_stop_copy : edge VFU_STOP VFU_STOP_AND_COPY
| e_copy_stop : edge VFU_STOP_AND_COPY VFU_STOP
| e_stop_resume : edge VFU_STOP VFU_RESUME
| e_resume_stop : edge VFU_RESUME VFU_STOP
| e_run_pre : edge VFU_RUNNING VFU_PRE_COPY
| e_pre_run : edge VFU_PRE_COPY VFU_RUNNING
| e_pre_copy : edge VFU_PRE_COPY VFU_STOP_AND_COPY.

(* A sequence of states visited one legal step at a time. *)
Inductive path : vfu_migr_state -> list vfu_migr_state -> vfu_migr_state -> Prop :=
| path_nil : forall s, path s [] s
| path_cons : forall s m p t, edge s m -> path m p t -> path s (m :: p) t.

Definition shortest (s : vfu_migr_state) (p : list vfu_migr_state) (t : vfu_migr_state) : Prop :=
  path s p t /\ forall p', path s p' t -> (length p <= length p')%nat.

(* What happens to a device that is notified of the states in p one after the other, where answers k is
   its answer to the k-th notification (None: accepted, Some e: refused with errno e):
   the state it ends in, the notifications it saw, and the errno of the first refusal. *)
Inductive notified (answers : nat -> option N) : nat -> vfu_migr_state -> list vfu_migr_state ->
  vfu_migr_state -> list vfu_migr_state -> option N -> Prop :=
| n_done : forall k s, notified answers k s [] s [] None
| n_refused : forall k s m p e, answers k = Some e -> notified answers k s (m :: p) s [m] (Some e)
| n_accepted : forall k s m p s' seen r, answers k = None -> notified answers (S k) m p s' seen r ->
    notified answers k s (m :: p) s' (m :: seen) r.

(* The device's own view of its state: it starts in s and sees a list of events; answers k is its answer
   to the k-th notification.  The relation only holds if every notification was along a legal edge. *)
Inductive device_sees (answers : nat -> option N) : nat -> vfu_migr_state -> list event -> vfu_migr_state -> Prop :=
| ds_nil : forall k s, device_sees answers k s [] s
| ds_refuse : forall k s m evs e s', edge s m -> answers k = Some e -> device_sees answers (S k) s evs s' ->
    device_sees answers k s (EvTransition m :: evs) s'
| ds_accept : forall k s m evs s', edge s m -> answers k = None -> device_sees answers (S k) m evs s' ->
    device_sees answers k s (EvTransition m :: evs) s'.
