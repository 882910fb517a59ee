(* The migration state machine and migration data transfer.  Models lib/migration.c.
   States are the numbers sent on the wire (include/vfio-user.h enum vfio_user_device_mig_state). *)
From Verif Require Import Base Types Bytes.
From Coq Require Import NArith ZArith List Bool.
Import ListNotations.
Open Scope N_scope.

(* include/vfio-user.h enum vfio_user_device_mig_state. *)
Definition ST_ERROR : N := 0.
Definition ST_STOP : N := 1.
Definition ST_RUNNING : N := 2.
Definition ST_STOP_COPY : N := 3.
Definition ST_RESUMING : N := 4.
Definition ST_RUNNING_P2P : N := 5.
Definition ST_PRE_COPY : N := 6.
Definition ST_PRE_COPY_P2P : N := 7.
Definition NUM_STATES : N := 8.

(* lib/migration.c:49-62 transitions[]: one bit per allowed TO state. *)
Definition transitions : list N :=
  [ 0;
    N.shiftl 1 ST_RUNNING + N.shiftl 1 ST_STOP_COPY + N.shiftl 1 ST_RESUMING;
    N.shiftl 1 ST_STOP + N.shiftl 1 ST_PRE_COPY;
    N.shiftl 1 ST_STOP;
    N.shiftl 1 ST_STOP;
    0;
    N.shiftl 1 ST_RUNNING + N.shiftl 1 ST_STOP_COPY;
    0 ].

(* lib/migration.c:73-128 next_state[current][target]. *)
Definition next_state : list (list N) :=
  [ [0; 0; 0; 0; 0; 0; 0; 0];
    [ST_ERROR; ST_STOP; ST_RUNNING; ST_STOP_COPY; ST_RESUMING; ST_ERROR; ST_RUNNING; ST_ERROR];
    [ST_ERROR; ST_STOP; ST_RUNNING; ST_STOP; ST_STOP; ST_ERROR; ST_PRE_COPY; ST_ERROR];
    [ST_ERROR; ST_STOP; ST_STOP; ST_STOP_COPY; ST_STOP; ST_ERROR; ST_ERROR; ST_ERROR];
    [ST_ERROR; ST_STOP; ST_STOP; ST_STOP; ST_RESUMING; ST_ERROR; ST_STOP; ST_ERROR];
    [0; 0; 0; 0; 0; 0; 0; 0];
    [ST_ERROR; ST_RUNNING; ST_RUNNING; ST_STOP_COPY; ST_RUNNING; ST_ERROR; ST_PRE_COPY; ST_ERROR];
    [0; 0; 0; 0; 0; 0; 0; 0] ].

(* lib/migration.c:130-136 vfio_migr_state_transition_is_valid. *)
Definition transition_is_valid (from to : N) : bool :=
  (from <? NUM_STATES) && (to <? NUM_STATES) &&
  match nth_error transitions (N.to_nat from) with
  | Some m => N.testbit m to
  | None => false
  end.

(* lib/migration.c:184-201 migr_state_vfio_to_vfu; None is the -1 of the default case. *)
Definition vfio_to_vfu (s : N) : option vfu_migr_state :=
  if s =? ST_STOP then Some VFU_STOP
  else if s =? ST_RUNNING then Some VFU_RUNNING
  else if s =? ST_STOP_COPY then Some VFU_STOP_AND_COPY
  else if s =? ST_RESUMING then Some VFU_RESUME
  else if s =? ST_PRE_COPY then Some VFU_PRE_COPY
  else None.

(* Answer of a device callback that returns an int: None is 0, Some e is -1 with errno e.
   (Callbacks that return other values break their documented contract and are not modelled.) *)
Definition cb_answer : Type := option N.

(* lib/migration.c:206-256 state_trans_notify, migr_trans_to_valid_state, handle_device_state
   (always called with notify = true): validate, notify the device, and only then change state.
   Returns the new state also on failure. *)
Definition handle_device_state (ans : cb_answer) (cur to : N) : outcome unit * N * list event :=
  if negb (transition_is_valid cur to) then (Err EINVAL, cur, [])
  else
    match vfio_to_vfu to with
    | None => (Crash OutOfBounds, cur, []) (* the device would be handed -1 *)
    | Some v =>
        match ans with
        | Some e => (Err e, cur, [EvTransition v])
        | None => (Ok tt, to, [EvTransition v])
        end
    end.

(* lib/migration.c:274-283 the while loop of migration_set_state.  answers k is the result of the k-th
   transition callback of this request.  The table is indexed with the raw target; a column outside the
   8x8 table is an out-of-bounds read.  fuel only makes the function structurally recursive; running out
   of it is reported as a distinct outcome (and proved impossible). *)
Fixpoint set_state_loop (fuel : nat) (answers : nat -> cb_answer) (k : nat) (cur target : N)
  : outcome unit * N * list event :=
  if cur =? target then (Ok tt, cur, [])
  else
    match fuel with
    | O => (Crash Diverges, cur, [])
    | S fuel' =>
        match nth_error next_state (N.to_nat cur) with
        | None => (Crash OutOfBounds, cur, [])
        | Some row =>
            match nth_error row (N.to_nat target) with
            | None => (Crash OutOfBounds, cur, [])
            | Some nxt =>
                if nxt =? ST_ERROR then (Err EINVAL, cur, [])
                else
                  match handle_device_state (answers k) cur nxt with
                  | (Ok _, cur', ev) =>
                      let '(o, c, ev') := set_state_loop fuel' answers (S k) cur' target in (o, c, ev ++ ev')
                  | (o, cur', ev) => (o, cur', ev)
                  end
            end
        end
    end.

(* lib/migration.c:264-286 migration_set_state. *)
Definition migration_set_state (answers : nat -> cb_answer) (cur target : N) : outcome unit * N * list event :=
  if NUM_STATES <? target then (Err EINVAL, cur, [])
  else set_state_loop 8 answers 0 cur target.

(* lib/migration.c:409-419. *)
Definition is_stopped_and_copying (m : option N) : bool :=
  match m with Some s => s =? ST_STOP_COPY | None => false end.
Definition is_stopped (m : option N) : bool :=
  match m with Some s => s =? ST_STOP | None => false end.

(* Result of a request handler: the errno put in the reply (0 for none), the payload and descriptors of
   the reply, or a crash. *)
Inductive hres : Type :=
| HReply (err : N) (body : list N) (fds : list Z)
| HCrash (c : crash).

Definition herr (e : N) : hres := HReply e [] [].

(* Answer of the read_data callback: the number of bytes it claims and the buffer contents it left,
   or -1 with errno. *)
Inductive data_answer : Type :=
| DataOk (n : N) (buf : list N)
| DataErr (e : N).

(* lib/migration.c:288-348 handle_mig_data_read.  in_len is the payload length; argsz and size are the two
   32-bit fields of the payload.  The reply buffer is calloc(in_len + size) and the callback writes at
   most size bytes after the 8-byte header (buf is cut or zero-padded to size). *)
Definition fit (n : nat) (l : list N) : list N := firstn n (l ++ zeros n).

Definition mig_data_read (m : option N) (max : N) (ans : data_answer) (body : list N) : hres * list event :=
  if N.of_nat (length body) <? 8 then (herr EINVAL, [])
  else
    need (rd body 0 4) (HCrash OutOfBounds, []) (fun argsz =>
    need (rd body 4 4) (HCrash OutOfBounds, []) (fun size =>
    match m with
    | None => (herr EINVAL, [])
    | Some st =>
        if negb (st =? ST_PRE_COPY) && negb (st =? ST_STOP_COPY) then (herr EINVAL, [])
        else if max <? size then (herr EINVAL, [])
        else if argsz <? 8 + size then (herr EINVAL, [])
        else
          match ans with
          | DataErr e => (herr e, [EvReadData size])
          | DataOk n buf =>
              (HReply 0 (le_bytes 4 (8 + n) ++ le_bytes 4 n ++ fit (N.to_nat size) buf ++ zeros (length body - 8)) [],
               [EvReadData size])
          end
    end)).

(* lib/migration.c:350-407 handle_mig_data_write.  The callback is handed the size bytes that follow the
   8-byte header. *)
Definition mig_data_write (m : option N) (max : N) (ans : data_answer) (body : list N) : hres * list event :=
  if N.of_nat (length body) <? 8 then (herr EINVAL, [])
  else
    need (rd body 0 4) (HCrash OutOfBounds, []) (fun argsz =>
    need (rd body 4 4) (HCrash OutOfBounds, []) (fun size =>
    match m with
    | None => (herr EINVAL, [])
    | Some st =>
        if negb (st =? ST_RESUMING) then (herr EINVAL, [])
        else if max <? size then (herr EINVAL, [])
        else if argsz <? 8 + size then (herr EINVAL, [])
        else if N.of_nat (length body) <? 8 + size then (herr EINVAL, [])
        else
          need (slice body 8 (N.to_nat size)) (HCrash OutOfBounds, []) (fun data =>
          match ans with
          | DataErr e => (herr e, [EvWriteData data])
          | DataOk n _ => if n =? size then (HReply 0 [] [], [EvWriteData data])
                          else (herr EINVAL, [EvWriteData data])
          end)
    end)).

(* linux/vfio.h device feature flags and feature numbers. *)
Definition FEATURE_MASK : N := 65535.
Definition FEATURE_GET : N := 65536.
Definition FEATURE_SET : N := 131072.
Definition FEATURE_PROBE : N := 262144.
Definition FEATURE_MIGRATION : N := 1.
Definition FEATURE_MIG_DEVICE_STATE : N := 2.
Definition FEATURE_DMA_LOGGING_START : N := 6.
Definition FEATURE_DMA_LOGGING_STOP : N := 7.
Definition FEATURE_DMA_LOGGING_REPORT : N := 8.
Definition MIGRATION_STOP_COPY : N := 1.
Definition MIGRATION_PRE_COPY : N := 4.

(* lib/migration.c:443-449 migration_feature_needs_quiesce. *)
Definition feature_needs_quiesce (flags : N) : bool :=
  negb (N.land flags (N.lor FEATURE_SET FEATURE_MIG_DEVICE_STATE) =? 0) &&
  (N.land flags FEATURE_PROBE =? 0).
