(* Interrupt configuration and triggering.  Models lib/irq.c. *)
From Verif Require Import Base Types Bytes Dma Migr.
From Coq Require Import NArith ZArith List Bool.
Import ListNotations.
Open Scope N_scope.

(* linux/vfio.h VFIO_IRQ_SET_*. *)
Definition IRQ_DATA_NONE : N := 1.
Definition IRQ_DATA_BOOL : N := 2.
Definition IRQ_DATA_EVENTFD : N := 4.
Definition IRQ_ACTION_MASK : N := 8.
Definition IRQ_ACTION_UNMASK : N := 16.
Definition IRQ_ACTION_TRIGGER : N := 32.
Definition IRQ_DATA_TYPE_MASK : N := 7.
Definition IRQ_ACTION_TYPE_MASK : N := 56.

(* include/libvfio-user.h enum vfu_dev_irq_type. *)
Definition IRQ_INTX : N := 0.
Definition IRQ_MSI : N := 1.
Definition IRQ_MSIX : N := 2.
Definition IRQ_ERR : N := 3.
Definition IRQ_REQ : N := 4.
Definition NUM_IRQS : N := 5.

(* lib/private.h:94-99 vfu_irqs_t; max_ivs is the length of iq_efds. *)
Record irqs : Type := mk_irqs { iq_err : Z; iq_req : Z; iq_efds : list Z }.

(* lib/private.h: irq_count[] and which irq_state_cbs[] are set. *)
Record irq_cfg : Type := mk_irq_cfg { ic_count : list N; ic_state_cb : list bool }.

Definition irq_count (c : irq_cfg) (i : N) : N := nth (N.to_nat i) (ic_count c) 0.
Definition irq_has_cb (c : irq_cfg) (i : N) : bool := nth (N.to_nat i) (ic_state_cb c) false.

(* lib/libvfio-user.c:1747-1770 the vector table made by vfu_realize_ctx: as many vectors as the largest
   count, all unbound. *)
Definition irqs_create (c : irq_cfg) : irqs :=
  mk_irqs (-1) (-1) (repeat (-1)%Z (N.to_nat (fold_left N.max (ic_count c) 0))).

(* lib/irq.c:57-91 handle_device_get_irq_info. *)
Definition get_irq_info (c : irq_cfg) (body : list N) : hres :=
  if N.of_nat (length body) <? 16 then herr EINVAL
  else
    need (rd body 0 4) (HCrash OutOfBounds) (fun argsz =>
    need (rd body 8 4) (HCrash OutOfBounds) (fun index =>
    if argsz <? 16 then herr EINVAL
    else if NUM_IRQS <=? index then herr EINVAL
    else HReply 0 (le_bytes 4 16 ++ le_bytes 4 1 ++ le_bytes 4 index ++ le_bytes 4 (irq_count c index)) [])).

(* The efds[i] the code addresses for an index: lib/irq.c:169-180 irqs_get_efd.  The error and request
   interrupts have a single descriptor whatever i is. *)
Definition get_efd (t : irqs) (index i : N) : option Z :=
  if index =? IRQ_ERR then Some (iq_err t)
  else if index =? IRQ_REQ then Some (iq_req t)
  else nth_error (iq_efds t) (N.to_nat i).

Definition set_efd (t : irqs) (index i : N) (fd : Z) : irqs :=
  if index =? IRQ_ERR then mk_irqs fd (iq_req t) (iq_efds t)
  else if index =? IRQ_REQ then mk_irqs (iq_err t) fd (iq_efds t)
  else mk_irqs (iq_err t) (iq_req t) (set_nth (N.to_nat i) fd (iq_efds t)).

(* lib/irq.c:119-126 the closing loop of irqs_disable, iterations i, i+1, .., i+n-1.  For the error and
   request interrupts efds points to a single int, so only efds[0] is inside the object. *)
Fixpoint disable_loop (t : irqs) (index i : N) (n : nat) : outcome unit * irqs * list event :=
  match n with
  | O => (Ok tt, t, [])
  | S n' =>
      if ((index =? IRQ_ERR) || (index =? IRQ_REQ)) && negb (i =? 0) then (Crash OutOfBounds, t, [])
      else
        match get_efd t index i with
        | None => (Crash OutOfBounds, t, [])
        | Some fd =>
            let '(o, t', ev) := disable_loop (set_efd t index i (-1)) index (i + 1) n' in
            (o, t', close_ev fd ++ ev)
        end
  end.

(* lib/irq.c:93-127 irqs_disable.  The loop runs `for (i = start; i < count; i++)`. *)
Definition irqs_disable (c : irq_cfg) (t : irqs) (index start count : N) : outcome unit * irqs * list event :=
  if negb (w32 (start + count) <=? irq_count c index) then (Crash AssertFailed, t, [])
  else
    let count := if count =? 0 then irq_count c index else count in
    disable_loop t index start (N.to_nat (count - start)).

(* lib/irq.c:135-140 closing every vector. *)
Fixpoint close_all (l : list Z) : list event :=
  match l with [] => [] | fd :: l' => close_ev fd ++ close_all l' end.

(* lib/irq.c:129-141 irqs_reset. *)
Definition irqs_reset (c : irq_cfg) (t : irqs) : outcome unit * irqs * list event :=
  match irqs_disable c t IRQ_REQ 0 0 with
  | (Ok _, t1, ev1) =>
      match irqs_disable c t1 IRQ_ERR 0 0 with
      | (Ok _, t2, ev2) =>
          (Ok tt, mk_irqs (iq_err t2) (iq_req t2) (repeat (-1)%Z (length (iq_efds t2))),
           ev1 ++ ev2 ++ close_all (iq_efds t2))
      | (o, t2, ev2) => (o, t2, ev1 ++ ev2)
      end
  | (o, t1, ev1) => (o, t1, ev1)
  end.

(* lib/irq.c:143-167 irqs_set_state. *)
Definition irqs_set_state (c : irq_cfg) (index start count flags : N) : outcome (list event) :=
  if negb (irq_has_cb c index) then Ok []
  else if negb (w32 (start + count) <=? irq_count c index) then Crash AssertFailed
  else
    let action := N.land flags IRQ_ACTION_TYPE_MASK in
    if negb (has action IRQ_ACTION_MASK || has action IRQ_ACTION_UNMASK) then Crash AssertFailed
    else Ok [EvIrqState index start count (has action IRQ_ACTION_MASK)].

(* lib/irq.c:182-232 irqs_set_data_none / irqs_set_data_bool: n iterations from vector i.  sel is the
   remaining flag bytes (None: data none, every vector is selected).  answers k is the result of the k-th
   eventfd_write. *)
Fixpoint signal_loop (t : irqs) (index i : N) (n : nat) (sel : option (list N)) (answers : nat -> cb_answer) (k : nat)
  : outcome unit * list event :=
  match n with
  | O => (Ok tt, [])
  | S n' =>
      match get_efd t index i with
      | None => (Crash OutOfBounds, [])
      | Some fd =>
          let chosen :=
            match sel with
            | None => Some true
            | Some (b :: _) => Some (b =? 1)
            | Some [] => if (fd >=? 0)%Z then None else Some false (* *d8 read only if *efd >= 0 *)
            end in
          match chosen with
          | None => (Crash OutOfBounds, [])
          | Some ch =>
              if (fd >=? 0)%Z && ch then
                match answers k with
                | Some e => (Err e, [EvSignal fd])
                | None =>
                    let '(o, ev) := signal_loop t index (i + 1) n' (option_map (@tl N) sel) answers (S k) in
                    (o, EvSignal fd :: ev)
                end
              else signal_loop t index (i + 1) n' (option_map (@tl N) sel) answers k
          end
      end
  end.

(* lib/irq.c:234-267 irqs_set_data_eventfd: bind n vectors from vector i to the next message fds;
   each consumed fd is replaced by -1 in the message (consume_fd, libvfio-user.c:661-673). *)
Fixpoint bind_loop (t : irqs) (index i : N) (n : nat) (fds : list Z) : outcome unit * irqs * list Z * list event :=
  match n with
  | O => (Ok tt, t, fds, [])
  | S n' =>
      match get_efd t index i with
      | None => (Crash OutOfBounds, t, fds, [])
      | Some old =>
          match fds with
          | [] => (Crash OutOfBounds, t, fds, close_ev old)
          | fd :: fds' =>
              if (fd <? 0)%Z then (Crash AssertFailed, t, fds, close_ev old)
              else
                let '(o, t', rest, ev) := bind_loop (set_efd t index i fd) index (i + 1) n' fds' in
                (o, t', (-1)%Z :: rest, close_ev old ++ ev)
          end
      end
  end.

(* lib/irq.c:269-372 device_set_irqs_validate on the decoded fields. *)
Definition set_irqs_valid (c : irq_cfg) (len argsz flags index start count : N) (nfds : N) : bool :=
  if (len <? 20) || (argsz <? 20) then false
  else
    let a := N.land flags IRQ_ACTION_TYPE_MASK in
    let d := N.land flags IRQ_DATA_TYPE_MASK in
    if (d =? IRQ_DATA_BOOL) && negb (len - 20 =? count) then false
    else if NUM_IRQS <=? index then false
    else if negb (a =? IRQ_ACTION_MASK) && negb (a =? IRQ_ACTION_UNMASK) && negb (a =? IRQ_ACTION_TRIGGER) then false
    else if negb (d =? IRQ_DATA_NONE) && negb (d =? IRQ_DATA_BOOL) && negb (d =? IRQ_DATA_EVENTFD) then false
    else if irq_count c index <=? start then false
    else if irq_count c index <? satadd_u32 start count then false
    else if ((index =? IRQ_ERR) || (index =? IRQ_REQ)) && negb (a =? IRQ_ACTION_TRIGGER) then false
    else if ((index =? IRQ_ERR) || (index =? IRQ_REQ)) && (1 <? count) then false
    else if (count =? 0) && negb (start =? 0) then false
    else if (count =? 0) && (negb (a =? IRQ_ACTION_TRIGGER) || negb (d =? IRQ_DATA_NONE)) then false
    else if negb (nfds =? 0) && negb (d =? IRQ_DATA_EVENTFD) then false
    else if negb (nfds =? 0) && negb (nfds =? count) then false
    else true.

(* lib/irq.c:374-422 handle_device_set_irqs.  fds are the message's descriptors; the second component is what
   is left of them (-1 where consumed). *)
Definition set_irqs (c : irq_cfg) (t : irqs) (answers : nat -> cb_answer) (body : list N) (fds : list Z)
  : hres * irqs * list Z * list event :=
  if N.of_nat (length body) <? 20 then (herr EINVAL, t, fds, [])
  else
    need (rd body 0 4) (HCrash OutOfBounds, t, fds, []) (fun argsz =>
    need (rd body 4 4) (HCrash OutOfBounds, t, fds, []) (fun flags =>
    need (rd body 8 4) (HCrash OutOfBounds, t, fds, []) (fun index =>
    need (rd body 12 4) (HCrash OutOfBounds, t, fds, []) (fun start =>
    need (rd body 16 4) (HCrash OutOfBounds, t, fds, []) (fun count =>
    if negb (set_irqs_valid c (N.of_nat (length body)) argsz flags index start count (N.of_nat (length fds)))
    then (herr EINVAL, t, fds, [])
    else
      let a := N.land flags IRQ_ACTION_TYPE_MASK in
      let d := N.land flags IRQ_DATA_TYPE_MASK in
      if (a =? IRQ_ACTION_MASK) || (a =? IRQ_ACTION_UNMASK) then
        match irqs_set_state c index start count flags with
        | Ok ev => (HReply 0 [] [], t, fds, ev)
        | Err e => (herr e, t, fds, [])
        | Crash cr => (HCrash cr, t, fds, [])
        end
      else if ((d =? IRQ_DATA_NONE) && (count =? 0)) || ((d =? IRQ_DATA_EVENTFD) && (N.of_nat (length fds) =? 0)) then
        match irqs_disable c t index start count with
        | (Ok _, t', ev) => (HReply 0 [] [], t', fds, ev)
        | (Err e, t', ev) => (herr e, t', fds, ev)
        | (Crash cr, t', ev) => (HCrash cr, t', fds, ev)
        end
      else
        (* number of iterations of the uint32_t loops `for (i = start; i < start + count; i++)` *)
        let n := N.to_nat (w32 (start + count) - start) in
        if d =? IRQ_DATA_EVENTFD then
          match bind_loop t index start n fds with
          | (Ok _, t', rest, ev) => (HReply 0 [] [], t', rest, ev)
          | (Err e, t', rest, ev) => (herr e, t', rest, ev)
          | (Crash cr, t', rest, ev) => (HCrash cr, t', rest, ev)
          end
        else
          let sel := if d =? IRQ_DATA_NONE then None else Some (skipn 20 body) in
          match signal_loop t index start n sel answers 0 with
          | (Ok _, ev) => (HReply 0 [] [], t, fds, ev)
          | (Err e, ev) => (herr e, t, fds, ev)
          | (Crash cr, ev) => (HCrash cr, t, fds, ev)
          end))))).

(* lib/irq.c:424-453 vfu_irq_trigger. *)
Definition irq_trigger (t : irqs) (answer : cb_answer) (subindex : N) : outcome unit * list event :=
  match nth_error (iq_efds t) (N.to_nat subindex) with
  | None => (Err EINVAL, [])
  | Some fd =>
      if (fd =? -1)%Z then (Err ENOENT, [])
      else match answer with None => (Ok tt, [EvSignal fd]) | Some e => (Err e, [EvSignal fd]) end
  end.
