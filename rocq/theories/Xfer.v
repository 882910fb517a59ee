(* DMA by messages to the client.  Models lib/libvfio-user.c:2275-2396 vfu_dma_transfer, vfu_sgl_read and
   vfu_sgl_write over the UNIX socket (lib/tran_sock.c:319-366, 627-650). *)
From Coq Require Import NArith ZArith List Bool.
From Verif Require Import Base Types Bytes Dma Dirty Migr Irq Pci Handlers Server Wire.
Import ListNotations.
Open Scope N_scope.

(* include/vfio-user.h VFIO_USER_DMA_READ, VFIO_USER_DMA_WRITE. *)
Definition CMD_DMA_READ : N := 11.
Definition CMD_DMA_WRITE : N := 12.

(* What happens when message k is sent: the answer to sendmsg, the bytes the client puts on the socket before the
   reply is read, and how many of them have arrived when the header is read. *)
Record xanswer : Type := mk_xanswer { xa_send : send_answer; xa_bytes : list N; xa_avail : nat }.

(* lib/tran_sock.c:319-366, 627-650 tran_sock_send_msg: sends a command and receives the reply into a buffer of
   want bytes.  w is what the client has put on the socket and has not been read. *)
Definition send_msg (id cmd : N) (payload : list N) (want : N) (a : xanswer) (w : list N)
  : outcome (list N) * list N * list N :=
  match send_iovec id false cmd 0 payload (xa_send a) with
  | (Ok _, b) =>
      match recv_msg true (Some id) want (xa_avail a) (w ++ xa_bytes a) with
      | (Ok (_, r), w') => (Ok r, w', b)
      | (Err e, w') => (Err e, w', b)
      | (Crash c, w') => (Crash c, w', b)
      end
  | (Err e, b) => (Err e, w, b)
  | (Crash c, b) => (Crash c, w, b)
  end.

(* The arguments of the loop that do not change: the client's maximum, the direction, the address of the first
   byte (dma_addr + offset), and what the client does. *)
Record xfer : Type := mk_xfer { xf_max : N; xf_write : bool; xf_addr : N; xf_client : nat -> list N -> xanswer }.

(* The variables of the loop.  xs_rbuf is the buffer from calloc, xs_dma the struct on the stack: for a read the
   reply is received into xs_rbuf, for a write into xs_dma, which is not initialised.  xs_id is the static
   variable msg_id; its overflow after 2^31 messages is not modelled. *)
Record xstate : Type := mk_xstate {
  xs_k : nat; xs_id : N; xs_count : N; xs_left : N; xs_rbuf : list N; xs_dma : list N; xs_data : list N; xs_in : list N
}.

(* One round of lib/libvfio-user.c:2318-2366.  Answers the next state or how the loop ends, and the message sent. *)
Inductive xround : Type :=
| XNext (s : xstate)
| XErr (e : N) (w : list N)
| XCrash (c : crash).
Definition xfer_request (x : xfer) (s : xstate) : N * N :=
  (w64 (xf_addr x + xs_count s), N.min (xs_left s) (xf_max x)).
Definition xfer_round (x : xfer) (s : xstate) : xround * list (list N) :=
  let '(addr, cnt) := xfer_request x s in
  let req := le_bytes 8 addr ++ le_bytes 8 cnt in
  let n := N.to_nat cnt in
  let off := N.to_nat (xs_count s) in
  if xf_write x then
    need (slice (xs_data s) off n) (XCrash OutOfBounds, []) (fun chunk =>
    need (put_slice (xs_rbuf s) 0 (req ++ chunk)) (XCrash OutOfBounds, []) (fun rbuf =>
      let '(r, w, b) := send_msg (xs_id s) CMD_DMA_WRITE (req ++ chunk) 16
                          (xf_client x (xs_k s) (send_bytes (xs_id s) false CMD_DMA_WRITE 0 (req ++ chunk))) (xs_in s) in
      match r with
      | Err e => (XErr e w, [b])
      | Crash c => (XCrash c, [b])
      | Ok got =>
          need (put_slice (xs_dma s) 0 got) (XCrash OutOfBounds, [b]) (fun dma =>
            match rd dma 0 8, rd dma 8 8 with
            | Some a', Some c' =>
                if negb (a' =? addr) || negb (c' =? cnt) then (XErr EINVAL w, [b])
                else (XNext (mk_xstate (S (xs_k s)) (xs_id s + 1) (xs_count s + cnt) (xs_left s - cnt) rbuf dma (xs_data s) w), [b])
            | _, _ => (XCrash OutOfBounds, [b])
            end)
      end))
  else
    let '(r, w, b) := send_msg (xs_id s) CMD_DMA_READ req (w64 (cnt + 16))
                        (xf_client x (xs_k s) (send_bytes (xs_id s) false CMD_DMA_READ 0 req)) (xs_in s) in
    match r with
    | Err e => (XErr e w, [b])
    | Crash c => (XCrash c, [b])
    | Ok got =>
        need (put_slice (xs_rbuf s) 0 got) (XCrash OutOfBounds, [b]) (fun rbuf =>
          match rd rbuf 0 8, rd rbuf 8 8 with
          | Some a', Some c' =>
              if negb (a' =? addr) || negb (c' =? cnt) then (XErr EINVAL w, [b])
              else
                need (slice rbuf 16 n) (XCrash OutOfBounds, [b]) (fun chunk =>
                need (put_slice (xs_data s) off chunk) (XCrash OutOfBounds, [b]) (fun data =>
                  (XNext (mk_xstate (S (xs_k s)) (xs_id s + 1) (xs_count s + cnt) (xs_left s - cnt) rbuf (xs_dma s) data w), [b])))
          | _, _ => (XCrash OutOfBounds, [b])
          end)
    end.

(* lib/libvfio-user.c:2318-2366, the loop.  None: more than fuel rounds are needed.  Otherwise how it ends, the
   caller's buffer, the unread input, the messages sent. *)
Fixpoint xfer_loop (fuel : nat) (x : xfer) (s : xstate) : option (outcome unit * xstate) * list (list N) :=
  if xs_left s =? 0 then (Some (Ok tt, s), [])
  else match fuel with
  | O => (None, [])
  | S fuel' =>
      match xfer_round x s with
      | (XNext s', m) => let '(r, m') := xfer_loop fuel' x s' in (r, m ++ m')
      | (XErr e w, m) =>
          (Some (Err e, mk_xstate (xs_k s) (xs_id s) (xs_count s) (xs_left s) (xs_rbuf s) (xs_dma s) (xs_data s) w), m)
      | (XCrash c, m) => (Some (Crash c, s), m)
      end
  end.

(* What happens during vfu_sgl_read or vfu_sgl_write: the client, what has arrived on the socket before, calloc, the
   uninitialised struct, and the callbacks when the connection is lost. *)
Record xenv : Type := mk_xenv {
  xe_client : nat -> list N -> xanswer; xe_in : list N; xe_calloc : bool; xe_junk : list N;
  xe_quiesce : cb_answer; xe_lost : cb_answer
}.

(* lib/libvfio-user.c:2275-2370 vfu_dma_transfer; id is the static msg_id, data the caller's buffer. *)
Definition dma_transfer (fuel : nat) (s : server) (max : N) (write : bool) (g : sg) (id : N) (data : list N) (e : xenv)
  : option (outcome unit * list N * server) * list (list N) * list event :=
  if write && negb (sg_writeable g) then (Some (Err EPERM, data, s), [], [])
  else
    let rlen := w64 (16 + N.min (sg_len g) max) in
    if negb (xe_calloc e) then (Some (Err ENOMEM, data, s), [], [])
    else
      let x := mk_xfer max write (w64 (sg_base g + sg_off g)) (xe_client e) in
      match xfer_loop fuel x (mk_xstate 0 id 0 (sg_len g) (zeros (N.to_nat rlen)) (xe_junk e) data (xe_in e)) with
      | (None, m) => (None, m, [])
      | (Some (Ok _, xs), m) => (Some (Ok tt, xs_data xs, s), m, [])
      | (Some (Crash c, xs), m) => (Some (Crash c, xs_data xs, s), m, [])
      | (Some (Err er, xs), m) =>
          if (er =? ENOMSG) || (er =? ECONNRESET) then
            let '(r, s', ev) := reset_ctx s (xe_quiesce e) (xe_lost e) in
            (Some (match r with Crash c => Crash c | _ => Err ENOTCONN end, xs_data xs, s'), m, ev)
          else (Some (Err er, xs_data xs, s), m, [])
      end.

(* lib/libvfio-user.c:2372-2396 vfu_sgl_read (write = false) and vfu_sgl_write. *)
Definition sgl_transfer (fuel : nat) (s : server) (max : N) (write : bool) (l : list sg) (id : N) (data : list N) (e : xenv)
  : option (outcome unit * list N * server) * list (list N) * list event :=
  match sv_pending s with
  | PNone =>
      match l with
      | [g] => dma_transfer fuel s max write g id data e
      | _ => (Some (Err ENOTSUP, data, s), [], [])
      end
  | _ => (Some (Crash AssertFailed, data, s), [], [])
  end.
