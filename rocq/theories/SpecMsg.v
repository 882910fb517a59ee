(* Requests of a client to a server, in terms of the bytes on the socket. *)
From Coq Require Import NArith ZArith List Bool.
From Verif Require Import Base Types Bytes Spec Dma Dirty DmaOps SpecDma Migr Irq Pci Handlers Server SpecServer.
Import ListNotations.
Open Scope N_scope.

(* If a DMA_MAP request arrives in this step, the range it names ends below 2^64. (A DMA_MAP body is
   struct vfio_user_dma_map: argsz at 0, flags at 4, offset at 8, address at 16, size at 24.) *)
Definition maps_ok (st : step) : Prop :=
  match st with
  | SRun en =>
      match en_rx en with
      | RxMsg h _ (inr b) => hd_cmd h = 2 -> forall addr size, rd b 16 8 = Some addr -> rd b 24 8 = Some size -> range_ok addr size
      | _ => True
      end
  | _ => True
  end.

(* A request that is carried out straight away: a client is connected and the server waits for requests; one
   arrives with command cmd, message id id, payload body and descriptors fds, and it asks for a reply; the
   device, if it is asked to quiesce, does so at once; sending the reply succeeds; the device is not stopped for
   migration (states 1 and 3). *)
Record request (s : server) (en : env) (id cmd : N) (body : list N) (fds : list Z) : Prop := {
  rq_serving : serving s;
  rq_header : exists h, en_rx en = RxMsg h fds (inr body) /\ valid_hdr h /\ wants_reply h = true /\
    hd_id h = id /\ hd_cmd h = cmd /\ hd_size h = 16 + N.of_nat (length body);
  rq_quiesce : en_quiesce en = None;
  rq_send : en_send en = None;
  rq_state : cx_mig (sv_ctx s) <> Some 1 /\ cx_mig (sv_ctx s) <> Some 3
}.

(* vfu_run_ctx handles the request: the client gets one reply, to this request, with error number err (0 for
   success), payload out and no descriptors; s' is the server afterwards and ev what happens on the side of the
   device before the reply is sent (besides the quiesce callback). *)
Definition responds (s : server) (en : env) (id cmd err : N) (out : list N) (s' : server) (ev : list event) : Prop :=
  exists q closes, (q = [] \/ q = [EvQuiesce None]) /\ (forall e, In e closes -> exists fd, e = EvClose fd) /\
    (forall r, ~ In (EvReply r) ev) /\
    sv_step s (SRun en) = (Ok 1, s', q ++ ev ++ EvReply (mk_reply id cmd err out []) :: closes).

(* Nothing but the DMA controller changes. *)
Definition with_dma (s : server) (d : dma) (s' : server) : Prop :=
  exists hint, s' = set_ctx s (set_dma (sv_ctx s) d hint).

(* struct vfio_user_dma_map *)
Record map_fields (b : list N) (argsz flags off addr size : N) : Prop := {
  mf_len : (32 <= length b)%nat;
  mf_argsz : rd b 0 4 = Some argsz; mf_flags : rd b 4 4 = Some flags; mf_off : rd b 8 8 = Some off;
  mf_addr : rd b 16 8 = Some addr; mf_size : rd b 24 8 = Some size
}.

(* struct vfio_user_dma_unmap *)
Record unmap_fields (b : list N) (argsz flags addr size : N) : Prop := {
  uf_len : (24 <= length b)%nat;
  uf_argsz : rd b 0 4 = Some argsz; uf_flags : rd b 4 4 = Some flags;
  uf_addr : rd b 8 8 = Some addr; uf_size : rd b 16 8 = Some size
}.
