(* Histories of operations on the DMA controller. *)
From Verif Require Import Base Types Dma Dirty.
From Coq Require Import NArith ZArith List Bool.
Import ListNotations.
Open Scope N_scope.

(* One operation that reaches the DMA controller:
   DMA map request, exact unmap, unmap-all (also the effect of a lost connection, libvfio-user.c:1803-1807),
   logging start/stop (device feature requests), vfu_sgl_mark_dirty/vfu_sgl_put, dirty report. *)
Inductive dma_op : Type :=
| OpMap (os : dma_os) (addr size : N) (fd : Z) (off prot : N)
| OpUnmap (addr size : N)
| OpUnmapAll
| OpLogStart (calloc : nat -> bool) (pgsize : N)
| OpLogStop
| OpMark (l : list sg)
| OpReport (hint : nat) (addr len pgsize size : N) (buf : list N).

(* The effect of one operation: new controller and events.  After an operation that crashes there is
   no program left; the state is left as it was, and dma_run goes on, which only adds histories. *)
Definition dma_step (cb : bool) (d : dma) (o : dma_op) : outcome unit * dma * list event :=
  match o with
  | OpMap os addr size fd off prot => dma_map_request cb os d addr size fd off prot
  | OpUnmap addr size =>
      match remove_region cb d addr size with
      | (Ok ev, d') => (Ok tt, d', ev)
      | (Err e, d') => (Err e, d', [])
      | (Crash c, _) => (Crash c, d, [])
      end
  | OpUnmapAll =>
      match remove_all_regions cb d with
      | (Ok ev, d') => (Ok tt, d', ev)
      | (Err e, d') => (Err e, d', [])
      | (Crash c, _) => (Crash c, d, [])
      end
  | OpLogStart calloc pgsize => let '(o, d') := logging_start calloc d pgsize in (o, d', [])
  | OpLogStop => (Ok tt, logging_stop d, [])
  | OpMark l =>
      match sgl_mark_dirty d l with
      | Ok d' => (Ok tt, d', [])
      | Err e => (Err e, d, [])
      | Crash c => (Crash c, d, [])
      end
  | OpReport hint addr len pgsize size buf =>
      match dirty_page_get d hint addr len pgsize size buf with
      | (Ok _, d', _) => (Ok tt, d', [])
      | (Err e, d', _) => (Err e, d', [])
      | (Crash c, _, _) => (Crash c, d, [])
      end
  end.

Fixpoint dma_run (cb : bool) (d : dma) (ops : list dma_op) : dma * list event :=
  match ops with
  | [] => (d, [])
  | o :: rest =>
      let '(_, d', ev) := dma_step cb d o in
      let '(d'', ev') := dma_run cb d' rest in (d'', ev ++ ev')
  end.
