(* Concurrency model of dirty marking against dirty reporting, for the log of one region.
   The device's threads call vfu_sgl_mark_dirty/vfu_sgl_put (lib/dma.h:309-377) while the thread that runs
   vfu_run_ctx serves dirty reports (lib/dma.c:534-562, 591, 649).  Every access to the shared log is one step; steps of
   different threads interleave in any order.  Simplification: sequentially consistent memory.  The operations in
   the code are __ATOMIC_SEQ_CST except the plain byte load at lib/dma.c:547. *)
From Verif Require Import Base Types Dirty.
From Coq Require Import NArith List Bool.
Import ListNotations.
Open Scope N_scope.

(* A marking thread: page ranges [start, end) marked completely, the range being marked with the atomic operations
   still to do (lib/dma.h:182-202), and the ranges it will mark later. *)
Record marker : Type := mk_marker {
  mk_done : list (N * N);
  mk_current : option (N * N * list (N * N));
  mk_todo : list (N * N)
}.

(* The reporting thread: bytes it has still to fetch, in order (lib/dma.c:557-561; successive reports one after the
   other), the byte it is about to exchange because it loaded a non-zero value (lib/dma.c:547-551), and the values
   fetched, latest first. *)
Record reporter : Type := mk_reporter {
  rp_todo : list N;
  rp_loaded : option N;
  rp_fetched : list (N * N)
}.

Record cstate : Type := mk_cstate {
  cs_log : list N;
  cs_markers : list marker;
  cs_reporter : reporter
}.

Inductive choice : Type :=
| StepMarker (t : nat)
| StepReporter.

(* One step of a marker: take up the next range, perform one atomic or (lib/dma.h:201), or finish the range.
   None: nothing left to do; or_byte never fails in bounds. *)
Definition marker_step (log : list N) (m : marker) : option (outcome (list N) * marker) :=
  match mk_current m with
  | None =>
      match mk_todo m with
      | [] => None
      | (s, e) :: rest => Some (Ok log, mk_marker (mk_done m) (Some (s, e, mark_ops s e)) rest)
      end
  | Some (s, e, []) => Some (Ok log, mk_marker ((s, e) :: mk_done m) None (mk_todo m))
  | Some (s, e, (i, b) :: ops) =>
      Some (or_byte log i b, mk_marker (mk_done m) (Some (s, e, ops)) (mk_todo m))
  end.

(* One step of the reporter: dirty_page_exchange, lib/dma.c:534-553.  The load and the exchange are separate steps. *)
Definition reporter_step (log : list N) (r : reporter) : option (outcome (list N) * reporter) :=
  match rp_loaded r with
  | Some i =>
      match nth_error log (N.to_nat i) with
      | Some v => Some (Ok (set_nth (N.to_nat i) 0 log), mk_reporter (rp_todo r) None ((i, v) :: rp_fetched r))
      | None => Some (Crash OutOfBounds, r)
      end
  | None =>
      match rp_todo r with
      | [] => None
      | i :: rest =>
          match nth_error log (N.to_nat i) with
          | Some v =>
              if v =? 0 then Some (Ok log, mk_reporter rest None ((i, 0) :: rp_fetched r))
              else Some (Ok log, mk_reporter rest (Some i) (rp_fetched r))
          | None => Some (Crash OutOfBounds, r)
          end
      end
  end.

(* A choice of a thread that has nothing to do leaves the state as it is. *)
Definition cstep (st : cstate) (c : choice) : outcome cstate :=
  match c with
  | StepMarker t =>
      match nth_error (cs_markers st) t with
      | None => Ok st
      | Some m =>
          match marker_step (cs_log st) m with
          | None => Ok st
          | Some (Ok log, m') => Ok (mk_cstate log (set_nth t m' (cs_markers st)) (cs_reporter st))
          | Some (Err e, _) => Err e
          | Some (Crash k, _) => Crash k
          end
      end
  | StepReporter =>
      match reporter_step (cs_log st) (cs_reporter st) with
      | None => Ok st
      | Some (Ok log, r) => Ok (mk_cstate log (cs_markers st) r)
      | Some (Err e, _) => Err e
      | Some (Crash k, _) => Crash k
      end
  end.

Fixpoint crun (st : cstate) (sched : list choice) : outcome cstate :=
  match sched with
  | [] => Ok st
  | c :: rest =>
      match cstep st c with
      | Ok st' => crun st' rest
      | o => o
      end
  end.

(* Before any thread has run: each marker has a list of page ranges to mark, the reporter a list of bytes to fetch. *)
Definition cstart (log : list N) (ranges : list (list (N * N))) (fetches : list N) : cstate :=
  mk_cstate log (map (mk_marker [] None) ranges) (mk_reporter fetches None []).
