(* The memory of the dirty page log: which calls of calloc, free and which accesses the operations of a DMA controller make.
   Buffers are numbered in the order they are allocated.  h_ptr is the member dirty_bitmap of the regions in the table
   (lib/dma.h:99), None for NULL.  The functions follow those of Dma.v and Dirty.v, with the same conditions; free(NULL) is
   nothing. *)
From Coq Require Import NArith ZArith List Bool.
From Verif Require Import Base Types Dma Dirty DmaOps.
Import ListNotations.
Open Scope N_scope.

Inductive hev : Type := HAlloc (b : nat) | HFree (b : nat) | HUse (b : nat).
Record heap : Type := mk_heap { h_ptr : list (option nat); h_next : nat }.

(* free(p). *)
Definition free_ev (p : option nat) : list hev := match p with Some b => [HFree b] | None => [] end.
Definition use_ev (p : option (option nat)) : list hev := match p with Some (Some b) => [HUse b] | _ => [] end.

(* lib/dma.c:275-397 dma_controller_add_region: calloc at 268 (called from 371), free at 390. *)
Definition heap_add (os : dma_os) (d : dma) (addr size : N) (fd : Z) (off prot : N) (h : heap) : heap * list hev :=
  if dm_max_size d <? size then (h, [])
  else
    match add_scan os (dm_regions d) 0 addr size fd off prot with
    | Some _ => (h, [])
    | None =>
        if Nat.eqb (length (dm_regions d)) (dm_max_regions d) then (h, [])
        else if (fd =? -1)%Z then (mk_heap (h_ptr h ++ [None]) (h_next h), [])
        else
          match os_blksize os with
          | None => (h, [])
          | Some _ =>
              if dm_pgsize d =? 0 then
                match os_mmap os with
                | inl _ => (mk_heap (h_ptr h ++ [None]) (h_next h), [])
                | inr _ => (h, free_ev None)
                end
              else
                match get_bitmap_size size (dm_pgsize d), os_calloc os with
                | Ok _, true =>
                    let b := h_next h in
                    match os_mmap os with
                    | inl _ => (mk_heap (h_ptr h ++ [Some b]) (S b), [HAlloc b])
                    | inr _ => (mk_heap (h_ptr h) (S b), HAlloc b :: free_ev (Some b))
                    end
                | _, _ => (h, [])
                end
          end
    end.

(* lib/dma.c:127-144 array_remove: the slots behind the one removed move up; the pointer in it is forgotten. *)
Fixpoint heap_remove (rs : list region) (ptr : list (option nat)) (addr size : N) : list (option nat) :=
  match rs, ptr with
  | r :: rs', p :: ptr' =>
      if same_range r addr size then match release_region false r with Ok _ => ptr' | _ => ptr end
      else p :: heap_remove rs' ptr' addr size
  | _, _ => ptr
  end.

(* lib/dma.c:213: all slots are overwritten with zeros. *)
Definition heap_remove_all (rs : list region) (ptr : list (option nat)) : list (option nat) :=
  match release_all false rs with Ok _ => [] | _ => ptr end.

(* lib/dma.c:470-488: allocate for one region after the other; at the first that fails, free those before it.  Returns the new
   pointers, the next number, the allocations and, if one failed, what is freed. *)
Fixpoint heap_start (calloc : nat -> bool) (idx : nat) (rs : list region) (ptr : list (option nat)) (n : nat) (pgsize : N)
  : list (option nat) * nat * list hev * option (list hev) :=
  match rs, ptr with
  | r :: rs', p :: ptr' =>
      if (rg_fd r =? -1)%Z then
        let '(q, n', ev, freed) := heap_start calloc (S idx) rs' ptr' n pgsize in
        match freed with
        | None => (p :: q, n', ev, None)
        | Some fr => (None :: q, n', ev, Some (free_ev p ++ fr))
        end
      else
        match get_bitmap_size (rg_len r) pgsize, calloc idx with
        | Ok _, true =>
            let '(q, n', ev, freed) := heap_start calloc (S idx) rs' ptr' (S n) pgsize in
            match freed with
            | None => (Some n :: q, n', HAlloc n :: ev, None)
            | Some fr => (None :: q, n', HAlloc n :: ev, Some (free_ev (Some n) ++ fr))
            end
        | _, _ => (ptr, n, [], Some [])
        end
  | _, _ => (ptr, n, [], None)
  end.
Definition heap_logging_start (calloc : nat -> bool) (d : dma) (pgsize : N) (h : heap) : heap * list hev :=
  if pgsize =? 0 then (h, [])
  else if 0 <? dm_pgsize d then (h, [])
  else
    let '(q, n, ev, freed) := heap_start calloc 0 (dm_regions d) (h_ptr h) (h_next h) pgsize in
    (mk_heap q n, ev ++ match freed with Some fr => fr | None => [] end).

(* lib/dma.c:496-514 dma_controller_dirty_page_logging_stop. *)
Definition heap_logging_stop (d : dma) (h : heap) : heap * list hev :=
  if dm_pgsize d =? 0 then (h, []) else (mk_heap (map (fun _ => None) (h_ptr h)) (h_next h), flat_map free_ev (h_ptr h)).

(* lib/dma.h:309-342 dma_sgl_mark_dirty: the log of each region named by a writeable entry is accessed (lib/dma.h:201). *)
Fixpoint heap_mark (d : dma) (ptr : list (option nat)) (l : list sg) : list hev :=
  match l with
  | [] => []
  | s :: rest =>
      match nth_error (dm_regions d) (sg_region s) with
      | None => []
      | Some r =>
          if sg_writeable s && (0 <? dm_pgsize d) then use_ev (nth_error ptr (sg_region s)) ++ heap_mark d ptr rest
          else heap_mark d ptr rest
      end
  end.

(* lib/dma.c:664-779 dma_controller_dirty_page_get: the log of the region is read and cleared once all checks have passed. *)
Definition heap_report (d : dma) (ptr : list (option nat)) (hint : nat) (addr len client_pgsize size : N) : list hev :=
  match fst (addr_to_sgl d hint addr len 1 0) with
  | SglOk (s :: _) =>
      if negb (sg_base s =? addr) || negb (sg_len s =? len) then []
      else if dm_pgsize d =? 0 then []
      else if (client_pgsize =? 0) || negb (pow2_or_zero client_pgsize) then []
      else
        match get_bitmap_size len (dm_pgsize d), get_bitmap_size len client_pgsize with
        | Ok _, Ok csize =>
            if negb (size =? csize) then []
            else match nth_error (dm_regions d) (sg_region s) with
                 | Some r => if (rg_fd r =? -1)%Z then [] else use_ev (nth_error ptr (sg_region s))
                 | None => []
                 end
        | _, _ => []
        end
  | _ => []
  end.

(* What one operation on a controller does with memory. *)
Definition heap_step (d : dma) (h : heap) (o : dma_op) : heap * list hev :=
  match o with
  | OpMap os addr size fd off prot => heap_add os d addr size fd off prot h
  | OpUnmap addr size => (mk_heap (heap_remove (dm_regions d) (h_ptr h) addr size) (h_next h), [])
  | OpUnmapAll => (mk_heap (heap_remove_all (dm_regions d) (h_ptr h)) (h_next h), [])
  | OpLogStart calloc pgsize => heap_logging_start calloc d pgsize h
  | OpLogStop => heap_logging_stop d h
  | OpMark l => (h, heap_mark d (h_ptr h) l)
  | OpReport hint addr len pgsize size buf => (h, heap_report d (h_ptr h) hint addr len pgsize size)
  end.

(* A history of a controller, from its creation (no region, nothing allocated). *)
Fixpoint heap_run (cb : bool) (d : dma) (h : heap) (ops : list dma_op) : dma * heap * list hev :=
  match ops with
  | [] => (d, h, [])
  | o :: rest =>
      let '(h1, ev) := heap_step d h o in
      let d1 := snd (fst (dma_step cb d o)) in
      let '(d2, h2, ev2) := heap_run cb d1 h1 rest in (d2, h2, ev ++ ev2)
  end.
Definition heap_create : heap := mk_heap [] 0.
