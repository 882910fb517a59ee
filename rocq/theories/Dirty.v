(* Model of dirty page logging: lib/dma.c:452-779, lib/dma.h:144-203 and 309-377. *)
From Verif Require Import Base Types Dma.
From Coq Require Import NArith ZArith List Bool.
Import ListNotations.
Open Scope N_scope.

Definition set_bitmap (r : region) (b : option (list N)) : region :=
  mk_region (rg_info r) (rg_fd r) (rg_off r) b.

Definition set_pgsize (d : dma) (p : N) : dma :=
  mk_dma (dm_max_regions d) (dm_max_size d) p (dm_regions d).

(* lib/dma.c:470-488 the loop of dma_controller_dirty_page_logging_start.  [calloc i] says whether
   the allocation for region i succeeds.  On failure the bitmaps of the regions before it are freed. *)
Fixpoint start_scan (calloc : nat -> bool) (idx : nat) (rs : list region) (pgsize : N)
  : outcome unit * list region :=
  match rs with
  | [] => (Ok tt, [])
  | r :: rest =>
      if (rg_fd r =? -1)%Z then
        match start_scan calloc (S idx) rest pgsize with
        | (Ok tt, rest') => (Ok tt, r :: rest')
        | (o, rest') => (o, set_bitmap r None :: rest')
        end
      else
        match start_on_region (calloc idx) r pgsize with
        | Ok r' =>
            match start_scan calloc (S idx) rest pgsize with
            | (Ok tt, rest') => (Ok tt, r' :: rest')
            | (o, rest') => (o, set_bitmap r None :: rest')
            end
        | Err e => (Err e, r :: rest)
        | Crash c => (Crash c, r :: rest)
        end
  end.

(* lib/dma.c:452-494 dma_controller_dirty_page_logging_start. *)
Definition logging_start (calloc : nat -> bool) (d : dma) (pgsize : N) : outcome unit * dma :=
  if pgsize =? 0 then (Err EINVAL, d)
  else if 0 <? dm_pgsize d then
    if negb (dm_pgsize d =? pgsize) then (Err EINVAL, d) else (Ok tt, d)
  else
    match start_scan calloc 0 (dm_regions d) pgsize with
    | (Ok tt, rs) => (Ok tt, set_pgsize (set_regions d rs) pgsize)
    | (o, rs) => (o, set_regions d rs)
    end.

(* lib/dma.c:496-514 dma_controller_dirty_page_logging_stop. *)
Definition logging_stop (d : dma) : dma :=
  if dm_pgsize d =? 0 then d
  else set_pgsize (set_regions d (map (fun r => set_bitmap r None) (dm_regions d))) 0.

(* lib/dma.h:145-151 range_to_pages. *)
Definition pg_start (start pgsize : N) : N := start / pgsize.
Definition pg_end (start len pgsize : N) : N := round_up (w64 (start + len)) pgsize / pgsize.

(* lib/dma.h:188-199 the mask or-ed into byte i. *)
Definition mark_mask (pgstart pgend index last i : N) : N :=
  let bm := 255 in
  let bm := if (i =? index) && negb (pgstart mod 8 =? 0)
            then N.ldiff bm (2 ^ (pgstart mod 8) - 1) else bm in
  if (i =? sub64 last 1) && negb (pgend mod 8 =? 0)
  then N.land bm (2 ^ (pgend mod 8) - 1) else bm.

(* lib/dma.h:182-202 the sequence of atomic-or operations (byte index, mask) of one marking. *)
Definition mark_ops (pgstart pgend : N) : list (N * N) :=
  let index := pgstart / 8 in
  let last := pgend / 8 + (if pgend mod 8 =? 0 then 0 else 1) in
  map (fun k => let i := index + N.of_nat k in (i, mark_mask pgstart pgend index last i))
      (seq 0 (N.to_nat (last - index))).

(* lib/dma.h:201 one __atomic_or_fetch; out of bounds of the calloc'ed bitmap is a crash. *)
Definition or_byte (bm : list N) (i m : N) : outcome (list N) :=
  match nth_error bm (N.to_nat i) with
  | Some b => Ok (set_nth (N.to_nat i) (N.lor b m) bm)
  | None => Crash OutOfBounds
  end.

Fixpoint or_bytes (bm : list N) (ops : list (N * N)) : outcome (list N) :=
  match ops with
  | [] => Ok bm
  | (i, m) :: rest =>
      match or_byte bm i m with
      | Ok bm' => or_bytes bm' rest
      | o => o
      end
  end.

(* lib/dma.h:167-203 _dma_mark_dirty: an assertion requires the bitmap to exist. *)
Definition mark_region (pgsize : N) (r : region) (s : sg) : outcome region :=
  match rg_bitmap r with
  | None => Crash AssertFailed
  | Some bm =>
      match or_bytes bm (mark_ops (pg_start (sg_off s) pgsize)
                                  (pg_end (sg_off s) (sg_len s) pgsize)) with
      | Ok bm' => Ok (set_bitmap r (Some bm'))
      | Err e => Err e
      | Crash c => Crash c
      end
  end.

(* lib/dma.h:309-342 dma_sgl_mark_dirty (cnt > 0 is asserted there; the empty list is a no-op here).
   lib/dma.h:344-377 dma_sgl_put is the same code. *)
Fixpoint sgl_mark_dirty (d : dma) (l : list sg) : outcome dma :=
  match l with
  | [] => Ok d
  | s :: rest =>
      match nth_error (dm_regions d) (sg_region s) with
      | None => Ok d
      | Some r =>
          if sg_writeable s && (0 <? dm_pgsize d) then
            match mark_region (dm_pgsize d) r s with
            | Ok r' => sgl_mark_dirty (set_regions d (set_nth (sg_region s) r' (dm_regions d))) rest
            | Err e => Err e
            | Crash c => Crash c
            end
          else sgl_mark_dirty d rest
      end
  end.

Definition sgl_put := sgl_mark_dirty.

(* lib/dma.c:534-562 dirty_page_exchange over the first [size] bytes: (reported bytes, new log).
   Sequential view: reading a zero byte and exchanging it give the same result. *)
Fixpoint get_same (size : nat) (bm : list N) : outcome (list N * list N) :=
  match size with
  | O => Ok ([], bm)
  | S n =>
      match bm with
      | [] => Crash OutOfBounds
      | b :: rest =>
          match get_same n rest with
          | Ok (out, rest') => Ok (b :: out, 0 :: rest')
          | o => o
          end
      end
  end.

(* lib/dma.c:607-613: or [bit] into the client bitmap at cidx, cidx+1, ... while cidx < end, where cidx is a
   uint8_t.  The loop either stops within 256 iterations or never does (end > 255). *)
Fixpoint repeat_bit (fuel : nat) (bit : N) (cidx last : N) (out : list N) : outcome (N * list N) :=
  if cidx <? last then
    match fuel with
    | O => Crash Diverges
    | S f =>
        match or_byte out (cidx / 8) (bit * 2 ^ (cidx mod 8)) with
        | Ok out' => repeat_bit f bit (w8 (cidx + 1)) last out'
        | Err e => Err e
        | Crash c => Crash c
        end
    end
  else Ok (cidx, out).

(* lib/dma.c:597-614 the bits of one server byte, bit j first. *)
Fixpoint extend_bits (n : nat) (j : N) (byte factor cidx : N) (out : list N) : outcome (N * list N) :=
  match n with
  | O => Ok (cidx, out)
  | S m =>
      match repeat_bit 256 (N.land (N.shiftr byte j) 1) cidx (cidx + factor) out with
      | Ok (cidx', out') => extend_bits m (j + 1) byte factor cidx' out'
      | o => o
      end
  end.

(* lib/dma.c:582-615 dirty_page_get_extend over the server bytes [bm] (the first server_bitmap_size bytes of
   the log): (client bitmap, new log). *)
Fixpoint extend_bytes (n : nat) (bm : list N) (factor csize cidx : N) (out : list N)
  : outcome (list N * list N) :=
  match n with
  | O => Ok (out, bm)
  | S m =>
      if csize <=? cidx / 8 then Ok (out, bm)
      else match bm with
      | [] => Crash OutOfBounds
      | b :: rest =>
          match extend_bits 8 0 b factor cidx out with
          | Ok (cidx', out') =>
              match extend_bytes m rest factor csize cidx' out' with
              | Ok (o2, rest') => Ok (o2, 0 :: rest')
              | o => o
              end
          | Err e => Err e
          | Crash c => Crash c
          end
      end
  end.

(* lib/dma.c:652-674 the bits of one server byte in dirty_page_get_combine; [sbit] is
   server_byte_idx * 8 + server_bit_idx.  None for the index = "return". *)
Fixpoint combine_bits (n : nat) (j : N) (byte sbit factor csize cidx : N) (out : list N)
  : outcome (option N * list N) :=
  match n with
  | O => Ok (Some cidx, out)
  | S m =>
      match or_byte out (cidx / 8) (N.land (N.shiftr byte j) 1 * 2 ^ (cidx mod 8)) with
      | Ok out' =>
          if sbit mod factor =? sub64 factor 1 then
            let cidx' := w8 (cidx + 1) in
            if csize <=? cidx' / 8 then Ok (None, out')
            else combine_bits m (j + 1) byte (sbit + 1) factor csize cidx' out'
          else combine_bits m (j + 1) byte (sbit + 1) factor csize cidx out'
      | Err e => Err e
      | Crash c => Crash c
      end
  end.

(* lib/dma.c:618-676 dirty_page_get_combine. *)
Fixpoint combine_bytes (n : nat) (bm : list N) (sbit factor csize cidx : N) (out : list N)
  : outcome (list N * list N) :=
  match n with
  | O => Ok (out, bm)
  | S m =>
      if csize <=? cidx / 8 then Ok (out, bm)
      else match bm with
      | [] => Crash OutOfBounds
      | b :: rest =>
          match combine_bits 8 0 b sbit factor csize cidx out with
          | Ok (None, out') => Ok (out', 0 :: rest)
          | Ok (Some cidx', out') =>
              match combine_bytes m rest (sbit + 8) factor csize cidx' out' with
              | Ok (o2, rest') => Ok (o2, 0 :: rest')
              | o => o
              end
          | Err e => Err e
          | Crash c => Crash c
          end
      end
  end.

(* lib/dma.c:753-772 choice of the report routine.  [buf] is the client's buffer (client_bitmap_size bytes). *)
Definition report_bitmap (server_pgsize client_pgsize ssize csize : N) (bm buf : list N)
  : outcome (list N * list N) :=
  if client_pgsize =? server_pgsize then
    match get_same (N.to_nat csize) bm with
    | Ok (out, bm') => Ok (out, bm')
    | o => o
    end
  else if client_pgsize <? server_pgsize then
    extend_bytes (N.to_nat ssize) bm (server_pgsize / client_pgsize) csize 0 buf
  else
    combine_bytes (N.to_nat ssize) bm 0 (client_pgsize / server_pgsize) csize 0 buf.

(* lib/dma.c:717 power of two test of the client's page size. *)
Definition pow2_or_zero (x : N) : bool := N.land x (sub64 x 1) =? 0.

(* lib/dma.c:678-779 dma_controller_dirty_page_get: outcome with the filled buffer, new controller, new hint.
   A negative return value of dma_addr_to_sgl other than -1 leaves errno = 0: Err 0.
   Returning 0 because dma_addr_to_sgl returned 0 leaves the buffer untouched. *)
Definition dirty_page_get (d : dma) (hint : nat) (addr len client_pgsize size : N) (buf : list N)
  : outcome (list N) * dma * nat :=
  let '(res, hint') := addr_to_sgl d hint addr len 1 0 in
  match res with
  | SglErr e => (Err e, d, hint')
  | SglCrash c => (Crash c, d, hint')
  | SglShort _ => (Err 0, d, hint')
  | SglOk [] => (Ok buf, d, hint')
  | SglOk (s :: _) =>
      if negb (sg_base s =? addr) || negb (sg_len s =? len) then (Err ENOTSUP, d, hint')
      else if dm_pgsize d =? 0 then (Err EINVAL, d, hint')
      else if (client_pgsize =? 0) || negb (pow2_or_zero client_pgsize) then (Err EINVAL, d, hint')
      else match get_bitmap_size len (dm_pgsize d), get_bitmap_size len client_pgsize with
      | Ok ssize, Ok csize =>
          if negb (size =? csize) then (Err EINVAL, d, hint')
          else match nth_error (dm_regions d) (sg_region s) with
          | None => (Crash OutOfBounds, d, hint')
          | Some r =>
              if (rg_fd r =? -1)%Z then (Err EINVAL, d, hint')
              else match rg_bitmap r with
              | None => (Crash OutOfBounds, d, hint')
              | Some bm =>
                  match report_bitmap (dm_pgsize d) client_pgsize ssize csize bm buf with
                  | Ok (out, bm') =>
                      (Ok out,
                       set_regions d (set_nth (sg_region s) (set_bitmap r (Some bm')) (dm_regions d)),
                       hint')
                  | Err e => (Err e, d, hint')
                  | Crash c => (Crash c, d, hint')
                  end
              end
          end
      | Err e, _ => (Err e, d, hint')
      | _, Err e => (Err e, d, hint')
      | Crash c, _ => (Crash c, d, hint')
      | _, Crash c => (Crash c, d, hint')
      end
  end.
