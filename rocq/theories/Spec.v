(* Small specifications, independent of the model's helper functions, used in the property statements. *)
From Verif Require Import Base Types.
From Coq Require Import NArith ZArith List Bool.
Import ListNotations.
Open Scope N_scope.

(* Guest address a lies in the range the region was registered with (mathematical integers, no wrap-around). *)
Definition covers (r : region) (a : N) : Prop :=
  di_iova (rg_info r) <= a < di_iova (rg_info r) + di_len (rg_info r).

(* No guest address belongs to two registered regions. *)
Definition regions_disjoint (rs : list region) : Prop :=
  forall i j ri rj a,
    nth_error rs i = Some ri -> nth_error rs j = Some rj ->
    covers ri a -> covers rj a -> i = j.

(* The range [addr, addr+size) ends below 2^64. *)
Definition range_ok (addr size : N) : Prop := addr + size < 2 ^ 64.

(* After the history [evs] the device has been told about i and not since been told that it is gone. *)
Definition device_knows (evs : list event) (i : dma_info) : Prop :=
  exists before after,
    evs = before ++ EvRegister i :: after /\ ~ In (EvUnregister i) after.

(* The entries cover [a, b) exactly once, in order, without gaps, and none is empty. *)
Fixpoint tiles (l : list sg) (a b : N) : Prop :=
  match l with
  | [] => a = b
  | s :: rest =>
      sg_base s + sg_off s = a /\ 0 < sg_len s /\ tiles rest (a + sg_len s) b
  end.

(* The entry names a registered region and lies inside it. *)
Definition sg_inside (rs : list region) (s : sg) : Prop :=
  exists r, nth_error rs (sg_region s) = Some r /\
            sg_base s = di_iova (rg_info r) /\
            sg_off s + sg_len s <= di_len (rg_info r).

(* Every byte of [a, a+len) belongs to some registered region. *)
Definition all_mapped (rs : list region) (a len : N) : Prop :=
  forall x, a <= x < a + len -> exists r, In r rs /\ covers r x.

(* Some byte of [a, a+len) belongs to a registered region that does not permit writes. *)
Definition hits_readonly (rs : list region) (a len : N) : Prop :=
  exists x r, a <= x < a + len /\ In r rs /\ covers r x /\ N.testbit (di_prot (rg_info r)) 1 = false.

(* The region's bytes lie inside the memory mapped for it. *)
Definition inside_mapping (r : region) : Prop :=
  forall v, di_vaddr (rg_info r) = Some v ->
    di_map_base (rg_info r) <= v /\
    v + di_len (rg_info r) <= di_map_base (rg_info r) + di_map_len (rg_info r).

(* Host address h belongs to the memory mapped for the region. *)
Definition mapping_holds (r : region) (h : N) : Prop :=
  di_vaddr (rg_info r) <> None /\
  di_map_base (rg_info r) <= h < di_map_base (rg_info r) + di_map_len (rg_info r).

(* Page p is set in a bitmap, bit 0 of byte 0 being page 0. *)
Definition page_set (bm : list N) (p : N) : Prop :=
  N.testbit (nth (N.to_nat (p / 8)) bm 0) (p mod 8) = true.

(* The library's log says that page p of region number j is dirty. *)
Definition logged (d : dma) (j : nat) (p : N) : Prop :=
  exists r bm, nth_error (dm_regions d) j = Some r /\ rg_bitmap r = Some bm /\ page_set bm p.

(* Some byte of the entry lies in page p of its region. *)
Definition touches (pgsize : N) (s : sg) (p : N) : Prop :=
  exists x, sg_off s <= x < sg_off s + sg_len s /\ x / pgsize = p.

(* n is the least number of bytes, in units of 8 bytes, with one bit per (started) page of len bytes. *)
Definition bitmap_bytes (len pgsize n : N) : Prop :=
  exists pages, (pages - 1) * pgsize < len <= pages * pgsize /\
    n mod 8 = 0 /\ pages <= 8 * n /\ 8 * n < pages + 64.

(* An entry of a region that has a file, as translation returns it. *)
Definition markable (rs : list region) (s : sg) : Prop :=
  sg_len s <> 0 /\ exists r, nth_error rs (sg_region s) = Some r /\ rg_fd r <> (-1)%Z /\
    sg_off s + sg_len s <= di_len (rg_info r).
