(* Vocabulary for the properties of the request handlers: request layouts, and what requests may do. *)
From Coq Require Import NArith ZArith List Bool.
From Verif Require Import Base Types Bytes Handlers.
Import ListNotations.
Open Scope N_scope.

(* Payload of a region read or write (include/vfio-user.h struct vfio_user_region_access). *)
Definition access_req (off region count : N) (data : list N) : list N :=
  le_bytes 8 off ++ le_bytes 4 region ++ le_bytes 4 count ++ data.
Definition in_range (off region count : N) : Prop := off < 2 ^ 64 /\ region < 2 ^ 32 /\ count < 2 ^ 32.
Definition cmd_of (write : bool) : N := if write then 10 else 9.

(* The device's regions have 32-bit sizes (lib/private.h:107). *)
Definition regs_wf (c : ctx) : Prop := Forall (fun r => ri_size r < 2 ^ 32) (cx_regs c).

(* An access that stays inside an existing region, at most 1 MiB long, not while the device is in
   stop-and-copy; a write must bring exactly the announced number of bytes. *)
Definition access_ok (c : ctx) (write : bool) (off region count : N) (data : list N) : Prop :=
  (exists r, nth_error (cx_regs c) (N.to_nat region) = Some r /\ off + count <= ri_size r) /\
  count <= 1024 * 1024 /\
  (write = true -> N.of_nat (length data) = count) /\
  cx_mig c <> Some 3.

(* A callback made on behalf of an access: a non-empty part of it, with the client's bytes at their place.
   A write to config space may also reset the device (function level reset). *)
Definition part_of (write : bool) (off region count : N) (data : list N) (e : event) : Prop :=
  match e with
  | EvAccess region' write' off' n d =>
      region' = region /\ write' = write /\ 0 < n /\ off <= off' /\ off' + n <= off + count /\
      d = (if write then firstn (N.to_nat n) (skipn (N.to_nat (off' - off)) data) else [])
  | EvReset ResetPciFlr => write = true /\ region = 7
  | _ => False
  end.

(* Regions whose accesses all go to their callback: every region but config space, and config space if the
   device asked for it (flag 8). *)
Definition to_callback (region : N) (r : reg_info) : Prop := region <> 7 \/ N.testbit (ri_flags r) 3 = true.

(* Payload of a region info request (struct vfio_region_info): argsz, flags, index, cap_offset, size, offset. *)
Definition region_info_req (argsz flags index cap_off size off : N) (rest : list N) : list N :=
  le_bytes 4 argsz ++ le_bytes 4 flags ++ le_bytes 4 index ++ le_bytes 4 cap_off ++ le_bytes 8 size ++ le_bytes 8 off ++ rest.

(* The length of a complete answer: 32 bytes, and for a region with mmapable areas a capability of 16 bytes and
   16 bytes for each. *)
Definition region_info_size (r : reg_info) : N :=
  32 + if (ri_size r =? 0) || (N.of_nat (length (ri_areas r)) =? 0) then 0 else 16 + 16 * N.of_nat (length (ri_areas r)).

(* Flags: readable, writable, mmapable. *)
Definition region_info_flags (r : reg_info) : N :=
  (if N.testbit (ri_flags r) 0 then 1 else 0) + (if N.testbit (ri_flags r) 1 then 2 else 0) + (if (ri_fd r =? -1)%Z then 0 else 4).

(* The sparse mmap capability: id 1, version 1, no next capability, number of areas, reserved, the areas. *)
Definition areas_cap (l : list (N * N)) : list N :=
  le_bytes 2 1 ++ le_bytes 2 1 ++ le_bytes 4 0 ++ le_bytes 4 (N.of_nat (length l)) ++ le_bytes 4 0 ++
  concat (map (fun a => le_bytes 8 (fst a) ++ le_bytes 8 (snd a)) l).

(* Payload of a region io fds request: argsz, flags, index, count. *)
Definition io_fds_req (argsz flags index count : N) (rest : list N) : list N :=
  le_bytes 4 argsz ++ le_bytes 4 flags ++ le_bytes 4 index ++ le_bytes 4 count ++ rest.

(* One sub-region in the reply, given the positions of its descriptors in the list sent along; 2^32 - 1 stands
   for "no descriptor"; type 0 is a plain ioeventfd, 2 one with shadow memory. *)
Definition sub_region (s : ioeventfd) (i j : N) : list N :=
  le_bytes 8 (ie_gpa s) ++ le_bytes 8 (ie_size s) ++ le_bytes 4 i ++ le_bytes 4 (if (ie_shadow_fd s =? -1)%Z then 0 else 2) ++
  le_bytes 4 (ie_flags s) ++ le_bytes 4 j ++ le_bytes 8 (ie_shadow_off s) ++ le_bytes 8 (ie_datamatch s).
Definition names_fd (fds : list Z) (fd : Z) (i : N) : Prop :=
  if (fd =? -1)%Z then i = 2 ^ 32 - 1 else nth_error fds (N.to_nat i) = Some fd /\ i < 2 ^ 32 - 1.
Definition describes (fds : list Z) (s : ioeventfd) (b : list N) : Prop :=
  exists i j, b = sub_region s i j /\ names_fd fds (ie_fd s) i /\
              (if (ie_shadow_fd s =? -1)%Z then j = 0 else names_fd fds (ie_shadow_fd s) j).

(* Descriptors used by a list of ioeventfds. *)
Definition sub_fds (l : list ioeventfd) : list Z :=
  filter (fun fd => negb (fd =? -1)%Z) (flat_map (fun s => [ie_fd s; ie_shadow_fd s]) l).

(* Payload of a device feature request: argsz, flags, data. *)
Definition feature_req (argsz flags : N) (data : list N) : list N := le_bytes 4 argsz ++ le_bytes 4 flags ++ data.

(* Which operations a feature supports: bit 16 get, bit 17 set, bit 18 probe. *)
Definition feature_ops (feature op : N) : Prop :=
  (op = 18 /\ (feature = 1 \/ feature = 2 \/ feature = 6 \/ feature = 7 \/ feature = 8)) \/
  (op = 16 /\ (feature = 1 \/ feature = 2 \/ feature = 8)) \/
  (op = 17 /\ (feature = 2 \/ feature = 6 \/ feature = 7)).
(* Every operation bit set in flags is one the feature named in its low 16 bits supports, and there is one. *)
Definition ops_supported (flags : N) : Prop :=
  (exists b, 16 <= b /\ N.testbit flags b = true) /\
  forall b, 16 <= b -> N.testbit flags b = true -> feature_ops (flags mod 2 ^ 16) b.
