(* The request handlers.  Models lib/libvfio-user.c:85-1209.
   Simplifications common to all of them: memory allocation never fails; callbacks do not call back into
   the library while a request is being handled; log messages are not modelled. *)
From Verif Require Import Base Types Bytes Dma Dirty Migr Irq Pci.
From Coq Require Import NArith ZArith List Bool.
Import ListNotations.
Open Scope N_scope.

(* lib/private.h:193-202 ioeventfd_t. *)
Record ioeventfd : Type := mk_ioefd {
  ie_gpa : N; ie_size : N; ie_fd : Z; ie_flags : N; ie_datamatch : N; ie_shadow_fd : Z; ie_shadow_off : N
}.

(* lib/private.h:103-119 vfu_reg_info_t.  ri_areas = [] models mmap_areas == NULL and nr_mmap_areas == 0 (the
   two always go together, libvfio-user.c:2001-2021); an area is (iov_base, iov_len). *)
Record reg_info : Type := mk_reg {
  ri_flags : N; ri_size : N; ri_cb : bool; ri_areas : list (N * N); ri_fd : Z; ri_off : N; ri_subs : list ioeventfd
}.

(* The part of lib/private.h:156-191 struct vfu_ctx the request handlers use.  cx_hint is dma.h's thread-local
   region_hint; None for cx_dma, cx_mig, cx_irqs models a NULL pointer; the booleans say which callbacks are set. *)
Record ctx : Type := mk_ctx {
  cx_dma : option dma;
  cx_hint : nat;
  cx_regs : list reg_info;
  cx_pci : pci;
  cx_quiesce : bool;
  cx_reset : bool;
  cx_register : bool;
  cx_unregister : bool;
  cx_mig : option N;
  cx_irq_cfg : irq_cfg;
  cx_irqs : option irqs;
  cx_max_xfer : N                  (* client_max_data_xfer_size *)
}.
Definition set_dma (c : ctx) (d : dma) (h : nat) : ctx :=
  mk_ctx (Some d) h (cx_regs c) (cx_pci c) (cx_quiesce c) (cx_reset c) (cx_register c) (cx_unregister c) (cx_mig c) (cx_irq_cfg c) (cx_irqs c) (cx_max_xfer c).
Definition set_mig (c : ctx) (m : option N) : ctx :=
  mk_ctx (cx_dma c) (cx_hint c) (cx_regs c) (cx_pci c) (cx_quiesce c) (cx_reset c) (cx_register c) (cx_unregister c) m (cx_irq_cfg c) (cx_irqs c) (cx_max_xfer c).
Definition set_pci (c : ctx) (p : pci) : ctx :=
  mk_ctx (cx_dma c) (cx_hint c) (cx_regs c) p (cx_quiesce c) (cx_reset c) (cx_register c) (cx_unregister c) (cx_mig c) (cx_irq_cfg c) (cx_irqs c) (cx_max_xfer c).
Definition set_irqt (c : ctx) (t : irqs) : ctx :=
  mk_ctx (cx_dma c) (cx_hint c) (cx_regs c) (cx_pci c) (cx_quiesce c) (cx_reset c) (cx_register c) (cx_unregister c) (cx_mig c) (cx_irq_cfg c) (Some t) (cx_max_xfer c).

Definition set_max_xfer (c : ctx) (n : N) : ctx :=
  mk_ctx (cx_dma c) (cx_hint c) (cx_regs c) (cx_pci c) (cx_quiesce c) (cx_reset c) (cx_register c) (cx_unregister c) (cx_mig c) (cx_irq_cfg c) (cx_irqs c) n.

(* The answers of the operating system and of the device callbacks while one request is handled. *)
Record oracle : Type := mk_oracle {
  or_os : dma_os;                  (* fstat, mmap, ... of a DMA map *)
  or_calloc : nat -> bool;         (* the k-th bitmap allocation of a logging start *)
  or_junk : list N;                (* what malloc'ed memory holds *)
  or_reset : nat -> cb_answer;     (* the k-th reset callback *)
  or_trans : nat -> cb_answer;     (* the k-th migration transition callback *)
  or_access : acc_oracle;          (* the k-th region access callback *)
  or_data : data_answer;           (* migration read_data / write_data callback *)
  or_efd : nat -> cb_answer        (* the k-th eventfd_write *)
}.

(* include/libvfio-user.h:235-245. *)
Definition REGION_FLAG_READ : N := 1.
Definition REGION_FLAG_WRITE : N := 2.
Definition REGION_FLAG_ALWAYS_CB : N := 8.
Definition REGION_FLAG_64_BITS : N := 16.
Definition REGION_FLAG_PREFETCH : N := 32.
Definition REGION_FLAG_MASK : N := 63.

(* lib/private.h:55 SERVER_MAX_DATA_XFER_SIZE. *)
Definition MAX_XFER : N := 1048576.

(* What the config space code sees of the context. *)
Definition env_of (c : ctx) : pci_env :=
  mk_env (map ri_size (firstn 6 (cx_regs c))) (map ri_flags (firstn 6 (cx_regs c)))
         (match nth_error (cx_regs c) 7 with Some r => ri_cb r | None => false end) (cx_reset c).

(* ---------- region access *)

(* lib/libvfio-user.c:222-275 is_valid_region_access on the decoded fields; len is the payload length. *)
Definition valid_region_access (c : ctx) (len : N) (is_write : bool) (off region count : N) : bool :=
  if MAX_XFER <? count then false
  else if is_write && negb (len - 16 =? count) then false
  else match nth_error (cx_regs c) (N.to_nat region) with
       | None => false
       | Some r => if ri_size r <? satadd_u64 off count then false else negb (is_stopped_and_copying (cx_mig c))
       end.

(* lib/libvfio-user.c:184-220 region_access: return value, bytes left in the buffer by a read, new context, events.
   A callback returning more than it was asked is not an overrun by itself. *)
Definition region_access (c : ctx) (o : oracle) (region : N) (is_write : bool) (off count : N) (data : list N)
  : outcome N * list N * ctx * list event :=
  match nth_error (cx_regs c) (N.to_nat region) with
  | None => (Crash OutOfBounds, [], c, [])
  | Some r =>
      if (region =? CFG_REGION) && negb (has (ri_flags r) REGION_FLAG_ALWAYS_CB) then
        if is_write then
          let '(res, p, ev) := config_write (env_of c) (cx_pci c) (or_access o) (or_reset o) off data in
          (res, [], set_pci c p, ev)
        else
          let '(res, buf, ev) := config_read (env_of c) (cx_pci c) (or_access o) off count in
          (res, buf, c, ev)
      else if negb (ri_cb r) then (Err EINVAL, [], c, [])
      else
        (match or_access o 0%nat off count with
         | AccErr e => (Err e, [], c)
         | AccOk n buf => (Ok n, if is_write then [] else buf, c)
         end, [EvAccess region is_write off count data])
  end.

(* lib/libvfio-user.c:277-329 handle_region_access.  An error reply issued after the reply was allocated carries
   it (what a failing callback left in the buffer is taken to be zeros). *)
Definition handle_region_access (c : ctx) (o : oracle) (is_write : bool) (body : list N) : hres * ctx * list event :=
  if N.of_nat (length body) <? 16 then (herr EINVAL, c, [])
  else
    need (rd body 0 8) (HCrash OutOfBounds, c, []) (fun off =>
    need (rd body 8 4) (HCrash OutOfBounds, c, []) (fun region =>
    need (rd body 12 4) (HCrash OutOfBounds, c, []) (fun count =>
    if negb (valid_region_access c (N.of_nat (length body)) is_write off region count) then (herr EINVAL, c, [])
    else if count =? 0 then (HReply 0 [] [], c, [])
    else
      let data := if is_write then skipn 16 body else [] in
      let '(res, buf, c', ev) := region_access c o region is_write off count data in
      let out := le_bytes 8 off ++ le_bytes 4 region ++ le_bytes 4 count
                 ++ (if is_write then [] else fit (N.to_nat count) buf) in
      match res with
      | Ok n => if n =? count then (HReply 0 out [], c', ev) else (HReply EINVAL out [], c', ev)
      | Err e => (HReply e out [], c', ev)
      | Crash cr => (HCrash cr, c', ev)
      end))).

(* ---------- device and region information *)

(* lib/libvfio-user.c:331-365 handle_device_get_info. *)
Definition get_info (c : ctx) (body : list N) : hres :=
  if N.of_nat (length body) <? 16 then herr EINVAL
  else
    need (rd body 0 4) (HCrash OutOfBounds) (fun argsz =>
    if argsz <? 16 then herr EINVAL
    else HReply 0 (le_bytes 4 16 ++ le_bytes 4 3 ++ le_bytes 4 (N.of_nat (length (cx_regs c))) ++ le_bytes 4 NUM_IRQS) []).

(* lib/libvfio-user.c:85-96 get_vfio_caps_size. *)
Definition caps_size (r : reg_info) : N :=
  match ri_areas r with [] => 0 | l => 16 + 16 * N.of_nat (length l) end.

(* lib/libvfio-user.c:103-144 dev_get_caps: the sparse mmap capability. *)
Definition sparse_cap (r : reg_info) : list N :=
  le_bytes 2 1 ++ le_bytes 2 1 ++ le_bytes 4 0 ++ le_bytes 4 (N.of_nat (length (ri_areas r))) ++ le_bytes 4 0
  ++ flat_map (fun a => le_bytes 8 (fst a) ++ le_bytes 8 (snd a)) (ri_areas r).

(* lib/libvfio-user.c:367-444 handle_device_get_region_info. *)
Definition get_region_info (c : ctx) (body : list N) : hres :=
  if N.of_nat (length body) <? 32 then herr EINVAL
  else
    need (rd body 0 4) (HCrash OutOfBounds) (fun argsz =>
    need (rd body 8 4) (HCrash OutOfBounds) (fun index =>
    if argsz <? 32 then herr EINVAL
    else match nth_error (cx_regs c) (N.to_nat index) with
    | None => herr EINVAL
    | Some r =>
        let cs := if 0 <? ri_size r then caps_size r else 0 in
        let len := N.min (32 + cs) argsz in
        let argsz' := w32 (32 + cs) in
        let flags := (if has (ri_flags r) REGION_FLAG_READ then 1 else 0)
                     + (if has (ri_flags r) REGION_FLAG_WRITE then 2 else 0)
                     + (if (ri_fd r =? -1)%Z then 0 else 4) in
        let give := (0 <? cs) && (argsz' <=? argsz) in
        let fixed cap_off fl := le_bytes 4 argsz' ++ le_bytes 4 fl ++ le_bytes 4 index ++ le_bytes 4 cap_off
                                ++ le_bytes 8 (ri_size r) ++ le_bytes 8 (ri_off r) in
        if give then
          (* the capability is written behind the fixed part of the allocated len bytes *)
          if len <? 32 + cs then HCrash OutOfBounds
          else HReply 0 (fixed 32 (flags + 8) ++ sparse_cap r) [ri_fd r]
        else HReply 0 (fixed 0 flags ++ zeros (N.to_nat (len - 32))) []
    end)).

(* ---------- ioeventfds *)

(* lib/libvfio-user.c:446-487 vfu_create_ioeventfd; shadow says whether SHADOW_IOEVENTFD is compiled in. *)
Definition create_ioeventfd (shadow : bool) (regs : list reg_info) (idx : N) (s : ioeventfd) : outcome unit * list reg_info :=
  if negb shadow && negb (ie_shadow_fd s =? -1)%Z then (Err EINVAL, regs)
  else if 9 <=? idx then (Err EINVAL, regs)
  else match nth_error regs (N.to_nat idx) with
  | None => (Crash OutOfBounds, regs)
  | Some r =>
      if ri_size r <? w64 (ie_gpa s + ie_size s) then (Err EINVAL, regs)
      else (Ok tt, set_nth (N.to_nat idx)
                     (mk_reg (ri_flags r) (ri_size r) (ri_cb r) (ri_areas r) (ri_fd r) (ri_off r) (s :: ri_subs r)) regs)
  end.

(* lib/libvfio-user.c:522-545 add_fd_index: the index, and the list sent along.  cap is the allocated size. *)
Fixpoint fd_index (l : list Z) (fd : Z) (i : N) : option N :=
  match l with [] => None | x :: l' => if (x =? fd)%Z then Some i else fd_index l' fd (i + 1) end.

Definition add_fd (cap : nat) (out : list Z) (fd : Z) : outcome (N * list Z) :=
  if (fd <? -1)%Z then Crash AssertFailed
  else if (fd =? -1)%Z then Ok (two32 - 1, out)
  else match fd_index out fd 0 with
  | Some i => Ok (i, out)
  | None => if Nat.leb cap (length out) then Crash OutOfBounds
            else Ok (N.of_nat (length out), out ++ [fd])
  end.

(* One iteration of lib/libvfio-user.c:632-655. *)
Definition io_sub (cap : nat) (out : list Z) (s : ioeventfd) : outcome (list N * list Z) :=
  match add_fd cap out (ie_fd s) with
  | Ok (i, out1) =>
      match (if (ie_shadow_fd s =? -1)%Z then Ok (0, 0, out1)
             else match add_fd cap out1 (ie_shadow_fd s) with
                  | Ok (j, out2) => Ok (2, j, out2)
                  | Err e => Err e
                  | Crash cr => Crash cr
                  end) with
      | Ok (ty, j, out2) =>
          Ok (le_bytes 8 (ie_gpa s) ++ le_bytes 8 (ie_size s) ++ le_bytes 4 i ++ le_bytes 4 ty
              ++ le_bytes 4 (ie_flags s) ++ le_bytes 4 j ++ le_bytes 8 (ie_shadow_off s) ++ le_bytes 8 (ie_datamatch s), out2)
      | Err e => Err e
      | Crash cr => Crash cr
      end
  | Err e => Err e
  | Crash cr => Crash cr
  end.

Fixpoint io_subs (cap : nat) (out : list Z) (l : list ioeventfd) : outcome (list N * list Z) :=
  match l with
  | [] => Ok ([], out)
  | s :: l' =>
      match io_sub cap out s with
      | Ok (b, out1) =>
          match io_subs cap out1 l' with
          | Ok (b', out2) => Ok (b ++ b', out2)
          | r => r
          end
      | r => r
      end
  end.

(* lib/libvfio-user.c:547-659 handle_device_get_region_io_fds. *)
Definition get_region_io_fds (c : ctx) (body : list N) : hres :=
  if N.of_nat (length body) <? 16 then herr EINVAL
  else
    need (rd body 0 4) (HCrash OutOfBounds) (fun argsz =>
    need (rd body 4 4) (HCrash OutOfBounds) (fun flags =>
    need (rd body 8 4) (HCrash OutOfBounds) (fun index =>
    need (rd body 12 4) (HCrash OutOfBounds) (fun count =>
    if negb (flags =? 0) || negb (count =? 0) then herr EINVAL
    else match nth_error (cx_regs c) (N.to_nat index) with
    | None => herr EINVAL
    | Some r =>
        if negb (has (ri_flags r) REGION_FLAG_MASK) then herr EINVAL
        else if (argsz <? 16) || (MAX_XFER <? argsz) then herr EINVAL
        else
          let nr := N.of_nat (length (ri_subs r)) in
          let shadows := length (filter (fun s => negb (ie_shadow_fd s =? -1)%Z) (ri_subs r)) in
          let max_sent := N.min ((argsz - 16) / 48) nr in
          let argsz' := w32 (16 + nr * 48) in
          let fixed := le_bytes 4 argsz' ++ le_bytes 4 0 ++ le_bytes 4 index ++ le_bytes 4 nr in
          let len := 16 + (if nr <=? max_sent then w32 (nr * 48) else 0) in
          if (0 <? max_sent) && (argsz' <=? argsz) then
            (* sub-region i is written at 16 + 48 i of the allocated len bytes *)
            if len <? 16 + max_sent * 48 then HCrash OutOfBounds
            else match io_subs (N.to_nat max_sent + shadows) [] (firstn (N.to_nat max_sent) (ri_subs r)) with
            | Ok (b, fds) => HReply 0 (fixed ++ b) fds
            | Err e => herr e
            | Crash cr => HCrash cr
            end
          else HReply 0 (fixed ++ zeros (N.to_nat (len - 16))) []
    end)))).

(* ---------- DMA map and unmap *)

(* lib/libvfio-user.c:675-742 handle_dma_map.  fds are the message's descriptors; a consumed one becomes -1
   (661-673).  A negative descriptor never comes from the kernel; the errno it would be refused with is whatever
   errno holds (taken to be EINVAL). *)
Definition handle_dma_map (c : ctx) (d : dma) (o : oracle) (body : list N) (fds : list Z)
  : hres * ctx * list Z * list event :=
  if N.of_nat (length body) <? 32 then (herr EINVAL, c, fds, [])
  else
    need (rd body 0 4) (HCrash OutOfBounds, c, fds, []) (fun argsz =>
    need (rd body 4 4) (HCrash OutOfBounds, c, fds, []) (fun flags =>
    need (rd body 8 8) (HCrash OutOfBounds, c, fds, []) (fun off =>
    need (rd body 16 8) (HCrash OutOfBounds, c, fds, []) (fun addr =>
    need (rd body 24 8) (HCrash OutOfBounds, c, fds, []) (fun size =>
    if argsz <? 32 then (herr EINVAL, c, fds, [])
    else
      let prot := (if has flags 1 then PROT_READ else 0) + (if has flags 2 then PROT_WRITE else 0) in
      if negb (N.ldiff flags 3 =? 0) then (herr EINVAL, c, fds, [])
      else
        let '(fd, rest) := match fds with [] => ((-1)%Z, []) | f :: fs => (f, (-1)%Z :: fs) end in
        if negb (Nat.eqb (length fds) 0) && (fd <? 0)%Z then (herr EINVAL, c, rest, [])
        else
          let '(res, d', ev) := dma_map_request (cx_register c) (or_os o) d addr size fd off prot in
          (match res with Ok _ => HReply 0 [] [] | Err e => herr e | Crash cr => HCrash cr end,
           set_dma c d' (cx_hint c), rest, ev)))))).

Definition UNMAP_DIRTY : N := 1.
Definition UNMAP_ALL : N := 2.

(* lib/libvfio-user.c:749-870 is_valid_unmap and handle_dma_unmap.  flags, addr, size and the bitmap's size are
   read before the message length is checked. *)
Definition handle_dma_unmap (c : ctx) (d : dma) (o : oracle) (body : list N) : hres * ctx * list event :=
  let bad := (HCrash OutOfBounds, c, []) in
  let einval := (herr EINVAL, c, []) in
  let len := N.of_nat (length body) in
  need (rd body 4 4) bad (fun flags =>
  let finish (d1 : dma) (h1 : nat) (out : list N) addr size :=
    match remove_region (cx_unregister c) d1 addr size with
    | (Ok ev, d2) => (HReply 0 out [], set_dma c d2 h1, ev)
    | (Err e, d2) => (herr e, set_dma c d2 h1, [])
    | (Crash cr, d2) => (HCrash cr, set_dma c d2 h1, [])
    end in
  if flags =? UNMAP_DIRTY then
    need (rd body 32 8) bad (fun bsize =>
    if len <? 40 then einval
    else
      need (rd body 0 4) bad (fun argsz =>
      need (rd body 8 8) bad (fun addr =>
      need (rd body 16 8) bad (fun size =>
      need (rd body 24 8) bad (fun pgsize =>
      need (slice body 0 40) bad (fun hdr =>
      if (argsz <? satadd_u64 40 bsize) || (MAX_XFER <? argsz) then einval
      else
        match dirty_page_get d (cx_hint c) addr size pgsize bsize (fit (N.to_nat bsize) (or_junk o)) with
        | (Ok bm, d1, h1) => finish d1 h1 (hdr ++ bm) addr size
        | (Err e, d1, h1) => (herr e, set_dma c d1 h1, [])
        | (Crash cr, d1, h1) => (HCrash cr, set_dma c d1 h1, [])
        end))))))
  else if flags =? UNMAP_ALL then
    need (rd body 8 8) bad (fun addr =>
    if negb (addr =? 0) then einval
    else
      need (rd body 16 8) bad (fun size =>
      if negb (size =? 0) then einval
      else if len <? 24 then einval
      else
        need (rd body 0 4) bad (fun argsz =>
        need (slice body 0 24) bad (fun hdr =>
        if (argsz <? 24) || (MAX_XFER <? argsz) then einval
        else
          match remove_all_regions (cx_unregister c) d with
          | (Ok ev, d1) => (HReply 0 hdr [], set_dma c d1 (cx_hint c), ev)
          | (Err e, d1) => (herr e, set_dma c d1 (cx_hint c), [])
          | (Crash cr, d1) => (HCrash cr, set_dma c d1 (cx_hint c), [])
          end))))
  else if flags =? 0 then
    if len <? 24 then einval
    else
      need (rd body 0 4) bad (fun argsz =>
      need (rd body 8 8) bad (fun addr =>
      need (rd body 16 8) bad (fun size =>
      need (slice body 0 24) bad (fun hdr =>
      if (argsz <? 24) || (MAX_XFER <? argsz) then einval
      else finish d (cx_hint c) hdr addr size))))
  else einval).

(* ---------- reset *)

(* lib/libvfio-user.c:872-903 call_reset_cb and device_reset. *)
Definition device_reset (c : ctx) (ans : cb_answer) (t : reset_type) : outcome unit * ctx * list event :=
  let ok := set_mig c (match cx_mig c with Some _ => Some ST_RUNNING | None => None end) in
  if cx_reset c then
    match ans with
    | Some e => (Err e, c, [EvReset t])
    | None => (Ok tt, ok, [EvReset t])
    end
  else (Ok tt, ok, []).

(* ---------- device features *)

(* lib/libvfio-user.c:905-929 device_feature_flags_supported. *)
Definition feature_supported (m : option N) (feature : N) : N :=
  match m with
  | None => 0
  | Some _ =>
      if (feature =? FEATURE_MIGRATION) || (feature =? FEATURE_DMA_LOGGING_REPORT) then N.lor FEATURE_GET FEATURE_PROBE
      else if feature =? FEATURE_MIG_DEVICE_STATE then N.lor (N.lor FEATURE_GET FEATURE_SET) FEATURE_PROBE
      else if (feature =? FEATURE_DMA_LOGGING_START) || (feature =? FEATURE_DMA_LOGGING_STOP) then N.lor FEATURE_SET FEATURE_PROBE
      else 0
  end.

(* lib/libvfio-user.c:931-954 is_migration_feature, is_dma_feature. *)
Definition is_migration_feature (f : N) : bool := (f =? FEATURE_MIGRATION) || (f =? FEATURE_MIG_DEVICE_STATE).
Definition is_dma_feature (f : N) : bool :=
  (f =? FEATURE_DMA_LOGGING_START) || (f =? FEATURE_DMA_LOGGING_STOP) || (f =? FEATURE_DMA_LOGGING_REPORT).

(* lib/libvfio-user.c:956-1010 handle_migration_device_feature_get. *)
Definition migration_feature_get (c : ctx) (argsz flags feature : N) : hres :=
  if argsz <? 16 then herr EINVAL
  else
    let hdr := le_bytes 4 16 ++ le_bytes 4 flags in
    if feature =? FEATURE_MIGRATION then
      HReply 0 (hdr ++ le_bytes 8 (N.lor MIGRATION_STOP_COPY MIGRATION_PRE_COPY)) []
    else if feature =? FEATURE_MIG_DEVICE_STATE then
      match cx_mig c with
      | None => HCrash AssertFailed (* migration.c:258-262 dereferences vfu_ctx->migration *)
      | Some s => HReply 0 (hdr ++ le_bytes 4 s ++ le_bytes 4 0) []
      end
    else HReply EINVAL (hdr ++ zeros 8) [].

(* lib/libvfio-user.c:1012-1021 handle_migration_device_feature_set; out is the copied request. *)
Definition migration_feature_set (c : ctx) (o : oracle) (feature : N) (out : list N) : hres * ctx * list event :=
  if negb (feature =? FEATURE_MIG_DEVICE_STATE) then (HCrash AssertFailed, c, [])
  else
    need (rd out 8 4) (HCrash OutOfBounds, c, []) (fun st =>
    match cx_mig c with
    | None => (HCrash AssertFailed, c, [])
    | Some cur =>
        let '(res, cur', ev) := migration_set_state (or_trans o) cur st in
        (match res with Ok _ => HReply 0 out [] | Err e => HReply e out [] | Crash cr => HCrash cr end,
         set_mig c (Some cur'), ev)
    end).

(* lib/libvfio-user.c:1023-1078 handle_dma_device_feature_get. *)
Definition dma_feature_get (c : ctx) (argsz flags : N) (body : list N) : hres * ctx :=
  match cx_dma c with
  | None => (herr EINVAL, c)
  | Some d =>
      need (rd body 16 8) (HCrash OutOfBounds, c) (fun length =>
      need (rd body 24 8) (HCrash OutOfBounds, c) (fun pgsize =>
      match get_bitmap_size length pgsize with
      | Err e => (herr e, c)
      | Crash cr => (HCrash cr, c)
      | Ok bsize =>
          if argsz <? 32 + bsize then (herr EINVAL, c)
          else
            need (rd body 8 8) (HCrash OutOfBounds, c) (fun iova =>
            match dirty_page_get d (cx_hint c) iova length pgsize bsize (zeros (N.to_nat bsize)) with
            | (Ok bm, d', h') =>
                (HReply 0 (le_bytes 4 (32 + bsize) ++ le_bytes 4 flags ++ le_bytes 8 iova ++ le_bytes 8 length
                           ++ le_bytes 8 pgsize ++ bm) [], set_dma c d' h')
            | (Err e, d', h') => (herr e, set_dma c d' h')
            | (Crash cr, d', h') => (HCrash cr, set_dma c d' h')
            end)
      end))
  end.

(* lib/libvfio-user.c:1080-1099 handle_dma_device_feature_set. *)
Definition dma_feature_set (c : ctx) (o : oracle) (feature : N) (out : list N) : hres * ctx :=
  match cx_dma c with
  | None => (HCrash AssertFailed, c)
  | Some d =>
      if feature =? FEATURE_DMA_LOGGING_START then
        need (rd out 8 8) (HCrash OutOfBounds, c) (fun pgsize =>
        let '(res, d') := logging_start (or_calloc o) d pgsize in
        (match res with Ok _ => HReply 0 out [] | Err e => HReply e out [] | Crash cr => HCrash cr end,
         set_dma c d' (cx_hint c)))
      else if feature =? FEATURE_DMA_LOGGING_STOP then (HReply 0 out [], set_dma c (logging_stop d) (cx_hint c))
      else (HCrash AssertFailed, c)
  end.

(* lib/libvfio-user.c:1101-1209 handle_device_feature. *)
Definition handle_device_feature (c : ctx) (o : oracle) (body : list N) : hres * ctx * list event :=
  let len := N.of_nat (length body) in
  if len <? 8 then (herr EINVAL, c, [])
  else
    need (rd body 0 4) (HCrash OutOfBounds, c, []) (fun argsz =>
    need (rd body 4 4) (HCrash OutOfBounds, c, []) (fun flags =>
    let operations := N.ldiff flags FEATURE_MASK in
    let feature := N.land flags FEATURE_MASK in
    let supported := feature_supported (cx_mig c) feature in
    if negb (N.land flags supported =? operations) || (supported =? 0) then (herr EINVAL, c, [])
    else if operations =? FEATURE_GET then
      if is_migration_feature feature then (migration_feature_get c argsz flags feature, c, [])
      else if is_dma_feature feature then let '(r, c') := dma_feature_get c argsz flags body in (r, c', [])
      else (herr EINVAL, c, [])
    else if operations =? FEATURE_SET then
      if argsz <? len then (herr EINVAL, c, [])
      else if is_migration_feature feature then migration_feature_set c o feature body
      else if is_dma_feature feature then let '(r, c') := dma_feature_set c o feature body in (r, c', [])
      else (HReply EINVAL body [], c, [])
    else if negb (has operations FEATURE_PROBE) then (herr EINVAL, c, [])
    else if argsz <? len then (herr EINVAL, c, [])
    else (HReply 0 body [], c, []))).

(* ---------- dispatch *)

(* include/vfio-user.h enum vfio_user_command. *)
Definition CMD_DMA_MAP : N := 2.
Definition CMD_DMA_UNMAP : N := 3.
Definition CMD_GET_INFO : N := 4.
Definition CMD_GET_REGION_INFO : N := 5.
Definition CMD_GET_REGION_IO_FDS : N := 6.
Definition CMD_GET_IRQ_INFO : N := 7.
Definition CMD_SET_IRQS : N := 8.
Definition CMD_REGION_READ : N := 9.
Definition CMD_REGION_WRITE : N := 10.
Definition CMD_RESET : N := 13.
Definition CMD_FEATURE : N := 16.
Definition CMD_MIG_READ : N := 17.
Definition CMD_MIG_WRITE : N := 18.

(* lib/libvfio-user.c:1316-1385, the switch of handle_request: reply, new context, what is left of the
   message's descriptors, events.  Migration data transfers are limited to client_max_data_xfer_size
   (migration.c:315, 376). *)
Definition dispatch (c : ctx) (o : oracle) (cmd : N) (body : list N) (fds : list Z) : hres * ctx * list Z * list event :=
  if cmd =? CMD_DMA_MAP then
    match cx_dma c with
    | None => (HReply 0 [] [], c, fds, [])
    | Some d => handle_dma_map c d o body fds
    end
  else if cmd =? CMD_DMA_UNMAP then
    match cx_dma c with
    | None => (HReply 0 [] [], c, fds, [])
    | Some d => let '(r, c', ev) := handle_dma_unmap c d o body in (r, c', fds, ev)
    end
  else if cmd =? CMD_GET_INFO then (get_info c body, c, fds, [])
  else if cmd =? CMD_GET_REGION_INFO then (get_region_info c body, c, fds, [])
  else if cmd =? CMD_GET_REGION_IO_FDS then (get_region_io_fds c body, c, fds, [])
  else if cmd =? CMD_GET_IRQ_INFO then (get_irq_info (cx_irq_cfg c) body, c, fds, [])
  else if cmd =? CMD_SET_IRQS then
    match cx_irqs c with
    | None => (HCrash OutOfBounds, c, fds, []) (* vfu_ctx->irqs == NULL; not reachable once realized *)
    | Some t => let '(r, t', fds', ev) := set_irqs (cx_irq_cfg c) t (or_efd o) body fds in (r, set_irqt c t', fds', ev)
    end
  else if cmd =? CMD_REGION_READ then let '(r, c', ev) := handle_region_access c o false body in (r, c', fds, ev)
  else if cmd =? CMD_REGION_WRITE then let '(r, c', ev) := handle_region_access c o true body in (r, c', fds, ev)
  else if cmd =? CMD_RESET then
    let '(res, c', ev) := device_reset c (or_reset o 0%nat) ResetDevice in
    (match res with Ok _ => HReply 0 [] [] | Err e => herr e | Crash cr => HCrash cr end, c', fds, ev)
  else if cmd =? CMD_FEATURE then let '(r, c', ev) := handle_device_feature c o body in (r, c', fds, ev)
  else if cmd =? CMD_MIG_READ then let '(r, ev) := mig_data_read (cx_mig c) (cx_max_xfer c) (or_data o) body in (r, c, fds, ev)
  else if cmd =? CMD_MIG_WRITE then let '(r, ev) := mig_data_write (cx_mig c) (cx_max_xfer c) (or_data o) body in (r, c, fds, ev)
  else (herr EINVAL, c, fds, []).
