(* PCI config space and capabilities.  Models lib/pci.c and lib/pci_caps.c. *)
From Verif Require Import Base Types Bytes Migr.
From Coq Require Import NArith ZArith List Bool.
Import ListNotations.
Open Scope N_scope.

(* linux/pci_regs.h. *)
Definition PCI_STD_HEADER_SIZEOF : N := 64.
Definition PCI_CFG_SPACE_SIZE : N := 256.
Definition PCI_CFG_SPACE_EXP_SIZE : N := 4096.
Definition PCI_CAP_ID_PM : N := 1.
Definition PCI_CAP_ID_MSI : N := 5.
Definition PCI_CAP_ID_VNDR : N := 9.
Definition PCI_CAP_ID_EXP : N := 16.
Definition PCI_CAP_ID_MSIX : N := 17.
Definition PCI_EXT_CAP_ID_DSN : N := 3.
Definition PCI_EXT_CAP_ID_VNDR : N := 11.

(* include/libvfio-user.h VFU_CAP_FLAG_*, VFU_REGION_FLAG_MEM. *)
Definition CAP_FLAG_EXTENDED : N := 1.
Definition CAP_FLAG_CALLBACK : N := 2.
Definition CAP_FLAG_READONLY : N := 4.
Definition REGION_FLAG_MEM : N := 4.
Definition VFU_MAX_CAPS : nat := 128.

(* lib/pci_caps.h:50-59 struct pci_cap.  The write callback is determined by cp_ext and cp_id. *)
Record pci_cap : Type := mk_cap {
  cp_ext : bool; cp_id : N; cp_off : N; cp_hdr_size : N; cp_size : N; cp_flags : N
}.

(* lib/private.h:121-130 struct pci_dev, and pci_cap_exp_off (None is -1).  Below, the length of pc_cfg
   stands for reg_info[VFU_PCI_DEV_CFG_REGION_IDX].size: vfu_pci_init and vfu_realize_ctx set them together.  A later
   vfu_setup_region can make them differ (theorem C52_config_size_refuted); then the code's assertions compare with the
   size of the region, and those of this file with the memory there is. *)
Record pci : Type := mk_pci {
  pc_cfg : list N; pc_caps : list pci_cap; pc_ext_caps : list pci_cap; pc_exp_off : option N
}.
Definition set_cfg (p : pci) (cfg : list N) : pci := mk_pci cfg (pc_caps p) (pc_ext_caps p) (pc_exp_off p).

(* What the config space code needs to know of the rest of the device: BAR sizes and flags
   (reg_info[0..5]), whether the config region has a callback and whether a reset callback is set. *)
Record pci_env : Type := mk_env {
  pe_bar_size : list N; pe_bar_flags : list N; pe_cfg_cb : bool; pe_reset_cb : bool
}.

(* Answer of a region access callback: the number of bytes it reports (and, for reads, what it left in
   the buffer), or -1 with errno. *)
Inductive acc_answer : Type :=
| AccOk (n : N) (data : list N)
| AccErr (e : N).

(* The callbacks of one request: the answer of the k-th callback when asked for n bytes at an offset. *)
Definition acc_oracle : Type := nat -> N -> N -> acc_answer.

Definition CFG_REGION : N := 7.

(* Bit fields: w bits of x from bit lo. *)
Definition bf_get (x lo w : N) : N := N.land (N.shiftr x lo) (N.ones w).
Definition bf_set (x lo w v : N) : N := N.lor (N.ldiff x (N.shiftl (N.ones w) lo)) (N.shiftl (N.land v (N.ones w)) lo).

(* Store an n-byte little-endian field. *)
Definition wr (l : list N) (off n : nat) (v : N) : option (list N) := put_slice l off (le_bytes n v).

(* ---------- the standard header *)

(* lib/pci.c:79-183 handle_command_write: each supported bit is copied from v and cleared in v; the
   palette snoop bit is ignored; what remains is an error (after the register was changed). *)
Definition cmd_bits : list N := [1; 2; 4; 256; 1024; 16].
Definition cmd_step (cv : N * N) (m : N) : N * N :=
  let '(cmd, v) := cv in
  if N.land v m =? m then (N.lor cmd m, N.ldiff v m) else (N.ldiff cmd m, v).
Definition command_write (cmd v : N) : N * bool :=
  let '(cmd', v') := fold_left cmd_step cmd_bits (cmd, v) in
  let v'' := N.ldiff v' 32 in
  (cmd', v'' =? 0).

(* lib/pci.c:46-77 pci_hdr_write_bar: the new register value. *)
Definition bar_write (size flags old v : N) : N :=
  let v := if v =? two32 - 1 then sub32 0 size else v in
  let low := if has flags REGION_FLAG_MEM then 15 else 3 in
  N.lor v (N.land old low).

(* lib/pci.c:185-210 handle_erom_write: Some true clears the register, Some false ignores the write,
   None is EINVAL. *)
Definition erom_write (v : N) : option bool :=
  if v =? 4294965248 then Some false
  else if v =? 0 then Some true
  else if v =? 4294967294 then Some false
  else if v =? 4294967295 then Some false
  else None.

(* lib/pci.c:212-273 pci_hdr_write.  buf is everything from the current position to the end of the data
   the client sent: the code reads 2 or 4 bytes from it whatever the size of the access. *)
Definition hdr_write (e : pci_env) (cfg : list N) (off : N) (buf : list N) : outcome unit * list N :=
  let store n v := match wr cfg (N.to_nat off) n v with Some c => (Ok tt, c) | None => (Crash OutOfBounds, cfg) end in
  if off =? 4 then
    need (rd buf 0 2) (Crash OutOfBounds, cfg) (fun v =>
    need (rd cfg 4 2) (Crash OutOfBounds, cfg) (fun old =>
    let '(new, good) := command_write old v in
    match wr cfg 4 2 new with
    | Some c => ((if good then Ok tt else Err EINVAL), c)
    | None => (Crash OutOfBounds, cfg)
    end))
  else if (off =? 6) || (off =? 8) || (off =? 9) || (off =? 61) || (off =? 62) || (off =? 63) then (Ok tt, cfg)
  else if (off =? 60) || (off =? 12) || (off =? 13) then
    need (rd buf 0 1) (Crash OutOfBounds, cfg) (fun v => store 1%nat v)
  else if (off =? 16) || (off =? 20) || (off =? 24) || (off =? 28) || (off =? 32) || (off =? 36) then
    let i := N.to_nat ((off - 16) / 4) in
    let size := nth i (pe_bar_size e) 0 in
    if size =? 0 then (Ok tt, cfg)
    else
      need (rd buf 0 4) (Crash OutOfBounds, cfg) (fun v =>
      need (rd cfg (N.to_nat off) 4) (Crash OutOfBounds, cfg) (fun old =>
      store 4%nat (bar_write size (nth i (pe_bar_flags e) 0) old v)))
  else if off =? 48 then
    need (rd buf 0 4) (Crash OutOfBounds, cfg) (fun v =>
    match erom_write v with
    | None => (Err EINVAL, cfg)
    | Some false => (Ok tt, cfg)
    | Some true => store 4%nat 0
    end)
  else (Err EINVAL, cfg).

(* lib/pci.c:329-359 pci_config_space_size_for_reg. *)
Definition reg_size (off : N) : N :=
  if existsb (N.eqb off) [0; 16; 20; 24; 28; 32; 36; 40; 44; 48] then 4
  else if off =? 9 then 3
  else if existsb (N.eqb off) [4; 6] then 2
  else if existsb (N.eqb off) [8; 12; 13; 14; 15; 52; 60; 61; 62; 63] then 1
  else 0.

(* ---------- capabilities *)

(* lib/pci_caps.c:465-469 ranges_intersect. *)
Definition ranges_intersect (off1 size1 off2 size2 : N) : bool :=
  (off1 <? off2 + size2) && (off2 <=? off1 + size1).

(* lib/pci_caps.c:471-490 cap_find_by_offset. *)
Definition cap_find_by_offset (p : pci) (off count : N) : option pci_cap :=
  match find (fun c => ranges_intersect off count (cp_off c) (cp_size c)) (pc_caps p) with
  | Some c => Some c
  | None => find (fun c => ranges_intersect off count (cp_off c) (cp_size c)) (pc_ext_caps p)
  end.

(* Result of a write: the outcome, the new config space, the events. *)
Definition wres : Type := outcome unit * list N * list event.

(* lib/pci_caps.c:115-169 cap_write_pm; rel is offset - cap->off.  The reserved and read-only bits of the
   register are stored too. *)
Definition cap_write_pm (cfg : list N) (base rel : N) (data : list N) : wres :=
  let count := N.of_nat (length data) in
  if rel =? 2 then (Err (if count =? 2 then ENOTSUP else EINVAL), cfg, [])
  else if rel =? 4 then
    if negb (count =? 2) then (Err EINVAL, cfg, [])
    else match put_slice cfg (N.to_nat (base + 4)) data with
         | Some c => (Ok tt, c, [])
         | None => (Crash OutOfBounds, cfg, [])
         end
  else if (rel =? 6) || (rel =? 7) then (Err (if count =? 1 then ENOTSUP else EINVAL), cfg, [])
  else (Err EINVAL, cfg, []).

(* lib/pci_caps.c:171-230 cap_write_msi: the data is copied over a 24-byte copy of the capability on the
   stack, then the writable fields are taken from the copy. *)
Definition cap_write_msi (cfg : list N) (base rel : N) (data : list N) : wres :=
  let bad := (Crash OutOfBounds, cfg, []) in
  need (slice cfg (N.to_nat base) 24) bad (fun old =>
  need (put_slice old (N.to_nat rel) data) bad (fun new =>
  need (rd old 2 2) bad (fun mc =>
  need (rd new 2 2) bad (fun mc' =>
  let mc1 := bf_set mc 0 1 (bf_get mc' 0 1) in
  need (wr cfg (N.to_nat (base + 2)) 2 mc1) bad (fun cfg1 =>
  let mme' := bf_get mc' 4 3 in
  if negb (bf_get mc 4 3 =? mme') && (5 <? mme') then (Err EINVAL, cfg1, [])
  else if negb (bf_get mc 4 3 =? mme') && (bf_get mc 1 3 <? mme') then (Err EINVAL, cfg1, [])
  else
    need (wr cfg1 (N.to_nat (base + 2)) 2 (bf_set mc1 4 3 mme')) bad (fun cfg2 =>
    need (rd old 4 4) bad (fun ma =>
    need (rd new 4 4) bad (fun ma' =>
    need (wr cfg2 (N.to_nat (base + 4)) 4 (bf_set ma 2 30 (bf_get ma' 2 30))) bad (fun cfg3 =>
    need (slice new 8 6) bad (fun mua_md =>
    need (put_slice cfg3 (N.to_nat (base + 8)) mua_md) bad (fun cfg4 =>
    need (slice new 16 4) bad (fun mmask =>
    need (put_slice cfg4 (N.to_nat (base + 16)) mmask) bad (fun cfg5 =>
    (Ok tt, cfg5, [])))))))))))))).

(* lib/pci_caps.c:232-263 cap_write_msix, with a 12-byte copy. *)
Definition cap_write_msix (cfg : list N) (base rel : N) (data : list N) : wres :=
  let bad := (Crash OutOfBounds, cfg, []) in
  need (slice cfg (N.to_nat base) 12) bad (fun old =>
  need (put_slice old (N.to_nat rel) data) bad (fun new =>
  need (rd old 2 2) bad (fun mxc =>
  need (rd new 2 2) bad (fun mxc' =>
  need (wr cfg (N.to_nat (base + 2)) 2 (bf_set (bf_set mxc 14 1 (bf_get mxc' 14 1)) 15 1 (bf_get mxc' 15 1))) bad
    (fun cfg1 => (Ok tt, cfg1, [])))))).

(* lib/pci_caps.c:265-343 handle_px_pxdc_write: all fields below the initiate-FLR bit are copied; then a
   function level reset may be started (call_reset_cb, libvfio-user.c:872-886).  ans is the answer of
   the reset callback. *)
Definition px_pxdc_write (e : pci_env) (cfg : list N) (base : N) (v : N) (ans : cb_answer) : wres :=
  let bad := (Crash OutOfBounds, cfg, []) in
  need (rd cfg (N.to_nat (base + 8)) 2) bad (fun old =>
  need (rd cfg (N.to_nat (base + 4)) 4) bad (fun dcap =>
  need (wr cfg (N.to_nat (base + 8)) 2 (bf_set old 0 15 v)) bad (fun cfg1 =>
  if N.testbit v 15 then
    if negb (N.testbit dcap 28) then (Err EINVAL, cfg1, [])
    else if pe_reset_cb e then
      match ans with
      | None => (Ok tt, cfg1, [EvReset ResetPciFlr])
      | Some er => (Err er, cfg1, [EvReset ResetPciFlr])
      end
    else (Ok tt, cfg1, [])
  else (Ok tt, cfg1, [])))).

(* lib/pci_caps.c:345-439 cap_write_px: only 2-byte writes; link, slot and root control writes are
   accepted and ignored; device and link control 2 are stored. *)
Definition cap_write_px (e : pci_env) (cfg : list N) (base rel : N) (data : list N) (ans : cb_answer) : wres :=
  if negb (N.of_nat (length data) =? 2) then (Err EINVAL, cfg, [])
  else if rel =? 8 then px_pxdc_write e cfg base (le_val data) ans
  else if (rel =? 16) || (rel =? 24) || (rel =? 28) || (rel =? 56) then (Ok tt, cfg, [])
  else if (rel =? 40) || (rel =? 48) then
    match put_slice cfg (N.to_nat (base + rel)) data with
    | Some c => (Ok tt, c, [])
    | None => (Crash OutOfBounds, cfg, [])
    end
  else (Err EINVAL, cfg, []).

(* lib/pci_caps.c:441-463 cap_write_vendor, ext_cap_write_dsn, ext_cap_write_vendor, and the choice of the
   callback made by vfu_pci_add_capability (lines 707-766). *)
Definition cap_write (e : pci_env) (cfg : list N) (c : pci_cap) (off : N) (data : list N) (ans : cb_answer) : wres :=
  let rel := off - cp_off c in
  let vendor := match put_slice cfg (N.to_nat off) data with
                | Some cfg' => (Ok tt, cfg', [])
                | None => (Crash OutOfBounds, cfg, [])
                end in
  if cp_ext c then
    if cp_id c =? PCI_EXT_CAP_ID_DSN then (Err EPERM, cfg, []) else vendor
  else if cp_id c =? PCI_CAP_ID_PM then cap_write_pm cfg (cp_off c) rel data
  else if cp_id c =? PCI_CAP_ID_EXP then cap_write_px e cfg (cp_off c) rel data ans
  else if cp_id c =? PCI_CAP_ID_MSI then cap_write_msi cfg (cp_off c) rel data
  else if cp_id c =? PCI_CAP_ID_MSIX then cap_write_msix cfg (cp_off c) rel data
  else vendor.

(* ---------- config space access *)

Inductive segment : Type :=
| SegHeader (n : N)
| SegBad                        (* cb == NULL *)
| SegOther (n : N)              (* pci_nonstd_access *)
| SegCap (c : pci_cap) (n : N). (* pci_cap_access *)

(* lib/pci.c:368-404 pci_config_space_next_segment.  For SegCap, pci_cap_access looks the capability up
   again for the first n bytes only; it finds the same one (lemma cap_find_again). *)
Definition next_segment (p : pci) (count off : N) (is_write : bool) : segment :=
  if off <? PCI_STD_HEADER_SIZEOF then
    if is_write then
      if reg_size off =? 0 then SegBad else SegHeader (N.min count (reg_size off))
    else SegHeader (N.min count (PCI_STD_HEADER_SIZEOF - off))
  else
    match cap_find_by_offset p off count with
    | None => SegOther count
    | Some c => if off <? cp_off c then SegOther (cp_off c - off) else SegCap c (N.min count (cp_size c))
    end.

(* Reading config space memory: pci_config_space_ptr's assertion (lib/pci.h:55-59), then memcpy. *)
Definition cfg_copy (cfg : list N) (off n : N) : outcome (list N) :=
  if N.of_nat (length cfg) <=? off then Crash AssertFailed
  else match slice cfg (N.to_nat off) (N.to_nat n) with Some s => Ok s | None => Crash OutOfBounds end.

(* lib/pci.c:305-324 pci_nonstd_access, read direction: result and bytes.  A callback that returns more
   than was asked, or 0 for a non-empty access, breaks pci_config_space_access's loop (it steps outside the
   buffer, or calls again with the same arguments; the model stops with Diverges at the first 0).
   ans is the callback's answer. *)
Definition nonstd_read (e : pci_env) (p : pci) (off n : N) (ans : N -> N -> acc_answer) : outcome (N * list N) * list event :=
  if pe_cfg_cb e then
    (match ans off n with
     | AccErr er => Err er
     | AccOk m data => if n <? m then Crash OutOfBounds
                       else if m =? 0 then Crash Diverges
                       else Ok (m, fit (N.to_nat m) data)
     end, [EvAccess CFG_REGION false off n []])
  else match cfg_copy (pc_cfg p) off n with
       | Ok s => (Ok (n, s), [])
       | Err er => (Err er, [])
       | Crash c => (Crash c, [])
       end.

(* One step of a read: lib/pci.c:429-446, 278-299, lib/pci_caps.c:492-513.  None: cb == NULL. *)
Definition read_segment (e : pci_env) (p : pci) (count off : N) (ans : N -> N -> acc_answer) : option (outcome (N * list N) * list event) :=
  let copy n := match cfg_copy (pc_cfg p) off n with Ok s => Ok (n, s) | Err er => Err er | Crash c => Crash c end in
  match next_segment p count off false with
  | SegBad => None
  | SegHeader n => Some (copy n, [])
  | SegOther n => Some (nonstd_read e p off n ans)
  | SegCap c n =>
      if has (cp_flags c) CAP_FLAG_CALLBACK then Some (nonstd_read e p off n ans) else Some (copy n, [])
  end.

(* lib/pci.c:416-452 pci_config_space_access, reading.  Returns the return value, the bytes put in the
   buffer so far, and the events.  answers k is the k-th callback answer of this request.  fuel: every
   iteration handles at least one byte. *)
Fixpoint cfg_read (fuel : nat) (e : pci_env) (p : pci) (answers : acc_oracle) (k : nat) (count off done : N)
  : outcome N * list N * list event :=
  if count =? 0 then (Ok done, [], [])
  else
    match fuel with
    | O => (Crash Diverges, [], [])
    | S fuel' =>
        match read_segment e p count off (answers k) with
        | None => (Ok 0, [], [])
        | Some (Err er, ev) => (Err er, [], ev)
        | Some (Crash c, ev) => (Crash c, [], ev)
        | Some (Ok (n, s), ev) =>
            let '(o, s', ev') := cfg_read fuel' e p answers (k + length ev) (count - n) (off + n) (done + n) in
            (o, s ++ s', ev ++ ev')
        end
    end.

(* pci_nonstd_access, write direction: how many bytes were handled. *)
Definition nonstd_write (e : pci_env) (off : N) (data : list N) (ans : N -> N -> acc_answer) : outcome N * list event :=
  let n := N.of_nat (length data) in
  if pe_cfg_cb e then
    (match ans off n with
     | AccErr er => Err er
     | AccOk m _ => if n <? m then Crash OutOfBounds else if m =? 0 then Crash Diverges else Ok m
     end, [EvAccess CFG_REGION true off n data])
  else (Err EINVAL, []).

(* One step of a write; buf is the remaining data.  lib/pci.c:429-446, 278-299, lib/pci_caps.c:492-525. *)
Definition write_segment (e : pci_env) (p : pci) (off : N) (buf : list N) (ans : N -> N -> acc_answer) (rans : cb_answer)
  : option (outcome N * list N * list event) :=
  let cfg := pc_cfg p in
  match next_segment p (N.of_nat (length buf)) off true with
  | SegBad => None
  | SegHeader n =>
      Some (match hdr_write e cfg off buf with
            | (Ok _, cfg') => (Ok n, cfg', [])
            | (Err er, cfg') => (Err er, cfg', [])
            | (Crash c, cfg') => (Crash c, cfg', [])
            end)
  | SegOther n => let '(o, ev) := nonstd_write e off (firstn (N.to_nat n) buf) ans in Some (o, cfg, ev)
  | SegCap c n =>
      let data := firstn (N.to_nat n) buf in
      if has (cp_flags c) CAP_FLAG_READONLY then Some (Err EPERM, cfg, [])
      else if has (cp_flags c) CAP_FLAG_CALLBACK then
        let '(o, ev) := nonstd_write e off data ans in Some (o, cfg, ev)
      else if off - cp_off c <? cp_hdr_size c then Some (Err EPERM, cfg, [])
      else
        Some (match cap_write e cfg c off data rans with
              | (Ok _, cfg', ev) => (Ok n, cfg', ev)
              | (Err er, cfg', ev) => (Err er, cfg', ev)
              | (Crash cr, cfg', ev) => (Crash cr, cfg', ev)
              end)
  end.

(* lib/pci.c:416-452 pci_config_space_access, writing.  rans k is the answer of the k-th reset callback. *)
Fixpoint cfg_write (fuel : nat) (e : pci_env) (p : pci) (answers : acc_oracle) (rans : nat -> cb_answer) (k : nat)
    (off : N) (buf : list N) (done : N) : outcome N * pci * list event :=
  match buf with
  | [] => (Ok done, p, [])
  | _ =>
      match fuel with
      | O => (Crash Diverges, p, [])
      | S fuel' =>
          match write_segment e p off buf (answers k) (rans k) with
          | None => (Ok 0, p, [])
          | Some (Err er, cfg', ev) => (Err er, set_cfg p cfg', ev)
          | Some (Crash c, cfg', ev) => (Crash c, set_cfg p cfg', ev)
          | Some (Ok n, cfg', ev) =>
              let '(o, p', ev') :=
                cfg_write fuel' e (set_cfg p cfg') answers rans (k + length ev) (off + n) (skipn (N.to_nat n) buf) (done + n) in
              (o, p', ev ++ ev')
          end
      end
  end.

(* pci_config_space_access as called by region_access (lib/libvfio-user.c:184-220). *)
Definition config_read (e : pci_env) (p : pci) (answers : acc_oracle) (off count : N) :=
  cfg_read (N.to_nat count) e p answers 0 count off 0.
Definition config_write (e : pci_env) (p : pci) (answers : acc_oracle) (rans : nat -> cb_answer) (off : N) (data : list N) :=
  cfg_write (length data) e p answers rans 0 off data 0.

(* ---------- adding and finding capabilities *)

(* lib/pci_caps.c:79-113 cap_size; an unknown id aborts. *)
Definition cap_size (data : list N) (ext : bool) : outcome N :=
  if ext then
    need (rd data 0 2) (Crash OutOfBounds) (fun id =>
    if id =? PCI_EXT_CAP_ID_DSN then Ok 12
    else if id =? PCI_EXT_CAP_ID_VNDR then
      need (rd data 4 4) (Crash OutOfBounds) (fun v => Ok (N.shiftr v 20))
    else Crash AssertFailed)
  else
    need (rd data 0 1) (Crash OutOfBounds) (fun id =>
    if id =? PCI_CAP_ID_PM then Ok 8
    else if id =? PCI_CAP_ID_EXP then Ok 60
    else if id =? PCI_CAP_ID_MSI then Ok 24
    else if id =? PCI_CAP_ID_MSIX then Ok 12
    else if id =? PCI_CAP_ID_VNDR then
      need (rd data 2 1) (Crash OutOfBounds) (fun v => Ok v)
    else Crash AssertFailed).

(* Following next pointers to the last capability: the offset of the byte holding the final zero pointer
   (lib/pci_caps.c:565-567, 571-582) and the offset of the last capability (0 if the list is empty).
   fuel bounds the walk; a list that does not end within it is a cycle. *)
Fixpoint last_cap (fuel : nat) (cfg : list N) (prevp last : N) : outcome (N * N) :=
  match fuel with
  | O => Crash Diverges
  | S fuel' =>
      if N.of_nat (length cfg) <=? prevp then Crash AssertFailed
      else need (rd cfg (N.to_nat prevp) 1) (Crash OutOfBounds) (fun nxt =>
           if nxt =? 0 then Ok (prevp, last) else last_cap fuel' cfg (nxt + 1) nxt)
  end.

(* lib/pci_caps.c:584-593 the end of cap_place: check the room, copy the capability, link it.  The stores
   of config_space bytes are byte stores (uint8_t). *)
Definition cap_put (cfg : list N) (size : N) (data : list N) (prevp off : N) : outcome (N * list N) :=
  if N.of_nat (length cfg) <? w64 (off + size) then Err ENOSPC
  else
    need (slice data 0 (N.to_nat size)) (Crash OutOfBounds) (fun d =>
    if N.of_nat (length cfg) <=? off then Crash AssertFailed
    else
    need (put_slice cfg (N.to_nat off) d) (Crash OutOfBounds) (fun c1 =>
    need (wr c1 (N.to_nat prevp) 1 off) (Crash OutOfBounds) (fun c2 =>
    if N.of_nat (length cfg) <=? off + 1 then Crash AssertFailed
    else need (wr c2 (N.to_nat (off + 1)) 1 0) (Crash OutOfBounds) (fun c3 => Ok (off, c3))))).

(* lib/pci_caps.c:536-593 cap_place: the offset chosen and the new config space. *)
Definition cap_place (p : pci) (pos size : N) (data : list N) : outcome (N * list N) :=
  let cfg := pc_cfg p in
  let place := cap_put cfg size data in
  if negb (pos =? 0) then
    if pos <? PCI_STD_HEADER_SIZEOF then Err EINVAL
    else match cap_find_by_offset p pos size with
         | Some _ => Err EINVAL
         | None => match last_cap 257 cfg 52 0 with
                   | Ok (prevp, _) => place prevp pos
                   | Err e => Err e
                   | Crash c => Crash c
                   end
         end
  else
    match last_cap 257 cfg 52 0 with
    | Err e => Err e
    | Crash c => Crash c
    | Ok (prevp, last) =>
        if last =? 0 then place prevp PCI_STD_HEADER_SIZEOF
        else match cap_size (skipn (N.to_nat last) cfg) false with
             | Ok lsize => place prevp (round_up (last + lsize) 4)
             | Err e => Err e
             | Crash c => Crash c
             end
    end.

(* The id and next fields of an extended capability header (include/pci_caps/common.h). *)
Definition ext_hdr (cfg : list N) (off : N) : option (N * N) :=
  if N.of_nat (length cfg) <=? off then None
  else match rd cfg (N.to_nat off) 4 with Some v => Some (N.land v 65535, N.shiftr v 20) | None => None end.

Definition set_ext_next (cfg : list N) (off nxt : N) : option (list N) :=
  match rd cfg (N.to_nat off) 4 with
  | Some v => wr cfg (N.to_nat off) 4 (bf_set v 20 12 nxt)
  | None => None
  end.

(* lib/pci_caps.c:627-629, 635-637 the walk to the last extended capability. *)
Fixpoint last_ext_cap (fuel : nat) (cfg : list N) (off : N) : outcome N :=
  match fuel with
  | O => Crash Diverges
  | S fuel' =>
      need (ext_hdr cfg off) (Crash AssertFailed) (fun h =>
      if snd h =? 0 then Ok off else last_ext_cap fuel' cfg (snd h))
  end.

(* lib/pci_caps.c:643-663 the end of ext_cap_place; prev is the previous capability, if any. *)
Definition ext_cap_put (cfg : list N) (size : N) (data : list N) (prev : option N) (off : N) : outcome (N * list N) :=
  if N.of_nat (length cfg) <? w64 (off + size) then Err ENOSPC
  else
    need (slice data 0 (N.to_nat size)) (Crash OutOfBounds) (fun d =>
    if N.of_nat (length cfg) <=? off then Crash AssertFailed
    else
    need (put_slice cfg (N.to_nat off) d) (Crash OutOfBounds) (fun c1 =>
    let finish c2 := need (set_ext_next c2 off 0) (Crash OutOfBounds) (fun c3 => Ok (off, c3)) in
    match prev with
    | None => finish c1
    | Some h => if negb (N.land off 3 =? 0) then Crash AssertFailed
                else need (set_ext_next c1 h off) (Crash OutOfBounds) finish
    end)).

(* lib/pci_caps.c:604-663 ext_cap_place. *)
Definition ext_cap_place (p : pci) (pos size : N) (data : list N) : outcome (N * list N) :=
  let cfg := pc_cfg p in
  let place := ext_cap_put cfg size data in
  need (ext_hdr cfg PCI_CFG_SPACE_SIZE) (Crash AssertFailed) (fun h =>
  if negb (pos =? 0) then
    if pos <? PCI_CFG_SPACE_SIZE then Err EINVAL
    else match cap_find_by_offset p pos size with
         | Some _ => Err EINVAL
         | None =>
             if (fst h =? 0) && negb (pos =? PCI_CFG_SPACE_SIZE) then Err EINVAL
             else match last_ext_cap 4097 cfg PCI_CFG_SPACE_SIZE with
                  | Ok l => place (Some l) pos
                  | Err e => Err e
                  | Crash c => Crash c
                  end
         end
  else if fst h =? 0 then place None PCI_CFG_SPACE_SIZE
  else match last_ext_cap 4097 cfg PCI_CFG_SPACE_SIZE with
       | Err e => Err e
       | Crash c => Crash c
       | Ok l => match cap_size (skipn (N.to_nat l) cfg) true with
                 | Ok lsize => place (Some l) (round_up (l + lsize) 4)
                 | Err e => Err e
                 | Crash c => Crash c
                 end
       end).

(* lib/pci_caps.c:705-719, 737-766 hdr_size per capability; None: unsupported capability. *)
Definition cap_hdr_size (ext : bool) (id : N) : option N :=
  if ext then
    if id =? PCI_EXT_CAP_ID_DSN then Some 4 else if id =? PCI_EXT_CAP_ID_VNDR then Some 8 else None
  else if (id =? PCI_CAP_ID_PM) || (id =? PCI_CAP_ID_EXP) || (id =? PCI_CAP_ID_MSI) || (id =? PCI_CAP_ID_MSIX) then Some 2
  else if id =? PCI_CAP_ID_VNDR then Some 3 else None.

(* lib/pci_caps.c:665-799 vfu_pci_add_capability.  express: the PCI type has extended config space.
   pos is a size_t, as are the sums here and in cap_place: they wrap around. *)
Definition add_capability (e : pci_env) (express : bool) (p : pci) (pos flags : N) (data : list N) : outcome N * pci :=
  let ext := has flags CAP_FLAG_EXTENDED in
  if negb (N.ldiff flags 7 =? 0) then (Err EINVAL, p)
  else if has flags CAP_FLAG_CALLBACK && negb (pe_cfg_cb e) then (Err EINVAL, p)
  else if ext && negb express then (Err EINVAL, p)
  else if Nat.eqb (length (if ext then pc_ext_caps p else pc_caps p)) VFU_MAX_CAPS then (Err ENOSPC, p)
  else
    need (rd data 0 (if ext then 2 else 1)) (Crash OutOfBounds, p) (fun id =>
    match cap_hdr_size ext id with
    | None => (Err ENOTSUP, p)
    | Some hsz =>
        match cap_size data ext with
        | Err er => (Err er, p)
        | Crash c => (Crash c, p)
        | Ok size =>
            if N.of_nat (length (pc_cfg p)) <=? w64 (pos + size) then (Err EINVAL, p)
            else
              match (if ext then ext_cap_place p pos size data else cap_place p pos size data) with
              | Err er => (Err er, p)
              | Crash c => (Crash c, p)
              | Ok (off, cfg') =>
                  let c := mk_cap ext id off hsz size flags in
                  (Ok off,
                   mk_pci cfg' (if ext then pc_caps p else pc_caps p ++ [c]) (if ext then pc_ext_caps p ++ [c] else pc_ext_caps p)
                     (if id =? PCI_CAP_ID_EXP then Some off else pc_exp_off p))
              end
        end
    end).

(* lib/pci_caps.c:866-891 the loop of vfu_pci_find_next_capability.  Ok o is the offset returned, Err e is
   0 with errno e. *)
Fixpoint find_loop (fuel : nat) (cfg : list N) (off id : N) : outcome N :=
  match fuel with
  | O => Crash Diverges
  | S fuel' =>
      if N.of_nat (length cfg) <=? off + 1 then Err EINVAL
      else need (rd cfg (N.to_nat off) 1) (Crash OutOfBounds) (fun i =>
           need (rd cfg (N.to_nat (off + 1)) 1) (Crash OutOfBounds) (fun nxt =>
           if i =? id then Ok off else if nxt =? 0 then Err ENOENT else find_loop fuel' cfg nxt id))
  end.

(* lib/pci_caps.c:842-864 vfu_pci_find_next_capability for standard capabilities. *)
Definition find_next_capability (cfg : list N) (off id : N) : outcome N :=
  if N.of_nat (length cfg) <=? off + 1 then Err EINVAL
  else need (rd cfg (if off =? 0 then 52%nat else N.to_nat (off + 1)) 1) (Crash OutOfBounds) (fun start =>
       if start =? 0 then Err ENOENT else find_loop 257 cfg start id).

(* lib/pci_caps.c:801-840 vfu_pci_find_next_ext_capability. *)
Fixpoint find_ext_loop (fuel : nat) (cfg : list N) (off id : N) : outcome N :=
  match fuel with
  | O => Crash Diverges
  | S fuel' =>
      if N.of_nat (length cfg) <=? off then Crash AssertFailed
      else if N.of_nat (length cfg) <=? off + 4 then Err EINVAL
      else need (ext_hdr cfg off) (Crash OutOfBounds) (fun h =>
           if fst h =? id then Ok off
           else if snd h =? 0 then Err ENOENT
           else find_ext_loop fuel' cfg (snd h) id)
  end.
Definition find_next_ext_capability (cfg : list N) (off id : N) : outcome N :=
  if N.of_nat (length cfg) <=? off + 4 then Err EINVAL
  else if off =? 0 then find_ext_loop 4097 cfg PCI_CFG_SPACE_SIZE id
  else need (ext_hdr cfg off) (Crash OutOfBounds) (fun h => find_ext_loop 4097 cfg (snd h) id).

(* lib/pci_caps.c:894-898 vfu_pci_find_capability. *)
Definition find_capability (cfg : list N) (ext : bool) (id : N) : outcome N :=
  if ext then find_next_ext_capability cfg 0 id else find_next_capability cfg 0 id.

(* lib/pci_caps.c:900-906 access_is_pci_cap_exp; with pci_cap_exp_off == -1 the address compared with is
   -1 + 8 = 7. *)
Definition access_is_pci_cap_exp (p : pci) (region off : N) : bool :=
  (region =? CFG_REGION) && (off =? match pc_exp_off p with Some o => o + 8 | None => 7 end).
