(* Vocabulary for the properties of the setup calls. *)
From Coq Require Import NArith ZArith List Bool.
From Verif Require Import Base Types Bytes Spec Dma Migr Irq Pci Handlers Server SpecServer Setup.
Import ListNotations.
Open Scope N_scope.

(* A region that may be registered: only the flags 1 (read), 2 (write), 4 (memory), 8 (always call back), 16 (64
   bits), 32 (prefetchable), at least one of the first two; a callback if it is always to be called; one of the nine
   regions; the configuration space readable, writeable and not memory; mappable areas only with a descriptor and
   inside the region. *)
Definition region_ok (a : region_args) : Prop :=
  let flag k := N.testbit (ra_flags a) k = true in
  ra_flags a < 64 /\ (flag 0 \/ flag 1) /\ (flag 3 -> ra_cb a = true) /\
  (0 <= ra_idx a < 9)%Z /\ (ra_idx a = 7%Z -> flag 0 /\ flag 1 /\ ~ flag 2) /\
  match ra_areas a with
  | None => ra_nr a = 0
  | Some l => ra_nr a <> 0 /\ ra_fd a <> (-1)%Z /\ forall base len, In (base, len) l -> base + len <= ra_size a
  end.

(* The caller passes as many areas as it says, and none that wraps around the 64-bit address space. *)
Definition args_ok (a : region_args) : Prop :=
  match ra_areas a with
  | None => True
  | Some l => ra_nr a = N.of_nat (length l) /\ forall base len, In (base, len) l -> base + len < 2 ^ 64
  end.

(* The areas clients may map: those given; with a descriptor and no areas, all of the region. *)
Definition mappable (a : region_args) : list (N * N) :=
  match ra_areas a with Some l => l | None => if Z.eq_dec (ra_fd a) (-1) then [] else [(0, ra_size a)] end.

(* Only element i of a list changes. *)
Definition only_at {A} (i : nat) (l l' : list A) : Prop :=
  length l' = length l /\ forall j, j <> i -> nth_error l' j = nth_error l j.

(* A refused call leaves everything as it is, with two exceptions: the memory for the areas of a region cannot be
   allocated; incomplete migration callbacks are given when there are some already. *)
Definition refusal_exception (d : device) (k : call) (e : N) : Prop :=
  match k with
  | CRegion _ _ => e = ENOMEM
  | CMigration v _ _ _ => v = 2%Z /\ cx_mig (dv_ctx d) <> None
  | _ => False
  end.

(* A caller that leaves alone the counts of the error and request interrupts (types 3 and 4, which are 1), and asks
   for fewer than 2^32 - 1 vectors of the others. *)
Definition careful (k : call) : Prop :=
  match k with
  | CNrIrqs type count => count < 2 ^ 32 - 1 /\ (type = 3 \/ type = 4 -> count = 1)
  | CRealize => False
  | _ => True
  end.

(* The configuration space when the device is realized: the one set up before, or zeros, of the size of region 7, by
   default 256. *)
Definition config_before (c : ctx) : list N :=
  let size := match nth_error (cx_regs c) 7 with Some r => ri_size r | None => 0 end in
  match pc_cfg (cx_pci c) with [] => repeat 0 (if N.eq_dec size 0 then 256 else N.to_nat size) | l => l end.

(* Bit b of byte p of the configuration space after realizing: bits 0-3 of the base address registers (from byte 16,
   four bytes each) tell I/O from memory, 64 bits and prefetchable; bit 4 of byte 6 that there is a list of
   capabilities; byte 61 is 1 if the device has interrupt INTx.  Everything else stays. *)
Definition config_bit_after (c : ctx) (p b : N) : bool :=
  let old := N.testbit (nth (N.to_nat p) (config_before c) 0) b in
  let bar := if (16 <=? p) && (p <? 40) && (p mod 4 =? 0) then nth_error (cx_regs c) (N.to_nat ((p - 16) / 4)) else None in
  match bar with
  | Some r =>
      let flag k := N.testbit (ri_flags r) k in
      match b with
      | 0 => old || negb (flag 2)
      | 1 => if flag 4 then false else old
      | 2 => if flag 4 then true else old
      | 3 => if flag 5 then true else old
      | _ => old
      end
  | None =>
      if (p =? 6) && (b =? 4) then old || (match pc_caps (cx_pci c) with [] => false | _ => true end)
      else if (p =? 61) && negb (nth 0 (ic_count (cx_irq_cfg c)) 0 =? 0) then b =? 0
      else old
  end.

(* Region 7 after realizing. *)
Definition config_region (r : reg_info) : reg_info :=
  if N.eq_dec (ri_size r) 0 then mk_reg 3 256 (ri_cb r) (ri_areas r) (ri_fd r) (ri_off r) (ri_subs r) else r.

(* What realizing leaves alone. *)
Definition realize_keeps (d d' : device) : Prop :=
  let c := dv_ctx d in
  let c' := dv_ctx d' in
  cx_dma c' = cx_dma c /\ cx_mig c' = cx_mig c /\ cx_irq_cfg c' = cx_irq_cfg c /\ cx_quiesce c' = cx_quiesce c /\
  cx_reset c' = cx_reset c /\ cx_register c' = cx_register c /\ cx_unregister c' = cx_unregister c /\
  cx_max_xfer c' = cx_max_xfer c /\ pc_caps (cx_pci c') = pc_caps (cx_pci c) /\
  pc_ext_caps (cx_pci c') = pc_ext_caps (cx_pci c) /\ pc_exp_off (cx_pci c') = pc_exp_off (cx_pci c) /\
  sv_pending (dv_sv d') = sv_pending (dv_sv d) /\ sv_quiesced (dv_sv d') = sv_quiesced (dv_sv d) /\
  sv_conn (dv_sv d') = sv_conn (dv_sv d).

(* A device that has just been created and set up, not realized. *)
Definition in_setup (d : device) : Prop :=
  exists d0 l os, create_ctx 0 0 0 None = Ok d0 /\ dev_calls d0 l = (Some d, os) /\ Forall careful l.

(* A device that has just been created, after calls that all succeed. *)
Definition set_up (l : list call) (d : device) : Prop :=
  exists d0, create_ctx 0 0 0 None = Ok d0 /\ dev_calls d0 l = (Some d, repeat (Ok tt) (length l)).

(* A client connects and sends one request: what vfu_run_ctx returns. *)
Definition first_request (d : device) (cmd : N) (body : list N) (fds : list Z) (o : oracle) : outcome N :=
  let s1 := snd (fst (sv_step (dv_sv d) (SAttach 1048576))) in
  let h := mk_header 1 cmd (16 + N.of_nat (length body)) 0 0 in
  fst (fst (sv_step s1 (SRun (mk_senv (RxMsg h fds (inr body)) o None None None None)))).

(* The parts of a device, and which of them a call may change. *)
Inductive part : Type := Regions | Config | Capabilities | QuiesceCb | ResetCb | Dma_ | Vectors | VectorCbs | Migration | Express.
Definition changes_only (l : list part) (d d' : device) : Prop :=
  let c := dv_ctx d in
  let c' := dv_ctx d' in
  (In Regions l \/ cx_regs c' = cx_regs c) /\
  (In Config l \/ pc_cfg (cx_pci c') = pc_cfg (cx_pci c)) /\
  (In Capabilities l \/ (pc_caps (cx_pci c') = pc_caps (cx_pci c) /\ pc_ext_caps (cx_pci c') = pc_ext_caps (cx_pci c) /\ pc_exp_off (cx_pci c') = pc_exp_off (cx_pci c))) /\
  (In QuiesceCb l \/ cx_quiesce c' = cx_quiesce c) /\
  (In ResetCb l \/ cx_reset c' = cx_reset c) /\
  (In Dma_ l \/ (cx_dma c' = cx_dma c /\ cx_register c' = cx_register c /\ cx_unregister c' = cx_unregister c)) /\
  (In Vectors l \/ ic_count (cx_irq_cfg c') = ic_count (cx_irq_cfg c)) /\
  (In VectorCbs l \/ ic_state_cb (cx_irq_cfg c') = ic_state_cb (cx_irq_cfg c)) /\
  (In Migration l \/ cx_mig c' = cx_mig c) /\
  (In Express l \/ dv_express d' = dv_express d) /\
  cx_irqs c' = cx_irqs c /\ cx_hint c' = cx_hint c /\ cx_max_xfer c' = cx_max_xfer c /\
  sv_pending (dv_sv d') = sv_pending (dv_sv d) /\ sv_quiesced (dv_sv d') = sv_quiesced (dv_sv d) /\
  sv_conn (dv_sv d') = sv_conn (dv_sv d) /\ sv_realized (dv_sv d') = sv_realized (dv_sv d).

(* The bytes at some positions are given, the others stay. *)
Definition with_bytes (cfg : list N) (l : list (nat * N)) (cfg' : list N) : Prop :=
  length cfg' = length cfg /\ (forall x v, In (x, v) l -> nth x cfg' 0 = v) /\ (forall x, ~ In x (map fst l) -> nth x cfg' 0 = nth x cfg 0).

(* The low and high byte of a 16-bit number. *)
Definition lo (v : N) : N := v mod 256.
Definition hi (v : N) : N := (v / 256) mod 256.
