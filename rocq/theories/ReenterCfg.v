(* Devices that use the library from within the callbacks made for configuration space: the access callback of the region,
   for the bytes the library leaves to the device, and the reset callback of a function level reset.  An access may make
   several; each is made at the end of its part of the access, after what the library stores for that part. *)
From Coq Require Import NArith ZArith List Bool.
From Verif Require Import Base Types Bytes Dma Dirty Migr Irq Pci Handlers Server Reenter.
Import ListNotations.
Open Scope N_scope.

(* What the device does in the k-th callback, if one was made. *)
Definition part_acts (s : server) (k : nat) (ev : list event) (i : inside) : outcome unit * server * list event :=
  match ev with [] => (Ok tt, s, []) | _ => do_acts s (in_cb i k) end.

(* lib/pci.c:416-452 pci_config_space_access, reading. *)
Fixpoint cfg_read_in (fuel : nat) (s : server) (answers : acc_oracle) (k : nat) (count off done : N) (i : inside)
  : outcome N * list N * server * list event :=
  if count =? 0 then (Ok done, [], s, [])
  else
    match fuel with
    | O => (Crash Diverges, [], s, [])
    | S fuel' =>
        match read_segment (env_of (sv_ctx s)) (cx_pci (sv_ctx s)) count off (answers k) with
        | None => (Ok 0, [], s, [])
        | Some (x, ev) =>
            let '(oa, s1, eva) := part_acts s k ev i in
            match oa, x with
            | Crash cr, _ => (Crash cr, [], s1, ev ++ eva)
            | _, Err er => (Err er, [], s1, ev ++ eva)
            | _, Crash c => (Crash c, [], s1, ev ++ eva)
            | _, Ok (n, bs) =>
                let '(o, bs', s', ev') := cfg_read_in fuel' s1 answers (k + length ev) (count - n) (off + n) (done + n) i in
                (o, bs ++ bs', s', ev ++ eva ++ ev')
            end
        end
    end.

(* lib/pci.c:416-452 pci_config_space_access, writing. *)
Fixpoint cfg_write_in (fuel : nat) (s : server) (answers : acc_oracle) (rans : nat -> cb_answer) (k : nat)
    (off : N) (buf : list N) (done : N) (i : inside) : outcome N * server * list event :=
  match buf with
  | [] => (Ok done, s, [])
  | _ =>
      match fuel with
      | O => (Crash Diverges, s, [])
      | S fuel' =>
          let p := cx_pci (sv_ctx s) in
          match write_segment (env_of (sv_ctx s)) p off buf (answers k) (rans k) with
          | None => (Ok 0, s, [])
          | Some (x, cfg', ev) =>
              let '(oa, s1, eva) := part_acts (set_ctx s (set_pci (sv_ctx s) (set_cfg p cfg'))) k ev i in
              match oa, x with
              | Crash cr, _ => (Crash cr, s1, ev ++ eva)
              | _, Err er => (Err er, s1, ev ++ eva)
              | _, Crash c => (Crash c, s1, ev ++ eva)
              | _, Ok n =>
                  let '(o, s', ev') := cfg_write_in fuel' s1 answers rans (k + length ev) (off + n) (skipn (N.to_nat n) buf) (done + n) i in
                  (o, s', ev ++ eva ++ ev')
              end
          end
      end
  end.

(* lib/libvfio-user.c:184-220 region_access. *)
Definition region_access_all (s : server) (o : oracle) (region : N) (is_write : bool) (off count : N) (data : list N) (i : inside)
  : outcome N * list N * server * list event :=
  match nth_error (cx_regs (sv_ctx s)) (N.to_nat region) with
  | None => (Crash OutOfBounds, [], s, [])
  | Some r =>
      if (region =? CFG_REGION) && negb (has (ri_flags r) REGION_FLAG_ALWAYS_CB) then
        if is_write then
          let '(res, s', ev) := cfg_write_in (length data) s (or_access o) (or_reset o) 0 off data 0 i in (res, [], s', ev)
        else cfg_read_in (N.to_nat count) s (or_access o) 0 count off 0 i
      else region_access_in s o region is_write off count data i
  end.

(* lib/libvfio-user.c:277-329 handle_region_access. *)
Definition handle_region_access_all (s : server) (o : oracle) (is_write : bool) (body : list N) (i : inside) : hres * server * list event :=
  if N.of_nat (length body) <? 16 then (herr EINVAL, s, [])
  else
    need (rd body 0 8) (HCrash OutOfBounds, s, []) (fun off =>
    need (rd body 8 4) (HCrash OutOfBounds, s, []) (fun region =>
    need (rd body 12 4) (HCrash OutOfBounds, s, []) (fun count =>
    if negb (valid_region_access (sv_ctx s) (N.of_nat (length body)) is_write off region count) then (herr EINVAL, s, [])
    else if count =? 0 then (HReply 0 [] [], s, [])
    else
      let data := if is_write then skipn 16 body else [] in
      let '(res, buf, s', ev) := region_access_all s o region is_write off count data i in
      let out := le_bytes 8 off ++ le_bytes 4 region ++ le_bytes 4 count
                 ++ (if is_write then [] else fit (N.to_nat count) buf) in
      match res with
      | Ok n => if n =? count then (HReply 0 out [], s', ev) else (HReply EINVAL out [], s', ev)
      | Err e => (HReply e out [], s', ev)
      | Crash cr => (HCrash cr, s', ev)
      end))).

(* lib/libvfio-user.c:1316-1394 handle_request, the dispatch. *)
Definition dispatch_all (s : server) (o : oracle) (cmd : N) (body : list N) (fds : list Z) (i : inside)
  : hres * server * list Z * list event :=
  let keep (x : hres * server * list event) := let '(r, s', ev) := x in (r, s', fds, ev) in
  if cmd =? CMD_REGION_READ then keep (handle_region_access_all s o false body i)
  else if cmd =? CMD_REGION_WRITE then keep (handle_region_access_all s o true body i)
  else dispatch_in s o cmd body fds i.
