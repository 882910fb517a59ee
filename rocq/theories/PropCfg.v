(* C66: a config space access is carried out piece by piece, in order, up to the first piece that is refused;
   what each kind of piece does. *)
From Coq Require Import NArith ZArith List Bool Lia ZifyBool ZifyNat ZifyN.
From Verif Require Import Base Types Bytes BytesProofs BufProofs Dma Dirty Migr Irq Pci SpecPci SpecCfg PciProofs PciWrite PciCapWrite PciLoop CfgPieces
  PropPci Handlers SpecHandlers HandlersProofs PropHandlers.
Import ListNotations.
Open Scope N_scope.
Ltac Zify.zify_post_hook ::= idtac.

(* Wherever a write crosses a boundary (between header registers, into or out of a capability), it is the
   same as two writes one after the other: the first part takes effect before the second is looked at, and the
   second part is only carried out if the first was carried out in full. *)
Theorem C66_write_pieces : forall e p answers rans off d1 d2,
  caps_ok p -> bytes d1 -> bytes d2 -> full_callbacks answers ->
  (forall c, In c (all_caps p) -> ~ runs_past c off (N.of_nat (length (d1 ++ d2)))) ->
  boundary p (off + N.of_nat (length d1)) ->
  config_write e p answers rans off (d1 ++ d2) = then_write e answers rans off d1 d2 (config_write e p answers rans off d1).
Proof. intros e p answers rans off d1 d2. apply config_write_app. Qed.
Print Assumptions C66_write_pieces.
(* Eight bytes from the gap before the device's capability: two callbacks, and the second is not made when the
   first fails.  Six bytes from the interrupt line: it is stored although the capability behind the header
   refuses its part. *)
Example C66_write_case :
  boundary ex_pci 0xb0 /\ (forall c, In c (all_caps ex_pci) -> ~ runs_past c 0xac 8) /\
  config_write ex_env ex_pci ex_ans no_reset 0xac ([1; 2; 3; 4] ++ [5; 6; 7; 8]) =
    (Ok 8, ex_pci, [EvAccess 7 true 0xac 4 [1; 2; 3; 4]; EvAccess 7 true 0xb0 4 [5; 6; 7; 8]]) /\
  config_write ex_env ex_pci (fun k _ n => match k with O => AccErr 71 | _ => AccOk n [] end) no_reset 0xac ([1; 2; 3; 4] ++ [5; 6; 7; 8]) =
    (Err 71, ex_pci, [EvAccess 7 true 0xac 4 [1; 2; 3; 4]]) /\
  boundary ex_pci 0x3f /\
  (let r := config_write ex_env ex_pci ex_ans no_reset 0x3c [5; 6; 7; 8; 9; 9] in
     fst (fst r) = Err EPERM /\ nth 0x3c (pc_cfg (snd (fst r))) 0 = 5).
Proof.
  split; [right; right; exists ex_dev; split; [cbn; tauto|left; reflexivity]|].
  split. { intros c [<-|[<-|[<-|[<-|[<-|[]]]]]]; unfold runs_past; vm_compute; intros (A & B & C); discriminate. }
  split; [vm_compute; reflexivity|]. split; [vm_compute; reflexivity|].
  split; [left; unfold register_start; cbn [In]; tauto|]. vm_compute. split; reflexivity.
Qed.

(* Reads behave the same at the end of the header and around capabilities. *)
Theorem C66_read_pieces : forall e p answers off n1 n2,
  caps_ok p -> full_callbacks answers -> off + (n1 + n2) <= N.of_nat (length (pc_cfg p)) ->
  (forall c, In c (all_caps p) -> ~ runs_past c off (n1 + n2)) ->
  boundary p (off + n1) -> 64 <= off + n1 ->
  config_read e p answers off (n1 + n2) = then_read e p answers off n1 n2 (config_read e p answers off n1).
Proof. intros e p answers off n1 n2. apply config_read_app. Qed.
Print Assumptions C66_read_pieces.
Example C66_read_case :
  boundary ex_pci (0x70 + 60) /\ boundary ex_pci 0xb0 /\
  config_read ex_env ex_pci ex_ans 0xac (4 + 8) = (Ok 12, repeat 0xee 12, [EvAccess 7 false 0xac 4 []; EvAccess 7 false 0xb0 8 []]).
Proof.
  split; [right; right; exists ex_px; split; [cbn; auto|right; reflexivity]|].
  split; [right; right; exists ex_dev; split; [cbn; tauto|left; reflexivity]|]. vm_compute. reflexivity.
Qed.

(* ---------- single pieces *)

Lemma set_cfg_same p : set_cfg p (pc_cfg p) = p.
Proof. destruct p. reflexivity. Qed.

Lemma gap_segment p off n w : caps_ok p -> 0 < n -> in_gap p off n -> next_segment p n off w = SegOther n.
Proof.
  intros K N0 (L & G). unfold next_segment, PCI_STD_HEADER_SIZEOF. replace (off <? 64) with false by lia.
  pose proof (pieces p off n K L) as P. destruct (cap_find_by_offset p off n) as [c|]; [|reflexivity].
  destruct P as (I & P1 & P2 & _). destruct (G c I) as [Q|Q]; [lia|]. replace (off <? cp_off c) with true by lia. f_equal. lia.
Qed.

Lemma cap_segment p c off n w : caps_ok p -> 0 < n -> In c (all_caps p) -> cp_off c <= off -> off + n <= cap_end c ->
  next_segment p n off w = SegCap c n.
Proof.
  intros K N0 I Lo Hi. pose proof (co_low _ K c I) as LOW. unfold cap_end in *.
  unfold next_segment, PCI_STD_HEADER_SIZEOF. replace (off <? 64) with false by lia.
  rewrite (find_cap_at p c off n K I) by (unfold in_cap, cap_end; lia). replace (off <? cp_off c) with false by lia. f_equal. lia.
Qed.

(* One iteration that handles everything, or stops. *)
Lemma one_write e p answers rans off data r : data <> [] ->
  write_segment e p off data (answers 0%nat) (rans 0%nat) = Some r ->
  (forall n, fst (fst r) = Ok n -> n = N.of_nat (length data)) ->
  config_write e p answers rans off data = (fst (fst r), set_cfg p (snd (fst r)), snd r).
Proof.
  intros ND W A. unfold config_write. destruct data as [|y data']; [congruence|]. cbn [length cfg_write]. set (data := y :: data') in *. rewrite W.
  destruct r as [[o cfg'] ev]. cbn [fst snd] in *. destruct o as [n|er|cr]; [|reflexivity|reflexivity].
  rewrite (A n eq_refl). rewrite Nat2N.id, skipn_all.
  replace (cfg_write (length data') e (set_cfg p cfg') answers rans (0 + length ev) (off + N.of_nat (length data)) [] (0 + N.of_nat (length data)))
    with (Ok (0 + N.of_nat (length data)), set_cfg p cfg', @nil event) by (destruct (length data'); reflexivity).
  now rewrite app_nil_r.
Qed.

Lemma one_read e p answers off n r : 0 < n ->
  read_segment e p n off (answers 0%nat) = Some r ->
  (forall m s, fst r = Ok (m, s) -> m = n) ->
  config_read e p answers off n = (match fst r with Ok (m, _) => Ok m | Err er => Err er | Crash cr => Crash cr end,
                                   match fst r with Ok (_, s) => s | _ => [] end, snd r).
Proof.
  intros N0 R A. unfold config_read. destruct (N.to_nat n) as [|f] eqn:F; [lia|]. cbn [cfg_read]. replace (n =? 0) with false by lia. rewrite R.
  destruct r as [o ev]. cbn [fst snd] in *. destruct o as [[m s]|er|cr]; [|reflexivity|reflexivity].
  rewrite (A m s eq_refl). rewrite N.sub_diag.
  replace (cfg_read f e p answers (0 + length ev) 0 (off + n) (0 + n)) with (Ok (0 + n), @nil N, @nil event) by (destruct f; reflexivity).
  now rewrite !app_nil_r.
Qed.

(* What the device's config space callback makes of an access: one call for exactly these bytes; its answer is
   the result. *)
Definition device_write (p : pci) (answers : acc_oracle) (off : N) (data : list N) : outcome N * pci * list event :=
  (match answers 0%nat off (N.of_nat (length data)) with AccErr er => Err er | AccOk _ _ => Ok (N.of_nat (length data)) end,
   p, [EvAccess 7 true off (N.of_nat (length data)) data]).
Definition device_read (answers : acc_oracle) (off n : N) : outcome N * list N * list event :=
  (match answers 0%nat off n with AccErr er => Err er | AccOk _ _ => Ok n end,
   match answers 0%nat off n with AccErr _ => [] | AccOk _ s => fit (N.to_nat n) s end,
   [EvAccess 7 false off n []]).

Lemma nonstd_write_is e p answers off data : data <> [] -> full_callbacks answers ->
  let '(o, ev) := nonstd_write e off data (answers 0%nat) in
  (o, p, ev) = (if pe_cfg_cb e then device_write p answers off data else (Err EINVAL, p, [])) /\
  forall n, o = Ok n -> n = N.of_nat (length data).
Proof.
  intros ND FC. unfold nonstd_write, device_write. destruct (pe_cfg_cb e); [|split; [reflexivity|discriminate]].
  assert (L : 0 < N.of_nat (length data)) by (destruct data; [congruence|cbn [length]; lia]).
  pose proof (FC 0%nat off (N.of_nat (length data))) as F. destruct (answers 0%nat off (N.of_nat (length data))) as [m s|er].
  - rewrite (F m s eq_refl). rewrite N.ltb_irrefl. replace (N.of_nat (length data) =? 0) with false by lia.
    split; [reflexivity|]. intros n Q. now injection Q.
  - split; [reflexivity|discriminate].
Qed.

Lemma nonstd_read_is e p answers off n : 0 < n -> full_callbacks answers -> off + n <= N.of_nat (length (pc_cfg p)) ->
  let '(o, ev) := nonstd_read e p off n (answers 0%nat) in
  (match o with Ok (m, _) => Ok m | Err er => Err er | Crash cr => Crash cr end, match o with Ok (_, s) => s | _ => [] end, ev) =
    (if pe_cfg_cb e then device_read answers off n else (Ok n, firstn (N.to_nat n) (skipn (N.to_nat off) (pc_cfg p)), [])) /\
  forall m s, o = Ok (m, s) -> m = n.
Proof.
  intros N0 FC HL. unfold nonstd_read, device_read. destruct (pe_cfg_cb e).
  - pose proof (FC 0%nat off n) as F. destruct (answers 0%nat off n) as [m s|er].
    + rewrite (F m s eq_refl). rewrite N.ltb_irrefl. replace (n =? 0) with false by lia. split; [reflexivity|]. intros m' s' Q. now injection Q.
    + split; [reflexivity|discriminate].
  - unfold cfg_copy. replace (N.of_nat (length (pc_cfg p)) <=? off) with false by lia. unfold slice.
    replace (N.to_nat off + N.to_nat n <=? length (pc_cfg p))%nat with true by lia. split; [reflexivity|]. intros m s Q. now injection Q.
Qed.

(* Outside the header and all capabilities everything is the device's: with a config space callback a write is
   one call of it for exactly these bytes, and its answer is the result; without one the write is EINVAL.
   The library's copy of config space is not changed either way. *)
Theorem C66_gap_write : forall e p answers rans off data,
  caps_ok p -> data <> [] -> full_callbacks answers -> in_gap p off (N.of_nat (length data)) ->
  config_write e p answers rans off data = if pe_cfg_cb e then device_write p answers off data else (Err EINVAL, p, []).
Proof.
  intros e p answers rans off data K ND FC G.
  assert (L : 0 < N.of_nat (length data)) by (destruct data; [congruence|cbn [length]; lia]).
  pose proof (nonstd_write_is e p answers off data ND FC) as Q. destruct (nonstd_write e off data (answers 0%nat)) as [o ev] eqn:NW. destruct Q as (<- & A).
  rewrite (one_write e p answers rans off data (o, pc_cfg p, ev)); [cbn [fst snd]; now rewrite set_cfg_same|exact ND| |exact A].
  unfold write_segment. rewrite (gap_segment p off _ true K L G). rewrite Nat2N.id, firstn_all, NW. reflexivity.
Qed.
Print Assumptions C66_gap_write.
Example C66_gap_write_case : in_gap ex_pci 0xb8 8 /\ in_gap ex_pci 0xac 4 /\
  config_write (mk_env [4096; 0; 0; 0; 0; 0] [7; 0; 0; 0; 0; 0] false true) ex_pci ex_ans no_reset 0xac [1; 2; 3; 4] = (Err EINVAL, ex_pci, []) /\
  config_write ex_env ex_pci ex_ans no_reset 0xac [1; 2; 3; 4] = (Ok 4, ex_pci, [EvAccess 7 true 0xac 4 [1; 2; 3; 4]]) /\
  config_write ex_env ex_pci (fun _ _ _ => AccErr 71) no_reset 0xac [1; 2; 3; 4] = (Err 71, ex_pci, [EvAccess 7 true 0xac 4 [1; 2; 3; 4]]).
Proof.
  split; [|split; [|vm_compute; repeat split; reflexivity]]; (split; [lia|]);
    intros c [<-|[<-|[<-|[<-|[<-|[]]]]]]; unfold cap_end; cbn [cp_off cp_size ex_pm ex_vndr ex_msi ex_px ex_dev]; lia.
Qed.

(* Reading there: the callback's bytes, or config space as the library has it. *)
Theorem C66_gap_read : forall e p answers off n,
  caps_ok p -> 0 < n -> full_callbacks answers -> off + n <= N.of_nat (length (pc_cfg p)) -> in_gap p off n ->
  config_read e p answers off n =
    if pe_cfg_cb e then device_read answers off n else (Ok n, firstn (N.to_nat n) (skipn (N.to_nat off) (pc_cfg p)), []).
Proof.
  intros e p answers off n K N0 FC HL G.
  pose proof (nonstd_read_is e p answers off n N0 FC HL) as Q. destruct (nonstd_read e p off n (answers 0%nat)) as [o ev] eqn:NR. destruct Q as (<- & A).
  rewrite (one_read e p answers off n (o, ev)); [reflexivity|exact N0| |exact A].
  unfold read_segment. rewrite (gap_segment p off _ false K N0 G). now rewrite NR.
Qed.
Print Assumptions C66_gap_read.
Example C66_gap_read_case : in_gap ex_pci 0xac 4 /\
  config_read ex_env ex_pci ex_ans 0xac 4 = (Ok 4, [0xee; 0xee; 0xee; 0xee], [EvAccess 7 false 0xac 4 []]) /\
  config_read ex_env ex_pci (fun _ _ _ => AccErr 71) 0xac 4 = (Err 71, [], [EvAccess 7 false 0xac 4 []]).
Proof.
  split; [|vm_compute; repeat split; reflexivity]; (split; [lia|]);
    intros c [<-|[<-|[<-|[<-|[<-|[]]]]]]; unfold cap_end; cbn [cp_off cp_size ex_pm ex_vndr ex_msi ex_px ex_dev]; lia.
Qed.

(* A capability registered with a callback is the device's too, its header included; unless it is also
   read-only, then a write is EPERM and the device is not asked. *)
Theorem C66_device_capability_write : forall e p answers rans c off data,
  caps_ok p -> data <> [] -> full_callbacks answers -> In c (all_caps p) -> by_callback c ->
  cp_off c <= off -> off + N.of_nat (length data) <= cap_end c ->
  (~ read_only c -> config_write e p answers rans off data =
     if pe_cfg_cb e then device_write p answers off data else (Err EINVAL, p, [])).
Proof.
  intros e p answers rans c off data K ND FC I CB Lo Hi NRO.
  assert (L : 0 < N.of_nat (length data)) by (destruct data; [congruence|cbn [length]; lia]).
  pose proof (nonstd_write_is e p answers off data ND FC) as Q. destruct (nonstd_write e off data (answers 0%nat)) as [o ev] eqn:NW. destruct Q as (<- & A).
  rewrite (one_write e p answers rans off data (o, pc_cfg p, ev)); [cbn [fst snd]; now rewrite set_cfg_same|exact ND| |exact A].
  unfold write_segment. rewrite (cap_segment p c off _ true K L I Lo Hi). rewrite has_readonly, has_callback.
  destruct (N.testbit (cp_flags c) 2) eqn:RO; [exfalso; apply NRO; exact RO|]. rewrite CB. rewrite Nat2N.id, firstn_all, NW. reflexivity.
Qed.
Print Assumptions C66_device_capability_write.
Example C66_device_capability_write_case : by_callback ex_dev /\ ~ read_only ex_dev /\
  config_write ex_env ex_pci ex_ans no_reset 0xb0 [1; 2; 3; 4; 5; 6; 7; 8] = (Ok 8, ex_pci, [EvAccess 7 true 0xb0 8 [1; 2; 3; 4; 5; 6; 7; 8]]).
Proof. split; [reflexivity|]. split; [discriminate|]. vm_compute. reflexivity. Qed.

Theorem C66_device_capability_read : forall e p answers c off n,
  caps_ok p -> 0 < n -> full_callbacks answers -> In c (all_caps p) -> by_callback c ->
  cp_off c <= off -> off + n <= cap_end c ->
  config_read e p answers off n =
    if pe_cfg_cb e then device_read answers off n else (Ok n, firstn (N.to_nat n) (skipn (N.to_nat off) (pc_cfg p)), []).
Proof.
  intros e p answers c off n K N0 FC I CB Lo Hi. pose proof (co_high _ K c I) as HI. assert (HL : off + n <= N.of_nat (length (pc_cfg p))) by lia.
  pose proof (nonstd_read_is e p answers off n N0 FC HL) as Q. destruct (nonstd_read e p off n (answers 0%nat)) as [o ev] eqn:NR. destruct Q as (<- & A).
  rewrite (one_read e p answers off n (o, ev)); [reflexivity|exact N0| |exact A].
  unfold read_segment. rewrite (cap_segment p c off _ false K N0 I Lo Hi). rewrite has_callback, CB. now rewrite NR.
Qed.
Print Assumptions C66_device_capability_read.
Example C66_device_capability_read_case :
  config_read ex_env ex_pci ex_ans 0xb1 3 = (Ok 3, [0xee; 0xee; 0xee], [EvAccess 7 false 0xb1 3 []]) /\ In ex_dev (all_caps ex_pci).
Proof. split; [vm_compute; reflexivity|cbn; tauto]. Qed.

(* Writes to a read-only capability, and writes that start in the header of a capability the library handles,
   are EPERM: nothing changes and no callback runs. *)
Theorem C66_protected_write : forall e p answers rans c off data,
  caps_ok p -> data <> [] -> In c (all_caps p) -> cp_off c <= off < cap_end c ->
  read_only c \/ (~ by_callback c /\ off < cp_off c + cp_hdr_size c) ->
  config_write e p answers rans off data = (Err EPERM, p, []).
Proof.
  intros e p answers rans c off data K ND I A P.
  rewrite (one_write e p answers rans off data (Err EPERM, pc_cfg p, [])); [cbn [fst snd]; now rewrite set_cfg_same|exact ND| |discriminate].
  pose proof (co_low _ K c I) as LOW. unfold write_segment, next_segment, PCI_STD_HEADER_SIZEOF. replace (off <? 64) with false by lia.
  rewrite (find_cap_at p c off _ K I) by exact A. replace (off <? cp_off c) with false by lia. rewrite has_readonly, has_callback.
  destruct (N.testbit (cp_flags c) 2) eqn:RO; [reflexivity|]. destruct P as [P|(P & Q)]; [unfold read_only in P; congruence|].
  destruct (N.testbit (cp_flags c) 1) eqn:CB; [exfalso; apply P; exact CB|]. replace (off - cp_off c <? cp_hdr_size c) with true by lia. reflexivity.
Qed.
Print Assumptions C66_protected_write.
Example C66_protected_write_case :
  config_write ex_env ex_pci ex_ans no_reset 0x44 [1; 2; 3; 4] = (Err EPERM, ex_pci, []) /\
  config_write ex_env ex_pci ex_ans no_reset 0x59 [1; 2; 3; 4] = (Err EPERM, ex_pci, []) /\ read_only ex_pm /\ ~ by_callback ex_msi.
Proof. repeat split; try (vm_compute; reflexivity). discriminate. Qed.

(* A write that starts inside the header but not at a register is given up at once. *)
Theorem C66_inside_register : forall e p answers rans off data,
  data <> [] -> off < 64 -> ~ register_start off \/ off = 53 ->
  config_write e p answers rans off data = (Ok 0, p, []).
Proof.
  intros e p answers rans off data ND L H. unfold config_write. destruct data as [|y data']; [congruence|]. cbn [length cfg_write].
  unfold write_segment, next_segment, PCI_STD_HEADER_SIZEOF. replace (off <? 64) with true by lia.
  assert (Z : reg_size off = 0).
  { unfold reg_size. unfold register_start in H. cbn [In] in H. cbn [existsb].
    destruct ((off =? 0) || _) eqn:E1; [lia|]. destruct (off =? 9) eqn:E2; [lia|]. destruct ((off =? 4) || _) eqn:E3; [lia|].
    destruct ((off =? 8) || _) eqn:E4; [lia|reflexivity]. }
  rewrite Z. reflexivity.
Qed.
Print Assumptions C66_inside_register.
Example C66_inside_register_case : ~ register_start 5 /\ config_write ex_env ex_pci ex_ans no_reset 5 [1; 2; 3; 4] = (Ok 0, ex_pci, []).
Proof. split; [|vm_compute; reflexivity]. unfold register_start. cbn [In]. lia. Qed.

(* ---------- the request *)

(* A region write request to config space the library handles: all the bytes as one config space write; success
   is answered with the header of the request, everything else with an error: the error of the piece that
   failed, EINVAL if the library gave up.  What the pieces before did stays done. *)
Theorem C66_write_request : forall c o off data fds ri,
  regs_wf c -> in_range off 7 (N.of_nat (length data)) -> access_ok c true off 7 (N.of_nat (length data)) data -> data <> [] ->
  nth_error (cx_regs c) 7 = Some ri -> N.testbit (ri_flags ri) 3 = false ->
  let '(res, p', ev) := config_write (env_of c) (cx_pci c) (or_access o) (or_reset o) off data in
  dispatch c o 10 (access_req off 7 (N.of_nat (length data)) data) fds =
    (match res with
     | Ok n => HReply (if n =? N.of_nat (length data) then 0 else EINVAL) (access_req off 7 (N.of_nat (length data)) []) []
     | Err er => HReply er (access_req off 7 (N.of_nat (length data)) []) []
     | Crash cr => HCrash cr
     end, set_pci c p', fds, ev).
Proof.
  intros c o off data fds ri W R A ND En F.
  assert (L : 0 < N.of_nat (length data)) by (destruct data; [congruence|cbn [length]; lia]).
  change 10 with (cmd_of true). rewrite dispatch_access. unfold handle_region_access.
  rewrite access_req_length. replace (N.of_nat (16 + length data) <? 16) with false by lia.
  rewrite access_req_off, access_req_region, access_req_count by apply R. cbn [need].
  apply (valid_access c true off 7 _ data W R) in A. rewrite A. cbn [negb].
  replace (N.of_nat (length data) =? 0) with false by lia. rewrite access_req_data. unfold region_access. change (N.to_nat 7) with 7%nat. rewrite En.
  change (7 =? CFG_REGION) with true. unfold REGION_FLAG_ALWAYS_CB. change 8 with (2 ^ 3) at 1. rewrite has_pow2, F. cbn [negb andb].
  destruct (config_write (env_of c) (cx_pci c) (or_access o) (or_reset o) off data) as [[res p'] ev].
  unfold access_req. destruct res as [n|er|cr]; [|reflexivity|reflexivity]. destruct (n =? N.of_nat (length data)); reflexivity.
Qed.
Print Assumptions C66_write_request.
Example C66_write_request_case :
  let c := ex_ctx None in let o := ex_oracle ex_ans in
  regs_wf c /\ access_ok c true 0x40 7 4 [1; 2; 3; 4] /\ nth_error (cx_regs c) 7 = Some (mk_reg 3 256 true [] (-1)%Z 0 []) /\
  dispatch c o 10 (access_req 0x40 7 4 [1; 2; 3; 4]) [] = (HReply 0 (access_req 0x40 7 4 []) [], set_pci c (cx_pci c), [], [EvAccess 7 true 0x40 4 [1; 2; 3; 4]]) /\
  fst (fst (fst (dispatch c (ex_oracle (fun _ _ _ => AccErr 71)) 10 (access_req 0x40 7 4 [1; 2; 3; 4]) []))) = HReply 71 (access_req 0x40 7 4 []) [] /\
  fst (fst (fst (dispatch c o 10 (access_req 5 7 4 [1; 2; 3; 4]) []))) = HReply EINVAL (access_req 5 7 4 []) [].
Proof.
  split. { unfold regs_wf. repeat constructor. }
  split. { split; [eexists; split; [reflexivity|vm_compute; discriminate]|]. split; [lia|]. split; [reflexivity|discriminate]. }
  split; [reflexivity|]. split; [vm_compute; reflexivity|]. split; vm_compute; reflexivity.
Qed.

(* A region read request: the bytes in the reply are the bytes of the config space read; an error is answered
   as an error and changes nothing. *)
Theorem C66_read_request : forall c o off count fds ri,
  regs_wf c -> in_range off 7 count -> access_ok c false off 7 count [] -> 0 < count ->
  nth_error (cx_regs c) 7 = Some ri -> N.testbit (ri_flags ri) 3 = false ->
  let '(res, s, ev) := config_read (env_of c) (cx_pci c) (or_access o) off count in
  exists junk, length junk = N.to_nat count /\
  dispatch c o 9 (access_req off 7 count []) fds =
    (match res with
     | Ok n => HReply (if n =? count then 0 else EINVAL) (access_req off 7 count (fit (N.to_nat count) s)) []
     | Err er => HReply er (access_req off 7 count junk) []
     | Crash cr => HCrash cr
     end, c, fds, ev).
Proof.
  intros c o off count fds ri W R A N0 En F.
  change 9 with (cmd_of false). rewrite dispatch_access. unfold handle_region_access.
  rewrite access_req_length. replace (N.of_nat (16 + @length N []) <? 16) with false by reflexivity.
  rewrite access_req_off, access_req_region, access_req_count by apply R. cbn [need].
  apply (valid_access c false off 7 _ [] W R) in A. rewrite A. cbn [negb].
  replace (count =? 0) with false by lia. unfold region_access. change (N.to_nat 7) with 7%nat. rewrite En.
  change (7 =? CFG_REGION) with true. unfold REGION_FLAG_ALWAYS_CB. change 8 with (2 ^ 3) at 1. rewrite has_pow2, F. cbn [negb andb].
  destruct (config_read (env_of c) (cx_pci c) (or_access o) off count) as [[res s] ev].
  exists (fit (N.to_nat count) s). split; [apply fit_length|].
  unfold access_req. destruct res as [n|er|cr]; [|reflexivity|reflexivity]. destruct (n =? count); reflexivity.
Qed.
Print Assumptions C66_read_request.
Example C66_read_request_case :
  let c := ex_ctx None in
  dispatch c (ex_oracle ex_ans) 9 (access_req 0x40 7 4 []) [] = (HReply 0 (access_req 0x40 7 4 [0xee; 0xee; 0xee; 0xee]) [], c, [], [EvAccess 7 false 0x40 4 []]) /\
  fst (fst (fst (dispatch c (ex_oracle (fun _ _ _ => AccErr 71)) 9 (access_req 0x40 7 4 []) []))) = HReply 71 (access_req 0x40 7 4 [0; 0; 0; 0]) [].
Proof. split; vm_compute; reflexivity. Qed.

(* ---------- callbacks that handle only a part *)

(* The bytes [off, off + n) are the device's: outside header and capabilities, or in a capability with a callback. *)
Definition device_bytes (p : pci) (off n : N) : Prop :=
  in_gap p off n \/ exists c, In c (all_caps p) /\ by_callback c /\ ~ read_only c /\ cp_off c <= off /\ off + n <= cap_end c.

Lemma device_read_segment e p off n ans : caps_ok p -> 0 < n -> device_bytes p off n ->
  read_segment e p n off ans = Some (nonstd_read e p off n ans).
Proof.
  intros K N0 [G|(c & I & CB & _ & Lo & Hi)]; unfold read_segment.
  - now rewrite (gap_segment p off n false K N0 G).
  - rewrite (cap_segment p c off n false K N0 I Lo Hi), has_callback, CB. reflexivity.
Qed.

Lemma device_write_segment e p off data ans rans : caps_ok p -> data <> [] -> device_bytes p off (N.of_nat (length data)) ->
  write_segment e p off data ans rans = Some (let '(o, ev) := nonstd_write e off data ans in (o, pc_cfg p, ev)).
Proof.
  intros K ND D. assert (L : 0 < N.of_nat (length data)) by (destruct data; [congruence|cbn [length]; lia]).
  destruct D as [G|(c & I & CB & RO & Lo & Hi)]; unfold write_segment.
  - rewrite (gap_segment p off _ true K L G), Nat2N.id, firstn_all. destruct (nonstd_write _ _ _ _); reflexivity.
  - rewrite (cap_segment p c off _ true K L I Lo Hi), has_readonly, has_callback.
    destruct (N.testbit (cp_flags c) 2) eqn:R; [exfalso; apply RO; exact R|]. rewrite CB, Nat2N.id, firstn_all. destruct (nonstd_write _ _ _ _); reflexivity.
Qed.

Lemma device_bytes_rest p off n m : device_bytes p off n -> m <= n -> device_bytes p (off + m) (n - m).
Proof.
  intros [(L & G)|(c & I & CB & RO & Lo & Hi)] M.
  - left. split; [lia|]. intros c I. destruct (G c I); lia.
  - right. exists c. repeat split; auto; lia.
Qed.

Lemma nonstd_read_le e p off n ans m s ev : 0 < n -> nonstd_read e p off n ans = (Ok (m, s), ev) -> 0 < m <= n.
Proof.
  intros N0. unfold nonstd_read. destruct (pe_cfg_cb e).
  - destruct (ans off n) as [k d|er]; [|discriminate]. destruct (n <? k) eqn:E1; [discriminate|]. destruct (k =? 0) eqn:E2; [discriminate|].
    intros Q. injection Q as <- _ _. lia.
  - destruct (cfg_copy _ _ _); [|discriminate|discriminate]. intros Q. injection Q as <- _ _. lia.
Qed.
Lemma nonstd_write_le e off data ans m ev : nonstd_write e off data ans = (Ok m, ev) -> 0 < m <= N.of_nat (length data).
Proof.
  unfold nonstd_write. destruct (pe_cfg_cb e); [|discriminate].
  destruct (ans off _) as [k d|er]; [|discriminate]. destruct (_ <? k) eqn:E1; [discriminate|]. destruct (k =? 0) eqn:E2; [discriminate|].
  intros Q. injection Q as <- _. lia.
Qed.

Lemma device_read_fuel : forall f1 f2 e p answers k n off done, caps_ok p -> device_bytes p off n ->
  (N.to_nat n <= f1)%nat -> (N.to_nat n <= f2)%nat ->
  cfg_read f1 e p answers k n off done = cfg_read f2 e p answers k n off done.
Proof.
  induction f1 as [|f1 IH]; intros f2 e p answers k n off done K D L1 L2.
  - replace n with 0 by lia. destruct f2; reflexivity.
  - destruct (n =? 0) eqn:Z; [apply N.eqb_eq in Z; subst n; destruct f2; reflexivity|].
    destruct f2 as [|f2]; [lia|]. cbn [cfg_read]. rewrite Z. assert (N0 : 0 < n) by lia.
    rewrite (device_read_segment e p off n (answers k) K N0 D).
    destruct (nonstd_read e p off n (answers k)) as [[[m s]|er|cr] ev] eqn:R; try reflexivity.
    pose proof (nonstd_read_le _ _ _ _ _ _ _ _ N0 R) as ML.
    rewrite (IH f2 e p answers (k + length ev)%nat (n - m) (off + m) (done + m)); [reflexivity|exact K|apply device_bytes_rest; [exact D|lia]|lia|lia].
Qed.
Lemma device_write_fuel : forall f1 f2 e p answers rans k d off done, caps_ok p -> device_bytes p off (N.of_nat (length d)) ->
  (length d <= f1)%nat -> (length d <= f2)%nat ->
  cfg_write f1 e p answers rans k off d done = cfg_write f2 e p answers rans k off d done.
Proof.
  induction f1 as [|f1 IH]; intros f2 e p answers rans k d off done K D L1 L2.
  - destruct d; [|cbn [length] in L1; lia]. destruct f2; reflexivity.
  - destruct d as [|y d']; [destruct f2; reflexivity|]. destruct f2 as [|f2]; [cbn [length] in L2; lia|].
    cbn [cfg_write]. set (d := y :: d') in *. assert (ND : d <> []) by discriminate.
    rewrite (device_write_segment e p off d (answers k) (rans k) K ND D).
    destruct (nonstd_write e off d (answers k)) as [[m|er|cr] ev] eqn:R; try reflexivity.
    pose proof (nonstd_write_le _ _ _ _ _ _ R) as ML. rewrite set_cfg_same.
    assert (LS : length (skipn (N.to_nat m) d) = (length d - N.to_nat m)%nat) by apply skipn_length.
    rewrite (IH f2 e p answers rans (k + length ev)%nat (skipn (N.to_nat m) d) (off + m) (done + m)); [reflexivity|exact K| |lia|lia].
    rewrite LS. replace (N.of_nat (length d - N.to_nat m)) with (N.of_nat (length d) - m) by lia. apply device_bytes_rest; [exact D|lia].
Qed.

(* A callback that handles only the first m bytes is called again, for exactly the bytes that are left, and so on: the access is
   the first m bytes with this answer, then an access to the rest. *)
Theorem C66_short_read : forall e p answers off n m d,
  caps_ok p -> device_bytes p off n -> pe_cfg_cb e = true -> answers 0%nat off n = AccOk m d -> 0 < m < n ->
  config_read e p answers off n = then_read e p answers off m (n - m) (Ok m, fit (N.to_nat m) d, [EvAccess 7 false off n []]).
Proof.
  intros e p answers off n m d K D CB A M. unfold config_read at 1, then_read. destruct (N.to_nat n) as [|f] eqn:F; [lia|].
  cbn [cfg_read]. replace (n =? 0) with false by lia. rewrite (device_read_segment e p off n (answers 0%nat) K ltac:(lia) D).
  unfold nonstd_read. rewrite CB, A. replace (n <? m) with false by lia. replace (m =? 0) with false by lia.
  rewrite (device_read_fuel f (N.to_nat (n - m)) e p answers _ (n - m) (off + m) (0 + m) K); [|apply device_bytes_rest; [exact D|lia]|lia|lia].
  rewrite read_shift. unfold config_read. cbn [length Nat.add]. rewrite N.add_0_l. unfold CFG_REGION.
  destruct (cfg_read (N.to_nat (n - m)) _ _ _ _ _ _ _) as [[o s] ev]. destruct o; reflexivity.
Qed.
Print Assumptions C66_short_read.
(* A callback that returns one byte at a time. *)
Definition byte_by_byte (er : N) : acc_oracle := fun k off n => if Nat.eqb k 2 then AccErr er else AccOk 1 [off mod 256].
Example C66_short_read_case : device_bytes ex_pci 0xac 4 /\ device_bytes ex_pci 0xb1 3 /\
  config_read ex_env ex_pci (fun _ off _ => AccOk 1 [off mod 256]) 0xac 3 =
    (Ok 3, [0xac; 0xad; 0xae], [EvAccess 7 false 0xac 3 []; EvAccess 7 false 0xad 2 []; EvAccess 7 false 0xae 1 []]) /\
  config_read ex_env ex_pci (byte_by_byte 71) 0xac 4 =
    (Err 71, [0xac; 0xad], [EvAccess 7 false 0xac 4 []; EvAccess 7 false 0xad 3 []; EvAccess 7 false 0xae 2 []]).
Proof.
  split; [left; exact (proj1 C66_gap_read_case)|]. split; [|split; vm_compute; reflexivity].
  right. exists ex_dev. split; [cbn; tauto|]. split; [reflexivity|]. split; [discriminate|]. vm_compute. split; discriminate.
Qed.

Theorem C66_short_write : forall e p answers rans off data m d,
  caps_ok p -> device_bytes p off (N.of_nat (length data)) -> pe_cfg_cb e = true ->
  answers 0%nat off (N.of_nat (length data)) = AccOk m d -> 0 < m < N.of_nat (length data) ->
  config_write e p answers rans off data =
    then_write e answers rans off (firstn (N.to_nat m) data) (skipn (N.to_nat m) data)
      (Ok m, p, [EvAccess 7 true off (N.of_nat (length data)) data]).
Proof.
  intros e p answers rans off data m d K D CB A M. unfold config_write at 1, then_write.
  assert (ND : data <> []) by (intros ->; cbn [length] in M; lia). destruct data as [|y data']; [congruence|].
  cbn [cfg_write]. change (cfg_write (length (y :: data'))) with (cfg_write (S (length data'))). cbn [cfg_write].
  set (data := y :: data') in *. assert (LD : length data = S (length data')) by reflexivity.
  rewrite (device_write_segment e p off data (answers 0%nat) (rans 0%nat) K ND D).
  unfold nonstd_write. rewrite CB, A. replace (N.of_nat (length data) <? m) with false by lia. replace (m =? 0) with false by lia. rewrite set_cfg_same.
  assert (LS : length (skipn (N.to_nat m) data) = (length data - N.to_nat m)%nat) by apply skipn_length.
  assert (LF : N.of_nat (length (firstn (N.to_nat m) data)) = m) by (rewrite firstn_length; lia). rewrite LF, N.eqb_refl.
  rewrite (device_write_fuel (length data') (length (skipn (N.to_nat m) data)) e p answers rans _ (skipn (N.to_nat m) data) (off + m) (0 + m) K);
    [|rewrite LS; replace (N.of_nat (length data - N.to_nat m)) with (N.of_nat (length data) - m) by lia; apply device_bytes_rest; [exact D|lia]|lia|lia].
  rewrite write_shift. unfold config_write. cbn [length Nat.add]. rewrite N.add_0_l. unfold CFG_REGION.
  destruct (cfg_write (length (skipn (N.to_nat m) data)) _ _ _ _ _ _ _ _) as [[o p'] ev]. destruct o; reflexivity.
Qed.
Print Assumptions C66_short_write.
Example C66_short_write_case :
  config_write ex_env ex_pci (fun _ off _ => AccOk 1 []) no_reset 0xb1 [7; 8; 9] =
    (Ok 3, ex_pci, [EvAccess 7 true 0xb1 3 [7; 8; 9]; EvAccess 7 true 0xb2 2 [8; 9]; EvAccess 7 true 0xb3 1 [9]]).
Proof. vm_compute. reflexivity. Qed.
