(* What the capability list properties mean. *)
From Verif Require Import Base Types Bytes Pci SpecPci.
From Coq Require Import NArith List Bool.
Import ListNotations.
Open Scope N_scope.

Definition cfg_byte (cfg : list N) (o : N) : N := nth (N.to_nat o) cfg 0.

(* A linked list: following next from o until 0 visits exactly l. *)
Inductive walk (next : N -> N) : N -> list N -> Prop :=
| walk_end : walk next 0 []
| walk_cap o l : o <> 0 -> walk next (next o) l -> walk next o (o :: l).

(* Standard capabilities: id in the first byte, pointer to the next one in the second; the list starts with
   the capability pointer in the header (offset 0x34). *)
Definition std_id (cfg : list N) (o : N) : N := cfg_byte cfg o.
Definition std_next (cfg : list N) (o : N) : N := cfg_byte cfg (o + 1).
Definition std_list (cfg : list N) (l : list N) : Prop := walk (std_next cfg) (cfg_byte cfg 52) l.

(* Extended capabilities: 16-bit id, 4-bit version, 12-bit pointer to the next one; the list starts at
   0x100 and is empty if the id there is 0. *)
Definition ext_id (cfg : list N) (o : N) : N := cfg_byte cfg o + 256 * cfg_byte cfg (o + 1).
Definition ext_next (cfg : list N) (o : N) : N := cfg_byte cfg (o + 2) / 16 + 16 * cfg_byte cfg (o + 3).
Definition ext_list (cfg : list N) (l : list N) : Prop :=
  (ext_id cfg 256 = 0 /\ l = []) \/ (ext_id cfg 256 <> 0 /\ walk (ext_next cfg) 256 l).

(* A request to add a capability at a place the library chooses, and the offset it answered. *)
Record added : Type := mk_added { ad_flags : N; ad_data : list N; ad_off : N }.
Definition ad_ext (a : added) : bool := N.testbit (ad_flags a) 0.

(* How long a capability is: by its id, or as a vendor capability says. *)
Definition cap_bytes (ext : bool) (data : list N) : N :=
  if ext then if nth 0 data 0 =? 3 then 12 else nth 6 data 0 / 16 + 16 * nth 7 data 0
  else if nth 0 data 0 =? 1 then 8 else if nth 0 data 0 =? 16 then 60 else if nth 0 data 0 =? 5 then 24
  else if nth 0 data 0 =? 17 then 12 else nth 2 data 0.
Definition ad_size (a : added) : N := cap_bytes (ad_ext a) (ad_data a).
Definition ad_end (a : added) : N := ad_off a + ad_size a.

(* The data is bytes, and a vendor capability is at least as long as its header. *)
Definition good_request (r : N * list N) : Prop :=
  bytes (snd r) /\ (if N.testbit (fst r) 0 then 8 else 3) <= cap_bytes (N.testbit (fst r) 0) (snd r).

(* Bytes that the device stores itself, in the header, leaving the pointer to the first capability (byte 52) alone. *)
Definition header_store (off : N) (data : list N) : Prop :=
  bytes data /\ (off + N.of_nat (length data) <= 52 \/ (53 <= off /\ off + N.of_nat (length data) <= 64)).

(* Config space holds what was asked for, except for the pointer to the next capability. *)
Definition holds (cfg : list N) (a : added) : Prop :=
  forall i, i < ad_size a -> (if ad_ext a then i <> 2 /\ i <> 3 else i <> 1) ->
  cfg_byte cfg (ad_off a + i) = nth (N.to_nat i) (ad_data a) 0.

(* The library's record of an added capability. *)
Definition recorded (a : added) (c : pci_cap) : Prop :=
  cp_ext c = ad_ext a /\ cp_id c = (if ad_ext a then nth 0 (ad_data a) 0 + 256 * nth 1 (ad_data a) 0 else nth 0 (ad_data a) 0) /\
  cp_off c = ad_off a /\ cp_size c = ad_size a /\ cp_flags c = ad_flags a.

(* Adding capabilities one after the other, all successfully. *)
Fixpoint add_all (e : pci_env) (express : bool) (p : pci) (reqs : list (N * list N)) : option (list added * pci) :=
  match reqs with
  | [] => Some ([], p)
  | (flags, data) :: reqs' =>
      match add_capability e express p 0 flags data with
      | (Ok off, p1) =>
          match add_all e express p1 reqs' with
          | Some (l, p') => Some (mk_added flags data off :: l, p')
          | None => None
          end
      | _ => None
      end
  end.

(* Before anything was added: no capabilities recorded, empty lists in a config space of either size. *)
Record fresh (p : pci) : Prop := {
  fr_bytes : bytes (pc_cfg p);
  fr_size : length (pc_cfg p) = 256%nat \/ length (pc_cfg p) = 4096%nat;
  fr_caps : pc_caps p = [] /\ pc_ext_caps p = [];
  fr_std : cfg_byte (pc_cfg p) 52 = 0;
  fr_ext : forall o, 256 <= o < 260 -> cfg_byte (pc_cfg p) o = 0
}.

(* The offsets with a given id, in list order. *)
Definition with_id (idf : N -> N) (id : N) (l : list N) : list N := filter (fun o => idf o =? id) l.

(* Asking for the next capability again and again, starting after off. *)
Fixpoint enumerate (fuel : nat) (next : N -> outcome N) (off : N) : list N * option (outcome N) :=
  match fuel with
  | O => ([], None)
  | S fuel' =>
      match next off with
      | Ok o => let '(l, r) := enumerate fuel' next o in (o :: l, r)
      | x => ([], Some x)
      end
  end.
