(* Vocabulary for devices that use the library from within its callbacks. *)
From Coq Require Import NArith ZArith List Bool.
From Verif Require Import Base Types Bytes Dma Dirty Migr Irq Pci Handlers Server SpecServer Reenter.
Import ListNotations.
Open Scope N_scope.

(* l consists of the elements of a and of b, each in order. *)
Inductive interleaved {A} : list A -> list A -> list A -> Prop :=
| il_nil : interleaved [] [] []
| il_left : forall x a b l, interleaved a b l -> interleaved (x :: a) b (x :: l)
| il_right : forall x a b l, interleaved a b l -> interleaved a (x :: b) (x :: l).

(* The callbacks of a device, other than the quiesce callback. *)
Definition callback (e : event) : bool :=
  match e with
  | EvRegister _ | EvUnregister _ | EvReset _ | EvTransition _ | EvReadData _ | EvWriteData _ | EvAccess _ _ _ _ _ | EvIrqState _ _ _ _ => true
  | _ => false
  end.

(* Everything the device does in the callbacks among ev. *)
Definition all_acts (i : inside) (ev : list event) : list act := concat (map (in_cb i) (seq 0 (length (filter callback ev)))).

(* The states of a server whose device does anything that does not crash in its callbacks. *)
Inductive reachable_in : server -> Prop :=
| ri_fresh : forall s, fresh s -> reachable_in s
| ri_step : forall s st i o s' ev, reachable_in s -> step_in s st i = (o, s', ev) -> (forall c, o <> Crash c) -> reachable_in s'.

(* An access to configuration space that the library itself carries out, by the fields of a region access message. *)
Definition library_access (s : server) (cmd : N) (body : list N) : bool :=
  ((cmd =? 9) || (cmd =? 10)) &&
  match rd body 8 4 with
  | Some region => (region =? 7) && negb (match nth_error (cx_regs (sv_ctx s)) 7 with Some r => has (ri_flags r) 8 | None => false end)
  | None => false
  end.

(* After the region with number idx has been removed from the table the regions behind it move up: what a descriptor obtained
   before names then. *)
Definition moved (idx : nat) (x : sg) : list sg :=
  if Nat.eqb (sg_region x) idx then []
  else [mk_sg (sg_base x) (if Nat.ltb idx (sg_region x) then pred (sg_region x) else sg_region x) (sg_len x) (sg_off x) (sg_writeable x)].
Definition moved_act (idx : nat) (a : act) : act := match a with AMark l => AMark (flat_map (moved idx) l) | a => a end.

(* What doing things in the callbacks made during a request amounts to, when done after the request instead: nothing for an
   access that the library carries out (no callback is made); after an unmap the descriptors of the regions behind the one
   removed name other numbers; otherwise the same things. *)
Definition removes (s : server) (body : list N) (idx : nat) : Prop :=
  exists d r flags, cx_dma (sv_ctx s) = Some d /\ nth_error (dm_regions d) idx = Some r /\ rd body 4 4 = Some flags /\ flags <> 2 /\
    rd body 8 8 = Some (rg_base r) /\ rd body 16 8 = Some (rg_len r).
Definition done_after (s : server) (cmd : N) (body : list N) (i : inside) (ev : list event) (l : list act) : Prop :=
  if library_access s cmd body then l = []
  else (cmd = 3 /\ exists idx, removes s body idx /\ l = map (moved_act idx) (all_acts i ev)) \/
       ((cmd <> 3 \/ forall idx, ~ removes s body idx) /\ l = all_acts i ev).

Definition is_quiesce (e : event) : bool := match e with EvQuiesce _ => true | _ => false end.
