(* The pieces of a config space access. *)
From Coq Require Import NArith List Bool.
From Verif Require Import Base Types Bytes Migr Pci SpecPci.
Import ListNotations.
Open Scope N_scope.

(* Where the registers of the standard header start (PCI Local Bus Specification, type 0 header): ids,
   command, status, revision, class code, cache line size, latency timer, header type, BIST, the six BARs,
   CIS pointer, subsystem ids, expansion ROM address, capability pointer (and the reserved bytes behind
   it), interrupt line and pin, minimum grant, maximum latency. *)
Definition register_start (x : N) : Prop :=
  In x [0; 4; 6; 8; 9; 12; 13; 14; 15; 16; 20; 24; 28; 32; 36; 40; 44; 48; 52; 53; 60; 61; 62; 63].

(* Positions between two pieces: the start of a header register, the end of the header, the start and the
   end of a capability. *)
Definition boundary (p : pci) (x : N) : Prop :=
  register_start x \/ x = 64 \/ exists c, In c (all_caps p) /\ (x = cp_off c \/ x = cap_end c).

(* The bytes [off, off + n) lie behind the header and in no capability. *)
Definition in_gap (p : pci) (off n : N) : Prop :=
  64 <= off /\ forall c, In c (all_caps p) -> cap_end c <= off \/ off + n <= cp_off c.

(* The answers after the first k. *)
Definition after {A} (k : nat) (f : nat -> A) : nat -> A := fun j => f (k + j)%nat.

(* A write of two parts one after the other: the second part is only carried out if the first one was
   carried out in full.  A write the library gives up on in the middle returns 0. *)
Definition then_write (e : pci_env) (answers : acc_oracle) (rans : nat -> cb_answer) (off : N) (d1 d2 : list N)
    (r1 : outcome N * pci * list event) : outcome N * pci * list event :=
  let '(o1, p1, ev1) := r1 in
  match o1 with
  | Ok n1 =>
      if n1 =? N.of_nat (length d1) then
        let '(o2, p2, ev2) :=
          config_write e p1 (after (length ev1) answers) (after (length ev1) rans) (off + N.of_nat (length d1)) d2 in
        (match o2 with
         | Ok n2 => if n2 =? N.of_nat (length d2) then Ok (n1 + n2) else Ok 0
         | other => other
         end, p2, ev1 ++ ev2)
      else (Ok 0, p1, ev1)
  | other => (other, p1, ev1)
  end.

(* A read of two parts one after the other. *)
Definition then_read (e : pci_env) (p : pci) (answers : acc_oracle) (off n1 n2 : N)
    (r1 : outcome N * list N * list event) : outcome N * list N * list event :=
  let '(o1, s1, ev1) := r1 in
  match o1 with
  | Ok _ =>
      let '(o2, s2, ev2) := config_read e p (after (length ev1) answers) (off + n1) n2 in
      (match o2 with Ok m => Ok (n1 + m) | other => other end, s1 ++ s2, ev1 ++ ev2)
  | other => (other, s1, ev1)
  end.
