(* Vocabulary for capabilities that the device puts at places of its own choice. *)
From Coq Require Import NArith List Bool.
From Verif Require Import Base Types Bytes Pci SpecPci SpecCaps.
Import ListNotations.
Open Scope N_scope.

(* A request: the position, 0 for wherever the library likes; the flags; the capability. *)
Definition at_pos : Type := N * (N * list N).

(* Adding capabilities one after the other, all successfully. *)
Fixpoint add_all_at (e : pci_env) (express : bool) (p : pci) (reqs : list at_pos) : option (list added * pci) :=
  match reqs with
  | [] => Some ([], p)
  | (pos, (flags, data)) :: reqs' =>
      match add_capability e express p pos flags data with
      | (Ok off, p1) =>
          match add_all_at e express p1 reqs' with
          | Some (l, p') => Some (mk_added flags data off :: l, p')
          | None => None
          end
      | _ => None
      end
  end.

(* Two capabilities do not overlap. *)
Definition apart (a b : added) : Prop := ad_end a <= ad_off b \/ ad_end b <= ad_off a.

(* Each request was granted: with its flags and data, and at its position if it has one. *)
Definition granted (r : at_pos) (a : added) : Prop :=
  ad_flags a = fst (snd r) /\ ad_data a = snd (snd r) /\ (fst r <> 0 -> ad_off a = fst r).

(* The places the library chose were free. *)
Fixpoint chosen_free (seen : list added) (reqs : list at_pos) (l : list added) : Prop :=
  match reqs, l with
  | r :: reqs', a :: l' => (fst r = 0 -> Forall (apart a) seen) /\ chosen_free (seen ++ [a]) reqs' l'
  | _, _ => True
  end.

(* Positions rise: each one lies behind all capabilities of the same kind that were added before. *)
Fixpoint rising (seen : list added) (reqs : list at_pos) (l : list added) : Prop :=
  match reqs, l with
  | r :: reqs', a :: l' =>
      (fst r <> 0 -> Forall (fun b => ad_ext b = ad_ext a -> ad_end b <= ad_off a) seen) /\ rising (seen ++ [a]) reqs' l'
  | _, _ => True
  end.

(* What is there after the capabilities l were added to config space p0. *)
Record well_placed (p0 p : pci) (l : list added) : Prop := {
  wp_apart : ForallOrdPairs apart l;
  wp_inside : forall a, In a l -> (if ad_ext a then 256 else 64) <= ad_off a /\ ad_end a <= N.of_nat (length (pc_cfg p));
  wp_std : std_list (pc_cfg p) (map ad_off (filter (fun a => negb (ad_ext a)) l));
  wp_ext : ext_list (pc_cfg p) (map ad_off (filter ad_ext l));
  wp_recorded : Forall2 recorded (filter (fun a => negb (ad_ext a)) l ++ filter ad_ext l) (all_caps p);
  wp_holds : forall a, In a l -> holds (pc_cfg p) a;
  wp_other : forall x, x <> 52 -> (forall a, In a l -> ~ (ad_off a <= x < ad_end a)) -> byte_at p x = byte_at p0 x
}.
