(* C48: what asking for the extended capability after the last one answers. *)
From Coq Require Import NArith ZArith List Bool Lia ZifyBool ZifyNat ZifyN.
From Verif Require Import Base Types Bytes BytesProofs Migr Pci SpecPci SpecCaps BufProofs PciProofs CapsProofs CapsAdd PropCaps.
Import ListNotations.
Open Scope N_scope.
Ltac Zify.zify_post_hook ::= idtac.

(* The search goes on at offset 0, where vendor id and device id stand for a capability's id and pointer: it answers
   the first match among offset 0 and the chain lw that starts at the upper 12 bits of the device id.  In particular
   (lw = [] if they are 0) it answers ENOENT, as it should, if the device id is below 16 and the vendor id is not
   the id that is looked for. *)
Theorem C48_ext_last_exact : forall cfg l1 o id lw,
  bytes cfg -> (260 < length cfg)%nat -> ext_list cfg (l1 ++ [o]) ->
  (forall x, In x (l1 ++ [o]) -> x + 4 < N.of_nat (length cfg)) ->
  walk (ext_next cfg) (ext_next cfg 0) lw -> (forall x, In x lw -> x + 4 < N.of_nat (length cfg)) ->
  find_next_ext_capability cfg o id = first_or_none (with_id (ext_id cfg) id (0 :: lw)) /\
  (ext_id cfg 0 <> id -> ext_next cfg 0 = 0 -> find_next_ext_capability cfg o id = Err ENOENT).
Proof.
  intros cfg l1 o id lw B L W Hl Ww Hw.
  destruct W as [[_ W]|[_ W]]; [destruct l1; discriminate|].
  pose proof (walk_suffix _ _ _ W _ _ _ eq_refl) as W2. inversion W2 as [|? ? Ho W3]; subst. pose proof (walk_head _ _ _ W3) as Q. cbn [hd] in Q.
  pose proof (Hl o ltac:(apply in_elt)) as Lo.
  assert (Lb : (length lw < N.to_nat 4096)%nat).
  { apply (walk_bound _ _ _ _ Ww); [lia|]. apply (walk_elems _ _ _ _ Ww); [|intros x; now apply ext_next_bound]. right. now apply ext_next_bound. }
  assert (A : find_next_ext_capability cfg o id = first_or_none (with_id (ext_id cfg) id (0 :: lw))).
  { unfold find_next_ext_capability. replace (N.of_nat (length cfg) <=? o + 4) with false by lia. replace (o =? 0) with false by lia.
    rewrite ext_hdr_fields by (auto; lia). unfold need. cbn [snd]. rewrite Q.
    assert (G : forall fuel, (4096 <= fuel)%nat -> find_ext_loop (S fuel) cfg 0 id = first_or_none (with_id (ext_id cfg) id (0 :: lw))); [|apply G; lia].
    intros fuel Hf. cbn [find_ext_loop].
    replace (N.of_nat (length cfg) <=? 0) with false by lia. replace (N.of_nat (length cfg) <=? 0 + 4) with false by lia.
    rewrite ext_hdr_fields by (auto; lia). unfold need. cbn [fst snd with_id filter]. destruct (ext_id cfg 0 =? id); [reflexivity|].
    change (filter (fun o => ext_id cfg o =? id) lw) with (with_id (ext_id cfg) id lw). destruct (N.eqb_spec (ext_next cfg 0) 0) as [Z|Z].
    - rewrite Z in Ww. inversion Ww; [reflexivity|congruence].
    - apply find_ext_walk; auto. lia. }
  split; [exact A|]. intros Hi Z. rewrite A, Z in *. inversion Ww; [|congruence]. cbn [with_id filter]. replace (ext_id cfg 0 =? id) with false by lia. reflexivity.
Qed.
Print Assumptions C48_ext_last_exact.

(* In the configuration of C48_ext_last_refuted the chain from the device id is the list itself. *)
Example C48_ext_last_case : let cfg := pc_cfg (snd ex_result) in
  ext_list cfg ([256] ++ [268]) /\ walk (ext_next cfg) (ext_next cfg 0) [256; 268] /\ find_next_ext_capability cfg 268 3 = Ok 268.
Proof.
  cbv zeta. split; [apply C47_nonvacuous|].
  assert (E0 : ext_next (pc_cfg (snd ex_result)) 0 = 256) by (vm_compute; reflexivity).
  assert (E1 : ext_next (pc_cfg (snd ex_result)) 256 = 268) by (vm_compute; reflexivity).
  assert (E2 : ext_next (pc_cfg (snd ex_result)) 268 = 0) by (vm_compute; reflexivity).
  split; [|vm_compute; reflexivity]. rewrite E0. constructor; [discriminate|]. rewrite E1. constructor; [discriminate|]. rewrite E2. constructor.
Qed.
