(* Proofs about devices that use the library from within its callbacks. *)
From Coq Require Import NArith ZArith List Bool Lia ZifyBool ZifyNat ZifyN.
From Verif Require Import Base Types Bytes Spec Dma Dirty DmaProofs Migr Irq Pci Handlers SpecHandlers Server SpecServer ServerProofs PropServer Reenter SpecReenter.
Import ListNotations.
Open Scope N_scope.
Ltac Zify.zify_post_hook ::= idtac.

(* ---------- interleaving *)

Lemma il_left_all {A} (a : list A) : interleaved a [] a.
Proof. induction a; constructor; auto. Qed.
Lemma il_right_all {A} (b : list A) : interleaved [] b b.
Proof. induction b; constructor; auto. Qed.
Lemma il_app {A} (a b l a' b' l' : list A) : interleaved a b l -> interleaved a' b' l' -> interleaved (a ++ a') (b ++ b') (l ++ l').
Proof. intros H H'. induction H; cbn [app]; [exact H'|constructor; assumption|constructor; assumption]. Qed.
Lemma il_then {A} (a b : list A) : interleaved a b (a ++ b).
Proof. rewrite <- (app_nil_r a) at 1. replace b with ([] ++ b) at 1 by reflexivity. apply il_app; [apply il_left_all|apply il_right_all]. Qed.

Lemma il_skip {A} (p a b l : list A) : interleaved a b l -> interleaved a (p ++ b) (p ++ l).
Proof. intros H. induction p; cbn [app]; [exact H|constructor; assumption]. Qed.

(* ---------- acts touch nothing but the context *)

Definition act_ctx (c : ctx) (a : act) : outcome N * ctx * list event :=
  let '(o, s', ev) := sv_step (mk_server c PNone false false true) (step_of a) in (o, sv_ctx s', ev).

Lemma act_frame s a : sv_step s (step_of a) = let '(o, c', ev) := act_ctx (sv_ctx s) a in (o, set_ctx s c', ev).
Proof.
  destruct s as [c p q b r]. unfold act_ctx. destruct a as [l|h|v x|off data]; cbn [step_of sv_step sv_ctx].
  - unfold dev_mark. cbn [sv_ctx]. destruct (cx_dma c); [|reflexivity]. destruct (sgl_mark_dirty _ _); reflexivity.
  - unfold dev_hint. cbn [sv_ctx]. destruct (cx_dma c); reflexivity.
  - destruct (cx_irqs c); [|reflexivity]. destruct (irq_trigger _ _ _) as [[u|e|cr] ev]; reflexivity.
  - unfold dev_poke. cbn [sv_ctx]. destruct (put_slice _ _ _); reflexivity.
Qed.

Fixpoint acts_ctx (c : ctx) (l : list act) : outcome unit * ctx * list event :=
  match l with
  | [] => (Ok tt, c, [])
  | a :: l' =>
      match act_ctx c a with
      | (Crash cr, c1, ev) => (Crash cr, c1, ev)
      | (_, c1, ev) => let '(o, c2, ev2) := acts_ctx c1 l' in (o, c2, ev ++ ev2)
      end
  end.

Lemma set_ctx_eta s : set_ctx s (sv_ctx s) = s.
Proof. destruct s; reflexivity. Qed.
Lemma set_ctx_twice s a b : set_ctx (set_ctx s a) b = set_ctx s b.
Proof. reflexivity. Qed.

Lemma acts_frame l : forall s, do_acts s l = let '(o, c', ev) := acts_ctx (sv_ctx s) l in (o, set_ctx s c', ev).
Proof.
  induction l as [|a l IH]; intros s; cbn [do_acts acts_ctx]; [now rewrite set_ctx_eta|].
  rewrite act_frame. destruct (act_ctx (sv_ctx s) a) as [[[u|e|cr] c1] ev]; [| |reflexivity];
    rewrite IH; cbn [sv_ctx set_ctx]; destruct (acts_ctx c1 l) as [[o c2] ev2]; reflexivity.
Qed.

Lemma acts_ok l : forall c o c' ev, acts_ctx c l = (o, c', ev) -> (forall cr, o <> Crash cr) -> o = Ok tt.
Proof.
  induction l as [|a l IH]; intros c o c' ev; cbn [acts_ctx]; [congruence|].
  destruct (act_ctx c a) as [[[u|e|cr] c1] ev1]; [destruct (acts_ctx c1 l) as [[o2 c2] ev2] eqn:E; intros H N; injection H as <- <- <-; exact (IH _ _ _ _ E N)..|].
  intros H N. injection H as <- <- <-. destruct (N cr eq_refl).
Qed.

Lemma acts_app l1 : forall c l2 c1 ev1, acts_ctx c l1 = (Ok tt, c1, ev1) ->
  acts_ctx c (l1 ++ l2) = let '(o, c2, ev2) := acts_ctx c1 l2 in (o, c2, ev1 ++ ev2).
Proof.
  induction l1 as [|a l1 IH]; intros c l2 c1 ev1; cbn [acts_ctx app].
  - intros H. injection H as <- <-. destruct (acts_ctx c l2) as [[o c2] ev2]. reflexivity.
  - destruct (act_ctx c a) as [[[u|e|cr] c0] ev0]; [| |discriminate]; destruct (acts_ctx c0 l1) as [[o0 c0'] ev0'] eqn:E; intros H; injection H as -> <- <-;
      rewrite (IH _ l2 _ _ E); destruct (acts_ctx c0' l2) as [[o2 c2] ev2]; rewrite app_assoc; reflexivity.
Qed.

Lemma act_mig c m a : act_ctx (set_mig c m) a = let '(o, c', ev) := act_ctx c a in (o, set_mig c' m, ev).
Proof.
  destruct c. unfold act_ctx. destruct a as [l|h|v x|off data]; cbn [step_of sv_step sv_ctx].
  - unfold dev_mark. cbn -[sgl_mark_dirty]. destruct cx_dma; [|reflexivity]. destruct (sgl_mark_dirty _ _); reflexivity.
  - unfold dev_hint. cbn. destruct cx_dma; reflexivity.
  - cbn -[irq_trigger]. destruct cx_irqs; [|reflexivity]. destruct (irq_trigger _ _ _) as [[u|e|cr] ev]; reflexivity.
  - unfold dev_poke. cbn -[put_slice]. destruct (put_slice _ _ _); reflexivity.
Qed.
Lemma acts_mig l : forall c m, acts_ctx (set_mig c m) l = let '(o, c', ev) := acts_ctx c l in (o, set_mig c' m, ev).
Proof.
  induction l as [|a l IH]; intros c m; cbn [acts_ctx]; [reflexivity|]. rewrite act_mig. destruct (act_ctx c a) as [[[u|e|cr] c1] ev1]; [| |reflexivity];
    rewrite IH; destruct (acts_ctx c1 l) as [[o2 c2] ev2]; reflexivity.
Qed.

(* What stays as it is.  The layout of the DMA table is everything but the bitmaps. *)
Definition layout (c : ctx) : option (nat * N * N * list (dma_info * Z * N)) :=
  match cx_dma c with
  | Some d => Some (dm_max_regions d, dm_max_size d, dm_pgsize d, map (fun r => (rg_info r, rg_fd r, rg_off r)) (dm_regions d))
  | None => None
  end.
Record same (c c' : ctx) : Prop := {
  sm_regs : cx_regs c' = cx_regs c; sm_quiesce : cx_quiesce c' = cx_quiesce c; sm_reset : cx_reset c' = cx_reset c;
  sm_register : cx_register c' = cx_register c; sm_unregister : cx_unregister c' = cx_unregister c; sm_mig : cx_mig c' = cx_mig c;
  sm_cfg : cx_irq_cfg c' = cx_irq_cfg c; sm_irqs : cx_irqs c' = cx_irqs c; sm_max : cx_max_xfer c' = cx_max_xfer c;
  sm_caps : pc_caps (cx_pci c') = pc_caps (cx_pci c); sm_ext : pc_ext_caps (cx_pci c') = pc_ext_caps (cx_pci c);
  sm_exp : pc_exp_off (cx_pci c') = pc_exp_off (cx_pci c); sm_layout : layout c' = layout c }.
Lemma same_refl c : same c c. Proof. constructor; reflexivity. Qed.
Lemma same_trans a b c : same a b -> same b c -> same a c.
Proof. intros [] []. constructor; congruence. Qed.

Lemma map_set_nth {A B} (f : A -> B) n x y (l : list A) : nth_error l n = Some y -> f x = f y -> map f (set_nth n x l) = map f l.
Proof.
  revert l. induction n as [|n IH]; intros [|z l] H E; cbn in *; try discriminate; [injection H as ->; now rewrite E|].
  f_equal. now apply IH.
Qed.
Lemma mark_layout l : forall d d', sgl_mark_dirty d l = Ok d' ->
  dm_max_regions d' = dm_max_regions d /\ dm_max_size d' = dm_max_size d /\ dm_pgsize d' = dm_pgsize d /\
  map (fun r => (rg_info r, rg_fd r, rg_off r)) (dm_regions d') = map (fun r => (rg_info r, rg_fd r, rg_off r)) (dm_regions d).
Proof.
  induction l as [|s l IH]; intros d d'; cbn [sgl_mark_dirty]; [intros H; injection H as <-; auto|].
  destruct (nth_error (dm_regions d) (sg_region s)) as [r|] eqn:E; [|intros H; injection H as <-; auto].
  destruct (_ && _); [|apply IH]. destruct (mark_region (dm_pgsize d) r s) as [r'|e|c] eqn:M; try discriminate. intros H.
  destruct (IH _ _ H) as (-> & -> & -> & ->). cbn [set_regions dm_regions dm_max_regions dm_max_size dm_pgsize]. repeat split.
  apply (map_set_nth _ _ _ _ _ E). unfold mark_region in M. destruct (rg_bitmap r); [|discriminate]. destruct (or_bytes _ _); try discriminate. injection M as <-. reflexivity.
Qed.

Lemma act_same c a o c' ev : act_ctx c a = (o, c', ev) -> same c c'.
Proof.
  unfold act_ctx. destruct a as [l|h|v x|off data]; cbn [step_of sv_step sv_ctx].
  - unfold dev_mark. cbn [sv_ctx]. destruct (cx_dma c) as [d|] eqn:D; [|intros H; injection H as <- <- <-; apply same_refl].
    destruct (sgl_mark_dirty d l) as [d'|e|cr] eqn:M; intros H; injection H as <- <- <-; try apply same_refl.
    constructor; try reflexivity. unfold layout. cbn. rewrite D. destruct (mark_layout _ _ _ M) as (-> & -> & -> & ->). reflexivity.
  - unfold dev_hint. cbn [sv_ctx]. destruct (cx_dma c) as [d|] eqn:D; intros H; injection H as <- <- <-; try apply same_refl.
    constructor; try reflexivity. unfold layout. cbn. rewrite D. reflexivity.
  - destruct (cx_irqs c); [|intros H; injection H as <- <- <-; apply same_refl].
    destruct (irq_trigger _ _ _) as [[u|e|cr] ev0]; intros H; injection H as <- <- <-; apply same_refl.
  - unfold dev_poke. cbn [sv_ctx]. destruct (put_slice _ _ _); intros H; injection H as <- <- <-; [constructor; reflexivity|apply same_refl].
Qed.
Lemma acts_same l : forall c o c' ev, acts_ctx c l = (o, c', ev) -> same c c'.
Proof.
  induction l as [|a l IH]; intros c o c' ev; cbn [acts_ctx]; [intros H; injection H as <- <- <-; apply same_refl|].
  destruct (act_ctx c a) as [[[u|e|cr] c1] ev1] eqn:A; [destruct (acts_ctx c1 l) as [[o2 c2] ev2] eqn:E; intros H; injection H as <- <- <-; exact (same_trans _ _ _ (act_same _ _ _ _ _ A) (IH _ _ _ _ E))..|].
  intros H. injection H as <- <- <-. exact (act_same _ _ _ _ _ A).
Qed.

(* ---------- acts in the callbacks of a request other than unmapping *)

Lemma all_none i ev : filter callback ev = [] -> all_acts i ev = [].
Proof. unfold all_acts. intros ->. reflexivity. Qed.
Lemma all_one i ev e : filter callback ev = [e] -> all_acts i ev = in_cb i 0.
Proof. unfold all_acts. intros ->. cbn. apply app_nil_r. Qed.

(* ev and c1 are what the request does without the acts; the acts then lead to s'. *)
Definition after (i : inside) (s : server) (ev : list event) (c1 : ctx) (s' : server) (ev' : list event) (l : list act) : Prop :=
  exists eva, acts_ctx c1 l = (Ok tt, sv_ctx s', eva) /\ s' = set_ctx s (sv_ctx s') /\ interleaved ev eva ev'.
Lemma after_none i s ev c1 : after i s ev c1 (set_ctx s c1) ev [].
Proof. exists []. split; [reflexivity|]. split; [destruct s; reflexivity|apply il_left_all]. Qed.
Lemma after_self i s ev : after i s ev (sv_ctx s) s ev [].
Proof. rewrite <- (set_ctx_eta s) at 3. apply after_none. Qed.

Lemma then_acts_after r s ev called l r' s' ev' : then_acts r s ev called l = (r', s', ev') -> (forall c, r' <> HCrash c) ->
  r' = r /\ after (mk_inside [] (fun _ => [])) s ev (sv_ctx s) s' ev' (if called then l else []).
Proof.
  unfold then_acts. destruct called; [|intros H _; injection H as <- <- <-; split; [reflexivity|apply after_self]].
  rewrite acts_frame. destruct (acts_ctx (sv_ctx s) l) as [[o c'] eva] eqn:A. destruct o as [[]|e|cr]; intros H NC; injection H as <- <- <-.
  - split; [reflexivity|]. exists eva. cbn [sv_ctx set_ctx]. split; [exact A|]. split; [destruct s; reflexivity|apply il_then].
  - apply acts_ok in A; [discriminate|discriminate].
  - destruct (NC cr eq_refl).
Qed.

Lemma region_access_after s o region w off count data i res buf s' ev' : region_access_in s o region w off count data i = (res, buf, s', ev') ->
  (forall c, res <> Crash c) -> exists c1 ev, region_access (sv_ctx s) o region w off count data = (res, buf, c1, ev) /\
  after i s ev c1 s' ev' (if (region =? 7) && negb (match nth_error (cx_regs (sv_ctx s)) 7 with Some r => has (ri_flags r) 8 | None => false end) then [] else all_acts i ev).
Proof.
  unfold region_access_in. destruct (nth_error (cx_regs (sv_ctx s)) (N.to_nat region)) as [r|] eqn:RG; [|intros H NC; injection H as <- <- <- <-; destruct (NC _ eq_refl)].
  assert (Q : (region =? 7) && negb (match nth_error (cx_regs (sv_ctx s)) 7 with Some r => has (ri_flags r) 8 | None => false end)
    = (region =? CFG_REGION) && negb (has (ri_flags r) REGION_FLAG_ALWAYS_CB)).
  { unfold CFG_REGION, REGION_FLAG_ALWAYS_CB. destruct (N.eqb_spec region 7) as [E|NE]; [|reflexivity]. rewrite E in RG. change (N.to_nat 7) with 7%nat in RG. rewrite RG. reflexivity. }
  rewrite Q. clear Q. destruct ((region =? CFG_REGION) && negb (has (ri_flags r) REGION_FLAG_ALWAYS_CB)) eqn:C.
  - destruct (region_access (sv_ctx s) o region w off count data) as [[[res0 buf0] c1] ev0]. intros H NC. injection H as <- <- <- <-.
    exists c1, ev0. split; [reflexivity|apply after_none].
  - unfold region_access. rewrite RG, C. destruct (negb (ri_cb r)).
    { intros H NC. injection H as <- <- <- <-. exists (sv_ctx s), []. split; [reflexivity|]. rewrite all_none by reflexivity. apply after_self. }
    rewrite acts_frame. destruct (acts_ctx (sv_ctx s) (in_cb i 0)) as [[oa c'] eva] eqn:A.
    destruct oa as [[]|e|cr].
    + destruct (or_access o 0%nat off count) as [n b|e]; intros H NC; injection H as <- <- <- <-;
        (do 2 eexists; split; [reflexivity|]); erewrite all_one by reflexivity; exists eva; cbn [sv_ctx set_ctx];
        (split; [exact A|]; split; [destruct s; reflexivity|apply il_left, il_right_all]).
    + apply acts_ok in A; discriminate.
    + intros H NC. injection H as <- <- <- <-. destruct (NC _ eq_refl).
Qed.

Lemma handle_access_after s o w body i r s' ev' : handle_region_access_in s o w body i = (r, s', ev') -> (forall c, r <> HCrash c) ->
  exists c1 ev, handle_region_access (sv_ctx s) o w body = (r, c1, ev) /\
  after i s ev c1 s' ev' (if library_access s (if w then 10 else 9) body then [] else all_acts i ev).
Proof.
  intros H NC. unfold handle_region_access_in in H. unfold handle_region_access, library_access.
  assert (Z : forall l, after i s [] (sv_ctx s) s [] (if l : bool then [] else all_acts i [])) by (intros []; apply after_self).
  destruct (_ <? 16); [injection H as <- <- <-; exists (sv_ctx s), []; split; [reflexivity|apply Z]|].
  destruct (rd body 0 8) as [off|]; cbn [need] in *; [|injection H as <- <- <-; destruct (NC _ eq_refl)].
  destruct (rd body 8 4) as [region|]; cbn [need] in *; [|injection H as <- <- <-; destruct (NC _ eq_refl)].
  destruct (rd body 12 4) as [count|]; cbn [need] in *; [|injection H as <- <- <-; destruct (NC _ eq_refl)].
  destruct (negb (valid_region_access _ _ _ _ _ _)); [injection H as <- <- <-; exists (sv_ctx s), []; split; [reflexivity|apply Z]|].
  destruct (count =? 0); [injection H as <- <- <-; exists (sv_ctx s), []; split; [reflexivity|apply Z]|].
  set (data := if w then skipn 16 body else []) in *.
  destruct (region_access_in s o region w off count data i) as [[[res buf] s1] ev1] eqn:RA.
  assert (NR : forall c, res <> Crash c).
  { intros c ->. injection H as <- <- <-. destruct (NC _ eq_refl). }
  destruct (region_access_after _ _ _ _ _ _ _ _ _ _ _ _ RA NR) as (c1 & ev & E & AF). rewrite E.
  replace (((if w then 10 else 9) =? 9) || ((if w then 10 else 9) =? 10)) with true by (destruct w; reflexivity). cbn [andb].
  destruct res as [n|e|c]; [destruct (n =? count)| |destruct (NR _ eq_refl)]; injection H as <- <- <-; exists c1, ev; (split; [reflexivity|exact AF]).
Qed.

Lemma set_state_after i fuel : forall s answers k cur target o s' ev', set_state_loop_in fuel s answers k cur target i = (o, s', ev') -> (forall c, o <> Crash c) ->
  cx_mig (sv_ctx s) = Some cur ->
  exists cur' ev eva, set_state_loop fuel answers k cur target = (o, cur', ev) /\ filter callback ev = ev /\
    acts_ctx (set_mig (sv_ctx s) (Some cur')) (concat (map (in_cb i) (seq k (length ev)))) = (Ok tt, sv_ctx s', eva) /\
    s' = set_ctx s (sv_ctx s') /\ interleaved ev eva ev'.
Proof.
  assert (MG : forall c m, cx_mig c = m -> set_mig c m = c) by (intros [] m <-; reflexivity).
  induction fuel as [|fuel IH]; intros s answers k cur target o s' ev' H NC CM; cbn [set_state_loop_in set_state_loop] in *.
  - destruct (cur =? target); injection H as <- <- <-; [|destruct (NC _ eq_refl)].
    exists cur, [], []. cbn. rewrite (MG _ _ CM), set_ctx_eta. repeat split; constructor.
  - assert (NIL : forall x : outcome unit, exists cur' ev eva, (x, cur, @nil event) = (x, cur', ev) /\ filter callback ev = ev /\
      acts_ctx (set_mig (sv_ctx s) (Some cur')) (concat (map (in_cb i) (seq k (length ev)))) = (Ok tt, sv_ctx s, eva) /\ s = set_ctx s (sv_ctx s) /\ interleaved ev eva []).
    { intros x. exists cur, [], []. cbn. rewrite (MG _ _ CM), set_ctx_eta. repeat split; constructor. }
    destruct (cur =? target); [injection H as <- <- <-; apply NIL|].
    destruct (nth_error next_state (N.to_nat cur)) as [row|]; [|injection H as <- <- <-; destruct (NC _ eq_refl)].
    destruct (nth_error row (N.to_nat target)) as [nxt|]; [|injection H as <- <- <-; destruct (NC _ eq_refl)].
    destruct (nxt =? ST_ERROR); [injection H as <- <- <-; apply NIL|].
    unfold handle_device_state_in in H. unfold handle_device_state.
    destruct (negb (transition_is_valid cur nxt)); [injection H as <- <- <-; apply NIL|].
    destruct (vfio_to_vfu nxt) as [v|]; [|injection H as <- <- <-; destruct (NC _ eq_refl)].
    rewrite acts_frame in H. destruct (acts_ctx (sv_ctx s) (in_cb i k)) as [[oa c'] eva] eqn:A.
    destruct oa as [[]|e|cr]; [|apply acts_ok in A; discriminate|injection H as <- <- <-; destruct (NC _ eq_refl)].
    destruct (answers k) as [e|].
    + injection H as <- <- <-. exists cur, [EvTransition v], eva. cbn [length seq map concat filter callback sv_ctx set_ctx]. rewrite app_nil_r, (MG _ _ CM).
      repeat split; [exact A|apply il_left, il_right_all].
    + set (s1 := set_ctx (set_ctx s c') (set_mig (sv_ctx (set_ctx s c')) (Some nxt))) in *.
      destruct (set_state_loop_in fuel s1 answers (S k) nxt target i) as [[o2 s2] ev2] eqn:L. injection H as <- <- <-.
      destruct (IH s1 answers (S k) nxt target _ _ _ L NC eq_refl) as (cur' & ev & eva2 & E & F & AA & SE & IL). rewrite E.
      exists cur', (EvTransition v :: ev), (eva ++ eva2). cbn [length seq map concat filter callback app]. rewrite F.
      split; [reflexivity|]. split; [reflexivity|]. split; [|split; [exact SE|apply il_left, il_skip; exact IL]].
      rewrite (acts_app _ _ (concat (map (in_cb i) (seq (S k) (length ev)))) (set_mig c' (Some cur')) eva) by (rewrite acts_mig, A; reflexivity).
      replace (set_mig c' (Some cur')) with (set_mig (sv_ctx s1) (Some cur')) by reflexivity. rewrite AA. reflexivity.
Qed.

Lemma feature_after s o body i r s' ev' : handle_device_feature_in s o body i = (r, s', ev') -> (forall c, r <> HCrash c) ->
  exists c1 ev, handle_device_feature (sv_ctx s) o body = (r, c1, ev) /\ after i s ev c1 s' ev' (all_acts i ev).
Proof.
  unfold handle_device_feature_in. destruct (sets_mig_state (sv_ctx s) body) as [feature|] eqn:SM.
  - unfold sets_mig_state in SM. unfold handle_device_feature. destruct (rd body 0 4) as [argsz|]; [|discriminate]. destruct (rd body 4 4) as [flags|]; [|discriminate].
    destruct (_ && _) eqn:B in SM; [|discriminate]. injection SM as SM. rewrite !andb_true_iff, !negb_true_iff in B. destruct B as ((((((B1 & B2) & B3) & B4) & B5) & B6) & B7).
    replace (N.of_nat (length body) <? 8) with false by lia. cbn [need]. rewrite B2, B3, B4, B5, B6, B7, SM. cbn [negb orb].
    unfold migration_feature_set_in, migration_feature_set. destruct (negb (feature =? FEATURE_MIG_DEVICE_STATE)); [intros H NC; injection H as <- <- <-; destruct (NC _ eq_refl)|].
    destruct (rd body 8 4) as [st|]; cbn [need]; [|intros H NC; injection H as <- <- <-; destruct (NC _ eq_refl)].
    destruct (cx_mig (sv_ctx s)) as [cur|] eqn:CM; [|intros H NC; injection H as <- <- <-; destruct (NC _ eq_refl)].
    unfold migration_set_state. destruct (NUM_STATES <? st).
    + intros H NC. injection H as <- <- <-. do 2 eexists. split; [reflexivity|]. rewrite all_none by reflexivity.
      replace (set_mig (sv_ctx s) (Some cur)) with (sv_ctx s) by (rewrite <- CM; destruct (sv_ctx s); reflexivity). apply after_self.
    + destruct (set_state_loop_in 8 s (or_trans o) 0 cur st i) as [[res s1] ev1] eqn:L. intros H NC.
      assert (NR : forall c, res <> Crash c) by (intros c ->; injection H as <- <- <-; destruct (NC _ eq_refl)).
      destruct (set_state_after _ _ _ _ _ _ _ _ _ _ L NR CM) as (cur' & ev & eva & E & F & AA & SE & IL). rewrite E. injection H as <- <- <-.
      do 2 eexists. split; [reflexivity|]. exists eva. unfold all_acts. rewrite F. auto.
  - destruct (handle_device_feature (sv_ctx s) o body) as [[r0 c1] ev] eqn:H. intros HH NC. injection HH as <- <- <-. exists c1, ev. split; [reflexivity|].
    replace (all_acts i ev) with (@nil act); [apply after_none|]. symmetry. apply all_none.
    (* no callback *)
    unfold handle_device_feature in H. unfold sets_mig_state in SM.
    destruct (N.of_nat (length body) <? 8) eqn:LB; [injection H as <- <- <-; reflexivity|].
    destruct (rd body 0 4) as [argsz|]; cbn [need] in H; [|injection H as <- <- <-; reflexivity].
    destruct (rd body 4 4) as [flags|]; cbn [need] in H; [|injection H as <- <- <-; reflexivity].
    set (ops := N.ldiff flags FEATURE_MASK) in *. set (feature := N.land flags FEATURE_MASK) in *. set (sup := feature_supported _ _) in *.
    destruct (negb (N.land flags sup =? ops) || (sup =? 0)) eqn:C1; [injection H as <- <- <-; reflexivity|].
    destruct (ops =? FEATURE_GET) eqn:C2.
    { destruct (is_migration_feature feature); [injection H as <- <- <-; reflexivity|]. destruct (is_dma_feature feature); [|injection H as <- <- <-; reflexivity].
      destruct (dma_feature_get _ _ _ _) as [r1 c2]. injection H as <- <- <-. reflexivity. }
    destruct (ops =? FEATURE_SET) eqn:C3.
    { destruct (argsz <? N.of_nat (length body)) eqn:C4; [injection H as <- <- <-; reflexivity|].
      destruct (is_migration_feature feature) eqn:C5.
      - exfalso. apply orb_false_iff in C1. destruct C1 as (C1 & C1'). apply negb_false_iff in C1. rewrite C1, C1' in SM. replace (8 <=? N.of_nat (length body)) with true in SM by lia. discriminate SM.
      - destruct (is_dma_feature feature); [|injection H as <- <- <-; reflexivity]. destruct (dma_feature_set _ _ _ _) as [r1 c2]. injection H as <- <- <-. reflexivity. }
    destruct (negb (has ops FEATURE_PROBE)); [injection H as <- <- <-; reflexivity|]. destruct (argsz <? N.of_nat (length body)); injection H as <- <- <-; reflexivity.
Qed.

Lemma reset_after s ans t i res s' ev' : device_reset_in s ans t i = (res, s', ev') -> (forall c, res <> Crash c) ->
  exists c1 ev, device_reset (sv_ctx s) ans t = (res, c1, ev) /\ after i s ev c1 s' ev' (all_acts i ev).
Proof.
  unfold device_reset_in, device_reset. destruct (cx_reset (sv_ctx s)).
  - rewrite acts_frame. destruct (acts_ctx (sv_ctx s) (in_cb i 0)) as [[oa c'] eva] eqn:A. cbn [sv_ctx set_ctx].
    destruct oa as [[]|e|cr]; [|apply acts_ok in A; discriminate|intros H NC; injection H as <- <- <-; destruct (NC _ eq_refl)].
    destruct ans as [e|]; intros H NC; injection H as <- <- <-; (do 2 eexists; split; [reflexivity|]); erewrite all_one by reflexivity; exists eva; cbn [sv_ctx set_ctx].
    + split; [exact A|]. split; [destruct s; reflexivity|apply il_left, il_right_all].
    + split; [|split; [destruct s; reflexivity|apply il_left, il_right_all]]. pose proof (acts_same _ _ _ _ _ A) as S. rewrite acts_mig, A, (sm_mig _ _ S). reflexivity.
  - intros H NC. injection H as <- <- <-. do 2 eexists. split; [reflexivity|]. rewrite all_none by reflexivity. apply after_none.
Qed.

Lemma map_events cb os d addr size fd off prot res d' ev : dma_map_request cb os d addr size fd off prot = (res, d', ev) ->
  filter callback ev = filter registers ev /\ (length (filter registers ev) <= 1)%nat.
Proof.
  unfold dma_map_request, close_ev. destruct (add_region os d addr size fd off prot) as [[[idx|e|c] d1] ev1] eqn:A.
  - assert (ev1 = []).
    { unfold add_region, close_ev in A. destruct (_ <? size); [discriminate|]. destruct (add_scan _ _ _ _ _ _ _ _) as [x|]; [now injection A as _ _ <-|].
      destruct (Nat.eqb _ _); [discriminate|]. destruct (fd =? -1)%Z; [now injection A as _ _ <-|]. destruct (os_blksize os); [|discriminate].
      destruct (if dm_pgsize d =? 0 then _ else _); try discriminate. destruct (map_region _ _); try discriminate. now injection A as _ _ <-. }
    subst. destruct (nth_error _ _); intros H; injection H as <- <- <-; [destruct cb|]; cbn; auto.
  - intros H. injection H as <- <- <-. assert (F : forall l, (forall x, In x l -> exists f, x = EvClose f) -> filter callback l = [] /\ filter registers l = []).
    { induction l as [|x l IH]; [auto|]. intros X. destruct (X x (or_introl eq_refl)) as (f & ->). cbn. apply IH. intros y I. apply X. now right. }
    destruct (F (ev1 ++ (if (fd =? -1)%Z then [] else [EvClose fd]))) as (-> & ->); [|auto]. intros x I. apply in_app_iff in I. destruct I as [I|I].
    + unfold add_region, close_ev in A. destruct (_ <? size); [injection A as _ _ <-; destruct I|]. destruct (add_scan _ _ _ _ _ _ _ _) as [y|]; [injection A as _ _ <-; destruct I|].
      destruct (Nat.eqb _ _); [injection A as _ _ <-; destruct I|]. destruct (fd =? -1)%Z; [discriminate|]. destruct (os_blksize os); [|injection A as _ _ <-; destruct I].
      destruct (if dm_pgsize d =? 0 then _ else _); [|injection A as _ _ <-; destruct I|discriminate]. destruct (map_region _ _); [discriminate| |discriminate].
      injection A as _ _ <-. destruct I as [<-|[]]. now eexists.
    + destruct (fd =? -1)%Z; [destruct I|destruct I as [<-|[]]]. now eexists.
  - intros H. injection H as <- <- <-.
    assert (ev1 = []); [|subst; auto].
    unfold add_region, close_ev in A. destruct (_ <? size); [discriminate|]. destruct (add_scan _ _ _ _ _ _ _ _) as [x|]; [now injection A as _ _ <-|].
    destruct (Nat.eqb _ _); [discriminate|]. destruct (fd =? -1)%Z; [discriminate|]. destruct (os_blksize os); [|discriminate].
    destruct (if dm_pgsize d =? 0 then _ else _); [destruct (map_region _ _)| |]; try discriminate; now injection A as _ _ <-.
Qed.

Lemma map_after s d o body fds i r s' fds' ev' : handle_dma_map_in s d o body fds i = (r, s', fds', ev') -> (forall c, r <> HCrash c) ->
  exists c1 ev, handle_dma_map (sv_ctx s) d o body fds = (r, c1, fds', ev) /\ after i s ev c1 s' ev' (all_acts i ev).
Proof.
  unfold handle_dma_map_in. destruct (handle_dma_map (sv_ctx s) d o body fds) as [[[r0 c1] fds1] ev] eqn:H.
  destruct (then_acts r0 (set_ctx s c1) ev (existsb registers ev) (in_cb i 0)) as [[r1 s1] ev1] eqn:T. intros HH NC. injection HH as <- <- <- <-.
  destruct (then_acts_after _ _ _ _ _ _ _ _ T NC) as (-> & (eva & AA & SE & IL)). exists c1, ev. split; [reflexivity|]. exists eva. split; [|split; [exact SE|exact IL]].
  rewrite <- AA. cbn [sv_ctx set_ctx]. f_equal.
  assert (FR : filter callback ev = filter registers ev /\ (length (filter registers ev) <= 1)%nat).
  { unfold handle_dma_map in H. destruct (_ <? 32); [injection H as _ _ _ <-; auto|].
    destruct (rd body 0 4); cbn [need] in H; [|injection H as _ _ _ <-; auto]. destruct (rd body 4 4); cbn [need] in H; [|injection H as _ _ _ <-; auto].
    destruct (rd body 8 8); cbn [need] in H; [|injection H as _ _ _ <-; auto]. destruct (rd body 16 8); cbn [need] in H; [|injection H as _ _ _ <-; auto].
    destruct (rd body 24 8); cbn [need] in H; [|injection H as _ _ _ <-; auto]. destruct (_ <? 32); [injection H as _ _ _ <-; auto|].
    destruct (negb _); [injection H as _ _ _ <-; auto|]. destruct (match fds with [] => _ | _ => _ end) as [fd rest].
    destruct (_ && _); [injection H as _ _ _ <-; auto|]. destruct (dma_map_request _ _ _ _ _ _ _ _) as [[res d'] ev0] eqn:M. injection H as _ _ _ <-. exact (map_events _ _ _ _ _ _ _ _ _ _ _ M). }
  destruct FR as (FC & FL). unfold all_acts. rewrite FC. clear - FL. destruct (filter registers ev) as [|e [|e' l]] eqn:F; [| |cbn in FL; lia].
  - replace (existsb registers ev) with false; [reflexivity|]. symmetry. apply Bool.not_true_iff_false. intros X. apply existsb_exists in X. destruct X as (x & I & R).
    assert (J : In x (filter registers ev)) by (now apply filter_In). rewrite F in J. destruct J.
  - replace (existsb registers ev) with true; [cbn; now rewrite app_nil_r|]. symmetry. apply existsb_exists. exists e. apply filter_In. rewrite F. now left.
Qed.

Lemma close_no_cb fd : filter callback (close_ev fd) = [].
Proof. unfold close_ev. destruct (fd =? -1)%Z; reflexivity. Qed.
Lemma closes_no_cb l : filter callback (close_all l) = [].
Proof. induction l as [|fd l IH]; cbn [close_all]; [reflexivity|]. rewrite filter_app, IH, close_no_cb. reflexivity. Qed.
Lemma disable_no_cb n : forall t index i o t' ev, disable_loop t index i n = (o, t', ev) -> filter callback ev = [].
Proof.
  induction n as [|n IH]; intros t index i o t' ev; cbn [disable_loop]; [intros H; injection H as <- <- <-; reflexivity|].
  destruct (_ && _); [intros H; injection H as <- <- <-; reflexivity|].
  destruct (get_efd t index i) as [fd|]; [|intros H; injection H as <- <- <-; reflexivity].
  destruct (disable_loop _ index (i + 1) n) as [[o2 t2] ev2] eqn:E. intros H. injection H as <- <- <-. rewrite filter_app, (IH _ _ _ _ _ _ E), close_no_cb. reflexivity.
Qed.
Lemma signal_no_cb n : forall t index i sel ans k o ev, signal_loop t index i n sel ans k = (o, ev) -> filter callback ev = [].
Proof.
  induction n as [|n IH]; intros t index i sel ans k o ev; cbn [signal_loop]; [intros H; injection H as <- <-; reflexivity|].
  destruct (get_efd t index i) as [fd|]; [|intros H; injection H as <- <-; reflexivity].
  destruct (match sel with None => Some true | Some (b :: _) => Some (b =? 1) | Some [] => _ end) as [ch|]; [|intros H; injection H as <- <-; reflexivity].
  destruct (_ && ch); [|apply IH]. destruct (ans k); [intros H; injection H as <- <-; reflexivity|].
  destruct (signal_loop _ _ _ _ _ _ _) as [o2 ev2] eqn:E. intros H. injection H as <- <-. cbn. exact (IH _ _ _ _ _ _ _ _ E).
Qed.
Lemma bind_no_cb n : forall t index i fds o t' rest ev, bind_loop t index i n fds = (o, t', rest, ev) -> filter callback ev = [].
Proof.
  induction n as [|n IH]; intros t index i fds o t' rest ev; cbn [bind_loop]; [intros H; injection H as <- <- <- <-; reflexivity|].
  destruct (get_efd t index i) as [old|]; [|intros H; injection H as <- <- <- <-; reflexivity].
  destruct fds as [|fd fds']; [intros H; injection H as <- <- <- <-; apply close_no_cb|].
  destruct (fd <? 0)%Z; [intros H; injection H as <- <- <- <-; apply close_no_cb|].
  destruct (bind_loop _ _ _ _ _) as [[[o2 t2] rest2] ev2] eqn:E. intros H. injection H as <- <- <- <-. rewrite filter_app, close_no_cb. cbn. exact (IH _ _ _ _ _ _ _ _ E).
Qed.
Lemma irqs_no_cb cfg t ans body fds r t' fds' ev : set_irqs cfg t ans body fds = (r, t', fds', ev) ->
  filter callback ev = [] \/ exists e, ev = [e] /\ masks e = true.
Proof.
  assert (NO : forall l : list event, filter callback l = [] -> filter callback l = [] \/ exists e, l = [e] /\ masks e = true) by auto.
  unfold set_irqs. destruct (_ <? 20); [intros H; injection H as <- <- <- <-; now left|].
  destruct (rd body 0 4) as [argsz|]; cbn [need]; [|intros H; injection H as <- <- <- <-; now left].
  destruct (rd body 4 4) as [flags|]; cbn [need]; [|intros H; injection H as <- <- <- <-; now left].
  destruct (rd body 8 4) as [index|]; cbn [need]; [|intros H; injection H as <- <- <- <-; now left].
  destruct (rd body 12 4) as [start|]; cbn [need]; [|intros H; injection H as <- <- <- <-; now left].
  destruct (rd body 16 4) as [count|]; cbn [need]; [|intros H; injection H as <- <- <- <-; now left].
  destruct (negb (set_irqs_valid _ _ _ _ _ _ _ _)); [intros H; injection H as <- <- <- <-; now left|].
  destruct ((_ =? IRQ_ACTION_MASK) || _).
  { unfold irqs_set_state. destruct (negb (irq_has_cb cfg index)); [intros H; injection H as <- <- <- <-; now left|].
    destruct (negb (_ <=? _)); [intros H; injection H as <- <- <- <-; now left|]. destruct (negb (_ || _)); intros H; injection H as <- <- <- <-; [now left|right; eexists; split; reflexivity]. }
  destruct (_ || _).
  { unfold irqs_disable. destruct (negb (_ <=? _)); [intros H; injection H as <- <- <- <-; now left|].
    destruct (disable_loop _ _ _ _) as [[[u|e|c] t1] ev1] eqn:E; intros H; injection H as <- <- <- <-; apply NO; exact (disable_no_cb _ _ _ _ _ _ _ E). }
  destruct (_ =? IRQ_DATA_EVENTFD).
  { destruct (bind_loop _ _ _ _ _) as [[[[u|e|c] t1] rest] ev1] eqn:E; intros H; injection H as <- <- <- <-; apply NO; exact (bind_no_cb _ _ _ _ _ _ _ _ _ E). }
  destruct (signal_loop _ _ _ _ _ _ _) as [[u|e|c] ev1] eqn:E; intros H; injection H as <- <- <- <-; apply NO; exact (signal_no_cb _ _ _ _ _ _ _ _ _ E).
Qed.

Lemma masks_none ev : filter callback ev = [] -> existsb masks ev = false.
Proof. induction ev as [|e ev IH]; [reflexivity|]. destruct e; cbn; try discriminate; exact IH. Qed.

Lemma mig_read_cb m max ans body r ev : mig_data_read m max ans body = (r, ev) -> ev = [] \/ exists n, ev = [EvReadData n].
Proof.
  unfold mig_data_read. destruct (_ <? 8); [intros H; injection H as <- <-; auto|].
  destruct (rd body 0 4); cbn [need]; [|intros H; injection H as <- <-; auto]. destruct (rd body 4 4) as [size|]; cbn [need]; [|intros H; injection H as <- <-; auto].
  destruct m; [|intros H; injection H as <- <-; auto]. destruct (_ && _); [intros H; injection H as <- <-; auto|].
  destruct (max <? size); [intros H; injection H as <- <-; auto|]. destruct (_ <? 8 + size); [intros H; injection H as <- <-; auto|].
  destruct ans; intros H; injection H as <- <-; eauto.
Qed.
Lemma mig_write_cb m max ans body r ev : mig_data_write m max ans body = (r, ev) -> ev = [] \/ exists d, ev = [EvWriteData d].
Proof.
  unfold mig_data_write. destruct (_ <? 8); [intros H; injection H as <- <-; auto|].
  destruct (rd body 0 4) as [a|]; cbn [need]; [|intros H; injection H as <- <-; auto]. destruct (rd body 4 4) as [size|]; cbn [need]; [|intros H; injection H as <- <-; auto].
  destruct m as [st|]; [|intros H; injection H as <- <-; auto]. destruct (negb _); [intros H; injection H as <- <-; auto|].
  destruct (max <? size); [intros H; injection H as <- <-; auto|]. destruct (a <? 8 + size); [intros H; injection H as <- <-; auto|]. destruct (_ <? 8 + size); [intros H; injection H as <- <-; auto|].
  destruct (slice _ _ _); cbn [need]; [|intros H; injection H as <- <-; auto]. destruct ans; [destruct (_ =? _)|]; intros H; injection H as <- <-; eauto.
Qed.

Lemma after_inside i j s ev c1 s' ev' l : after i s ev c1 s' ev' l -> after j s ev c1 s' ev' l.
Proof. auto. Qed.

Lemma dispatch_after s o cmd body fds i r s' fds' ev' : dispatch_in s o cmd body fds i = (r, s', fds', ev') -> (forall c, r <> HCrash c) ->
  (cmd = CMD_DMA_UNMAP -> cx_dma (sv_ctx s) = None) ->
  exists c1 ev, dispatch (sv_ctx s) o cmd body fds = (r, c1, fds', ev) /\ after i s ev c1 s' ev' (if library_access s cmd body then [] else all_acts i ev).
Proof.
  intros H NC NU. unfold dispatch_in in H.
  assert (PL : forall r c1 fds' ev, filter callback ev = [] -> dispatch (sv_ctx s) o cmd body fds = (r, c1, fds', ev) ->
    exists c2 ev2, dispatch (sv_ctx s) o cmd body fds = (r, c2, fds', ev2) /\ after i s ev2 c2 (set_ctx s c1) ev (if library_access s cmd body then [] else all_acts i ev2)).
  { clear. intros r c1 fds' ev F D. exists c1, ev. split; [exact D|]. rewrite (all_none _ _ F). destruct (library_access s cmd body); apply after_none. }
  unfold library_access in *. unfold dispatch in *.
  destruct (cmd =? CMD_DMA_MAP) eqn:K1.
  { replace ((cmd =? 9) || (cmd =? 10)) with false by (unfold CMD_DMA_MAP in K1; lia). cbn [andb].
    destruct (cx_dma (sv_ctx s)) as [d|] eqn:D.
    - exact (map_after _ _ _ _ _ _ _ _ _ _ H NC).
    - injection H as <- <- <- <-. do 2 eexists. split; [reflexivity|]. rewrite all_none by reflexivity. apply after_none. }
  destruct (cmd =? CMD_DMA_UNMAP) eqn:K2.
  { pose proof (NU ltac:(lia)) as DN. rewrite DN in H. rewrite DN in PL. rewrite DN. injection H as <- <- <- <-. exact (PL _ _ _ [] eq_refl eq_refl). }
  destruct (cmd =? CMD_REGION_READ) eqn:K3.
  { assert (cmd = 9) by (unfold CMD_REGION_READ in K3; lia). subst cmd. cbn -[all_acts handle_region_access_in handle_region_access rd].
    destruct (handle_region_access_in s o false body i) as [[r0 s0] ev0] eqn:E. injection H as <- <- <- <-.
    destruct (handle_access_after _ _ _ _ _ _ _ _ E NC) as (c1 & ev & E1 & AF). rewrite E1. do 2 eexists. split; [reflexivity|]. exact AF. }
  destruct (cmd =? CMD_REGION_WRITE) eqn:K4.
  { assert (cmd = 10) by (unfold CMD_REGION_WRITE in K4; lia). subst cmd. cbn -[all_acts handle_region_access_in handle_region_access rd].
    destruct (handle_region_access_in s o true body i) as [[r0 s0] ev0] eqn:E. injection H as <- <- <- <-.
    destruct (handle_access_after _ _ _ _ _ _ _ _ E NC) as (c1 & ev & E1 & AF). rewrite E1. do 2 eexists. split; [reflexivity|]. exact AF. }
  replace ((cmd =? 9) || (cmd =? 10)) with false in * by (unfold CMD_REGION_READ, CMD_REGION_WRITE in *; lia). cbn [andb] in *.
  destruct (cmd =? CMD_RESET) eqn:K5.
  { assert (cmd = 13) by (unfold CMD_RESET in K5; lia). subst cmd. cbn -[all_acts device_reset device_reset_in].
    destruct (device_reset_in s (or_reset o 0%nat) ResetDevice i) as [[res s0] ev0] eqn:E. injection H as <- <- <- <-.
    assert (NR : forall c, res <> Crash c) by (intros c ->; destruct (NC _ eq_refl)).
    destruct (reset_after _ _ _ _ _ _ _ E NR) as (c1 & ev & E1 & AF). rewrite E1. do 2 eexists. split; [reflexivity|]. exact AF. }
  destruct (cmd =? CMD_FEATURE) eqn:K6.
  { assert (cmd = 16) by (unfold CMD_FEATURE in K6; lia). subst cmd. cbn -[all_acts handle_device_feature handle_device_feature_in].
    destruct (handle_device_feature_in s o body i) as [[r0 s0] ev0] eqn:E. injection H as <- <- <- <-.
    destruct (feature_after _ _ _ _ _ _ _ E NC) as (c1 & ev & E1 & AF). rewrite E1. do 2 eexists. split; [reflexivity|]. exact AF. }
  destruct (cmd =? CMD_MIG_READ) eqn:K7.
  { assert (cmd = 17) by (unfold CMD_MIG_READ in K7; lia). subst cmd. cbn -[all_acts mig_data_read then_acts].
    destruct (mig_data_read _ _ _ _) as [r0 ev0] eqn:E. destruct (then_acts r0 s ev0 _ (in_cb i 0)) as [[r1 s1] ev1] eqn:T. injection H as <- <- <- <-.
    destruct (then_acts_after _ _ _ _ _ _ _ _ T NC) as (-> & AF). do 2 eexists. split; [reflexivity|]. apply mig_read_cb in E. destruct E as [->|(n & ->)].
    - rewrite all_none by reflexivity. exact AF.
    - erewrite all_one by reflexivity. exact AF. }
  destruct (cmd =? CMD_MIG_WRITE) eqn:K8.
  { assert (cmd = 18) by (unfold CMD_MIG_WRITE in K8; lia). subst cmd. cbn -[all_acts mig_data_write then_acts].
    destruct (mig_data_write _ _ _ _) as [r0 ev0] eqn:E. destruct (then_acts r0 s ev0 _ (in_cb i 0)) as [[r1 s1] ev1] eqn:T. injection H as <- <- <- <-.
    destruct (then_acts_after _ _ _ _ _ _ _ _ T NC) as (-> & AF). do 2 eexists. split; [reflexivity|]. apply mig_write_cb in E. destruct E as [->|(n & ->)].
    - rewrite all_none by reflexivity. exact AF.
    - erewrite all_one by reflexivity. exact AF. }
  destruct (cmd =? CMD_SET_IRQS) eqn:K9.
  { assert (cmd = 8) by (unfold CMD_SET_IRQS in K9; lia). subst cmd. cbn -[all_acts set_irqs then_acts existsb] in *.
    destruct (cx_irqs (sv_ctx s)) as [t|]; [|cbn in H; injection H as <- <- <- <-; destruct (NC _ eq_refl)].
    destruct (set_irqs (cx_irq_cfg (sv_ctx s)) t (or_efd o) body fds) as [[[r0 t'] fds0] ev0] eqn:E.
    destruct (then_acts r0 _ ev0 _ (in_cb i 0)) as [[r1 s1] ev1] eqn:T. injection H as <- <- <- <-.
    destruct (then_acts_after _ _ _ _ _ _ _ _ T NC) as (-> & AF). do 2 eexists. split; [reflexivity|]. apply irqs_no_cb in E. destruct E as [F|(e & -> & M)].
    - rewrite all_none by exact F. rewrite (masks_none _ F) in AF. exact AF.
    - erewrite all_one by (destruct e; try discriminate M; reflexivity). cbn [existsb] in AF. rewrite M in AF. exact AF. }
  destruct (cmd =? CMD_GET_INFO); [injection H as <- <- <- <-; exact (PL _ _ _ [] eq_refl eq_refl)|].
  destruct (cmd =? CMD_GET_REGION_INFO); [injection H as <- <- <- <-; exact (PL _ _ _ [] eq_refl eq_refl)|].
  destruct (cmd =? CMD_GET_REGION_IO_FDS); [injection H as <- <- <- <-; exact (PL _ _ _ [] eq_refl eq_refl)|].
  destruct (cmd =? CMD_GET_IRQ_INFO); [injection H as <- <- <- <-; exact (PL _ _ _ [] eq_refl eq_refl)|].
  injection H as <- <- <- <-. exact (PL _ _ _ [] eq_refl eq_refl).
Qed.

(* ---------- acts in the dma_unregister callback *)

Definition del {A} (idx : nat) (l : list A) : list A := firstn idx l ++ skipn (S idx) l.
Lemma del_nth {A} idx (l : list A) j : (idx < length l)%nat -> nth_error (del idx l) j = nth_error l (if Nat.ltb j idx then j else S j).
Proof.
  revert l j. induction idx as [|idx IH]; intros [|x l] j L; cbn [length] in L; try lia.
  - reflexivity.
  - destruct j as [|j]; [reflexivity|]. change (del (S idx) (x :: l)) with (x :: del idx l). cbn [nth_error]. rewrite IH by lia.
    change (Nat.ltb (S j) (S idx)) with (Nat.ltb j idx). destruct (Nat.ltb j idx); reflexivity.
Qed.
Lemma del_set {A} idx j (x : A) l : (idx < length l)%nat -> j <> idx ->
  del idx (set_nth j x l) = set_nth (if Nat.ltb idx j then pred j else j) x (del idx l).
Proof.
  revert j l. induction idx as [|idx IH]; intros j [|y l] L NE; cbn [length] in L; try lia.
  - destruct j as [|j]; [lia|]. reflexivity.
  - destruct j as [|j]; [reflexivity|]. change (del (S idx) (set_nth (S j) x (y :: l))) with (y :: del idx (set_nth j x l)).
    rewrite IH by lia. change (Nat.ltb (S idx) (S j)) with (Nat.ltb idx j). change (del (S idx) (y :: l)) with (y :: del idx l).
    destruct (Nat.ltb idx j) eqn:LT; [|reflexivity]. apply Nat.ltb_lt in LT. destruct j as [|j]; [lia|]. reflexivity.
Qed.
Lemma del_set_same {A} idx (x : A) l : del idx (set_nth idx x l) = del idx l.
Proof.
  revert l. induction idx as [|idx IH]; intros [|y l]; try reflexivity. change (y :: del idx (set_nth idx x l) = y :: del idx l). now rewrite IH.
Qed.
Lemma set_nth_len {A} n (x : A) l : length (set_nth n x l) = length l.
Proof. revert l. induction n as [|n IH]; intros [|y l]; cbn; auto. Qed.

Definition drop_region (idx : nat) (d : dma) : dma := set_regions d (del idx (dm_regions d)).

Lemma or_bytes_ok ops : forall bm e, or_bytes bm ops <> Err e.
Proof.
  induction ops as [|[j m] ops IH]; intros bm e; cbn [or_bytes]; [discriminate|]. unfold or_byte. destruct (nth_error bm (N.to_nat j)); [apply IH|discriminate].
Qed.
Lemma mark_region_ok pg r x e : mark_region pg r x <> Err e.
Proof. unfold mark_region. destruct (rg_bitmap r); [|discriminate]. destruct (or_bytes _ _) eqn:E; try discriminate. destruct (or_bytes_ok _ _ _ E). Qed.
Lemma mark_ok l : forall d e, sgl_mark_dirty d l <> Err e.
Proof.
  induction l as [|x l IH]; intros d e; cbn [sgl_mark_dirty]; [discriminate|]. destruct (nth_error _ _); [|discriminate]. destruct (_ && _); [|apply IH].
  destruct (mark_region _ _ _) eqn:M; [apply IH|destruct (mark_region_ok _ _ _ _ M)|discriminate].
Qed.

Lemma mark_moved idx l : forall d d', sgl_mark_dirty d l = Ok d' -> (idx < length (dm_regions d))%nat ->
  sgl_mark_dirty (drop_region idx d) (flat_map (moved idx) l) = Ok (drop_region idx d').
Proof.
  induction l as [|x l IH]; intros d d'; cbn [sgl_mark_dirty flat_map]; [intros H _; injection H as <-; reflexivity|].
  intros H L. unfold moved at 1. destruct (Nat.eqb_spec (sg_region x) idx) as [E|NE]; cbn [app].
  - rewrite E in H. destruct (nth_error (dm_regions d) idx) as [r|] eqn:RI; [|apply nth_error_None in RI; lia].
    destruct (_ && _) in H; [|now apply IH]. destruct (mark_region (dm_pgsize d) r x) as [r'|e|c]; try discriminate.
    assert (EQ : drop_region idx d = drop_region idx (set_regions d (set_nth idx r' (dm_regions d)))).
    { unfold drop_region. cbn [dm_regions set_regions]. rewrite del_set_same. reflexivity. }
    rewrite EQ. apply IH; [exact H|]. cbn [dm_regions set_regions]. now rewrite set_nth_len.
  - set (j := if Nat.ltb idx (sg_region x) then pred (sg_region x) else sg_region x). cbn [sgl_mark_dirty sg_region sg_writeable].
    assert (J : nth_error (dm_regions (drop_region idx d)) j = nth_error (dm_regions d) (sg_region x)).
    { unfold drop_region. cbn [dm_regions set_regions]. rewrite del_nth by exact L. f_equal. unfold j.
      destruct (Nat.ltb_spec idx (sg_region x)); [destruct (Nat.ltb_spec (pred (sg_region x)) idx)|destruct (Nat.ltb_spec (sg_region x) idx)]; lia. }
    rewrite J. destruct (nth_error (dm_regions d) (sg_region x)) as [r|]; [|injection H as <-; reflexivity].
    change (dm_pgsize (drop_region idx d)) with (dm_pgsize d). destruct (_ && _); [|now apply IH].
    change (mark_region (dm_pgsize d) r (mk_sg (sg_base x) j (sg_len x) (sg_off x) (sg_writeable x))) with (mark_region (dm_pgsize d) r x).
    destruct (mark_region (dm_pgsize d) r x) as [r'|e|c]; try discriminate.
    replace (set_regions (drop_region idx d) (set_nth j r' (dm_regions (drop_region idx d))))
      with (drop_region idx (set_regions d (set_nth (sg_region x) r' (dm_regions d)))).
    + apply IH; [exact H|]. cbn [dm_regions set_regions]. now rewrite set_nth_len.
    + unfold drop_region. cbn [dm_regions set_regions]. rewrite del_set by assumption. reflexivity.
Qed.

(* The context after the region has been removed. *)
Definition drop_ctx (idx : nat) (c : ctx) : ctx :=
  match cx_dma c with Some d => set_dma c (drop_region idx d) (cx_hint c) | None => c end.
Definition n_regions (c : ctx) : nat := match cx_dma c with Some d => length (dm_regions d) | None => 0%nat end.
Lemma same_n c c' : same c c' -> n_regions c' = n_regions c.
Proof.
  intros S. apply sm_layout in S. unfold layout, n_regions in *. destruct (cx_dma c) as [d|], (cx_dma c') as [d'|]; try discriminate; [|reflexivity].
  injection S as _ _ _ S. apply (f_equal (@length _)) in S. now rewrite !map_length in S.
Qed.

Lemma act_moved idx c a o c' ev : act_ctx c a = (o, c', ev) -> (forall cr, o <> Crash cr) -> (idx < n_regions c)%nat ->
  act_ctx (drop_ctx idx c) (moved_act idx a) = (o, drop_ctx idx c', ev).
Proof.
  unfold n_regions, drop_ctx. destruct (cx_dma c) as [d|] eqn:D; [|lia]. intros H NC L. unfold act_ctx in *.
  destruct a as [l|h|v x|off data]; cbn [step_of moved_act sv_step sv_ctx] in *.
  - unfold dev_mark in *. cbn [sv_ctx set_dma cx_dma] in *. rewrite D in H. destruct (sgl_mark_dirty d l) as [d'|e|cr] eqn:M.
    + rewrite (mark_moved _ _ _ _ M L). injection H as <- <- <-. reflexivity.
    + destruct (mark_ok _ _ _ M).
    + injection H as <- <- <-. destruct (NC _ eq_refl).
  - unfold dev_hint in *. cbn [sv_ctx set_dma cx_dma] in *. rewrite D in H. injection H as <- <- <-. reflexivity.
  - cbn [cx_irqs set_dma]. destruct (cx_irqs c); [|injection H as <- <- <-; destruct (NC _ eq_refl)].
    destruct (irq_trigger _ _ _) as [[u|e|cr] ev0]; injection H as <- <- <-; cbn [sv_ctx]; rewrite D; reflexivity.
  - unfold dev_poke in *. cbn [sv_ctx set_dma cx_pci] in *. destruct (put_slice _ _ _); injection H as <- <- <-; [|destruct (NC _ eq_refl)].
    cbn [sv_ctx set_ctx set_pci cx_dma]. rewrite D. reflexivity.
Qed.
Lemma acts_moved idx l : forall c c' ev, acts_ctx c l = (Ok tt, c', ev) -> (idx < n_regions c)%nat ->
  acts_ctx (drop_ctx idx c) (map (moved_act idx) l) = (Ok tt, drop_ctx idx c', ev).
Proof.
  induction l as [|a l IH]; intros c c' ev; cbn [acts_ctx map]; [intros H _; injection H as <- <-; reflexivity|].
  destruct (act_ctx c a) as [[o c1] ev1] eqn:A. intros H L.
  assert (NC : forall cr, o <> Crash cr) by (intros cr ->; discriminate H).
  rewrite (act_moved _ _ _ _ _ _ A NC L). pose proof (same_n _ _ (act_same _ _ _ _ _ A)) as SN.
  destruct o as [u|e|cr]; [| |destruct (NC _ eq_refl)]; destruct (acts_ctx c1 l) as [[o2 c2] ev2] eqn:E; injection H as -> <- <-;
    rewrite (IH _ _ _ E) by (rewrite SN; exact L); reflexivity.
Qed.

Lemma find_first {A} (f : A -> bool) l r : find f l = Some r ->
  exists idx, nth_error l idx = Some r /\ f r = true /\ forall j x, (j < idx)%nat -> nth_error l j = Some x -> f x = false.
Proof.
  induction l as [|y l IH]; cbn [find]; [discriminate|]. destruct (f y) eqn:F.
  - intros H. injection H as <-. exists 0%nat. split; [reflexivity|]. split; [exact F|]. intros j x L. lia.
  - intros H. destruct (IH H) as (idx & N & FR & B). exists (S idx). split; [exact N|]. split; [exact FR|]. intros [|j] x L X; [cbn in X; injection X as <-; exact F|].
    apply (B j); [lia|exact X].
Qed.
Lemma remove_at cb addr size idx : forall rs r, nth_error rs idx = Some r -> same_range r addr size = true ->
  (forall j x, (j < idx)%nat -> nth_error rs j = Some x -> same_range x addr size = false) ->
  remove_scan cb rs addr size = match release_region cb r with Ok ev => (Ok ev, del idx rs) | Err e => (Err e, rs) | Crash c => (Crash c, rs) end.
Proof.
  induction idx as [|idx IH]; intros [|y rs] r N F B; try discriminate N; cbn [remove_scan].
  - injection N as ->. rewrite F. reflexivity.
  - rewrite (B 0%nat y ltac:(lia) eq_refl). rewrite (IH rs r N F); [|intros j x L X; apply (B (S j)); [lia|exact X]].
    destruct (release_region cb r); reflexivity.
Qed.
Lemma release_cb cb r ev : release_region false r = Ok ev -> release_region cb r = Ok ((if cb then [EvUnregister (rg_info r)] else []) ++ ev).
Proof.
  unfold release_region. destruct (di_vaddr (rg_info r)); [destruct (rg_fd r =? -1)%Z|destruct (rg_fd r =? -1)%Z]; try discriminate; intros H; injection H as <-; [reflexivity|].
  rewrite app_nil_r. reflexivity.
Qed.
Lemma release_same cb r r' : rg_info r' = rg_info r -> rg_fd r' = rg_fd r -> release_region cb r' = release_region cb r.
Proof. unfold release_region. intros -> ->. reflexivity. Qed.
Lemma layout_nth rs rs' idx r : map (fun r => (rg_info r, rg_fd r, rg_off r)) rs' = map (fun r => (rg_info r, rg_fd r, rg_off r)) rs ->
  nth_error rs idx = Some r -> exists r', nth_error rs' idx = Some r' /\ rg_info r' = rg_info r /\ rg_fd r' = rg_fd r.
Proof.
  intros M N. apply (f_equal (fun l => nth_error l idx)) in M. rewrite !nth_error_map, N in M. cbn in M.
  destruct (nth_error rs' idx) as [r'|]; [|discriminate]. cbn in M. injection M as M1 M2 M3. exists r'. auto.
Qed.
Lemma release_no_cb r ev : release_region false r = Ok ev -> filter callback ev = [].
Proof.
  unfold release_region. destruct (di_vaddr (rg_info r)); [destruct (rg_fd r =? -1)%Z|destruct (rg_fd r =? -1)%Z]; try discriminate; intros H; injection H as <-; [|reflexivity].
  cbn. apply close_no_cb.
Qed.

Lemma set_dma_eta c d : cx_dma c = Some d -> set_dma c d (cx_hint c) = c.
Proof. destruct c. cbn. intros ->. reflexivity. Qed.
Lemma set_regions_eta d : set_regions d (dm_regions d) = d.
Proof. destruct d. reflexivity. Qed.

Lemma remove_region_after s d addr size i res s' ev' : cx_dma (sv_ctx s) = Some d -> remove_region_in s addr size i = (res, s', ev') -> (forall c, res <> Crash c) ->
  exists idx, match remove_region (cx_unregister (sv_ctx s)) d addr size with
  | (Ok ev, d2) => res = Ok tt /\ after i s ev (set_dma (sv_ctx s) d2 (cx_hint (sv_ctx s))) s' ev' (map (moved_act idx) (all_acts i ev)) /\
                   (idx < length (dm_regions d))%nat /\ (exists r, nth_error (dm_regions d) idx = Some r /\ same_range r addr size = true)
  | (Err e, d2) => res = Err e /\ d2 = d /\ s' = s /\ ev' = []
  | (Crash _, _) => False
  end.
Proof.
  intros D. unfold remove_region_in, remove_region. rewrite D. destruct (find _ (dm_regions d)) as [r|] eqn:F.
  - destruct (find_first _ _ _ F) as (idx & N & FR & B). set (cb := cx_unregister (sv_ctx s)). rewrite (remove_at cb _ _ _ _ _ N FR B). intros H NC. exists idx.
    assert (AC : exists oa c1 eva, (if cb then do_acts s (in_cb i 0) else (Ok tt, s, [])) = (oa, set_ctx s c1, eva) /\ acts_ctx (sv_ctx s) (if cb then in_cb i 0 else []) = (oa, c1, eva)).
    { destruct cb; [rewrite acts_frame; destruct (acts_ctx (sv_ctx s) (in_cb i 0)) as [[oa c1] eva]; eauto 6|].
      exists (Ok tt), (sv_ctx s), []. rewrite set_ctx_eta. auto. }
    destruct AC as (oa & c1 & eva & A1 & A2). rewrite A1 in H. cbn [sv_ctx set_ctx] in H.
    destruct oa as [[]|e|cr]; [|apply acts_ok in A2; discriminate|injection H as <- <- <-; destruct (NC _ eq_refl)].
    pose proof (acts_same _ _ _ _ _ A2) as S. pose proof (sm_layout _ _ S) as LY. unfold layout in LY. rewrite D in LY. destruct (cx_dma c1) as [d1|] eqn:D1; [|discriminate LY].
    injection LY as _ _ _ LY. destruct (layout_nth _ _ _ _ LY N) as (r1 & N1 & I1 & F1).
    assert (RM : remove_scan false (dm_regions d1) addr size = match release_region false r1 with Ok ev => (Ok ev, del idx (dm_regions d1)) | Err e => (Err e, dm_regions d1) | Crash c => (Crash c, dm_regions d1) end).
    { apply remove_at; [exact N1| |].
      - unfold same_range, rg_base, rg_len in *. rewrite I1. exact FR.
      - intros j x L X. symmetry in LY. destruct (layout_nth _ _ _ _ LY X) as (x' & X1 & X2 & X3). pose proof (B _ _ L X1) as BX.
        unfold same_range, rg_base, rg_len in *. rewrite <- X2. exact BX. }
    unfold remove_region in H. rewrite RM in H. rewrite (release_same false r r1 I1 F1) in H.
    destruct (release_region false r) as [ev|e|cr] eqn:RL; cycle 1.
    { exfalso. unfold release_region in RL. destruct (di_vaddr (rg_info r)); destruct (rg_fd r =? -1)%Z; discriminate. }
    { injection H as <- <- <-. destruct (NC _ eq_refl). }
    rewrite (release_cb cb _ _ RL). injection H as <- <- <-. split; [reflexivity|].
    assert (LI : (idx < length (dm_regions d))%nat) by (apply nth_error_Some; congruence).
    split; [|split; [exact LI|eauto]]. exists eva. split; [|split].
    + cbn [sv_ctx set_ctx]. replace (all_acts i ((if cb then [EvUnregister (rg_info r)] else []) ++ ev)) with (if cb then in_cb i 0 else []).
      2: { destruct cb; symmetry; [eapply all_one|eapply all_none]; cbn; rewrite (release_no_cb _ _ RL); reflexivity. }
      pose proof (acts_moved idx _ _ _ _ A2) as AM. unfold n_regions in AM. rewrite D in AM. specialize (AM LI).
      unfold drop_ctx in AM. rewrite D, D1 in AM. exact AM.
    + reflexivity.
    + destruct cb.
      { cbn [app]. apply il_left. rewrite <- (app_nil_r eva) at 1. apply il_skip. apply il_left_all. }
      cbn [acts_ctx] in A2. injection A2 as <- <-. cbn [app]. apply il_left_all.
  - intros H NC. injection H as <- <- <-. exists 0%nat.
    assert (RS : forall cb rs, find (fun r => same_range r addr size) rs = None -> remove_scan cb rs addr size = (Err ENOENT, rs)).
    { intros cb rs. induction rs as [|y rs IH]; cbn [find remove_scan]; [reflexivity|]. destruct (same_range y addr size); [discriminate|]. intros X. rewrite (IH X). reflexivity. }
    rewrite (RS _ _ F). rewrite set_regions_eta. auto.
Qed.

(* All regions removed. *)
Definition clear_ctx (c : ctx) : ctx := match cx_dma c with Some d => set_dma c (set_regions d []) (cx_hint c) | None => c end.
Lemma act_clear c a o c' ev : act_ctx c a = (o, c', ev) -> (forall cr, o <> Crash cr) -> act_ctx (clear_ctx c) a = (o, clear_ctx c', ev).
Proof.
  unfold clear_ctx. destruct (cx_dma c) as [d|] eqn:D.
  - intros H NC. unfold act_ctx in *. destruct a as [l|h|v x|off data]; cbn [step_of sv_step sv_ctx] in *.
    + unfold dev_mark in *. cbn [sv_ctx set_dma cx_dma] in *. rewrite D in H. assert (N0 : sgl_mark_dirty (set_regions d []) l = Ok (set_regions d [])).
      { destruct l as [|x l]; cbn [sgl_mark_dirty dm_regions set_regions]; [reflexivity|]. destruct (sg_region x); reflexivity. }
      rewrite N0. destruct (sgl_mark_dirty d l) as [d'|e|cr] eqn:M.
      * injection H as <- <- <-. apply mark_layout in M. destruct M as (M1 & M2 & M3 & _). cbn [sv_ctx set_ctx set_dma cx_dma].
        unfold set_regions. rewrite M1, M2, M3. reflexivity.
      * destruct (mark_ok _ _ _ M).
      * injection H as <- <- <-. destruct (NC _ eq_refl).
    + unfold dev_hint in *. cbn [sv_ctx set_dma cx_dma] in *. rewrite D in H. injection H as <- <- <-. reflexivity.
    + cbn [cx_irqs set_dma]. destruct (cx_irqs c); [|injection H as <- <- <-; destruct (NC _ eq_refl)].
      destruct (irq_trigger _ _ _) as [[u|e|cr] ev0]; injection H as <- <- <-; cbn [sv_ctx]; rewrite D; reflexivity.
    + unfold dev_poke in *. cbn [sv_ctx set_dma cx_pci] in *. destruct (put_slice _ _ _); injection H as <- <- <-; [|destruct (NC _ eq_refl)].
      cbn [sv_ctx set_ctx set_pci cx_dma]. rewrite D. reflexivity.
  - intros H NC. rewrite H. pose proof (sm_layout _ _ (act_same _ _ _ _ _ H)) as L. unfold layout in L. rewrite D in L. destruct (cx_dma c'); [discriminate|reflexivity].
Qed.
Lemma acts_clear l : forall c c' ev, acts_ctx c l = (Ok tt, c', ev) -> acts_ctx (clear_ctx c) l = (Ok tt, clear_ctx c', ev).
Proof.
  induction l as [|a l IH]; intros c c' ev; cbn [acts_ctx]; [intros H; injection H as <- <-; reflexivity|].
  destruct (act_ctx c a) as [[o c1] ev1] eqn:A. intros H. assert (NC : forall cr, o <> Crash cr) by (intros cr ->; discriminate H).
  rewrite (act_clear _ _ _ _ _ A NC). destruct o as [u|e|cr]; [| |destruct (NC _ eq_refl)]; destruct (acts_ctx c1 l) as [[o2 c2] ev2] eqn:E; injection H as -> <- <-;
    rewrite (IH _ _ _ E); reflexivity.
Qed.

Lemma release_all_after cb i rs : forall s k o s' ev', release_all_in s cb k rs i = (o, s', ev') -> (forall c, o <> Crash c) ->
  o = Ok tt /\ exists ev eva, release_all cb rs = Ok ev /\ acts_ctx (sv_ctx s) (concat (map (in_cb i) (seq k (if cb then length rs else 0)))) = (Ok tt, sv_ctx s', eva) /\
    s' = set_ctx s (sv_ctx s') /\ interleaved ev eva ev' /\ length (filter callback ev) = if cb then length rs else 0%nat.
Proof.
  induction rs as [|r rs IH]; intros s k o s' ev'; cbn [release_all_in release_all length].
  - intros H _. injection H as <- <- <-. split; [reflexivity|]. exists [], []. split; [reflexivity|]. split; [destruct cb; reflexivity|]. split; [now rewrite set_ctx_eta|].
    split; [constructor|]. destruct cb; reflexivity.
  - intros H NC.
    assert (AC : exists oa c1 eva, (if cb then do_acts s (in_cb i k) else (Ok tt, s, [])) = (oa, set_ctx s c1, eva) /\ acts_ctx (sv_ctx s) (if cb then in_cb i k else []) = (oa, c1, eva)).
    { destruct cb; [rewrite acts_frame; destruct (acts_ctx (sv_ctx s) (in_cb i k)) as [[oa c1] eva]; eauto 6|].
      exists (Ok tt), (sv_ctx s), []. rewrite set_ctx_eta. auto. }
    destruct AC as (oa & c1 & eva & A1 & A2). rewrite A1 in H.
    destruct oa as [[]|e|cr]; [|apply acts_ok in A2; discriminate|injection H as <- <- <-; destruct (NC _ eq_refl)].
    destruct (release_region false r) as [ev|e|cr] eqn:RL; cycle 1.
    { exfalso. unfold release_region in RL. destruct (di_vaddr (rg_info r)); destruct (rg_fd r =? -1)%Z; discriminate. }
    { injection H as <- <- <-. destruct (NC _ eq_refl). }
    destruct (release_all_in (set_ctx s c1) cb (S k) rs i) as [[o2 s2] ev2] eqn:E. injection H as -> <- <-.
    destruct (IH _ _ _ _ _ E NC) as (-> & ev3 & eva3 & R3 & A3 & S3 & I3 & L3). split; [reflexivity|]. rewrite (release_cb cb _ _ RL), R3.
    exists ((if cb then [EvUnregister (rg_info r)] else []) ++ ev ++ ev3), (eva ++ eva3). cbn [sv_ctx set_ctx] in A3. rewrite set_ctx_twice in S3.
    split; [now rewrite app_assoc|]. split; [|split; [exact S3|split]].
    + destruct cb.
      * cbn [seq map concat]. pose proof (acts_app _ _ (concat (map (in_cb i) (seq (S k) (length rs)))) _ _ A2) as AA. rewrite A3 in AA. exact AA.
      * cbn [acts_ctx] in A2. injection A2 as <- <-. cbn [seq map concat app] in *. exact A3.
    + destruct cb; cbn [app].
      * apply il_left. apply il_skip. change eva3 with ([] ++ eva3). apply il_app; [apply il_left_all|exact I3].
      * cbn [acts_ctx] in A2. injection A2 as <- <-. cbn [app]. change eva3 with ([] ++ eva3). apply il_app; [apply il_left_all|exact I3].
    + rewrite !filter_app, (release_no_cb _ _ RL). destruct cb; cbn [filter callback app length]; rewrite L3; reflexivity.
Qed.
Lemma remove_all_after s d i res s' ev' : cx_dma (sv_ctx s) = Some d -> remove_all_in s i = (res, s', ev') -> (forall c, res <> Crash c) ->
  res = Ok tt /\ exists ev, remove_all_regions (cx_unregister (sv_ctx s)) d = (Ok ev, set_regions d []) /\
    after i s ev (set_dma (sv_ctx s) (set_regions d []) (cx_hint (sv_ctx s))) s' ev' (all_acts i ev).
Proof.
  intros D. unfold remove_all_in, remove_all_regions. rewrite D. destruct (release_all_in _ _ _ _ _) as [[o s1] ev1] eqn:E. intros H NC.
  assert (NO : forall c, o <> Crash c) by (intros c ->; injection H as <- <- <-; destruct (NC _ eq_refl)).
  destruct (release_all_after _ _ _ _ _ _ _ _ E NO) as (-> & ev & eva & R & A & S & I & L). rewrite R. injection H as <- <- <-. split; [reflexivity|].
  exists ev. split; [reflexivity|]. exists eva. unfold all_acts. rewrite L. apply acts_clear in A. unfold clear_ctx in A at 1. rewrite D in A. rewrite A.
  split; [|split; [|exact I]].
  - unfold clear_ctx. destruct (cx_dma (sv_ctx s1)); reflexivity.
  - rewrite S. cbn [sv_ctx set_ctx]. destruct (cx_dma (sv_ctx s1)); cbn [sv_ctx set_ctx]; rewrite ?set_ctx_twice; reflexivity.
Qed.

Lemma get_layout d hint addr len cp size buf o d' h : dirty_page_get d hint addr len cp size buf = (o, d', h) ->
  map (fun r => (rg_info r, rg_fd r, rg_off r)) (dm_regions d') = map (fun r => (rg_info r, rg_fd r, rg_off r)) (dm_regions d).
Proof.
  intros H. unfold dirty_page_get in H. destruct (addr_to_sgl d hint addr len 1 0) as [res hint'] eqn:E.
  destruct res as [[|s l]|n|e|c]; try (injection H as _ <- _; reflexivity).
  destruct (_ || _); [injection H as _ <- _; reflexivity|].
  destruct (dm_pgsize d =? 0); [injection H as _ <- _; reflexivity|].
  destruct ((cp =? 0) || negb (pow2_or_zero cp)); [injection H as _ <- _; reflexivity|].
  destruct (get_bitmap_size len (dm_pgsize d)); try (injection H as _ <- _; reflexivity);
    destruct (get_bitmap_size len cp) as [n0| |]; try (injection H as _ <- _; reflexivity).
  destruct (negb (size =? n0)); [injection H as _ <- _; reflexivity|].
  destruct (nth_error _ _) as [r'|] eqn:Hr'; [|injection H as _ <- _; reflexivity]. destruct (rg_fd r' =? -1)%Z; [injection H as _ <- _; reflexivity|].
  destruct (rg_bitmap r') as [bm|]; [|injection H as _ <- _; reflexivity].
  destruct (report_bitmap _ _ _ _ _ _) as [[out bm']| |]; injection H as _ <- _; try reflexivity.
  cbn [dm_regions set_regions]. eapply map_set_nth; [exact Hr'|reflexivity].
Qed.

Definition unmap_acts (s : server) (body : list N) (i : inside) (ev : list event) (l : list act) : Prop :=
  (exists idx, removes s body idx /\ l = map (moved_act idx) (all_acts i ev)) \/ ((forall idx, ~ removes s body idx) /\ l = all_acts i ev).
Lemma removes_or_not s body : (exists idx, removes s body idx) \/ (forall idx, ~ removes s body idx).
Proof.
  unfold removes. destruct (cx_dma (sv_ctx s)) as [d|] eqn:D; [|right; intros idx (d & r & fl & Q & _); discriminate].
  destruct (rd body 4 4) as [flags|]; [|right; intros idx (d' & r & fl & _ & _ & Q & _); discriminate].
  destruct (N.eq_dec flags 2) as [E2|N2]; [right; intros idx (d' & r & fl & _ & _ & Q & Q2 & _); injection Q as <-; contradiction|].
  destruct (rd body 8 8) as [addr|]; [|right; intros idx (d' & r & fl & _ & _ & _ & _ & Q & _); discriminate].
  destruct (rd body 16 8) as [size|]; [|right; intros idx (d' & r & fl & _ & _ & _ & _ & _ & Q); discriminate].
  destruct (existsb (fun r => same_range r addr size) (dm_regions d)) eqn:X.
  - left. apply existsb_exists in X. destruct X as (r & I & SR). apply In_nth_error in I. destruct I as (idx & I). exists idx, d, r, flags.
    unfold same_range in SR. apply andb_prop in SR. destruct SR as (S1 & S2). apply N.eqb_eq in S1, S2. rewrite S1, S2. auto 10.
  - right. intros idx (d' & r & fl & Q & I & _ & _ & Qa & Qs). injection Q as <-. injection Qa as ->. injection Qs as ->.
    assert (T : existsb (fun r0 => same_range r0 (rg_base r) (rg_len r)) (dm_regions d) = true); [|rewrite X in T; discriminate].
    apply existsb_exists. exists r. split; [eapply nth_error_In; exact I|]. unfold same_range. now rewrite !N.eqb_refl.
Qed.
Lemma unmap_none s body i ev : filter callback ev = [] -> unmap_acts s body i ev [].
Proof.
  intros F. unfold unmap_acts. rewrite all_none by exact F. destruct (removes_or_not s body) as [(idx & R)|R]; [left; exists idx; auto|right; auto].
Qed.

Lemma unmap_after s d o body i r s' ev' : cx_dma (sv_ctx s) = Some d -> handle_dma_unmap_in s d o body i = (r, s', ev') -> (forall c, r <> HCrash c) ->
  exists c1 ev l, handle_dma_unmap (sv_ctx s) d o body = (r, c1, ev) /\ after i s ev c1 s' ev' l /\ unmap_acts s body i ev l.
Proof.
  intros D H NC. unfold handle_dma_unmap_in in H. unfold handle_dma_unmap.
  assert (ST : forall e : hres, exists c1 ev l, (e, sv_ctx s, []) = (e, c1, ev) /\ after i s ev c1 s [] l /\ unmap_acts s body i ev l).
  { intros e. exists (sv_ctx s), [], []. split; [reflexivity|]. split; [apply after_self|]. now apply unmap_none. }
  (* removing one region from the table d1, with hint h1 *)
  assert (RM : forall d1 h1 addr size out res s1 ev1, map (fun r => (rg_info r, rg_fd r, rg_off r)) (dm_regions d1) = map (fun r => (rg_info r, rg_fd r, rg_off r)) (dm_regions d) ->
    (exists flags, rd body 4 4 = Some flags /\ flags <> 2) -> rd body 8 8 = Some addr -> rd body 16 8 = Some size ->
    remove_region_in (set_ctx s (set_dma (sv_ctx s) d1 h1)) addr size i = (res, s1, ev1) -> (forall c, res <> Crash c) ->
    exists c1 ev l, match remove_region (cx_unregister (sv_ctx s)) d1 addr size with
      | (Ok ev, d2) => (HReply 0 out [], set_dma (sv_ctx s) d2 h1, ev)
      | (Err e, d2) => (herr e, set_dma (sv_ctx s) d2 h1, [])
      | (Crash cr, d2) => (HCrash cr, set_dma (sv_ctx s) d2 h1, [])
      end = (match res with Ok _ => HReply 0 out [] | Err e => herr e | Crash cr => HCrash cr end, c1, ev) /\ after i s ev c1 s1 ev1 l /\ unmap_acts s body i ev l).
  { intros d1 h1 addr size out res s1 ev1 LY (flags & RF & NF) RA RS E NR.
    destruct (remove_region_after (set_ctx s (set_dma (sv_ctx s) d1 h1)) d1 addr size i res s1 ev1 eq_refl E NR) as (idx & R).
    cbn [sv_ctx set_ctx] in R. change (cx_unregister (set_dma (sv_ctx s) d1 h1)) with (cx_unregister (sv_ctx s)) in R.
    destruct (remove_region (cx_unregister (sv_ctx s)) d1 addr size) as [[ev|e|cr] d2]; [| |contradiction].
    - destruct R as (-> & (eva & A1 & A2 & A3) & L & r0 & N0 & S0). do 3 eexists. split; [reflexivity|]. split.
      + exists eva. split; [exact A1|]. split; [rewrite A2 at 1; apply set_ctx_twice|exact A3].
      + left. exists idx. split; [|reflexivity]. symmetry in LY. destruct (layout_nth _ _ _ _ LY N0) as (r1 & N1 & I1 & F1).
        exists d, r1, flags. split; [exact D|]. split; [exact N1|]. split; [exact RF|]. split; [exact NF|]. unfold same_range in S0. unfold rg_base, rg_len in *. rewrite I1. apply andb_prop in S0. destruct S0 as (S1 & S2).
        apply N.eqb_eq in S1, S2. rewrite RA, RS, S1, S2. auto.
    - destruct R as (-> & -> & -> & ->). do 3 eexists. split; [reflexivity|]. split; [apply after_none|]. now apply unmap_none. }
  destruct (rd body 4 4) as [flags|] eqn:RF; cbn [need] in *; [|injection H as <- <- <-; apply ST].
  destruct (flags =? UNMAP_DIRTY) eqn:FD.
  - destruct (rd body 32 8) as [bsize|]; cbn [need] in *; [|injection H as <- <- <-; apply ST].
    destruct (_ <? 40); [injection H as <- <- <-; apply ST|].
    destruct (rd body 0 4) as [argsz|]; cbn [need] in *; [|injection H as <- <- <-; apply ST].
    destruct (rd body 8 8) as [addr|] eqn:RA; cbn [need] in *; [|injection H as <- <- <-; apply ST].
    destruct (rd body 16 8) as [size|] eqn:RS; cbn [need] in *; [|injection H as <- <- <-; apply ST].
    destruct (rd body 24 8) as [pgsize|]; cbn [need] in *; [|injection H as <- <- <-; apply ST].
    destruct (slice body 0 40) as [hdr|]; cbn [need] in *; [|injection H as <- <- <-; apply ST].
    destruct (_ || _); [injection H as <- <- <-; apply ST|].
    destruct (dirty_page_get _ _ _ _ _ _ _) as [[[bm|e|cr] d1] h1] eqn:G.
    + destruct (remove_region_in _ _ _ _) as [[res s1] ev1] eqn:E. injection H as <- <- <-.
      eapply RM; [exact (get_layout _ _ _ _ _ _ _ _ _ _ G)|exists flags; split; [reflexivity|unfold UNMAP_DIRTY in FD; clear - FD; lia]|reflexivity|reflexivity|exact E|]. intros c ->. exact (NC _ eq_refl).
    + injection H as <- <- <-. do 3 eexists. split; [reflexivity|]. split; [apply after_none|]. now apply unmap_none.
    + injection H as <- <- <-. destruct (NC _ eq_refl).
  - destruct (flags =? UNMAP_ALL) eqn:FA.
    + destruct (rd body 8 8) as [addr|] eqn:RA; cbn [need] in *; [|injection H as <- <- <-; apply ST].
      destruct (negb _); [injection H as <- <- <-; apply ST|].
      destruct (rd body 16 8) as [size|] eqn:RS; cbn [need] in *; [|injection H as <- <- <-; apply ST].
      destruct (negb _); [injection H as <- <- <-; apply ST|]. destruct (_ <? 24); [injection H as <- <- <-; apply ST|].
      destruct (rd body 0 4) as [argsz|]; cbn [need] in *; [|injection H as <- <- <-; apply ST].
      destruct (slice body 0 24) as [hdr|]; cbn [need] in *; [|injection H as <- <- <-; apply ST].
      destruct (_ || _); [injection H as <- <- <-; apply ST|].
      destruct (remove_all_in s i) as [[res s1] ev1] eqn:E. injection H as <- <- <-.
      assert (NR : forall c, res <> Crash c) by (intros c ->; exact (NC _ eq_refl)).
      destruct (remove_all_after _ _ _ _ _ _ D E NR) as (-> & ev & R & AF). rewrite R. do 3 eexists. split; [reflexivity|]. split; [exact AF|]. right.
      split; [|reflexivity]. intros idx (d' & r' & fl & _ & _ & Q & Q2 & _). rewrite RF in Q. injection Q as <-. apply Q2. unfold UNMAP_ALL in FA. clear - FA. lia.
    + destruct (flags =? 0); [|injection H as <- <- <-; apply ST]. destruct (_ <? 24); [injection H as <- <- <-; apply ST|].
      destruct (rd body 0 4) as [argsz|]; cbn [need] in *; [|injection H as <- <- <-; apply ST].
      destruct (rd body 8 8) as [addr|] eqn:RA; cbn [need] in *; [|injection H as <- <- <-; apply ST].
      destruct (rd body 16 8) as [size|] eqn:RS; cbn [need] in *; [|injection H as <- <- <-; apply ST].
      destruct (slice body 0 24) as [hdr|]; cbn [need] in *; [|injection H as <- <- <-; apply ST].
      destruct (_ || _); [injection H as <- <- <-; apply ST|].
      destruct (remove_region_in s addr size i) as [[res s1] ev1] eqn:E. injection H as <- <- <-.
      assert (SE : set_ctx s (set_dma (sv_ctx s) d (cx_hint (sv_ctx s))) = s) by (rewrite (set_dma_eta _ _ D); apply set_ctx_eta).
      eapply RM; [reflexivity|exists flags; split; [reflexivity|unfold UNMAP_ALL in FA; clear - FA; lia]|reflexivity|reflexivity|rewrite SE; exact E|]. intros c ->. exact (NC _ eq_refl).
Qed.

Lemma dispatch_done s o cmd body fds i r s' fds' ev' : dispatch_in s o cmd body fds i = (r, s', fds', ev') -> (forall c, r <> HCrash c) ->
  exists c1 ev l, dispatch (sv_ctx s) o cmd body fds = (r, c1, fds', ev) /\ after i s ev c1 s' ev' l /\ done_after s cmd body i ev l.
Proof.
  intros H NC. destruct (N.eq_dec cmd CMD_DMA_UNMAP) as [->|NE].
  - destruct (cx_dma (sv_ctx s)) as [d|] eqn:D.
    + unfold dispatch_in in H. unfold dispatch. change (CMD_DMA_UNMAP =? CMD_DMA_MAP) with false in *. change (CMD_DMA_UNMAP =? CMD_DMA_UNMAP) with true in *.
      cbv iota in *. rewrite D in *. destruct (handle_dma_unmap_in s d o body i) as [[r0 s0] ev0] eqn:E. injection H as <- <- <- <-.
      destruct (unmap_after _ _ _ _ _ _ _ _ D E NC) as (c1 & ev & l & U & A & L). rewrite U. exists c1, ev, l. split; [reflexivity|]. split; [exact A|].
      unfold done_after, library_access. change ((CMD_DMA_UNMAP =? 9) || (CMD_DMA_UNMAP =? 10)) with false. cbn [andb]. destruct L as [(idx & L1 & L2)|(L1 & L2)]; [left; split; [reflexivity|]; eauto|].
      right. auto.
    + destruct (dispatch_after _ _ _ _ _ _ _ _ _ _ H NC ltac:(auto)) as (c1 & ev & E & A). exists c1, ev, (if library_access s CMD_DMA_UNMAP body then [] else all_acts i ev). split; [exact E|]. split; [exact A|].
      unfold done_after. destruct (library_access _ _ _); [reflexivity|right]. split; [|reflexivity]. right. intros idx (d & r' & fl & Q & _). rewrite D in Q. discriminate.
  - destruct (dispatch_after _ _ _ _ _ _ _ _ _ _ H NC ltac:(intros X; contradiction)) as (c1 & ev & E & A). exists c1, ev, (if library_access s cmd body then [] else all_acts i ev). split; [exact E|]. split; [exact A|].
    unfold done_after. destruct (library_access _ _ _); [reflexivity|right]. split; [left; exact NE|reflexivity].
Qed.

(* ---------- a whole step *)

Lemma needs_same c c' cmd body : same c c' -> needs_quiesce c' cmd body = needs_quiesce c cmd body.
Proof.
  intros S. unfold needs_quiesce, access_is_pci_cap_exp. rewrite (sm_quiesce _ _ S), (sm_exp _ _ S). pose proof (sm_layout _ _ S) as L. unfold layout in L.
  destruct (cx_dma c'), (cx_dma c); try discriminate L; reflexivity.
Qed.
Lemma do_acts_ok s l o s' ev : do_acts s l = (o, s', ev) -> (forall c, o <> Crash c) ->
  o = Ok tt /\ acts_ctx (sv_ctx s) l = (Ok tt, sv_ctx s', ev) /\ s' = set_ctx s (sv_ctx s') /\ same (sv_ctx s) (sv_ctx s').
Proof.
  rewrite acts_frame. destruct (acts_ctx (sv_ctx s) l) as [[o1 c1] ev1] eqn:A. intros H NC. injection H as <- <- <-.
  pose proof (acts_ok _ _ _ _ _ A NC) as ->. cbn [sv_ctx set_ctx]. split; [reflexivity|]. split; [reflexivity|]. split; [reflexivity|]. exact (acts_same _ _ _ _ _ A).
Qed.

(* The callback that asks the device to be quiet, and what is done in it. *)
Lemma get_after s en i g s1 ev1 : get_request_in s en i = (g, s1, ev1) -> (forall c, g <> GotCrash c) ->
  exists pre s0 eva evq, do_acts s pre = (Ok tt, s0, eva) /\ get_request s0 en = (g, s1, evq) /\ interleaved evq eva ev1 /\
    ((pre = [] /\ (en_send en = None -> (exists h fds b, en_rx en = RxMsg h fds b) -> existsb is_quiesce evq = false)) \/ (pre = in_quiesce i /\ existsb is_quiesce evq = true)).
Proof.
  intros H NC.
  assert (ST : get_request s en = (g, s1, ev1) -> (en_send en = None -> (exists h fds b, en_rx en = RxMsg h fds b) -> existsb is_quiesce ev1 = false) ->
    exists pre s0 eva evq, do_acts s pre = (Ok tt, s0, eva) /\ get_request s0 en = (g, s1, evq) /\ interleaved evq eva ev1 /\
    ((pre = [] /\ (en_send en = None -> (exists h fds b, en_rx en = RxMsg h fds b) -> existsb is_quiesce evq = false)) \/ (pre = in_quiesce i /\ existsb is_quiesce evq = true))).
  { intros X Q. exists [], s, [], ev1. split; [reflexivity|]. split; [exact X|]. split; [apply il_left_all|]. left. split; [reflexivity|]. exact Q. }
  assert (CL : forall l, existsb is_quiesce (close_all l) = false).
  { induction l as [|f l IH]; [reflexivity|]. unfold close_all in *. cbn [flat_map]. rewrite existsb_app, IH, orb_false_r. unfold close_ev. destruct (_ =? _)%Z; reflexivity. }
  assert (RF : forall s h fds e g s1 ev, refuse s en h fds e = (g, s1, ev) -> en_send en = None -> existsb is_quiesce ev = false).
  { clear - CL. intros s h fds e g s1 ev. unfold refuse, do_reply. intros H SN. rewrite SN in H. destruct (has _ _); injection H as <- <- <-; cbn [app existsb is_quiesce orb]; apply CL. }
  revert ST. unfold get_request_in in H. unfold get_request at 1. destruct (negb (sv_conn s)) eqn:CN; [intros ST; apply ST; [exact H|]; injection H as <- <- <-; reflexivity|].
  destruct (en_rx en) as [e|h fds rb] eqn:RX.
  { intros ST. apply ST; [unfold get_request in H; rewrite CN, RX in H; exact H|]. intros _ (h0 & f0 & b0 & X). discriminate X. }
  intros ST. destruct (negb (is_valid_header h)) eqn:VH; [apply ST; [exact H|intros SN _; exact (RF _ _ _ _ _ _ _ H SN)]|].
  destruct (if hd_size h =? 16 then Ok [] else recv_body (hd_size h - 16) rb) as [body|e|cr] eqn:RB;
    [|apply ST; [exact H|intros SN _; exact (RF _ _ _ _ _ _ _ H SN)]|injection H as <- <- <-; destruct (NC _ eq_refl)].
  destruct (negb (should_exec _ _)) eqn:SE; [apply ST; [exact H|intros SN _; exact (RF _ _ _ _ _ _ _ H SN)]|].
  destruct (needs_quiesce (sv_ctx s) (hd_cmd h) body) eqn:NQ; [|apply ST; [exact H|injection H as <- <- <-; reflexivity]]. clear ST.
  destruct (do_acts s (in_quiesce i)) as [[oa s0] eva] eqn:A.
  assert (NA : forall c, oa <> Crash c) by (intros c ->; injection H as <- <- <-; destruct (NC _ eq_refl)).
  destruct (do_acts_ok _ _ _ _ _ A NA) as (-> & A1 & A2 & SM).
  assert (RX0 : forall (k : got * server * list event),
    (match en_quiesce en with
     | Some e => if e =? EBUSY then (GotErr EBUSY, set_pending s0 (PMsg (mk_msg h body fds)), [EvQuiesce (Some e)])
                 else let '(g, s', ev) := refuse s0 en h fds e in (g, s', EvQuiesce (Some e) :: ev)
     | None => (GotMsg (mk_msg h body fds), set_quiesced s0 true, [EvQuiesce None])
     end) = k -> get_request s0 en = k).
  { intros k K. unfold get_request. rewrite A2. cbn [sv_conn set_ctx sv_ctx]. rewrite CN, RX, VH, RB, (sm_mig _ _ SM), SE, (needs_same _ _ _ _ SM), NQ. rewrite <- A2. exact K. }
  exists (in_quiesce i), s0, eva. destruct (en_quiesce en) as [e|].
  - destruct (e =? EBUSY).
    + injection H as <- <- <-. eexists. split; [exact A|]. split; [apply RX0; reflexivity|]. split; [apply il_left, il_right_all|]. right. split; reflexivity.
    + destruct (refuse s0 en h fds e) as [[g0 s'] ev] eqn:R. injection H as <- <- <-. eexists. split; [exact A|]. split; [apply RX0; reflexivity|].
      split; [|right; split; reflexivity]. apply il_left. rewrite <- (app_nil_r eva) at 1. apply il_skip, il_left_all.
  - injection H as <- <- <-. eexists. split; [exact A|]. split; [apply RX0; reflexivity|]. split; [apply il_left, il_right_all|]. right. split; reflexivity.
Qed.

(* The reply is the same; when sending it makes the connection go away, that happens to what the device has done. *)
Lemma handle_done s en m i o s' fds' ev' : handle_request_in s en m i = (o, s', fds', ev') -> (forall c, o <> Crash c) ->
  exists err body fds c1 ev l sa eva, dispatch (sv_ctx s) (en_or en) (hd_cmd (mg_hdr m)) (mg_body m) (mg_fds m) = (HReply err body fds, c1, fds', ev) /\
    after i s ev c1 sa eva l /\ done_after s (hd_cmd (mg_hdr m)) (mg_body m) i ev l /\
    exists ev2, do_reply sa en (mg_hdr m) err body fds = (o, s', ev2) /\ ev' = eva ++ ev2.
Proof.
  unfold handle_request_in. destruct (dispatch_in _ _ _ _ _ _) as [[[r sa] f1] eva] eqn:D. intros H NC. destruct r as [err body fds|cr]; [|injection H as <- <- <- <-; destruct (NC _ eq_refl)].
  destruct (do_reply sa en (mg_hdr m) err body fds) as [[o2 s2] ev2] eqn:R. injection H as <- <- <- <-.
  destruct (dispatch_done _ _ _ _ _ _ _ _ _ _ D ltac:(discriminate)) as (c1 & ev & l & E & A & L).
  exists err, body, fds, c1, ev, l, sa, eva. split; [exact E|]. split; [exact A|]. split; [exact L|]. exists ev2. split; [exact R|reflexivity].
Qed.

(* The reply changes nothing unless the connection is lost. *)
Definition loses (en : env) (h : header) : bool :=
  negb (has (hd_flags h) F_NO_REPLY) && match en_send en with Some e => (e =? ECONNRESET) || (e =? ENOMSG) | None => false end.
Lemma reply_quiet en h err body fds : loses en h = false -> exists o ev2, (forall c, o <> Crash c) /\ filter callback ev2 = [] /\ forall s, do_reply s en h err body fds = (o, s, ev2).
Proof.
  unfold loses, do_reply. destruct (has _ _); [intros _; exists (Ok tt), []; split; [discriminate|]; split; reflexivity|]. cbn [negb andb].
  destruct (en_send en) as [e|]; [intros ->; exists (Err e), []; split; [discriminate|]; split; reflexivity|]. intros _. do 2 eexists. split; [|split; [|reflexivity]]; [discriminate|reflexivity].
Qed.
Lemma reply_loses en h err body fds s : loses en h = true -> do_reply s en h err body fds = reset_ctx s (en_quiesce_reset en) (en_lost en).
Proof. unfold loses, do_reply. destruct (has _ _); [discriminate|]. cbn [negb andb]. destruct (en_send en) as [e|]; [|discriminate]. intros ->. reflexivity. Qed.

Lemma handle_quiet s en m i o s' fds' ev' : loses en (mg_hdr m) = false -> handle_request_in s en m i = (o, s', fds', ev') -> (forall c, o <> Crash c) ->
  exists c1 ev l eva, handle_request s en m = (o, set_ctx s c1, fds', ev) /\ acts_ctx c1 l = (Ok tt, sv_ctx s', eva) /\ s' = set_ctx s (sv_ctx s') /\
    interleaved ev eva ev' /\ done_after s (hd_cmd (mg_hdr m)) (mg_body m) i ev l.
Proof.
  intros LO H NC. destruct (handle_done _ _ _ _ _ _ _ _ H NC) as (err & body & fds & c1 & ev & l & sa & eva & D & (evx & A1 & A2 & A3) & L & ev2 & R & ->).
  destruct (reply_quiet en (mg_hdr m) err body fds LO) as (o2 & ev3 & _ & F & Q). rewrite Q in R. injection R as <- <- <-.
  exists c1, (ev ++ ev3), l, evx. split; [unfold handle_request; rewrite D, Q; reflexivity|]. split; [exact A1|]. split; [exact A2|]. split.
  - rewrite <- (app_nil_r evx). apply il_app; [exact A3|apply il_left_all].
  - unfold done_after, all_acts in *. rewrite filter_app, F, app_nil_r. exact L.
Qed.

(* ---------- reachable states *)

Lemma reset_quiesced_frame s lost o s' ev b p : reset_ctx_quiesced s lost = (o, s', ev) ->
  reset_ctx_quiesced (set_quiesced (set_pending s p) b) lost = (o, set_quiesced (set_pending s' p) b, ev) /\ sv_pending s' = sv_pending s /\ sv_realized s' = sv_realized s.
Proof.
  unfold reset_ctx_quiesced. cbn [sv_ctx set_quiesced set_pending].
  repeat match goal with |- context [match ?x with _ => _ end] => destruct x end; intros H; injection H as <- <- <-; auto.
Qed.
Lemma reset_ctx_frame s q lost o s' ev b : reset_ctx s q lost = (o, s', ev) ->
  reset_ctx (set_quiesced s b) q lost = (o, set_quiesced s' b, ev) /\ (sv_pending s' = sv_pending s \/ sv_pending s' = PReset) /\ sv_realized s' = sv_realized s.
Proof.
  unfold reset_ctx. cbn [sv_ctx set_quiesced sv_pending]. assert (EQ : set_quiesced s b = set_quiesced (set_pending s (sv_pending s)) b) by (destruct s; reflexivity).
  destruct (_ && _).
  - destruct q as [e|].
    + intros H. injection H as <- <- <-. destruct (e =? EBUSY); split; auto.
    + destruct (reset_ctx_quiesced s lost) as [[o1 s1] ev1] eqn:E. intros H. injection H as <- <- <-. destruct (reset_quiesced_frame _ _ _ _ _ b (sv_pending s) E) as (F & P & R).
      rewrite EQ, F. split; [|split; [left; exact P|exact R]]. rewrite <- P. destruct s1; reflexivity.
  - intros E. destruct (reset_quiesced_frame _ _ _ _ _ b (sv_pending s) E) as (F & P & R). rewrite EQ, F. split; [|split; [left; exact P|exact R]]. rewrite <- P. destruct s'; reflexivity.
Qed.
Lemma reply_pend s en h err body fds o s' ev : do_reply s en h err body fds = (o, s', ev) -> (sv_pending s' = sv_pending s \/ sv_pending s' = PReset) /\ sv_realized s' = sv_realized s.
Proof.
  unfold do_reply. destruct (has _ _); [intros H; injection H as <- <- <-; auto|]. destruct (en_send en) as [e|]; [|intros H; injection H as <- <- <-; auto].
  destruct (_ || _); [|intros H; injection H as <- <- <-; auto]. intros H. apply (reset_ctx_frame _ _ _ _ _ _ true) in H. exact (proj2 H).
Qed.
