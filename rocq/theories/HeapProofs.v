(* The memory of the dirty page log. *)
From Coq Require Import NArith ZArith List Bool Lia ZifyBool ZifyNat ZifyN.
From Verif Require Import Base Types Dma Dirty DmaOps Heap SpecHeap.
Import ListNotations.
Open Scope N_scope.
Ltac Zify.zify_post_hook ::= idtac.

Definition is_some (p : option nat) : bool := match p with Some _ => true | None => false end.
Definition ids (ptr : list (option nat)) : list nat := flat_map (fun p => match p with Some b => [b] | None => [] end) ptr.

(* ---------- replaying *)

Lemma replay_app : forall a live b, replay live (a ++ b) = match replay live a with Some l => replay l b | None => None end.
Proof.
  induction a as [|e a IH]; intros live b; [reflexivity|]. cbn [app replay]. destruct e; destruct (allocated live b0); auto.
Qed.
Lemma allocated_in live b : allocated live b = true <-> In b live.
Proof.
  unfold allocated. rewrite existsb_exists. split; [intros (x & I & E); apply Nat.eqb_eq in E; now subst|intros I; exists b; split; [exact I|apply Nat.eqb_refl]].
Qed.
Lemma not_allocated live b : ~ In b live -> allocated live b = false.
Proof. intros N. destruct (allocated live b) eqn:A; [|reflexivity]. apply allocated_in in A. contradiction. Qed.

Lemma replay_allocs : forall k live n, Forall (fun x => (x < n)%nat) live -> replay live (map HAlloc (seq n k)) = Some (live ++ seq n k).
Proof.
  induction k as [|k IH]; intros live n F; cbn [seq map replay]; [now rewrite app_nil_r|].
  rewrite not_allocated; [|intros I; rewrite Forall_forall in F; specialize (F _ I); lia].
  rewrite IH; [now rewrite <- app_assoc|]. apply Forall_app. split; [eapply Forall_impl; [|exact F]; cbn; lia|constructor; [lia|constructor]].
Qed.
Lemma filter_out b l : ~ In b l -> filter (fun x => negb (Nat.eqb b x)) l = l.
Proof.
  induction l as [|x l IH]; intros N; [reflexivity|]. cbn [filter]. destruct (Nat.eqb_spec b x) as [E|E]; [destruct N; left; auto|].
  cbn [negb]. f_equal. apply IH. intros I. apply N. now right.
Qed.
Lemma replay_frees : forall k live n, Forall (fun x => (x < n)%nat) live -> replay (live ++ seq n k) (map HFree (seq n k)) = Some live.
Proof.
  induction k as [|k IH]; intros live n F; cbn [seq map replay]; [now rewrite app_nil_r|].
  rewrite (proj2 (allocated_in _ _)) by (apply in_or_app; right; now left).
  replace (filter _ (live ++ n :: seq (S n) k)) with (live ++ seq (S n) k).
  - apply IH. eapply Forall_impl; [|exact F]. cbn. lia.
  - rewrite filter_app. cbn [filter]. rewrite Nat.eqb_refl. cbn [negb]. rewrite !filter_out; [reflexivity| |].
    + rewrite in_seq. lia.
    + intros I. rewrite Forall_forall in F. specialize (F _ I). lia.
Qed.

Lemma filter_len b l : NoDup l -> In b l -> S (length (filter (fun x => negb (Nat.eqb b x)) l)) = length l.
Proof.
  induction 1 as [|x l N ND IH]; intros I; [destruct I|]. cbn [filter length]. destruct (Nat.eqb_spec b x) as [E|E]; cbn [negb].
  - subst x. now rewrite filter_out.
  - cbn [length]. destruct I as [I|I]; [congruence|]. now rewrite IH.
Qed.

(* Freeing everything that the table points to. *)
Lemma free_all : forall ptr live, NoDup live -> NoDup (ids ptr) -> incl (ids ptr) live ->
  exists live', replay live (flat_map free_ev ptr) = Some live' /\ NoDup live' /\ incl live' live /\ (length live' + length (ids ptr) = length live)%nat.
Proof.
  induction ptr as [|[b|] ptr IH]; intros live ND NI IN; cbn [flat_map ids free_ev app] in *.
  - exists live. cbn. split; [reflexivity|]. split; [exact ND|]. split; [apply incl_refl|lia].
  - fold (ids ptr) in *. assert (Ib : In b live) by (apply IN; now left). inversion NI as [|? ? Nb NI']; subst.
    cbn [replay]. rewrite (proj2 (allocated_in _ _) Ib).
    destruct (IH (filter (fun x => negb (Nat.eqb b x)) live)) as (l' & R & N1 & I1 & L1).
    + now apply NoDup_filter.
    + exact NI'.
    + intros x Ix. apply filter_In. split; [apply IN; now right|]. destruct (Nat.eqb_spec b x) as [E|E]; [subst; contradiction|reflexivity].
    + exists l'. split; [exact R|]. split; [exact N1|]. split; [intros x Ix; apply I1 in Ix; apply filter_In in Ix; tauto|].
      pose proof (filter_len b live ND Ib). cbn [length]. lia.
  - exact (IH live ND NI IN).
Qed.

Lemma NoDup_app_disj {A} (l m : list A) : NoDup l -> NoDup m -> (forall x, In x l -> ~ In x m) -> NoDup (l ++ m).
Proof.
  induction 1 as [|x l N ND IH]; intros M D; [exact M|]. cbn [app]. constructor; [|apply IH; [exact M|]; intros y Y; apply D; now right].
  intros X. apply in_app_or in X. destruct X as [X|X]; [contradiction|]. exact (D x (or_introl eq_refl) X).
Qed.
Lemma NoDup_app_one {A} (l : list A) x : NoDup l -> ~ In x l -> NoDup (l ++ [x]).
Proof. intros N X. apply NoDup_app_disj; [exact N|repeat constructor; intros []|]. intros y Y [E|[]]. subst. contradiction. Qed.

(* ---------- starting to log *)

Lemma ids_app p q : ids (p ++ q) = ids p ++ ids q.
Proof. unfold ids. now rewrite flat_map_app. Qed.
Lemma ids_len ptr : length (ids ptr) = length (filter is_some ptr).
Proof. induction ptr as [|[b|] ptr IH]; cbn; [reflexivity|now rewrite <- IH|exact IH]. Qed.

Lemma none_same : forall rs ptr, length ptr = length rs -> Forall (fun p => p = None) ptr -> Forall (fun r => is_logged r = false) rs ->
  map is_logged rs = map is_some ptr /\ ids ptr = [].
Proof.
  induction rs as [|x rs IH]; intros [|y ptr] L A B; try discriminate L; [auto|]. inversion A as [|? ? -> A']; subst. inversion B as [|? ? B0 B']; subst.
  destruct (IH ptr ltac:(cbn in L; lia) A' B') as (Q1 & Q2). cbn [map]. rewrite Q1, B0. auto.
Qed.

Lemma start_ok : forall rs ptr calloc idx n pg q n' ev fr o rs', length ptr = length rs -> Forall (fun p => p = None) ptr ->
  Forall (fun r => is_logged r = false) rs ->
  heap_start calloc idx rs ptr n pg = (q, n', ev, fr) -> start_scan calloc idx rs pg = (o, rs') ->
  exists k, n' = (n + k)%nat /\ ev = map HAlloc (seq n k) /\ map is_logged rs' = map is_some q /\
    match fr with
    | None => o = Ok tt /\ ids q = seq n k
    | Some f => o <> Ok tt /\ f = map HFree (seq n k) /\ ids q = []
    end.
Proof.
  induction rs as [|r rs IH]; intros ptr calloc idx n pg q n' ev fr o rs' L A B H S.
  - destruct ptr; [|discriminate L]. cbn in H, S. injection H as <- <- <- <-. injection S as <- <-. exists 0%nat. cbn. repeat split; auto.
  - destruct ptr as [|p ptr]; [discriminate L|]. inversion A as [|? ? -> A']; subst. inversion B as [|? ? B0 B']; subst. cbn [length] in L. assert (L' : length ptr = length rs) by lia.
    cbn [heap_start start_scan] in H, S. destruct (rg_fd r =? -1)%Z.
    + destruct (heap_start calloc (Datatypes.S idx) rs ptr n pg) as [[[q1 n1] ev1] fr1] eqn:H1. destruct (start_scan calloc (Datatypes.S idx) rs pg) as [o1 rs1] eqn:S1.
      destruct (IH _ _ _ _ _ _ _ _ _ _ _ L' A' B' H1 S1) as (k & N & E & M & R). exists k. destruct fr1 as [f|].
      * destruct R as (R1 & R2 & R3). injection H as <- <- <- <-. assert (S' : o = o1 /\ rs' = set_bitmap r None :: rs1).
        { destruct o1 as [[]|e|c]; [destruct (R1 eq_refl)|injection S as <- <-; auto..]. }
        destruct S' as (-> & ->). split; [exact N|]. split; [exact E|]. split; [cbn [map]; rewrite M; reflexivity|]. cbn [free_ev app ids flat_map]. auto.
      * destruct R as (-> & R2). injection H as <- <- <- <-. injection S as <- <-. split; [exact N|]. split; [exact E|]. split; [cbn [map]; now rewrite M, B0|]. auto.
    + unfold start_on_region in S. destruct (get_bitmap_size (rg_len r) pg) as [sz|e|c].
      * destruct (calloc idx).
        { destruct (heap_start calloc (Datatypes.S idx) rs ptr (Datatypes.S n) pg) as [[[q1 n1] ev1] fr1] eqn:H1. destruct (start_scan calloc (Datatypes.S idx) rs pg) as [o1 rs1] eqn:S1.
          destruct (IH _ _ _ _ _ _ _ _ _ _ _ L' A' B' H1 S1) as (k & N & E & M & R). exists (Datatypes.S k). destruct fr1 as [f|].
          - destruct R as (R1 & R2 & R3). injection H as <- <- <- <-. assert (S' : o = o1 /\ rs' = set_bitmap r None :: rs1).
            { destruct o1 as [[]|e|c]; [destruct (R1 eq_refl)|injection S as <- <-; auto..]. }
            destruct S' as (-> & ->). split; [lia|]. split; [cbn [seq map]; now rewrite E|]. split; [cbn [map]; rewrite M; reflexivity|].
            split; [exact R1|]. split; [cbn [seq map free_ev app]; now rewrite R2|exact R3].
          - destruct R as (-> & R2). injection H as <- <- <- <-. injection S as <- <-. split; [lia|]. split; [cbn [seq map]; now rewrite E|].
            split; [cbn [map]; rewrite M; reflexivity|]. split; [reflexivity|]. cbn [ids flat_map app seq]. fold (ids q1). now rewrite R2. }
        { injection H as <- <- <- <-. injection S as <- <-. exists 0%nat. split; [lia|]. split; [reflexivity|].
          destruct (none_same rs ptr L' A' B') as (NL1 & NL2). cbn [map]. rewrite B0, NL1. split; [reflexivity|]. split; [discriminate|]. split; [reflexivity|exact NL2]. }
      * injection H as <- <- <- <-. injection S as <- <-. exists 0%nat. split; [lia|]. split; [reflexivity|].
        destruct (none_same rs ptr L' A' B') as (NL1 & NL2). cbn [map]. rewrite B0, NL1. split; [reflexivity|]. split; [discriminate|]. split; [reflexivity|exact NL2].
      * injection H as <- <- <- <-. injection S as <- <-. exists 0%nat. split; [lia|]. split; [reflexivity|].
        destruct (none_same rs ptr L' A' B') as (NL1 & NL2). cbn [map]. rewrite B0, NL1. split; [reflexivity|]. split; [discriminate|]. split; [reflexivity|exact NL2].
Qed.

(* ---------- the invariant *)

Record hinv (d : dma) (h : heap) (live : list nat) (lost : nat) : Prop := mk_hinv {
  hi_same : map is_logged (dm_regions d) = map is_some (h_ptr h);
  hi_off : dm_pgsize d = 0 -> Forall (fun r => is_logged r = false) (dm_regions d);
  hi_live : NoDup live;
  hi_ptr : NoDup (ids (h_ptr h));
  hi_incl : incl (ids (h_ptr h)) live;
  hi_next : Forall (fun x => (x < h_next h)%nat) live;
  hi_count : length live = (length (ids (h_ptr h)) + lost)%nat
}.

Lemma hi_len d h live lost : hinv d h live lost -> length (h_ptr h) = length (dm_regions d).
Proof. intros I. pose proof (f_equal (@length _) (hi_same _ _ _ _ I)) as Q. rewrite !map_length in Q. auto. Qed.
Lemma map_filter_len {A} (f : A -> bool) l : length (filter f l) = length (filter (fun b => b) (map f l)).
Proof. induction l as [|x l IH]; [reflexivity|]. cbn. destruct (f x); cbn; now rewrite IH. Qed.
Lemma logged_ids d h live lost : hinv d h live lost -> n_logged d = length (ids (h_ptr h)).
Proof. intros I. unfold n_logged. rewrite ids_len, (map_filter_len is_logged), (map_filter_len is_some), (hi_same _ _ _ _ I). reflexivity. Qed.
Lemma none_ids d h live lost : hinv d h live lost -> Forall (fun r => is_logged r = false) (dm_regions d) -> Forall (fun p => p = None) (h_ptr h).
Proof.
  intros I. pose proof (hi_same _ _ _ _ I) as E. revert E. generalize (dm_regions d) (h_ptr h). induction l as [|r rs IH]; intros [|p ptr] E F; try discriminate E; [constructor|].
  inversion F; subst. cbn [map] in E. injection E as E1 E2. constructor; [destruct p; [cbn in E1; congruence|reflexivity]|eapply IH; eauto].
Qed.

(* Marks and reports leave alone which regions are n_logged. *)
Lemma set_nth_logged : forall rs i r r', nth_error rs i = Some r -> is_logged r' = is_logged r -> map is_logged (set_nth i r' rs) = map is_logged rs.
Proof.
  induction rs as [|x rs IH]; intros [|i] r r' E L; try discriminate E; cbn [set_nth map] in *.
  - injection E as ->. now rewrite L.
  - f_equal. eapply IH; eauto.
Qed.
Lemma mark_logged : forall l d d', sgl_mark_dirty d l = Ok d' -> map is_logged (dm_regions d') = map is_logged (dm_regions d) /\ dm_pgsize d' = dm_pgsize d.
Proof.
  induction l as [|s l IH]; intros d d' H; cbn [sgl_mark_dirty] in H; [injection H as <-; auto|].
  destruct (nth_error (dm_regions d) (sg_region s)) as [r|] eqn:N; [|injection H as <-; auto].
  destruct (sg_writeable s && (0 <? dm_pgsize d)); [|exact (IH _ _ H)].
  destruct (mark_region (dm_pgsize d) r s) as [r'|e|c] eqn:M; try discriminate H. apply IH in H. destruct H as (H1 & H2).
  cbn [set_regions dm_regions dm_pgsize] in *. split; [rewrite H1|exact H2]. eapply set_nth_logged; [exact N|].
  unfold mark_region in M. unfold is_logged. destruct (rg_bitmap r); [|discriminate]. destruct (or_bytes _ _); try discriminate. injection M as <-. reflexivity.
Qed.
Lemma get_logged d hint addr len pg size buf o d' h' : dirty_page_get d hint addr len pg size buf = (o, d', h') ->
  map is_logged (dm_regions d') = map is_logged (dm_regions d) /\ dm_pgsize d' = dm_pgsize d.
Proof.
  unfold dirty_page_get. destruct (addr_to_sgl d hint addr len 1 0) as [[[|s l]|x|e|c] h1]; intros H; try (injection H as <- <- <-; auto; fail).
  destruct (_ || _); [injection H as <- <- <-; auto|]. destruct (dm_pgsize d =? 0); [injection H as <- <- <-; auto|].
  destruct (_ || _); [injection H as <- <- <-; auto|]. destruct (get_bitmap_size len (dm_pgsize d)), (get_bitmap_size len pg); try (injection H as <- <- <-; auto; fail).
  destruct (negb _); [injection H as <- <- <-; auto|]. destruct (nth_error (dm_regions d) (sg_region s)) as [r|] eqn:N; [|injection H as <- <- <-; auto].
  destruct (_ =? _)%Z; [injection H as <- <- <-; auto|]. destruct (rg_bitmap r) as [bm|] eqn:B; [|injection H as <- <- <-; auto].
  destruct (report_bitmap _ _ _ _ _ _) as [[out bm']|e|c]; injection H as <- <- <-; auto. cbn [set_regions dm_regions dm_pgsize]. split; [|reflexivity].
  eapply set_nth_logged; [exact N|]. unfold is_logged. cbn [set_bitmap rg_bitmap]. now rewrite B.
Qed.

Lemma hinv_logged d d' h live lost : hinv d h live lost -> map is_logged (dm_regions d') = map is_logged (dm_regions d) -> dm_pgsize d' = dm_pgsize d -> hinv d' h live lost.
Proof.
  intros I E P. destruct I as [I1 I2 I3 I4 I5 I6 I7]. constructor; auto; [now rewrite E|]. rewrite P. intros Z. specialize (I2 Z).
  clear - E I2. revert E I2. generalize (dm_regions d) (dm_regions d'). induction l as [|x l IH]; intros [|y l'] E F; try discriminate E; [constructor|].
  cbn [map] in E. injection E as E1 E2. inversion F; subst. constructor; [congruence|eauto].
Qed.

Lemma use_ok d h live lost k : hinv d h live lost -> replay live (use_ev (nth_error (h_ptr h) k)) = Some live.
Proof.
  intros I. destruct (nth_error (h_ptr h) k) as [[b|]|] eqn:N; [|reflexivity|reflexivity]. cbn [use_ev replay].
  rewrite (proj2 (allocated_in _ _)); [reflexivity|]. apply (hi_incl _ _ _ _ I). unfold ids. apply in_flat_map. exists (Some b). split; [eapply nth_error_In; eauto|now left].
Qed.
Lemma mark_uses d h live lost : hinv d h live lost -> forall l, replay live (heap_mark d (h_ptr h) l) = Some live.
Proof.
  intros I. induction l as [|s l IH]; [reflexivity|]. cbn [heap_mark]. destruct (nth_error (dm_regions d) (sg_region s)); [|reflexivity].
  destruct (_ && _); [|exact IH]. now rewrite replay_app, (use_ok _ _ _ _ _ I).
Qed.
Lemma report_uses d h live lost hint addr len pg size : hinv d h live lost -> replay live (heap_report d (h_ptr h) hint addr len pg size) = Some live.
Proof.
  intros I. unfold heap_report. destruct (fst _) as [[|s l]|x|e|c]; try reflexivity. destruct (_ || _); [reflexivity|]. destruct (_ =? 0); [reflexivity|].
  destruct (_ || _); [reflexivity|]. destruct (get_bitmap_size len (dm_pgsize d)), (get_bitmap_size len pg); try reflexivity. destruct (negb _); [reflexivity|].
  destruct (nth_error _ _); [|reflexivity]. destruct (_ =? _)%Z; [reflexivity|]. exact (use_ok _ _ _ _ _ I).
Qed.

(* ---------- removing *)

Lemma release_kind cb r : match release_region cb r with Ok _ => True | _ => False end <-> match release_region false r with Ok _ => True | _ => False end.
Proof. unfold release_region. destruct (di_vaddr _); destruct (_ =? _)%Z; tauto. Qed.
Lemma remove_ptr cb addr size : forall rs ptr o rs', map is_logged rs = map is_some ptr -> remove_scan cb rs addr size = (o, rs') -> (forall c, o <> Crash c) ->
  map is_logged rs' = map is_some (heap_remove rs ptr addr size) /\
  (exists gone, gone = ids ptr /\ incl (ids (heap_remove rs ptr addr size)) gone /\ (NoDup gone -> NoDup (ids (heap_remove rs ptr addr size)))) /\
  (length (ids (heap_remove rs ptr addr size)) <= length (ids ptr))%nat.
Proof.
  induction rs as [|r rs IH]; intros [|p ptr] o rs' E H NC; try discriminate E; cbn [remove_scan heap_remove] in *.
  - injection H as <- <-. split; [reflexivity|]. split; [exists []; split; [reflexivity|split; [apply incl_refl|auto]]|reflexivity].
  - cbn [map] in E. injection E as E1 E2. destruct (same_range r addr size).
    + pose proof (release_kind cb r) as K. destruct (release_region cb r) as [ev|e|c] eqn:R.
      * injection H as <- <-. destruct (release_region false r); [|exfalso; tauto|exfalso; tauto].
        split; [exact E2|]. split; [|cbn [ids flat_map]; rewrite app_length; fold (ids ptr); lia].
        exists (ids (p :: ptr)). split; [reflexivity|]. cbn [ids flat_map]. fold (ids ptr). split; [intros x Ix; apply in_or_app; now right|].
        destruct p; cbn [app]; [intros N; now inversion N|auto].
      * exfalso. unfold release_region in R. destruct (di_vaddr _), (_ =? _)%Z; discriminate R.
      * injection H as <- <-. destruct (NC _ eq_refl).
    + destruct (remove_scan cb rs addr size) as [o1 rs1] eqn:S. injection H as <- <-.
      destruct (IH ptr o1 rs1 E2 eq_refl NC) as (M & (gone & -> & G1 & G2) & G3). cbn [map]. split; [now rewrite E1, M|]. split.
      * exists (ids (p :: ptr)). split; [reflexivity|]. cbn [ids flat_map]. fold (ids ptr) (ids (heap_remove rs ptr addr size)). split.
        { intros x Ix. apply in_app_or in Ix. apply in_or_app. destruct Ix; [now left|right; auto]. }
        { destruct p as [b|]; cbn [app]; [|exact G2]. intros N. inversion N; subst. constructor; [intros Ix; apply G1 in Ix; contradiction|auto]. }
      * cbn [ids flat_map]. fold (ids ptr) (ids (heap_remove rs ptr addr size)). rewrite !app_length. lia.
Qed.
Lemma remove_crash cb addr size : forall rs ptr c rs', length ptr = length rs -> remove_scan cb rs addr size = (Crash c, rs') -> heap_remove rs ptr addr size = ptr.
Proof.
  induction rs as [|r rs IH]; intros [|p ptr] c rs' L H; try discriminate L; cbn [remove_scan heap_remove] in *; [discriminate H|].
  destruct (same_range r addr size).
  - pose proof (release_kind cb r) as K. destruct (release_region cb r) as [ev|e|c'] eqn:R; [discriminate H|discriminate H|]. destruct (release_region false r); [tauto|reflexivity|reflexivity].
  - destruct (remove_scan cb rs addr size) as [o1 rs1] eqn:S. injection H as -> <-. f_equal. eapply IH; [cbn in L; lia|reflexivity].
Qed.
Lemma release_all_kind cb rs : match release_all cb rs with Ok _ => True | _ => False end <-> match release_all false rs with Ok _ => True | _ => False end.
Proof.
  induction rs as [|r rs IH]; [tauto|]. cbn [release_all]. pose proof (release_kind cb r) as K.
  destruct (release_region cb r), (release_region false r); try tauto. destruct (release_all cb rs), (release_all false rs); tauto.
Qed.

(* ---------- one operation *)

Lemma app_inv_none d h live lost r : hinv d h live lost -> is_logged r = false ->
  hinv (set_regions d (dm_regions d ++ [r])) (mk_heap (h_ptr h ++ [None]) (h_next h)) live lost.
Proof.
  intros [I1 I2 I3 I4 I5 I6 I7] L. constructor; cbn [set_regions dm_regions dm_pgsize h_ptr h_next]; auto.
  - rewrite !map_app, I1. cbn [map]. now rewrite L.
  - intros Z. apply Forall_app. split; [auto|repeat constructor; exact L].
  - rewrite ids_app. cbn [ids flat_map app]. now rewrite app_nil_r.
  - rewrite ids_app. cbn [ids flat_map app]. now rewrite app_nil_r.
  - rewrite ids_app. cbn [ids flat_map app]. now rewrite app_nil_r.
Qed.
Lemma app_inv_some d h live lost r : hinv d h live lost -> is_logged r = true -> dm_pgsize d <> 0 ->
  hinv (set_regions d (dm_regions d ++ [r])) (mk_heap (h_ptr h ++ [Some (h_next h)]) (S (h_next h))) (live ++ [h_next h]) lost.
Proof.
  intros [I1 I2 I3 I4 I5 I6 I7] L P.
  assert (NI : ~ In (h_next h) live) by (intros X; rewrite Forall_forall in I6; specialize (I6 _ X); lia).
  constructor; cbn [set_regions dm_regions dm_pgsize h_ptr h_next]; auto.
  - rewrite !map_app, I1. cbn [map]. now rewrite L.
  - intros Z. contradiction.
  - apply NoDup_app_one; auto.
  - rewrite ids_app. apply NoDup_app_one; auto.
  - rewrite ids_app. cbn [ids flat_map app]. apply incl_app; [now apply incl_appl|apply incl_appr, incl_refl].
  - apply Forall_app. split; [eapply Forall_impl; [|exact I6]; cbn; lia|repeat constructor].
  - rewrite ids_app, !app_length, I7. cbn. lia.
Qed.

Lemma add_ok cb os d addr size fd off prot h live lost h1 ev : hinv d h live lost -> heap_add os d addr size fd off prot h = (h1, ev) ->
  exists live1, replay live ev = Some live1 /\ hinv (snd (fst (dma_map_request cb os d addr size fd off prot))) h1 live1 lost.
Proof.
  intros I H.
  assert (E : snd (fst (dma_map_request cb os d addr size fd off prot)) = snd (fst (add_region os d addr size fd off prot))).
  { unfold dma_map_request. destruct (add_region os d addr size fd off prot) as [[[idx|e|c] d'] ev']; [destruct (nth_error _ _)|..]; reflexivity. }
  rewrite E. clear E. unfold heap_add in H. unfold add_region.
  assert (ST : h1 = h -> ev = [] -> exists live1, replay live ev = Some live1 /\ hinv d h1 live1 lost) by (intros -> ->; exists live; auto).
  destruct (dm_max_size d <? size); [injection H as <- <-; auto|]. destruct (add_scan _ _ _ _ _ _ _ _); [injection H as <- <-; auto|].
  destruct (Nat.eqb _ _); [injection H as <- <-; auto|]. destruct (fd =? -1)%Z.
  { injection H as <- <-. exists live. split; [reflexivity|]. apply app_inv_none; [exact I|reflexivity]. }
  destruct (os_blksize os) as [blk|]; [|injection H as <- <-; auto]. destruct (dm_pgsize d =? 0) eqn:PG.
  - unfold map_region. destruct (os_mmap os) as [base|e]; injection H as <- <-.
    + exists live. split; [reflexivity|]. apply app_inv_none; [exact I|reflexivity].
    + exists live. auto.
  - unfold start_on_region. unfold rg_len. cbn [rg_info di_len].
    destruct (get_bitmap_size size (dm_pgsize d)) as [sz|e|c]; [|injection H as <- <-; auto..].
    destruct (os_calloc os); [|injection H as <- <-; auto].
    assert (NI : ~ In (h_next h) live) by (intros X; pose proof (hi_next _ _ _ _ I) as F; rewrite Forall_forall in F; specialize (F _ X); lia).
    unfold map_region. destruct (os_mmap os) as [base|e]; injection H as <- <-.
    + exists (live ++ [h_next h]). cbn [replay]. rewrite not_allocated by exact NI. split; [reflexivity|]. apply app_inv_some; [exact I|reflexivity|lia].
    + exists live. cbn [replay free_ev]. rewrite not_allocated by exact NI. rewrite (proj2 (allocated_in _ _)) by (apply in_or_app; right; now left).
      split.
      * rewrite filter_app. cbn [filter]. rewrite Nat.eqb_refl. cbn [negb]. now rewrite filter_out, app_nil_r.
      * destruct I as [I1 I2 I3 I4 I5 I6 I7]. constructor; auto. cbn [h_next]. eapply Forall_impl; [|exact I6]. cbn. lia.
Qed.

Lemma step_ok cb d h live lost o h1 ev : hinv d h live lost -> heap_step d h o = (h1, ev) ->
  let d1 := snd (fst (dma_step cb d o)) in
  exists live1, replay live ev = Some live1 /\ hinv d1 h1 live1 (lost + (if removal o then n_logged d - n_logged d1 else 0)).
Proof.
  intros I H. cbv zeta. destruct o as [os addr size fd off prot|addr size| |calloc pg| |l|hint addr len pg size buf]; cbn [heap_step dma_step removal] in *.
  - destruct (add_ok cb _ _ _ _ _ _ _ _ _ _ _ _ I H) as (l1 & R & I'). exists l1. rewrite Nat.add_0_r. auto.
  - injection H as <- <-. exists live. split; [reflexivity|]. unfold remove_region. destruct (remove_scan cb (dm_regions d) addr size) as [o rs'] eqn:R.
    pose proof (hi_len _ _ _ _ I) as L. destruct o as [ev|e|c].
    3:{ cbn [fst snd]. rewrite (remove_crash _ _ _ _ _ _ _ L R), Nat.sub_diag, Nat.add_0_r. destruct h. exact I. }
    + destruct (remove_ptr cb addr size _ _ _ _ (hi_same _ _ _ _ I) R ltac:(discriminate)) as (M & (g & -> & G1 & G2) & G3). cbn [fst snd].
      assert (I' : hinv (set_regions d rs') (mk_heap (heap_remove (dm_regions d) (h_ptr h) addr size) (h_next h)) live (lost + (length (ids (h_ptr h)) - length (ids (heap_remove (dm_regions d) (h_ptr h) addr size))))).
      { pose proof (none_ids _ _ _ _ I) as NI. destruct I as [I1 I2 I3 I4 I5 I6 I7]. constructor; cbn [set_regions dm_regions dm_pgsize h_ptr h_next]; auto.
        - intros Z. specialize (NI (I2 Z)). clear - M G1 NI. assert (X : ids (h_ptr h) = []).
          { clear - NI. induction NI as [|p ptr -> F IH]; [reflexivity|exact IH]. }
          rewrite X in G1. assert (Y : ids (heap_remove (dm_regions d) (h_ptr h) addr size) = []) by (destruct (ids _) as [|b l]; [reflexivity|destruct (G1 b (or_introl eq_refl))]).
          revert M Y. generalize (heap_remove (dm_regions d) (h_ptr h) addr size). clear. induction rs' as [|r rs IH]; intros [|p ptr] M Y; try discriminate M; [constructor|].
          cbn [map] in M. injection M as M1 M2. destruct p as [b|]; [discriminate Y|]. constructor; [exact M1|exact (IH _ M2 Y)].
        - intros x Ix. apply I5, G1, Ix.
        - lia. }
      rewrite (logged_ids _ _ _ _ I), (logged_ids _ _ _ _ I'). exact I'.
    + destruct (remove_ptr cb addr size _ _ _ _ (hi_same _ _ _ _ I) R ltac:(discriminate)) as (M & (g & -> & G1 & G2) & G3). cbn [fst snd].
      assert (RS : rs' = dm_regions d /\ heap_remove (dm_regions d) (h_ptr h) addr size = h_ptr h).
      { revert R L. generalize (dm_regions d) (h_ptr h). clear. intros rs. revert e rs'. induction rs as [|r rs IH]; intros e rs' [|p ptr] R L; try discriminate L; cbn [remove_scan heap_remove] in *.
        - injection R as <- <-. auto.
        - destruct (same_range r addr size).
          + unfold release_region in R. destruct (di_vaddr _), (_ =? _)%Z; discriminate R.
          + destruct (remove_scan cb rs addr size) as [o1 rs1] eqn:S. injection R as -> <-. destruct (IH e rs1 ptr eq_refl ltac:(cbn in L; lia)) as (-> & ->). auto. }
      destruct RS as (-> & ->). replace (set_regions d (dm_regions d)) with d by (destruct d; reflexivity). rewrite Nat.sub_diag, Nat.add_0_r. destruct h. exact I.
  - injection H as <- <-. exists live. split; [reflexivity|]. unfold remove_all_regions, heap_remove_all. pose proof (release_all_kind cb (dm_regions d)) as K.
    destruct (release_all cb (dm_regions d)) as [ev|e|c]; destruct (release_all false (dm_regions d)) as [ev'|e'|c']; try tauto; cbn [fst snd].
    2-5: rewrite Nat.sub_diag, Nat.add_0_r; destruct h; exact I.
    rewrite (logged_ids _ _ _ _ I). unfold n_logged. cbn [set_regions dm_regions filter length]. destruct I as [I1 I2 I3 I4 I5 I6 I7].
    constructor; cbn [set_regions dm_regions dm_pgsize h_ptr h_next ids flat_map]; auto using NoDup_nil, incl_nil_l.
    cbn [length]. lia.
  - unfold heap_logging_start in H. unfold logging_start. rewrite Nat.add_0_r. destruct (pg =? 0) eqn:PZ; [injection H as <- <-; exists live; auto|].
    destruct (0 <? dm_pgsize d) eqn:PG; [injection H as <- <-; exists live; split; [reflexivity|]; destruct (negb _); exact I|].
    assert (Z : dm_pgsize d = 0) by lia. pose proof (hi_off _ _ _ _ I Z) as NL. pose proof (none_ids _ _ _ _ I NL) as NP.
    destruct (heap_start calloc 0 (dm_regions d) (h_ptr h) (h_next h) pg) as [[[q n] ev1] fr] eqn:HS.
    destruct (start_scan calloc 0 (dm_regions d) pg) as [o rs'] eqn:SS.
    destruct (start_ok _ _ _ _ _ _ _ _ _ _ _ _ (hi_len _ _ _ _ I) NP NL HS SS) as (k & -> & -> & M & R). injection H as <- <-.
    pose proof (none_same _ _ (hi_len _ _ _ _ I) NP NL) as (_ & NI). destruct I as [I1 I2 I3 I4 I5 I6 I7]. rewrite NI in *. destruct fr as [f|].
    + destruct R as (R1 & -> & R3). exists live. rewrite replay_app, replay_allocs, replay_frees by exact I6. split; [reflexivity|].
      assert (X : snd (fst (let '(o0, d') := match o with Ok tt => (Ok tt, set_pgsize (set_regions d rs') pg) | _ => (o, set_regions d rs') end in (o0, d', @nil event))) = set_regions d rs')
        by (destruct o as [[]|e|c]; [destruct (R1 eq_refl)|reflexivity..]).
      destruct o as [[]|e|c]; [destruct (R1 eq_refl)|..]; cbn [fst snd]; (constructor; cbn [set_regions dm_regions dm_pgsize h_ptr h_next]; auto;
        [intros _; clear - M R3; revert q M R3; induction rs' as [|r rs IH]; intros [|p q] M Y; try discriminate M; [constructor|];
           cbn [map] in M; injection M as M1 M2; destruct p as [b|]; [discriminate Y|]; constructor; [exact M1|exact (IH _ M2 Y)]
        |rewrite R3; constructor|rewrite R3; apply incl_nil_l|eapply Forall_impl; [|exact I6]; cbn; lia|rewrite R3; exact I7]).
    + destruct R as (-> & R2). exists (live ++ seq (h_next h) k). rewrite app_nil_r, replay_allocs by exact I6. split; [reflexivity|]. cbn [fst snd].
      constructor; cbn [set_pgsize set_regions dm_regions dm_pgsize h_ptr h_next]; auto.
      * intros ZZ. lia.
      * apply NoDup_app_disj; [exact I3|apply seq_NoDup|]. intros x X1 X2. apply in_seq in X2. rewrite Forall_forall in I6. specialize (I6 _ X1). lia.
      * rewrite R2. apply seq_NoDup.
      * rewrite R2. apply incl_appr, incl_refl.
      * apply Forall_app. split; [eapply Forall_impl; [|exact I6]; cbn; lia|]. apply Forall_forall. intros x X. apply in_seq in X. lia.
      * rewrite R2, app_length, I7. cbn [length]. lia.
  - unfold heap_logging_stop in H. unfold logging_stop. rewrite Nat.add_0_r. destruct (dm_pgsize d =? 0); [injection H as <- <-; exists live; auto|]. injection H as <- <-.
    destruct (free_all _ _ (hi_live _ _ _ _ I) (hi_ptr _ _ _ _ I) (hi_incl _ _ _ _ I)) as (l' & R & N1 & N2 & N3). exists l'. split; [exact R|]. cbn [fst snd].
    pose proof (hi_len _ _ _ _ I) as L. destruct I as [I1 I2 I3 I4 I5 I6 I7].
    assert (X : forall ptr : list (option nat), ids (map (fun _ => None) ptr) = []) by (induction ptr; auto).
    constructor; cbn [set_pgsize set_regions dm_regions dm_pgsize h_ptr h_next]; rewrite ?X; auto using NoDup_nil, incl_nil_l.
    + clear - L. revert L. generalize (dm_regions d) (h_ptr h). induction l as [|r rs IH]; intros [|p ptr] L; try discriminate L; [reflexivity|]. cbn [map]. f_equal. apply IH. cbn in L. lia.
    + intros _. apply Forall_forall. intros r Hr. apply in_map_iff in Hr. destruct Hr as (r0 & <- & _). reflexivity.
    + apply Forall_forall. intros x Hx. rewrite Forall_forall in I6. auto.
    + cbn [length]. lia.
  - injection H as <- <-. exists live. rewrite Nat.add_0_r. split; [exact (mark_uses _ _ _ _ I l)|].
    destruct (sgl_mark_dirty d l) as [d'|e|c] eqn:M; [|exact I..]. destruct (mark_logged _ _ _ M). now apply (hinv_logged d).
  - injection H as <- <-. exists live. rewrite Nat.add_0_r. split; [exact (report_uses _ _ _ _ _ _ _ _ _ I)|].
    destruct (dirty_page_get d hint addr len pg size buf) as [[o d'] h'] eqn:G. destruct (get_logged _ _ _ _ _ _ _ _ _ _ G). destruct o; [now apply (hinv_logged d)..|exact I].
Qed.

Lemma create_inv : hinv dma_create heap_create [] 0.
Proof. constructor; cbn; auto using NoDup_nil, incl_nil_l, Forall_nil. Qed.

Lemma run_ok cb : forall ops d h live lost d2 h2 ev, hinv d h live lost -> heap_run cb d h ops = (d2, h2, ev) ->
  d2 = fst (dma_run cb d ops) /\ exists live2, replay live ev = Some live2 /\ hinv d2 h2 live2 (lost + removed_logged cb d ops).
Proof.
  induction ops as [|o ops IH]; intros d h live lost d2 h2 ev I H; cbn [heap_run dma_run removed_logged] in *.
  - injection H as <- <- <-. split; [reflexivity|]. exists live. rewrite Nat.add_0_r. auto.
  - destruct (heap_step d h o) as [h1 ev1] eqn:S. destruct (heap_run cb (snd (fst (dma_step cb d o))) h1 ops) as [[d3 h3] ev3] eqn:R. injection H as <- <- <-.
    destruct (step_ok cb _ _ _ _ _ _ _ I S) as (l1 & R1 & I1). destruct (IH _ _ _ _ _ _ _ I1 R) as (D & l2 & R2 & I2). split.
    + rewrite D. destruct (dma_step cb d o) as [[o1 d1] e1]. cbn [fst snd]. destruct (dma_run cb d1 ops). reflexivity.
    + exists l2. rewrite replay_app, R1. split; [exact R2|]. rewrite Nat.add_assoc. exact I2.
Qed.
