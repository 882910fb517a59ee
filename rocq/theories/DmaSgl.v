(* Address translation: characterisation of the split loop by the list of pieces it visits. *)
From Verif Require Import Base Types Spec Dma Dirty DmaOps SpecDma DmaProofs DmaDisjoint.
From Coq Require Import NArith ZArith List Bool Lia ZifyBool ZifyNat ZifyN.
Import ListNotations.
Open Scope N_scope.
Ltac Zify.zify_post_hook ::= Z.div_mod_to_equations.

Record piece := mk_piece { p_idx : nat; p_reg : region; p_addr : N; p_len : N }.

Definition to_sg (prot : N) (p : piece) : sg :=
  mk_sg (rg_base (p_reg p)) (p_idx p) (p_len p) (sub64 (p_addr p) (rg_base (p_reg p))) (has prot PROT_WRITE).

Definition denied (prot : N) (p : piece) : bool :=
  has prot PROT_WRITE && negb (has (di_prot (rg_info (p_reg p))) PROT_WRITE).

Fixpoint pc_pass (rs : list region) (idx : nat) (addr len : N) : list piece * N * N :=
  match rs with
  | [] => ([], addr, len)
  | r :: rest =>
      if (rg_base r <=? addr) && (addr <? iov_end r) then
        let rl := N.min (iov_end r - addr) len in
        let p := mk_piece idx r addr rl in
        if len - rl =? 0 then ([p], w64 (addr + rl), 0)
        else let '(ps, a, l) := pc_pass rest (S idx) (w64 (addr + rl)) (len - rl) in (p :: ps, a, l)
      else pc_pass rest (S idx) addr len
  end.

Fixpoint pc_loop (fuel : nat) (rs : list region) (addr len : N) : option (list piece * bool) :=
  if len =? 0 then Some ([], true)
  else match fuel with
  | O => None
  | S f =>
      match pc_pass rs 0 addr len with
      | ([], _, _) => Some ([], false)
      | (ps, a, l) =>
          match pc_loop f rs a l with
          | Some (ps', ok) => Some (ps ++ ps', ok)
          | None => None
          end
      end
  end.

Fixpoint feed (ps : list piece) (cnt : nat) (acc : list sg) (max : nat) (prot : N) : N + (nat * list sg) :=
  match ps with
  | [] => inr (cnt, acc)
  | p :: ps' =>
      if Nat.ltb cnt max then
        match init_sg (p_reg p) (p_idx p) (p_addr p) (p_len p) prot with
        | Ok s => feed ps' (S cnt) (acc ++ [s]) max prot
        | Err e => inl e
        | Crash _ => inl EINVAL
        end
      else feed ps' (S cnt) acc max prot
  end.

Lemma feed_app ps : forall ps' cnt acc max prot,
  feed (ps ++ ps') cnt acc max prot =
  match feed ps cnt acc max prot with
  | inl e => inl e
  | inr (cnt', acc') => feed ps' cnt' acc' max prot
  end.
Proof.
  induction ps as [|p ps IH]; intros ps' cnt acc max prot; simpl; [reflexivity|].
  destruct (Nat.ltb cnt max); [|apply IH].
  destruct (init_sg _ _ _ _ _); try reflexivity. apply IH.
Qed.

Lemma split_pass_pieces rs : forall idx found addr len cnt acc max prot,
  len <> 0 ->
  split_pass rs idx found addr len cnt acc max prot =
  let '(ps, a, l) := pc_pass rs idx addr len in
  match feed ps cnt acc max prot with
  | inl e => PassErr e
  | inr (cnt', acc') =>
      if l =? 0 then PassOut cnt' acc'
      else PassEnd (match ps with [] => found | _ => true end) a l cnt' acc'
  end.
Proof.
  induction rs as [|r rs IH]; intros idx found addr len cnt acc max prot Hl; simpl.
  - destruct (N.eqb_spec len 0); [contradiction|reflexivity].
  - destruct ((rg_base r <=? addr) && (addr <? iov_end r)) eqn:Ein.
    + set (rl := N.min (iov_end r - addr) len).
      assert (Hgo : forall acc',
        (if len - rl =? 0 then PassOut (S cnt) acc'
         else split_pass rs (S idx) true (w64 (addr + rl)) (len - rl) (S cnt) acc' max prot) =
        let '(ps, a, l) := (if len - rl =? 0 then ([], w64 (addr + rl), 0)
                            else pc_pass rs (S idx) (w64 (addr + rl)) (len - rl)) in
        match feed ps (S cnt) acc' max prot with
        | inl e => PassErr e
        | inr (cnt', acc'') => if l =? 0 then PassOut cnt' acc'' else PassEnd true a l cnt' acc''
        end).
      { intros acc'. destruct (N.eqb_spec (len - rl) 0) as [E|E]; [reflexivity|].
        rewrite IH by auto. destruct (pc_pass rs (S idx) (w64 (addr + rl)) (len - rl)) as [[ps a] l].
        destruct (feed ps (S cnt) acc' max prot) as [e|[c' a']]; [reflexivity|].
        destruct (l =? 0); [reflexivity|]. destruct ps; reflexivity. }
      assert (Hshape : forall q : list piece * N * N,
        (if len - rl =? 0 then ([mk_piece idx r addr rl], w64 (addr + rl), 0)
         else let '(ps, a, l) := pc_pass rs (S idx) (w64 (addr + rl)) (len - rl) in
              (mk_piece idx r addr rl :: ps, a, l)) =
        let '(ps, a, l) := (if len - rl =? 0 then ([], w64 (addr + rl), 0)
                            else pc_pass rs (S idx) (w64 (addr + rl)) (len - rl)) in
        (mk_piece idx r addr rl :: ps, a, l)).
      { intros _. destruct (len - rl =? 0); reflexivity. }
      rewrite (Hshape ([],0,0)).
      destruct (if len - rl =? 0 then ([], w64 (addr + rl), 0)
                else pc_pass rs (S idx) (w64 (addr + rl)) (len - rl)) as [[ps a] l].
      simpl. destruct (Nat.ltb cnt max).
      * destruct (init_sg r idx addr rl prot); try reflexivity. apply Hgo.
      * apply Hgo.
    + rewrite IH by auto. reflexivity.
Qed.


(* ---- facts about one pass *)

Fixpoint chain (rs : list region) (ps : list piece) (a b : N) : Prop :=
  match ps with
  | [] => a = b
  | p :: ps' =>
      p_addr p = a /\ 0 < p_len p /\ nth_error rs (p_idx p) = Some (p_reg p) /\
      rg_base (p_reg p) <= a /\ a + p_len p <= rg_base (p_reg p) + rg_len (p_reg p) /\
      chain rs ps' (a + p_len p) b
  end.

Lemma chain_app rs ps : forall ps' a b c, chain rs ps a b -> chain rs ps' b c -> chain rs (ps ++ ps') a c.
Proof.
  induction ps as [|p ps IH]; intros ps' a b c H1 H2; simpl in *; [now subst|].
  decompose [and] H1. repeat split; auto. eapply IH; eauto.
Qed.

(* The piece reaches the end of its region or the end T of the range. *)
Definition maximal (T : N) (p : piece) : Prop :=
  p_addr p + p_len p = rg_base (p_reg p) + rg_len (p_reg p) \/ p_addr p + p_len p = T.

Definition undone (addr : N) (r : region) : bool := addr <? rg_base r + rg_len r.

Definition remaining (rs : list region) (addr : N) : nat := length (filter (undone addr) rs).

Lemma remaining_le rs addr : (remaining rs addr <= length rs)%nat.
Proof. unfold remaining. induction rs as [|r rs IH]; simpl; [lia|]. destruct (undone addr r); simpl; lia. Qed.

Lemma remaining_mono rs a a' : a <= a' -> (remaining rs a' <= remaining rs a)%nat.
Proof.
  intros H. unfold remaining. induction rs as [|r rs IH]; simpl; [lia|].
  destruct (undone a' r) eqn:E1, (undone a r) eqn:E2; unfold undone in E1, E2; simpl; lia.
Qed.

Lemma remaining_lt rs a a' r :
  a <= a' -> In r rs -> a < rg_base r + rg_len r -> rg_base r + rg_len r <= a' ->
  (remaining rs a' < remaining rs a)%nat.
Proof.
  intros H Hin H1 H2. unfold remaining. induction rs as [|x rs IH]; [contradiction|].
  simpl.
  destruct Hin as [->|Hin].
  - assert (M := remaining_mono rs a a' H). unfold remaining in M.
    destruct (undone a' r) eqn:E1, (undone a r) eqn:E2; unfold undone in E1, E2; simpl; lia.
  - specialize (IH Hin).
    destruct (undone a' x) eqn:E1, (undone a x) eqn:E2; unfold undone in E1, E2; simpl; lia.
Qed.

Lemma chain_le rs ps : forall a b, chain rs ps a b -> a <= b.
Proof.
  induction ps as [|p ps IH]; simpl; intros a b H; [subst; lia|].
  decompose [and] H. match goal with X : chain _ _ _ _ |- _ => apply IH in X end. lia.
Qed.

Lemma pc_pass_spec all rs : forall pre addr len ps a l,
  all = pre ++ rs -> Forall nowrap all -> len <> 0 ->
  pc_pass rs (length pre) addr len = (ps, a, l) ->
  chain all ps addr a /\ a + l = addr + len /\ Forall (maximal (addr + len)) ps /\
  (ps = [] -> a = addr /\ l = len /\ forall r, In r rs -> ~ covers r addr) /\
  (ps <> [] -> l <> 0 -> (remaining all a < remaining all addr)%nat).
Proof.
  induction rs as [|r rs IH]; intros pre addr len ps a l Eall Hn Hl H; simpl in H.
  - injection H as <- <- <-. simpl. split; [reflexivity|]. split; [reflexivity|]. split; [constructor|].
    split; [auto|congruence].
  - assert (Hr : nowrap r). { rewrite Forall_forall in Hn. apply Hn. subst all. apply in_app_iff; right; left; auto. }
    rewrite iov_end_nowrap in H by auto. unfold nowrap in Hr.
    assert (Enth : nth_error all (length pre) = Some r).
    { subst all. rewrite nth_error_app2, Nat.sub_diag by lia. reflexivity. }
    assert (Hinr : In r all) by (eapply nth_error_In; eauto).
    assert (Eall' : all = (pre ++ [r]) ++ rs) by (rewrite <- app_assoc; exact Eall).
    assert (Elen : length (pre ++ [r]) = S (length pre)) by (rewrite app_length; simpl; lia).
    destruct ((rg_base r <=? addr) && (addr <? rg_base r + rg_len r)) eqn:Ein.
    + apply andb_true_iff in Ein. destruct Ein as [Ein1 Ein2]. apply N.leb_le in Ein1. apply N.ltb_lt in Ein2.
      set (rl := N.min (rg_base r + rg_len r - addr) len) in *.
      assert (Hrl : 0 < rl) by (unfold rl; lia).
      assert (Hw : w64 (addr + rl) = addr + rl) by (apply w64_small; unfold rl; lia).
      rewrite Hw in H.
      destruct (N.eqb_spec (len - rl) 0) as [E|E].
      * injection H as <- <- <-.
        assert (rl = len) by (unfold rl in *; lia).
        split. { simpl. repeat split; auto. unfold rl; lia. }
        split; [lia|]. split. { constructor; [|constructor]. right. simpl. lia. }
        split; [discriminate|]. intros _ X; now elim X.
      * destruct (pc_pass rs (S (length pre)) (addr + rl) (len - rl)) as [[ps' a'] l'] eqn:Ep.
        injection H as <- <- <-. rewrite <- Elen in Ep.
        apply IH in Ep; auto. destruct Ep as (H1 & H2 & Hm & H3 & H4).
        assert (rl <= len) by (unfold rl; lia).
        assert (Hend : addr + rl = rg_base r + rg_len r) by (unfold rl in *; lia).
        split. { simpl. repeat split; auto. unfold rl; lia. }
        split; [lia|]. split.
        { constructor; [left; simpl; auto|]. replace (addr + len) with (addr + rl + (len - rl)) by lia. auto. }
        split; [discriminate|]. intros _ Hl'.
        apply chain_le in H1.
        apply (remaining_lt all addr a' r); auto; lia.
    + rewrite <- Elen in H. apply IH in H; auto. destruct H as (H1 & H2 & Hm & H3 & H4).
      split; [auto|]. split; [auto|]. split; [auto|]. split; [|auto].
      intros E. destruct (H3 E) as (-> & -> & Hx). repeat split; auto.
      intros x [<-|Hin]; auto. rewrite covers_iff. lia.
Qed.

Lemma pc_loop_spec rs fuel : forall addr len,
  Forall nowrap rs -> (remaining rs addr < fuel)%nat ->
  exists ps ok e, pc_loop fuel rs addr len = Some (ps, ok) /\ chain rs ps addr e /\
     Forall (maximal (addr + len)) ps /\
     (ok = true -> e = addr + len) /\
     (ok = false -> e < addr + len /\ forall r, In r rs -> ~ covers r e).
Proof.
  induction fuel as [|f IH]; intros addr len Hn Hf; [lia|]. simpl.
  destruct (N.eqb_spec len 0) as [->|Hl].
  { exists [], true, addr. simpl. repeat split; auto; try lia; discriminate. }
  destruct (pc_pass rs 0 addr len) as [[ps a] l] eqn:Ep.
  assert (Hp := Ep). apply (pc_pass_spec rs rs []) in Hp; auto.
  destruct Hp as (H1 & H2 & Hm & H3 & H4).
  destruct ps as [|p ps].
  - destruct (H3 eq_refl) as (-> & -> & Hx). exists [], false, addr. simpl.
    split; [reflexivity|]. split; [reflexivity|]. split; [constructor|].
    split; [discriminate|]. intros _. split; [lia|auto].
  - destruct (N.eq_dec l 0) as [->|Hl'].
    + assert (E : pc_loop f rs a 0 = Some ([], true)) by (destruct f; reflexivity).
      rewrite E. exists ((p :: ps) ++ []), true, a. rewrite app_nil_r.
      split; [reflexivity|]. split; [auto|]. split; [auto|]. split; [lia|discriminate].
    + destruct (IH a l Hn) as (ps' & ok & e & E & Hc & Hm' & Hok & Hko).
      { specialize (H4 ltac:(discriminate) Hl'). lia. }
      rewrite E. exists ((p :: ps) ++ ps'), ok, e. split; [reflexivity|].
      split; [eapply chain_app; eauto|]. rewrite <- H2. split; [|auto].
      apply Forall_app. rewrite H2 at 1. auto.
Qed.

(* ---- feeding the pieces into the caller's array *)

Lemma init_sg_denied p prot :
  init_sg (p_reg p) (p_idx p) (p_addr p) (p_len p) prot =
  if denied prot p then Err EACCES else Ok (to_sg prot p).
Proof. reflexivity. Qed.

Lemma feed_spec ps : forall cnt acc max prot,
  (feed ps cnt acc max prot = inl EACCES /\
     exists p, In p (firstn (max - cnt) ps) /\ denied prot p = true) \/
  (feed ps cnt acc max prot =
     inr ((cnt + length ps)%nat, acc ++ map (to_sg prot) (firstn (max - cnt) ps)) /\
     forall p, In p (firstn (max - cnt) ps) -> denied prot p = false).
Proof.
  induction ps as [|p ps IH]; intros cnt acc max prot; simpl.
  - right. rewrite firstn_nil. simpl. rewrite app_nil_r, Nat.add_0_r. split; auto; contradiction.
  - destruct (Nat.ltb_spec cnt max) as [H|H].
    + rewrite init_sg_denied. replace (max - cnt)%nat with (S (max - S cnt)) by lia. simpl.
      destruct (denied prot p) eqn:Ed.
      * left. split; auto. exists p. simpl; auto.
      * destruct (IH (S cnt) (acc ++ [to_sg prot p]) max prot) as [[E (q & Hq & Hd)]|[E Hd]].
        -- left. split; auto. exists q. auto.
        -- right. rewrite E. split.
           ++ f_equal. f_equal; [lia|]. rewrite <- app_assoc. reflexivity.
           ++ intros q [<-|Hq]; auto.
    + replace (max - cnt)%nat with 0%nat in * by lia. simpl.
      destruct (IH (S cnt) acc max prot) as [[E (q & Hq & Hd)]|[E Hd]];
        replace (max - S cnt)%nat with 0%nat in * by lia; simpl in *; [contradiction|].
      right. rewrite E. split; [|tauto]. f_equal. f_equal. lia.
Qed.

(* The list of pieces does not depend on the array size or the protection. *)
Lemma sg_split_spec d addr len :
  Forall nowrap (dm_regions d) ->
  exists ps ok e, chain (dm_regions d) ps addr e /\ Forall (maximal (addr + len)) ps /\
     (ok = true -> e = addr + len) /\
     (ok = false -> e < addr + len /\ forall r, In r (dm_regions d) -> ~ covers r e) /\
     forall max prot,
       sg_split d addr len max prot =
       match feed ps 0 [] max prot with
       | inl e => SglErr e
       | inr (cnt', acc') => if ok then split_out cnt' acc' max else SglErr ENOENT
       end.
Proof.
  intros Hn. set (rs := dm_regions d).
  assert (Hf : (remaining rs addr < S (length rs))%nat) by (pose proof (remaining_le rs addr); lia).
  destruct (pc_loop_spec rs (S (length rs)) addr len Hn Hf) as (ps & ok & e & E & Hc & Hm & Hok & Hko).
  exists ps, ok, e. repeat (split; [assumption|]). intros max prot. unfold sg_split. fold rs.
  assert (Hgen : forall fuel addr len cnt acc ps ok,
     Forall nowrap rs -> pc_loop fuel rs addr len = Some (ps, ok) ->
     split_loop fuel rs addr len cnt acc max prot =
     match feed ps cnt acc max prot with
     | inl e => SglErr e
     | inr (cnt', acc') => if ok then split_out cnt' acc' max else SglErr ENOENT
     end).
  { clear. induction fuel as [|f IH]; intros addr len cnt acc ps ok Hn H; simpl in *.
    - destruct (len =? 0); [|discriminate]. injection H as <- <-. reflexivity.
    - destruct (N.eqb_spec len 0) as [->|Hl]; [injection H as <- <-; reflexivity|].
      rewrite split_pass_pieces by auto.
      destruct (pc_pass rs 0 addr len) as [[ps1 a] l] eqn:Ep.
      assert (Hp := Ep). apply (pc_pass_spec rs rs []) in Hp; auto. destruct Hp as (_ & _ & _ & H3 & _).
      destruct ps1 as [|p ps1].
      + injection H as <- <-. destruct (H3 eq_refl) as (_ & -> & _). simpl.
        destruct (N.eqb_spec len 0); [contradiction|reflexivity].
      + destruct (pc_loop f rs a l) as [[ps2 ok2]|] eqn:E2; [|discriminate]. injection H as <- <-.
        change (p :: ps1 ++ ps2) with ((p :: ps1) ++ ps2). rewrite feed_app. destruct (feed (p :: ps1) cnt acc max prot) as [e|[c' a']]; [reflexivity|].
        destruct (N.eqb_spec l 0) as [->|Hl'].
        * assert (E0 : pc_loop f rs a 0 = Some ([], true)) by (destruct f; reflexivity).
          rewrite E0 in E2. injection E2 as <- <-. reflexivity.
        * apply IH; auto. }
  apply Hgen; auto.
Qed.

(* ---- consequences of a chain *)

Lemma sub64_small a b : b <= a -> a < two64 -> sub64 a b = a - b.
Proof.
  intros H1 H2. unfold sub64, w64. replace (a + two64 - b) with (a - b + 1 * two64) by lia.
  rewrite N.mod_add by discriminate. apply N.mod_small. lia.
Qed.

Lemma chain_tiles rs prot ps : forall a b,
  Forall nowrap rs -> chain rs ps a b ->
  tiles (map (to_sg prot) ps) a b /\ Forall (sg_inside rs) (map (to_sg prot) ps).
Proof.
  induction ps as [|p ps IH]; simpl; intros a b Hn H; [subst; auto|].
  destruct H as (E & Hl & Hnth & H1 & H2 & Hc). subst a.
  assert (Hnr : nowrap (p_reg p)). { rewrite Forall_forall in Hn. apply Hn. eapply nth_error_In; eauto. }
  unfold nowrap in Hnr.
  destruct (IH _ _ Hn Hc) as [Ht Hi].
  assert (Es : sub64 (p_addr p) (rg_base (p_reg p)) = p_addr p - rg_base (p_reg p)) by (apply sub64_small; lia).
  split; [|constructor; auto].
  - rewrite Es. repeat split; auto; lia.
  - unfold sg_inside. simpl. rewrite Es. exists (p_reg p). repeat split; auto.
    unfold rg_base, rg_len in *. lia.
Qed.

Lemma chain_mapped rs ps : forall a b, chain rs ps a b ->
  forall x, a <= x < b -> exists p, In p ps /\ In (p_reg p) rs /\ covers (p_reg p) x.
Proof.
  induction ps as [|p ps IH]; simpl; intros a b H x Hx; [lia|].
  destruct H as (E & Hl & Hnth & H1 & H2 & Hc). subst a.
  destruct (N.lt_ge_cases x (p_addr p + p_len p)) as [L|L].
  - exists p. split; [auto|]. split; [eapply nth_error_In; eauto|]. apply covers_iff. lia.
  - destruct (IH _ _ Hc x) as (q & Hq & Hr); [lia|]. exists q. tauto.
Qed.

Lemma chain_piece rs ps : forall a b p, chain rs ps a b -> In p ps ->
  a <= p_addr p /\ p_addr p + p_len p <= b /\ 0 < p_len p /\ In (p_reg p) rs /\
  nth_error rs (p_idx p) = Some (p_reg p) /\
  (forall x, p_addr p <= x < p_addr p + p_len p -> covers (p_reg p) x).
Proof.
  induction ps as [|q ps IH]; simpl; intros a b p H Hin; [contradiction|].
  destruct H as (E & Hl & Hnth & H1 & H2 & Hc). subst a.
  pose proof (chain_le _ _ _ _ Hc) as Hle.
  destruct Hin as [<-|Hin].
  - repeat split; auto; try lia. eapply nth_error_In; eauto.
    + unfold rg_base in *. lia.
    + unfold rg_len, rg_base in *. lia.
  - destruct (IH _ _ _ Hc Hin) as (A & B & C & D & E & F). repeat split; auto; try lia; apply F; auto.
Qed.

Lemma In_firstn_in {A} (l : list A) n x : In x (firstn n l) -> In x l.
Proof. intros H. rewrite <- (firstn_skipn n l). apply in_app_iff. auto. Qed.

(* ---- the public entry point *)

Definition wants_write (prot : N) : bool := has prot PROT_WRITE.

Lemma has_write prot : has prot PROT_WRITE = N.testbit prot 1.
Proof.
  unfold has, PROT_WRITE.
  destruct (N.testbit prot 1) eqn:E.
  - apply negb_true_iff, N.eqb_neq. intros H.
    assert (X : N.testbit (N.land prot 2) 1 = false) by (rewrite H; reflexivity).
    rewrite N.land_spec, E in X. discriminate X.
  - apply negb_false_iff, N.eqb_eq. apply N.bits_inj_0. intros n. rewrite N.land_spec.
    destruct (N.eq_dec n 1) as [->|Hn]; [now rewrite E|].
    assert (X : N.testbit 2 n = false). { change 2 with (2^1). apply N.pow2_bits_false; auto. }
    rewrite X. apply andb_false_r.
Qed.

(* The pieces of a range, and how every array size and protection is answered. *)
Lemma addr_to_sgl_spec d addr len :
  inv2 d -> addr + len < two64 ->
  exists ps ok e, chain (dm_regions d) ps addr e /\ Forall (maximal (addr + len)) ps /\
     (ok = true -> e = addr + len) /\
     (ok = false -> e < addr + len /\ forall r, In r (dm_regions d) -> ~ covers r e) /\
     forall hint max prot,
       fst (addr_to_sgl d hint addr len max prot) =
       match feed ps 0 [] max prot with
       | inl e => SglErr e
       | inr (cnt', acc') => if ok then split_out cnt' acc' max else SglErr ENOENT
       end.
Proof.
  intros [Hn Hd] Hlen.
  destruct (sg_split_spec d addr len Hn) as (ps & ok & e & Hc & Hm & Hok & Hko & Hs).
  exists ps, ok, e. repeat (split; [assumption|]). intros hint max prot.
  assert (Hslow : fst (match sg_split d addr len max prot with
    | SglOk [] => (SglOk [], hint)
    | SglOk (s :: l) => (SglOk (s :: l), sg_region s)
    | o => (o, hint)
    end) = sg_split d addr len max prot).
  { destruct (sg_split d addr len max prot) as [[|]| | |]; reflexivity. }
  rewrite <- Hs. unfold addr_to_sgl.
  destruct (nth_error (dm_regions d) hint) as [r|] eqn:Eh; [|apply Hslow].
  match goal with |- context [if ?b then _ else _] => destruct b eqn:Eb end; [|apply Hslow].
  rewrite Hs. clear Hslow.
  rewrite !andb_true_iff in Eb. destruct Eb as (((E1 & E2) & E3) & E4).
  apply Nat.ltb_lt in E1. apply N.ltb_lt in E2. apply N.leb_le in E3.
  assert (Hnr : nowrap r). { rewrite Forall_forall in Hn. apply Hn. eapply nth_error_In; eauto. }
  rewrite iov_end_nowrap, w64_small in E4 by auto. apply N.leb_le in E4.
  assert (Hin : In r (dm_regions d)) by (eapply nth_error_In; eauto).
  assert (Hcov : forall x, addr <= x < addr + len -> covers r x) by (intros; apply covers_iff; lia).
  assert (Eps : ps = [mk_piece hint r addr len] /\ ok = true).
  { destruct ps as [|p ps].
    - simpl in Hc. subst e. destruct ok; [specialize (Hok eq_refl); lia|].
      destruct (Hko eq_refl) as [A B]. elim (B r Hin). apply Hcov. lia.
    - simpl in Hc. destruct Hc as (Ea & Hl & Hnth & H1 & H2 & Hc).
      assert (Ei : p_idx p = hint).
      { apply (Hd (p_idx p) hint (p_reg p) r addr); auto; [apply covers_iff|apply Hcov]; lia. }
      assert (Er : p_reg p = r) by (rewrite Ei, Eh in Hnth; congruence).
      apply Forall_inv in Hm. unfold maximal in Hm. rewrite Er in *. rewrite Ea in Hm.
      pose proof (chain_le _ _ _ _ Hc) as Hle.
      assert (Hok' : ok = true).
      { destruct ok; auto. destruct (Hko eq_refl) as [A B]. elim (B _ Hin). apply Hcov. lia. }
      split; auto. specialize (Hok Hok'). subst e.
      destruct ps as [|q ps].
      + simpl in Hc. destruct p as [i0 r0 a0 l0]; simpl in *. subst i0 r0 a0. f_equal. f_equal. lia.
      + exfalso. simpl in Hc. destruct Hc as (_ & Hq & _ & _ & _ & Hc). apply chain_le in Hc. lia. }
  destruct Eps as [-> ->]. simpl.
  assert (E1' : Nat.ltb 0 max = true) by (apply Nat.ltb_lt; auto). rewrite E1'.
  destruct (init_sg r hint addr len prot) eqn:Ei; simpl; try reflexivity.
  - unfold split_out. assert (X : Nat.ltb max 1 = false) by (apply Nat.ltb_ge; lia). rewrite X. reflexivity.
  - unfold init_sg in Ei. destruct (_ && _) in Ei; discriminate.
Qed.

(* C06 *)
Lemma sgl_ok_tiles d hint addr len max prot l h' :
  inv2 d -> addr + len < two64 ->
  addr_to_sgl d hint addr len max prot = (SglOk l, h') ->
  tiles l addr (addr + len) /\ Forall (sg_inside (dm_regions d)) l /\ (length l <= max)%nat /\
  (N.testbit prot 1 = true -> forall x r, addr <= x < addr + len -> In r (dm_regions d) -> covers r x ->
     N.testbit (di_prot (rg_info r)) 1 = true).
Proof.
  intros Hi Hl H. destruct (addr_to_sgl_spec d addr len Hi Hl) as (ps & ok & e & Hc & Hm & Hok & Hko & Hs).
  specialize (Hs hint max prot). rewrite H in Hs. simpl in Hs.
  destruct (feed_spec ps 0 [] max prot) as [[E _]|[E Hd]]; rewrite E in Hs; [discriminate|].
  destruct ok; [|discriminate]. unfold split_out in Hs.
  destruct (Nat.ltb_spec max (0 + length ps)); [discriminate|].
  rewrite Nat.sub_0_r in *. simpl in *. rewrite firstn_all2 in * by lia.
  injection Hs as ->. specialize (Hok eq_refl). subst e.
  destruct Hi as [Hn Hdj].
  destruct (chain_tiles _ prot _ _ _ Hn Hc) as [A B].
  split; [auto|]. split; [auto|]. split; [rewrite map_length; lia|].
  intros Hw x r Hx Hr Hcov.
  destruct (chain_mapped _ _ _ _ Hc x Hx) as (p & Hp & Hpr & Hpc).
  assert (Hnth : exists i j, nth_error (dm_regions d) i = Some r /\ nth_error (dm_regions d) j = Some (p_reg p)).
  { destruct (In_nth_error _ _ Hr) as [i Hi]. destruct (In_nth_error _ _ Hpr) as [j Hj]. eauto. }
  destruct Hnth as (i & j & Hi & Hj).
  assert (i = j) by (eapply Hdj; eauto). subst j. rewrite Hi in Hj. injection Hj as ->.
  specialize (Hd p Hp). unfold denied in Hd. rewrite !has_write, Hw in Hd.
  destruct (N.testbit (di_prot (rg_info (p_reg p))) 1); auto.
Qed.

(* C07: which answer is given *)
Lemma sgl_answers d addr len :
  inv2 d -> addr + len < two64 ->
  (exists x, forall hint max prot,
     (N.testbit prot 1 = false \/ ~ hits_readonly (dm_regions d) addr len) ->
     all_mapped (dm_regions d) addr len ->
     if Nat.ltb max x then fst (addr_to_sgl d hint addr len max prot) = SglShort x
     else exists l, fst (addr_to_sgl d hint addr len max prot) = SglOk l /\ length l = x) /\
  (forall hint max prot,
     (N.testbit prot 1 = false \/ ~ hits_readonly (dm_regions d) addr len) ->
     ~ all_mapped (dm_regions d) addr len ->
     fst (addr_to_sgl d hint addr len max prot) = SglErr ENOENT) /\
  (forall hint max prot e, fst (addr_to_sgl d hint addr len max prot) = SglErr e ->
     (e = ENOENT /\ ~ all_mapped (dm_regions d) addr len) \/
     (e = EACCES /\ N.testbit prot 1 = true /\ hits_readonly (dm_regions d) addr len)) /\
  (forall hint max prot n, fst (addr_to_sgl d hint addr len max prot) = SglShort n ->
     all_mapped (dm_regions d) addr len /\ (max < n)%nat) /\
  (forall hint max prot c, fst (addr_to_sgl d hint addr len max prot) <> SglCrash c).
Proof.
  intros Hi Hl. destruct (addr_to_sgl_spec d addr len Hi Hl) as (ps & ok & e & Hc & Hm & Hok & Hko & Hs).
  assert (Hden : forall prot p, In p ps -> denied prot p = true ->
            N.testbit prot 1 = true /\ hits_readonly (dm_regions d) addr len).
  { intros prot p Hp Hd. unfold denied in Hd. rewrite !has_write in Hd. apply andb_true_iff in Hd.
    destruct Hd as [A B]. split; auto. apply negb_true_iff in B.
    destruct (chain_piece _ _ _ _ _ Hc Hp) as (C1 & C2 & C3 & C4 & C5 & C6).
    exists (p_addr p), (p_reg p). split; [|split; [auto|split; [apply C6; lia|auto]]].
    destruct ok; [specialize (Hok eq_refl)|destruct (Hko eq_refl) as [He _]]; lia. }
  assert (Hmap : ok = true <-> all_mapped (dm_regions d) addr len).
  { split.
    - intros E. specialize (Hok E). subst e. intros x Hx.
      destruct (chain_mapped _ _ _ _ Hc x Hx) as (p & _ & A & B). eauto.
    - intros Hall. destruct ok; auto. destruct (Hko eq_refl) as [A B].
      pose proof (chain_le _ _ _ _ Hc). destruct (Hall e) as (r & Hr & Hcv); [lia|]. elim (B r Hr Hcv). }
  split; [|split; [|split; [|split]]].
  - exists (length ps). intros hint max prot Hp Hall. rewrite Hs.
    assert (ok = true) by (apply Hmap; auto). subst ok.
    destruct (feed_spec ps 0 [] max prot) as [[E (p & Hin & Hd)]|[E _]].
    { exfalso. assert (In p ps) by (apply (In_firstn_in ps (max - 0)); auto).
      destruct (Hden prot p) as [A B]; auto. destruct Hp as [Hp|Hp]; [congruence|auto]. }
    rewrite E. unfold split_out. simpl (0 + _)%nat.
    destruct (Nat.ltb_spec max (length ps)); [reflexivity|].
    eexists; split; [reflexivity|]. simpl. rewrite map_length, firstn_length. lia.
  - intros hint max prot Hp Hall. rewrite Hs.
    assert (ok = false) by (destruct ok; auto; elim Hall; apply Hmap; auto). subst ok.
    destruct (feed_spec ps 0 [] max prot) as [[E (p & Hin & Hd)]|[E _]]; rewrite E; [|reflexivity].
    exfalso. assert (In p ps) by (apply (In_firstn_in ps (max - 0)); auto).
    destruct (Hden prot p) as [A B]; auto. destruct Hp as [Hp|Hp]; [congruence|auto].
  - intros hint max prot e' H. rewrite Hs in H.
    destruct (feed_spec ps 0 [] max prot) as [[E (p & Hin & Hd)]|[E _]]; rewrite E in H.
    + injection H as <-. right. split; auto. apply (Hden prot p); auto. apply (In_firstn_in ps (max - 0)); auto.
    + destruct ok.
      * unfold split_out in H. destruct (Nat.ltb _ _) in H; discriminate.
      * injection H as <-. left. split; auto. intros Hall. apply Hmap in Hall. discriminate.
  - intros hint max prot n H. rewrite Hs in H.
    destruct (feed_spec ps 0 [] max prot) as [[E (p & Hin & Hd)]|[E _]]; rewrite E in H; [discriminate|].
    destruct ok; [|discriminate]. unfold split_out in H.
    destruct (Nat.ltb_spec max (0 + length ps)) in H; [|discriminate]. injection H as <-.
    split; [apply Hmap; auto|]. auto.
  - intros hint max prot c H. rewrite Hs in H.
    destruct (feed_spec ps 0 [] max prot) as [[E (p & Hin & Hd)]|[E _]]; rewrite E in H; [discriminate|].
    destruct ok; [|discriminate]. unfold split_out in H. destruct (Nat.ltb _ _) in H; discriminate.
Qed.

(* C09 *)
Lemma sgl_hint d addr len h1 h2 max prot :
  inv2 d -> addr + len < two64 ->
  fst (addr_to_sgl d h1 addr len max prot) = fst (addr_to_sgl d h2 addr len max prot).
Proof.
  intros Hi Hl. destruct (addr_to_sgl_spec d addr len Hi Hl) as (ps & ok & e & _ & _ & _ & _ & Hs).
  now rewrite !Hs.
Qed.
