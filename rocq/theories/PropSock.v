(* C58: the listening socket. *)
From Coq Require Import NArith ZArith String List Bool Lia ZifyBool ZifyNat ZifyN.
From Verif Require Import Base Types Bytes Migr Server Wire Tran SpecServer SpecWire PropTran Sock SpecSock.
Import ListNotations.
Open Scope N_scope.
Ltac Zify.zify_post_hook ::= idtac.

Lemma path_eq_iff p q : path_eq p q = true <-> p = q.
Proof. unfold path_eq. destruct (list_eq_dec N.eq_dec p q); split; congruence. Qed.
Lemma in_names p l : existsb (path_eq p) l = true <-> In p l.
Proof.
  rewrite existsb_exists. split.
  - intros (q & I & E). apply path_eq_iff in E. now subst.
  - intros I. exists p. split; [exact I|]. now apply path_eq_iff.
Qed.
Lemma in_remove p q l : In q (remove_name p l) <-> In q l /\ q <> p.
Proof.
  unfold remove_name. rewrite filter_In. apply and_iff_compat_l. destruct (path_eq p q) eqn:E; cbn.
  - apply path_eq_iff in E. split; [discriminate|congruence].
  - split; [|reflexivity]. intros _ ->. assert (path_eq p p = true) by now apply path_eq_iff. congruence.
Qed.
Lemma remove_fresh p l : ~ In p l -> remove_name p (p :: l) = l.
Proof.
  intros N. unfold remove_name. cbn [filter]. replace (path_eq p p) with true by (symmetry; now apply path_eq_iff). cbn [negb].
  induction l as [|q l IH]; [reflexivity|]. cbn [filter]. destruct (path_eq p q) eqn:E.
  - apply path_eq_iff in E. subst. destruct N. now left.
  - cbn [negb]. f_equal. apply IH. intros I. apply N. now right.
Qed.

Lemma sk_close_ok fd : (0 <= fd)%Z -> sk_close fd = [SkClosed fd].
Proof. intros F. unfold sk_close. now replace (fd =? -1)%Z with false by lia. Qed.

Ltac FIN := cbn; repeat split; auto; try (match goal with Q : _ |- _ => now destruct Q end).
Lemma sock_init_cases nb p names e r names' ev : sock_init nb p names e = (r, names', ev) ->
  match ie_socket e with inl fd => (0 <= fd)%Z | inr _ => True end ->
  match r with
  | Ok fd => can_listen nb p names e fd /\ names' = p :: names /\
             ev = SkOpened fd :: (if nb then [SkNonblocking fd] else []) ++ [SkBound fd p; SkListening fd]
  | Err er => cannot_listen nb p names e er /\ names' = names /\ opened ev = closed_sk ev /\ bound ev = unlinked ev /\
              (forall q, In q (unlinked ev) -> q = p /\ ~ In p names)
  | Crash _ => False
  end.
Proof.
  intros H F. unfold sock_init in H. destruct (ie_socket e) as [fd|er] eqn:S.
  2:{ injection H as <- <- <-. split; [left; exact S|]. FIN. }
  rewrite !(sk_close_ok fd F) in H.
  destruct (if nb then ie_fcntl e else None) as [er|] eqn:FC.
  { injection H as <- <- <-. destruct nb; [|discriminate FC]. split; [right; left; eauto|]. FIN. }
  assert (FC' : nb = true -> ie_fcntl e = None) by (intros ->; exact FC).
  destruct (N.leb_spec SUN_PATH (N.of_nat (List.length p))) as [L|L].
  { injection H as <- <- <-. split; [right; right; exists fd; split; [exact S|]; split; [exact FC'|]; left; unfold SUN_PATH in L; split; [lia|reflexivity]|].
    destruct nb; FIN. }
  assert (L' : (length p < 108)%nat) by (unfold SUN_PATH in L; lia).
  destruct (existsb (path_eq p) names) eqn:EX.
  { apply in_names in EX. injection H as <- <- <-. split; [right; right; exists fd; auto 10|]. destruct nb; FIN. }
  assert (NI : ~ In p names) by (intros I; apply in_names in I; congruence).
  destruct (ie_bind e) as [er|] eqn:B.
  { injection H as <- <- <-. split; [right; right; exists fd; auto 10|]. destruct nb; FIN. }
  destruct (ie_listen e) as [er|] eqn:LI.
  - injection H as <- <- <-. split; [right; right; exists fd; auto 12|]. split; [now apply remove_fresh|].
    assert (forall q, In q [p] -> q = p /\ ~ In p names) by (intros q [<-|[]]; auto). destruct nb; cbn; auto 10.
  - injection H as <- <- <-. split; [constructor; auto|]. split; [reflexivity|]. reflexivity.
Qed.

Lemma cannot_can nb p names e er fd : cannot_listen nb p names e er -> can_listen nb p names e fd -> False.
Proof.
  intros C [S F L NI B LI]. destruct C as [C|[(f & C1 & C2 & C3)|(f & C1 & C2 & C3)]].
  - congruence.
  - specialize (F C2). congruence.
  - destruct C3 as [(C & _)|[(_ & C & _)|[(_ & _ & C)|(_ & _ & _ & C)]]]; [lia|contradiction|congruence|congruence].
Qed.

(* vfu_create_ctx succeeds exactly if a socket can be made, bound to the path and listened on; the path must be shorter
   than 108 bytes and must not exist.  The new device is last, without a client, and the others are as they were. *)
Theorem C58_created : forall parse print w nb p e r w' ev,
  valid_op (WCreate nb p e) -> wstep parse print w (WCreate nb p e) = (r, w', ev) ->
  (r = Ok tt <-> exists fd, can_listen nb p (wo_names w) e fd) /\
  (forall fd, can_listen nb p (wo_names w) e fd ->
     ev = SkOpened fd :: (if nb then [SkNonblocking fd] else []) ++ [SkBound fd p; SkListening fd] /\
     wo_names w' = p :: wo_names w /\ wo_socks w' = wo_socks w ++ [Some (mk_sock p fd (mk_tran (-1) (-1)))]).
Proof.
  intros parse print w nb p e r w' ev [_ V] H. cbn [wstep] in H.
  destruct (sock_init nb p (wo_names w) e) as [[o names] ev0] eqn:I. pose proof (sock_init_cases _ _ _ _ _ _ _ I V) as C.
  destruct o as [fd|er|c]; injection H as <- <- <-; cbn [wo_names wo_socks].
  - destruct C as (C & -> & ->). split; [split; eauto|]. intros fd' C'. pose proof (cl_socket _ _ _ _ _ C) as S. pose proof (cl_socket _ _ _ _ _ C') as S'.
    rewrite S in S'. injection S' as <-. auto.
  - destruct C as (C & _). split; [split; [discriminate|intros (fd & K); destruct (cannot_can _ _ _ _ _ _ C K)]|]. intros fd K. destruct (cannot_can _ _ _ _ _ _ C K).
  - destruct C.
Qed.
Print Assumptions C58_created.

(* If it fails it says why, every descriptor it obtained is closed, and names and devices are as before: only a name
   that this call made is removed, so another server's socket never is. *)
Theorem C58_not_created : forall parse print w nb p e er w' ev,
  valid_op (WCreate nb p e) -> wstep parse print w (WCreate nb p e) = (Err er, w', ev) ->
  cannot_listen nb p (wo_names w) e er /\ w' = w /\ opened ev = closed_sk ev /\ bound ev = unlinked ev /\
  (forall q, In q (wo_names w) -> ~ In q (unlinked ev)).
Proof.
  intros parse print w nb p e er w' ev [_ V] H. cbn [wstep] in H.
  destruct (sock_init nb p (wo_names w) e) as [[o names] ev0] eqn:I. pose proof (sock_init_cases _ _ _ _ _ _ _ I V) as C.
  destruct o as [fd|er0|c]; [discriminate H| |discriminate H]. injection H as -> <- <-. destruct C as (C & -> & C1 & C2 & C3).
  split; [exact C|]. split; [now destruct w|]. split; [exact C1|]. split; [exact C2|]. intros q Q U. destruct (C3 q U) as [-> N]. contradiction.
Qed.
Print Assumptions C58_not_created.

(* Descriptors *)
Lemma times_app x l1 l2 : times x (l1 ++ l2) = (times x l1 + times x l2)%nat.
Proof. apply count_occ_app. Qed.
Lemma times_m1 x : (0 <= x)%Z -> times x [(-1)%Z] = 0%nat.
Proof. intros X. unfold times. rewrite count_occ_cons_neq by lia. reflexivity. Qed.
Lemma times_cons x y l : times x (y :: l) = (times x [y] + times x l)%nat.
Proof. exact (count_occ_app Z.eq_dec [y] l x). Qed.
Lemma opened_app a b : opened (a ++ b) = opened a ++ opened b. Proof. apply flat_map_app. Qed.
Lemma closed_app a b : closed_sk (a ++ b) = closed_sk a ++ closed_sk b. Proof. apply flat_map_app. Qed.
Lemma bound_app a b : bound (a ++ b) = bound a ++ bound b. Proof. apply flat_map_app. Qed.
Lemma unlinked_app a b : unlinked (a ++ b) = unlinked a ++ unlinked b. Proof. apply flat_map_app. Qed.
Lemma of_attach_opened ev : opened (of_attach ev) = pair_fds ev.
Proof. induction ev as [|v ev IH]; [reflexivity|]. unfold of_attach. cbn [flat_map]. rewrite opened_app. fold (of_attach ev). rewrite IH. now destruct v. Qed.
Lemma of_attach_closed ev : closed_sk (of_attach ev) = closed_fds ev.
Proof. induction ev as [|v ev IH]; [reflexivity|]. unfold of_attach. cbn [flat_map]. rewrite closed_app. fold (of_attach ev). rewrite IH. now destruct v. Qed.
Lemma of_attach_names ev : bound (of_attach ev) = [] /\ unlinked (of_attach ev) = [].
Proof.
  induction ev as [|v ev [IH1 IH2]]; [auto|]. unfold of_attach. cbn [flat_map]. rewrite bound_app, unlinked_app. fold (of_attach ev). rewrite IH1, IH2. destruct v; auto.
Qed.

Definition tran_ok (t : tran) : Prop := (0 <= tr_conn t)%Z \/ (tr_conn t = (-1)%Z /\ tr_cmd t = (-1)%Z).
Definition socks_ok (w : world) : Prop := Forall (fun k => (0 <= sk_listen k)%Z /\ tran_ok (sk_tran k)) (devices w).

Lemma detach_fds t t' ev : detach t = (t', ev) -> tran_ok t' /\ opened (of_attach ev) = [] /\
  forall x, (0 <= x)%Z -> times x [tr_conn t; tr_cmd t] = (times x (closed_sk (of_attach ev)) + times x [tr_conn t'; tr_cmd t'])%nat.
Proof.
  intros H. unfold detach in H. injection H as <- <-. split; [right; auto|]. rewrite of_attach_opened, of_attach_closed. split.
  - unfold pair_fds. rewrite flat_map_app. destruct (tr_conn t =? -1)%Z, (tr_cmd t =? -1)%Z; reflexivity.
  - intros x X. unfold closed_fds. rewrite flat_map_app, times_app. cbn [tr_conn tr_cmd]. rewrite !(times_cons x _ [_]), !times_m1 by exact X.
    destruct (Z.eqb_spec (tr_conn t) (-1)) as [->|], (Z.eqb_spec (tr_cmd t) (-1)) as [->|]; cbn [flat_map app]; rewrite ?times_m1 by exact X; change (times x []) with 0%nat; lia.
Qed.

Lemma attach_fds parse print t g a r t' g' ev : tran_ok t -> match at_accept a with inl fd => (0 <= fd)%Z | inr _ => True end ->
  attach parse print t g a = (r, t', g', ev) ->
  let acc := (if (tr_conn t =? -1)%Z then match at_accept a with inl fd => [SkOpened fd] | inr _ => [] end else []) ++ of_attach ev in
  tran_ok t' /\ forall x, (0 <= x)%Z -> (times x [tr_conn t; tr_cmd t] + times x (opened acc) = times x (closed_sk acc) + times x [tr_conn t'; tr_cmd t'])%nat.
Proof.
  intros I F A acc. pose proof (C53_attach _ _ _ _ _ _ _ _ _ A) as NC. destruct I as [I|[J1 J2]].
  - unfold acc. clear acc. unfold attach in A. replace (tr_conn t =? -1)%Z with false in * by lia. injection A as _ <- _ <-. split; [left; exact I|].
    intros x X. cbn. lia.
  - unfold acc. clear acc. rewrite J1. change (-1 =? -1)%Z with true. cbn iota. destruct (at_accept a) as [fd|er] eqn:E.
    + split.
      * unfold attach in A. rewrite J1, E in A. change (negb (-1 =? -1)%Z) with false in A. cbn iota in A.
        destruct (negotiate parse print g a) as [[[cmd|e|cr] g2] ev3]; injection A as <- <- _ _; [left; exact F|right; auto|now destruct (NC cr)].
      * intros x X. pose proof (C40_descriptors _ _ _ _ _ _ _ _ _ _ J1 J2 E A NC x X) as K.
        rewrite opened_app, closed_app, of_attach_opened, of_attach_closed. change (opened [SkOpened fd]) with [fd]. change (closed_sk [SkOpened fd]) with (@nil Z).
        cbn [app]. rewrite J2, (times_cons x _ [_]), times_m1 by exact X. lia.
    + unfold attach in A. rewrite J1, E in A. change (negb (-1 =? -1)%Z) with false in A. cbn iota in A. injection A as _ <- _ <-.
      split; [right; auto|]. intros x X. cbn [of_attach flat_map app opened closed_sk]. rewrite J1. change (times x []) with 0%nat. lia.
Qed.

Definition dev_list (l : list (option sock)) : list sock := flat_map (fun o => match o with Some k => [k] | None => [] end) l.
Lemma nth_split_sock (l : list (option sock)) i k : nth i l None = Some k -> l = firstn i l ++ Some k :: skipn (S i) l.
Proof.
  revert i. induction l as [|o l IH]; intros i H; [destruct i; discriminate H|]. destruct i as [|i]; [cbn in H; subst; reflexivity|].
  cbn [firstn app]. f_equal. exact (IH i H).
Qed.
Lemma dev_split l i k : nth i l None = Some k -> exists a b,
  dev_list l = a ++ k :: b /\ (forall k', dev_list (put l i (Some k')) = a ++ k' :: b) /\ dev_list (put l i None) = a ++ b.
Proof.
  intros H. exists (dev_list (firstn i l)), (dev_list (skipn (S i) l)). split; [|split].
  - rewrite (nth_split_sock l i k H) at 1. unfold dev_list. now rewrite flat_map_app.
  - intros k'. unfold put, dev_list. now rewrite flat_map_app.
  - unfold put, dev_list. now rewrite flat_map_app.
Qed.
Definition fds_of (k : sock) : list Z := [sk_listen k; tr_conn (sk_tran k); tr_cmd (sk_tran k)].
Lemma holds_list w : holds w = flat_map fds_of (dev_list (wo_socks w)). Proof. reflexivity. Qed.
Lemma fds_split x a k b : times x (flat_map fds_of (a ++ k :: b)) =
  (times x (flat_map fds_of (a ++ b)) + times x [sk_listen k] + times x [tr_conn (sk_tran k); tr_cmd (sk_tran k)])%nat.
Proof.
  rewrite !flat_map_app. cbn [flat_map]. rewrite !times_app. unfold fds_of at 2. rewrite (times_cons x (sk_listen k) [_; _]). lia.
Qed.

Lemma wstep_fds parse print w o r w' ev : socks_ok w -> valid_op o -> wstep parse print w o = (r, w', ev) ->
  socks_ok w' /\ forall x, (0 <= x)%Z -> (times x (holds w) + times x (opened ev) = times x (closed_sk ev) + times x (holds w'))%nat.
Proof.
  intros I V H. destruct o as [nb p e|i g a|i|i|p]; cbn [wstep] in H.
  - destruct V as [_ V]. destruct (sock_init nb p (wo_names w) e) as [[o names] ev0] eqn:SI. pose proof (sock_init_cases _ _ _ _ _ _ _ SI V) as C.
    destruct o as [fd|er|c]; [| |destruct C]; injection H as <- <- <-.
    + destruct C as (C & _ & ->). rewrite (cl_socket _ _ _ _ _ C) in V.
      assert (D : dev_list (wo_socks w ++ [Some (mk_sock p fd (mk_tran (-1) (-1)))]) = dev_list (wo_socks w) ++ [mk_sock p fd (mk_tran (-1) (-1))]) by apply flat_map_app.
      split.
      * unfold socks_ok, devices. cbn [wo_socks]. fold (dev_list (wo_socks w ++ [Some (mk_sock p fd (mk_tran (-1) (-1)))])). rewrite D. apply Forall_app. split; [exact I|].
        constructor; [|constructor]. split; [exact V|]. right. auto.
      * intros x X. rewrite !holds_list. cbn [wo_socks]. rewrite D, flat_map_app, times_app. cbn [flat_map app]. unfold fds_of at 3. cbn [sk_listen sk_tran tr_conn tr_cmd app].
        replace (opened _) with [fd] by now destruct nb. replace (closed_sk _) with (@nil Z) by now destruct nb.
        rewrite (times_cons x fd [_; _]), (times_cons x (-1)%Z [_]), !times_m1 by exact X. change (times x []) with 0%nat. lia.
    + destruct C as (_ & -> & C & _). split; [exact I|]. intros x X. rewrite C. rewrite !holds_list. cbn [wo_socks]. lia.
  - destruct (nth i (wo_socks w) None) as [k|] eqn:K; [|injection H as <- <- <-; split; [exact I|]; intros x X; cbn; lia].
    destruct (attach parse print (sk_tran k) g a) as [[[r1 t1] g1] ev1] eqn:A. injection H as <- <- <-.
    destruct (dev_split _ _ _ K) as (la & lb & D1 & D2 & _). unfold socks_ok, devices in *. fold (dev_list (wo_socks w)) in I.
    rewrite D1 in I. apply Forall_app in I. destruct I as [Ia Ib]. inversion_clear Ib as [|? ? Ik Ib']. destruct V as [V _].
    destruct (attach_fds _ _ _ _ _ _ _ _ _ (proj2 Ik) V A) as [T1 T2]. split.
    + cbn [wo_socks]. fold (dev_list (put (wo_socks w) i (Some (mk_sock (sk_path k) (sk_listen k) t1)))). rewrite D2. apply Forall_app. split; [exact Ia|].
      constructor; [|exact Ib']. split; [exact (proj1 Ik)|exact T1].
    + intros x X. specialize (T2 x X). rewrite !holds_list. cbn [wo_socks]. rewrite D1, D2, !fds_split. cbn [sk_listen sk_tran]. lia.
  - destruct (nth i (wo_socks w) None) as [k|] eqn:K; [|injection H as <- <- <-; split; [exact I|]; intros x X; cbn; lia].
    destruct (detach (sk_tran k)) as [t1 ev1] eqn:A. injection H as <- <- <-.
    destruct (dev_split _ _ _ K) as (la & lb & D1 & D2 & _). unfold socks_ok, devices in *. fold (dev_list (wo_socks w)) in I.
    rewrite D1 in I. apply Forall_app in I. destruct I as [Ia Ib]. inversion_clear Ib as [|? ? Ik Ib'].
    destruct (detach_fds _ _ _ A) as (T1 & T3 & T2). split.
    + cbn [wo_socks]. fold (dev_list (put (wo_socks w) i (Some (mk_sock (sk_path k) (sk_listen k) t1)))). rewrite D2. apply Forall_app. split; [exact Ia|].
      constructor; [|exact Ib']. split; [exact (proj1 Ik)|exact T1].
    + intros x X. specialize (T2 x X). rewrite T3. rewrite !holds_list. cbn [wo_socks]. rewrite D1, D2, !fds_split. cbn [sk_listen sk_tran]. change (times x []) with 0%nat. lia.
  - destruct (nth i (wo_socks w) None) as [k|] eqn:K; [|injection H as <- <- <-; split; [exact I|]; intros x X; cbn; lia].
    destruct (detach (sk_tran k)) as [t1 ev1] eqn:A. injection H as <- <- <-.
    destruct (dev_split _ _ _ K) as (la & lb & D1 & _ & D3). unfold socks_ok, devices in *. fold (dev_list (wo_socks w)) in I.
    rewrite D1 in I. apply Forall_app in I. destruct I as [Ia Ib]. inversion_clear Ib as [|? ? Ik Ib'].
    destruct (detach_fds _ _ _ A) as (_ & T3 & T2). split.
    + cbn [wo_socks]. fold (dev_list (put (wo_socks w) i None)). rewrite D3. apply Forall_app. auto.
    + intros x X. specialize (T2 x X). rewrite (sk_close_ok _ (proj1 Ik)). rewrite !holds_list. cbn [wo_socks]. rewrite D1, D3, fds_split.
      unfold detach in A. injection A as <- _. cbn [tr_conn tr_cmd] in T2. rewrite (times_cons x (-1)%Z [_]), !times_m1 in T2 by exact X.
      rewrite opened_app, T3, closed_app, !times_app. cbn [app opened closed_sk flat_map]. change (times x []) with 0%nat. lia.
  - injection H as <- <- <-. split; [exact I|]. intros x X. change (opened []) with (@nil Z). change (closed_sk []) with (@nil Z). change (times x []) with 0%nat. change (holds (mk_world (remove_name p (wo_names w)) (wo_socks w))) with (holds w). lia.
Qed.

Lemma wrun_fds parse print l : forall w w' ev, socks_ok w -> Forall valid_op l -> wrun parse print w l = (w', ev) ->
  socks_ok w' /\ forall x, (0 <= x)%Z -> (times x (holds w) + times x (opened ev) = times x (closed_sk ev) + times x (holds w'))%nat.
Proof.
  induction l as [|o l IH]; intros w w' ev I V H; cbn [wrun] in H.
  { injection H as <- <-. split; [exact I|]. intros x X. cbn. lia. }
  inversion_clear V as [|? ? V1 V2]. destruct (wstep parse print w o) as [[r w1] ev1] eqn:S. destruct (wrun parse print w1 l) as [w2 ev2] eqn:R. injection H as <- <-.
  destruct (wstep_fds _ _ _ _ _ _ _ I V1 S) as [I1 K1]. destruct (IH _ _ _ I1 V2 R) as [I2 K2]. split; [exact I2|].
  intros x X. specialize (K1 x X). specialize (K2 x X). rewrite opened_app, closed_app, !times_app. lia.
Qed.

(* Whatever the program does with its devices, every descriptor obtained (listening sockets, connections, twin sockets)
   is held by a device or has been closed, exactly once. *)
Theorem C58_descriptors : forall parse print names l w ev,
  Forall valid_op l -> wrun parse print (mk_world names []) l = (w, ev) ->
  forall x, (0 <= x)%Z -> times x (opened ev) = (times x (closed_sk ev) + times x (holds w))%nat.
Proof.
  intros parse print names l w ev V H x X. destruct (wrun_fds _ _ _ (mk_world names []) _ _ (Forall_nil _) V H) as [_ K]. exact (K x X).
Qed.
Print Assumptions C58_descriptors.

(* Names *)
Definition names_ok (names : list path) (w : world) : Prop :=
  (forall p, In p (wo_names w) <-> In p names \/ In p (paths w)) /\ NoDup (paths w) /\ (forall p, In p (paths w) -> ~ In p names).
Lemma paths_list w : paths w = map sk_path (dev_list (wo_socks w)). Proof. reflexivity. Qed.
Lemma tp_app p a b : times_path p (a ++ b) = (times_path p a + times_path p b)%nat. Proof. apply count_occ_app. Qed.
Lemma tp_cons p q l : times_path p (q :: l) = (times_path p [q] + times_path p l)%nat. Proof. exact (tp_app p [q] l). Qed.

Lemma wstep_names parse print names w o r w' ev : names_ok names w -> valid_op o -> undisturbed o -> wstep parse print w o = (r, w', ev) ->
  names_ok names w' /\ forall p, (times_path p (paths w) + times_path p (bound ev) = times_path p (unlinked ev) + times_path p (paths w'))%nat.
Proof.
  intros I V U H. destruct o as [nb p e|i g a|i|i|p]; cbn [wstep] in H; [| | | |destruct U].
  - destruct V as [_ V]. destruct (sock_init nb p (wo_names w) e) as [[o names1] ev0] eqn:SI. pose proof (sock_init_cases _ _ _ _ _ _ _ SI V) as C.
    destruct o as [fd|er|c]; [| |destruct C]; injection H as <- <- <-.
    + destruct C as (C & -> & ->). destruct I as (I1 & I2 & I3). pose proof (cl_free _ _ _ _ _ C) as NI.
      assert (D : paths (mk_world (p :: wo_names w) (wo_socks w ++ [Some (mk_sock p fd (mk_tran (-1) (-1)))])) = paths w ++ [p]).
      { rewrite !paths_list. cbn [wo_socks]. unfold dev_list. rewrite flat_map_app, map_app. reflexivity. }
      unfold names_ok. rewrite D. cbn [wo_names]. split.
      * split; [|split].
        -- intros q. rewrite in_app_iff. cbn [In]. rewrite I1. tauto.
        -- apply NoDup_rev in I2. rewrite <- (rev_involutive (paths w ++ [p])), rev_app_distr. apply NoDup_rev.
           cbn [rev app]. constructor; [|exact I2]. rewrite <- in_rev. intros Q. apply NI. apply I1. now right.
        -- intros q Q N. apply in_app_iff in Q. destruct Q as [Q|[<-|[]]]; [exact (I3 q Q N)|]. apply NI. apply I1. now left.
      * intros q. rewrite tp_app. replace (bound _) with [p] by now destruct nb. replace (unlinked _) with (@nil path) by now destruct nb. change (times_path q []) with 0%nat. lia.
    + destruct C as (_ & -> & _ & C & _). split; [destruct w; exact I|]. intros q. rewrite C. rewrite !paths_list. cbn [wo_socks]. lia.
  - destruct (nth i (wo_socks w) None) as [k|] eqn:K; [|injection H as <- <- <-; split; [exact I|]; intros q; cbn; lia].
    destruct (attach parse print (sk_tran k) g a) as [[[r1 t1] g1] ev1] eqn:A. injection H as <- <- <-.
    destruct (dev_split _ _ _ K) as (la & lb & D1 & D2 & _).
    assert (D : paths (mk_world (wo_names w) (put (wo_socks w) i (Some (mk_sock (sk_path k) (sk_listen k) t1)))) = paths w).
    { rewrite !paths_list. cbn [wo_socks]. rewrite D1, D2, !map_app. reflexivity. }
    unfold names_ok in *. rewrite D. split; [exact I|]. intros q. destruct (of_attach_names ev1) as [E1 E2]. rewrite bound_app, unlinked_app, E1, E2.
    destruct (tr_conn (sk_tran k) =? -1)%Z; [destruct (at_accept a)|]; cbn; lia.
  - destruct (nth i (wo_socks w) None) as [k|] eqn:K; [|injection H as <- <- <-; split; [exact I|]; intros q; cbn; lia].
    destruct (detach (sk_tran k)) as [t1 ev1] eqn:A. injection H as <- <- <-.
    destruct (dev_split _ _ _ K) as (la & lb & D1 & D2 & _).
    assert (D : paths (mk_world (wo_names w) (put (wo_socks w) i (Some (mk_sock (sk_path k) (sk_listen k) t1)))) = paths w).
    { rewrite !paths_list. cbn [wo_socks]. rewrite D1, D2, !map_app. reflexivity. }
    unfold names_ok in *. rewrite D. split; [exact I|]. intros q. destruct (of_attach_names ev1) as [E1 E2]. rewrite E1, E2. cbn. lia.
  - destruct (nth i (wo_socks w) None) as [k|] eqn:K; [|injection H as <- <- <-; split; [exact I|]; intros q; cbn; lia].
    destruct (detach (sk_tran k)) as [t1 ev1] eqn:A. injection H as <- <- <-.
    destruct (dev_split _ _ _ K) as (la & lb & D1 & _ & D3). destruct I as (I1 & I2 & I3). rewrite paths_list, D1, map_app in I1, I2, I3. cbn [map] in I1, I2, I3.
    assert (D : paths (mk_world (remove_name (sk_path k) (wo_names w)) (put (wo_socks w) i None)) = map sk_path la ++ map sk_path lb).
    { rewrite !paths_list. cbn [wo_socks]. rewrite D3, map_app. reflexivity. }
    unfold names_ok. rewrite D. cbn [wo_names]. destruct (NoDup_remove _ _ _ I2) as [N1 N2]. split.
    + split; [|split; [exact N1|]].
      * intros q. rewrite in_remove, I1. rewrite !in_app_iff in *. cbn [In]. split.
        -- intros ([Q|[Q|[Q|Q]]] & N); auto. congruence.
        -- intros [Q|Q].
           ++ split; [auto|]. intros ->. apply (I3 (sk_path k)); [|exact Q]. apply in_app_iff. right. now left.
           ++ split; [tauto|]. intros ->. tauto.
      * intros q Q. apply I3. apply in_app_iff. apply in_app_iff in Q. cbn [In]. tauto.
    + intros q. destruct (of_attach_names ev1) as [E1 E2]. rewrite bound_app, unlinked_app, E1, E2. rewrite (paths_list w), D1, map_app. cbn [map].
      rewrite !tp_app, (tp_cons q (sk_path k)). unfold sk_close. destruct (sk_listen k =? -1)%Z; cbn [app bound unlinked flat_map]; change (times_path q []) with 0%nat; lia.
Qed.

(* As long as only the library removes names: the names that exist are those that existed and those of the devices that
   exist, which are different; every name made has been removed, exactly once, or is that of a device. *)
Theorem C58_names : forall parse print names l w ev,
  Forall valid_op l -> Forall undisturbed l -> wrun parse print (mk_world names []) l = (w, ev) ->
  (forall p, In p (wo_names w) <-> In p names \/ In p (paths w)) /\ NoDup (paths w) /\ (forall p, In p (paths w) -> ~ In p names) /\
  (forall p, times_path p (bound ev) = (times_path p (unlinked ev) + times_path p (paths w))%nat).
Proof.
  intros parse print names l.
  assert (G : forall l w w' ev, names_ok names w -> Forall valid_op l -> Forall undisturbed l -> wrun parse print w l = (w', ev) ->
    names_ok names w' /\ forall p, (times_path p (paths w) + times_path p (bound ev) = times_path p (unlinked ev) + times_path p (paths w'))%nat).
  { clear l. induction l as [|o l IH]; intros w w' ev I V U H; cbn [wrun] in H.
    { injection H as <- <-. split; [exact I|]. intros x. cbn. lia. }
    inversion_clear V as [|? ? V1 V2]. inversion_clear U as [|? ? U1 U2].
    destruct (wstep parse print w o) as [[r w1] ev1] eqn:S. destruct (wrun parse print w1 l) as [w2 ev2] eqn:R. injection H as <- <-.
    destruct (wstep_names _ _ _ _ _ _ _ _ I V1 U1 S) as [I1 K1]. destruct (IH _ _ _ I1 V2 U2 R) as [I2 K2]. split; [exact I2|].
    intros x. specialize (K1 x). specialize (K2 x). rewrite bound_app, unlinked_app, !tp_app. lia. }
  intros w ev V U H. assert (I0 : names_ok names (mk_world names [])) by (split; [intros p; cbn; tauto|split; [constructor|intros p []]]).
  destruct (G l _ _ _ I0 V U H) as [(K1 & K2 & K3) K4].
  split; [exact K1|]. split; [exact K2|]. split; [exact K3|]. exact K4.
Qed.
Print Assumptions C58_names.

(* Destroying a device removes its name, closes what it holds, and leaves every other device as it is, its socket's
   name in place. *)
Theorem C58_destroyed : forall parse print names l w0 ev0 i k r w ev,
  Forall valid_op l -> Forall undisturbed l -> wrun parse print (mk_world names []) l = (w0, ev0) -> nth i (wo_socks w0) None = Some k ->
  wstep parse print w0 (WDestroy i) = (r, w, ev) ->
  r = Ok tt /\ ~ In (sk_path k) (wo_names w) /\ unlinked ev = [sk_path k] /\
  (forall x, (0 <= x)%Z -> times x (closed_sk ev) = times x [sk_listen k; tr_conn (sk_tran k); tr_cmd (sk_tran k)]) /\
  nth i (wo_socks w) None = None /\
  (forall j k', j <> i -> nth j (wo_socks w0) None = Some k' -> nth j (wo_socks w) None = Some k' /\ In (sk_path k') (wo_names w)).
Proof.
  intros parse print names l w0 ev0 i k r w ev V U R K H.
  destruct (C58_names _ _ _ _ _ _ V U R) as (N1 & N2 & N3 & _). destruct (wrun_fds _ _ _ (mk_world names []) _ _ (Forall_nil _) V R) as [I _].
  pose proof H as S. cbn [wstep] in H. rewrite K in H. destruct (detach (sk_tran k)) as [t1 ev1] eqn:A. injection H as <- <- <-.
  destruct (dev_split _ _ _ K) as (la & lb & D1 & _ & D3).
  assert (IL : (i < length (wo_socks w0))%nat).
  { destruct (Nat.ltb_spec i (length (wo_socks w0))); [assumption|]. rewrite nth_overflow in K by lia. discriminate K. }
  assert (P : forall j, j <> i -> nth j (put (wo_socks w0) i None) None = nth j (wo_socks w0) None).
  { intros j J. unfold put. rewrite (nth_split_sock _ _ _ K) at 3. assert (L : length (firstn i (wo_socks w0)) = i) by (apply firstn_length_le; lia).
    destruct (Nat.ltb_spec j i).
    - rewrite !app_nth1 by lia. reflexivity.
    - rewrite !app_nth2 by lia. rewrite L. destruct (j - i)%nat eqn:E; [lia|]. reflexivity. }
  split; [reflexivity|]. split; [cbn; intros Q; apply in_remove in Q; tauto|].
  destruct (of_attach_names ev1) as [_ E2]. split; [rewrite unlinked_app, E2; unfold sk_close; now destruct (sk_listen k =? -1)%Z|].
  unfold socks_ok, devices in I. fold (dev_list (wo_socks w0)) in I. rewrite D1 in I. apply Forall_app in I. destruct I as [_ I]. inversion_clear I as [|? ? Ik _].
  destruct (detach_fds _ _ _ A) as (_ & _ & T2). split; [|split].
  - intros x X. specialize (T2 x X). rewrite (sk_close_ok _ (proj1 Ik)), closed_app, times_app. cbn [app closed_sk flat_map].
    rewrite (times_cons x _ [_; _]). unfold detach in A. injection A as <- _. cbn [tr_conn tr_cmd] in T2. rewrite (times_cons x (-1)%Z [_]), !times_m1 in T2 by exact X. lia.
  - cbn [wo_socks]. unfold put. rewrite app_nth2; rewrite firstn_length_le by lia; [|lia]. now rewrite Nat.sub_diag.
  - intros j k' J K'. cbn [wo_socks wo_names]. rewrite (P j J). split; [exact K'|]. apply in_remove.
    assert (M : forall l j k', nth j l None = Some k' -> In k' (dev_list l)).
    { intros l0 j0 k0 Q. destruct (dev_split _ _ _ Q) as (a & b & Z & _). rewrite Z. apply in_app_iff. right. now left. }
    split.
    + apply N1. right. rewrite paths_list. apply in_map. exact (M _ _ _ K').
    + rewrite paths_list in N2. rewrite D1, map_app in N2. cbn [map] in N2. destruct (NoDup_remove _ _ _ N2) as [_ N4]. intros E. apply N4. rewrite <- E, <- map_app. apply in_map.
      assert (Q : nth j (put (wo_socks w0) i None) None = Some k') by (rewrite P; assumption). rewrite <- D3. exact (M _ _ _ Q).
Qed.
Print Assumptions C58_destroyed.

Lemma put_none l i k j : nth i l None = Some k -> forall o : option sock, nth j (put l i o) None = if Nat.eqb j i then o else nth j l None.
Proof.
  intros K o. assert (IL : (i < length l)%nat) by (destruct (Nat.ltb_spec i (length l)); [assumption|]; rewrite nth_overflow in K by lia; discriminate K).
  assert (L : length (firstn i l) = i) by (apply firstn_length_le; lia). unfold put. destruct (Nat.eqb_spec j i) as [->|J].
  - rewrite app_nth2 by lia. now rewrite L, Nat.sub_diag.
  - rewrite (nth_split_sock _ _ _ K) at 3. destruct (Nat.ltb_spec j i).
    + rewrite !app_nth1 by lia. reflexivity.
    + rewrite !app_nth2 by lia. rewrite L. destruct (j - i)%nat eqn:E; [lia|]. reflexivity.
Qed.

Lemma destroy_all parse print is : forall w w' ev, wrun parse print w (map WDestroy is) = (w', ev) ->
  forall j, nth j (wo_socks w') None = if existsb (Nat.eqb j) is then None else nth j (wo_socks w) None.
Proof.
  induction is as [|i is IH]; intros w w' ev H j; cbn [map wrun] in H.
  { injection H as <- _. reflexivity. }
  destruct (wstep parse print w (WDestroy i)) as [[r w1] ev1] eqn:S. destruct (wrun parse print w1 (map WDestroy is)) as [w2 ev2] eqn:R. injection H as <- _.
  rewrite (IH _ _ _ R j). cbn [existsb].
  assert (E : nth j (wo_socks w1) None = if Nat.eqb j i then None else nth j (wo_socks w) None).
  { cbn [wstep] in S. destruct (nth i (wo_socks w) None) as [k|] eqn:K.
    - destruct (detach (sk_tran k)). injection S as _ <- _. exact (put_none _ _ _ _ K None).
    - injection S as _ <- _. destruct (Nat.eqb_spec j i) as [->|]; [exact K|reflexivity]. }
  rewrite E. destruct (Nat.eqb j i), (existsb (Nat.eqb j) is); reflexivity.
Qed.

(* When every device has been destroyed nothing is left: each descriptor that was obtained has been closed as often as
   it was obtained, and the names are those from before. *)
Theorem C58_nothing_left : forall parse print names l w ev w' ev',
  Forall valid_op l -> wrun parse print (mk_world names []) l = (w, ev) ->
  wrun parse print (mk_world names []) (l ++ map WDestroy (seq 0 (length (wo_socks w)))) = (w', ev') ->
  (forall x, (0 <= x)%Z -> times x (opened ev') = times x (closed_sk ev')) /\
  (Forall undisturbed l -> forall p, In p (wo_names w') <-> In p names).
Proof.
  intros parse print names l w ev w' ev' V R H.
  assert (AP : forall l1 l2 w0, wrun parse print w0 (l1 ++ l2) = (let '(w1, e1) := wrun parse print w0 l1 in let '(w2, e2) := wrun parse print w1 l2 in (w2, e1 ++ e2))).
  { intros l1. induction l1 as [|o l1 IH]; intros l2 w0; cbn [app wrun].
    - destruct (wrun parse print w0 l2); reflexivity.
    - destruct (wstep parse print w0 o) as [[r w1] e1]. rewrite IH. destruct (wrun parse print w1 l1) as [w2 e2]. destruct (wrun parse print w2 l2). now rewrite app_assoc. }
  assert (DV : Forall valid_op (map WDestroy (seq 0 (length (wo_socks w))))) by (apply Forall_forall; intros o O; apply in_map_iff in O; destruct O as (i & <- & _); exact Logic.I).
  assert (DU : Forall undisturbed (map WDestroy (seq 0 (length (wo_socks w))))) by (apply Forall_forall; intros o O; apply in_map_iff in O; destruct O as (i & <- & _); exact Logic.I).
  assert (E : dev_list (wo_socks w') = []).
  { pose proof H as H'. rewrite AP, R in H'. destruct (wrun parse print w (map WDestroy (seq 0 (length (wo_socks w))))) as [w2 e2] eqn:R2. injection H' as <- _.
    pose proof (destroy_all _ _ _ _ _ _ R2) as D.
    assert (Z : forall j, nth j (wo_socks w2) None = None).
    { intros j. rewrite D. destruct (existsb (Nat.eqb j) _) eqn:EX; [reflexivity|]. destruct (Nat.ltb_spec j (length (wo_socks w))); [|now apply nth_overflow].
      assert (existsb (Nat.eqb j) (seq 0 (length (wo_socks w))) = true); [|congruence]. apply existsb_exists. exists j. split; [apply in_seq; lia|apply Nat.eqb_refl]. }
    revert Z. generalize (wo_socks w2). induction l0 as [|o l0 IH]; intros Z; [reflexivity|]. pose proof (Z 0%nat) as Z0. cbn in Z0. subst o. exact (IH (fun j => Z (S j))). }
  split.
  - intros x X. rewrite (C58_descriptors _ _ _ _ _ _ ltac:(apply Forall_app; split; [exact V|exact DV]) H x X). rewrite holds_list, E. cbn. lia.
  - intros U p. destruct (C58_names _ _ _ _ _ _ ltac:(apply Forall_app; split; [exact V|exact DV]) ltac:(apply Forall_app; split; [exact U|exact DU]) H) as (N & _).
    rewrite N, paths_list, E. cbn. tauto.
Qed.
Print Assumptions C58_nothing_left.

(* vfu_get_poll_fd answers an open descriptor of the device: the connection of its client if it has one and the
   listening socket otherwise.  A new device has none, a successful vfu_attach_ctx makes the accepted one the client's,
   a failed one changes nothing, and after the loss of the client there is none. *)
Theorem C58_poll : forall parse print names l w ev i k,
  Forall valid_op l -> wrun parse print (mk_world names []) l = (w, ev) -> nth i (wo_socks w) None = Some k ->
  (0 <= poll_fd k)%Z /\ (times (poll_fd k) (closed_sk ev) < times (poll_fd k) (opened ev))%nat /\
  poll_fd k = (if (0 <=? tr_conn (sk_tran k))%Z then tr_conn (sk_tran k) else sk_listen k) /\
  (forall g a r w' ev', valid_op (WAttach i g a) -> wstep parse print w (WAttach i g a) = (r, w', ev') ->
     exists k', nth i (wo_socks w') None = Some k' /\ sk_path k' = sk_path k /\ sk_listen k' = sk_listen k /\
       (r = Ok tt -> poll_fd k = sk_listen k /\ at_accept a = inl (poll_fd k')) /\ (r <> Ok tt -> k' = k)) /\
  (forall r w' ev', wstep parse print w (WLose i) = (r, w', ev') ->
     exists k', nth i (wo_socks w') None = Some k' /\ sk_path k' = sk_path k /\ sk_listen k' = sk_listen k /\ poll_fd k' = sk_listen k).
Proof.
  intros parse print names l w ev i k V R K. destruct (wrun_fds _ _ _ (mk_world names []) _ _ (Forall_nil _) V R) as [I A].
  destruct (dev_split _ _ _ K) as (la & lb & D1 & _). unfold socks_ok, devices in I. fold (dev_list (wo_socks w)) in I. rewrite D1 in I.
  apply Forall_app in I. destruct I as [_ I]. inversion_clear I as [|? ? [I1 I2] _].
  assert (P : poll_fd k = (if (0 <=? tr_conn (sk_tran k))%Z then tr_conn (sk_tran k) else sk_listen k)).
  { unfold poll_fd. destruct I2 as [J|[J _]].
    - replace (tr_conn (sk_tran k) =? -1)%Z with false by lia. now replace (0 <=? tr_conn (sk_tran k))%Z with true by lia.
    - rewrite J. reflexivity. }
  assert (P0 : (0 <= poll_fd k)%Z) by (rewrite P; destruct (Z.leb_spec 0 (tr_conn (sk_tran k))); assumption).
  split; [exact P0|]. split; [|split; [exact P|split]].
  - specialize (A _ P0). change (holds (mk_world names [])) with (@nil Z) in A. change (times (poll_fd k) []) with 0%nat in A. rewrite holds_list, D1, fds_split in A.
    assert (1 <= times (poll_fd k) [sk_listen k] + times (poll_fd k) [tr_conn (sk_tran k); tr_cmd (sk_tran k)])%nat; [|lia].
    rewrite P. destruct (0 <=? tr_conn (sk_tran k))%Z; unfold times.
    + rewrite (count_occ_cons_eq _ _ eq_refl). lia.
    + rewrite (count_occ_cons_eq _ [] eq_refl). lia.
  - intros g a r w' ev' [VA _] S. cbn [wstep] in S. rewrite K in S. destruct (attach parse print (sk_tran k) g a) as [[[r1 t1] g1] ev1] eqn:T. injection S as <- <- _. cbn [wo_socks].
    eexists. split; [rewrite (put_none _ _ _ _ K), Nat.eqb_refl; reflexivity|]. split; [reflexivity|]. split; [reflexivity|].
    pose proof (C53_attach _ _ _ _ _ _ _ _ _ T) as NC. unfold attach in T. destruct (Z.eqb_spec (tr_conn (sk_tran k)) (-1)) as [C|C]; cbn [negb] in T.
    + destruct (at_accept a) as [fd|er] eqn:AC.
      * destruct (negotiate parse print g a) as [[[cmd|er|c] g2] ev2]; injection T as <- <- _ _; [| |now destruct (NC c)].
        -- split; [|congruence]. intros _. split; [unfold poll_fd; now rewrite C|]. unfold poll_fd. cbn [sk_tran tr_conn]. now replace (fd =? -1)%Z with false by lia.
        -- split; [discriminate|]. intros _. destruct k as [kp kl [kc kd]]. cbn in *. now rewrite C.
      * injection T as <- <- _ _. split; [discriminate|]. intros _. now destruct k.
    + injection T as <- <- _ _. split; [discriminate|]. intros _. now destruct k.
  - intros r w' ev' S. cbn [wstep] in S. rewrite K in S. unfold detach in S. injection S as _ <- _. cbn [wo_socks].
    eexists. split; [rewrite (put_none _ _ _ _ K), Nat.eqb_refl; reflexivity|]. split; [reflexivity|]. split; reflexivity.
Qed.
Print Assumptions C58_poll.

(* Examples: two devices, the second at a path that is taken, then at another; a client that comes to the first, which is
   destroyed while it is connected. *)
Definition ex_p1 : path := [47; 97].
Definition ex_p2 : path := [47; 98].
Definition ex_init (fd : Z) : init_env := mk_init (inl fd) None None None.
Definition ex_ops : list wop :=
  [WCreate false ex_p1 (ex_init 3); WCreate true ex_p1 (ex_init 4); WCreate true ex_p2 (ex_init 4);
   WAttach 0 ex_nego (ex_attach 0 9); WAttach 1 ex_nego (mk_attach (inr 11) [] 0 (Sent 0) (inr 0))].
Definition ex_world : world * list sk_event := wrun (ex_parse ex_client) ex_print (mk_world [] []) ex_ops.
Example C58_case :
  Forall valid_op ex_ops /\ Forall undisturbed ex_ops /\
  ex_world = (mk_world [ex_p2; ex_p1] [Some (mk_sock ex_p1 3 (mk_tran 11 21)); Some (mk_sock ex_p2 4 (mk_tran (-1) (-1)))],
              [SkOpened 3; SkBound 3 ex_p1; SkListening 3; SkOpened 4; SkNonblocking 4; SkClosed 4;
               SkOpened 4; SkNonblocking 4; SkBound 4 ex_p2; SkListening 4; SkOpened 11; SkOpened 20; SkOpened 21; SkClosed 20]) /\
  map (fun o => match o with Some k => poll_fd k | None => (-1)%Z end) (wo_socks (fst ex_world)) = [11; 4]%Z /\
  wstep (ex_parse ex_client) ex_print (fst ex_world) (WDestroy 0) =
    (Ok tt, mk_world [ex_p2] [None; Some (mk_sock ex_p2 4 (mk_tran (-1) (-1)))], [SkClosed 11; SkClosed 21; SkUnlinked ex_p1; SkClosed 3]).
Proof. split; [repeat constructor; discriminate|]. split; [repeat constructor|]. split; [vm_compute; reflexivity|]. split; vm_compute; reflexivity. Qed.
Example C58_created_case : can_listen false ex_p1 [] (ex_init 3) 3 /\ cannot_listen true ex_p1 [ex_p1] (ex_init 4) 98 /\
  cannot_listen false (repeat 47 108) [] (ex_init 3) 36.
Proof.
  split; [constructor; try reflexivity; [cbn; lia|intros []]|]. split; right; right.
  - exists 4%Z. split; [reflexivity|]. split; [reflexivity|]. right. left. split; [cbn; lia|]. split; [left|]; reflexivity.
  - exists 3%Z. split; [reflexivity|]. split; [reflexivity|]. left. split; [cbn; lia|reflexivity].
Qed.

(* The full statement would be about any history.  It is false when a name is removed by something else: a second device
   can then be made at the same path, and destroying the first removes the name of the second, which goes on listening
   where no client can find it. *)
Theorem C58_name_stolen_refuted : forall parse print p fd1 fd2,
  p <> [] -> (length p < 108)%nat -> (0 <= fd1)%Z -> (0 <= fd2)%Z ->
  exists w ev, Forall valid_op [WCreate false p (ex_init fd1); WRemoved p; WCreate false p (ex_init fd2); WDestroy 0] /\
    wrun parse print (mk_world [] []) [WCreate false p (ex_init fd1); WRemoved p; WCreate false p (ex_init fd2); WDestroy 0] = (w, ev) /\
    devices w = [mk_sock p fd2 (mk_tran (-1) (-1))] /\ wo_names w = [].
Proof.
  intros parse print p fd1 fd2 NE L F1 F2.
  assert (PE : path_eq p p = true) by now apply path_eq_iff.
  assert (SL : (SUN_PATH <=? N.of_nat (List.length p)) = false) by (unfold SUN_PATH; lia).
  do 2 eexists. split; [repeat constructor; assumption|]. split; [|split].
  - cbn [wrun wstep]. unfold sock_init, ex_init at 1. cbn [ie_socket ie_bind ie_listen wo_names wo_socks existsb]. rewrite SL. cbn [app nth put firstn skipn].
    unfold remove_name at 1. cbn [filter]. rewrite PE. cbn [negb wo_names existsb ex_init ie_socket ie_bind ie_listen]. cbn [wo_socks app nth detach sk_tran tr_conn tr_cmd put firstn skipn].
    unfold remove_name. cbn [filter sk_path]. rewrite PE. reflexivity.
  - reflexivity.
  - cbn -[path_eq]. rewrite PE. reflexivity.
Qed.
Print Assumptions C58_name_stolen_refuted.
