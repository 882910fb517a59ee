(* Lemmas about messages. *)
From Coq Require Import NArith ZArith String List Bool Lia ZifyBool ZifyNat ZifyN.
From Verif Require Import Base Types Bytes BytesProofs BufProofs Migr Irq Pci Handlers Server SpecServer Wire Tran SpecWire.
Import ListNotations.
Open Scope N_scope.
Ltac Zify.zify_post_hook ::= idtac.

Lemma enc_length h : length (enc_header h) = 16%nat.
Proof. unfold enc_header. rewrite !app_length, !le_bytes_length. reflexivity. Qed.

Lemma enc_bytes h : bytes (enc_header h).
Proof. unfold enc_header. rewrite !bytes_app. repeat split; apply le_bytes_bytes. Qed.

Lemma dec_enc h rest : hdr_ok h -> dec_header (enc_header h ++ rest) = Some h.
Proof.
  intros (A & B & C & D & E). unfold dec_header, enc_header. rewrite <- !app_assoc.
  rewrite rd_front by exact A.
  rewrite rd_skip by (rewrite le_bytes_length; lia). rewrite le_bytes_length. cbn [Nat.sub].
  rewrite rd_front by exact B.
  do 2 (rewrite rd_skip by (rewrite le_bytes_length; lia); rewrite le_bytes_length; cbn [Nat.sub]).
  rewrite rd_front by exact C.
  do 3 (rewrite rd_skip by (rewrite le_bytes_length; lia); rewrite le_bytes_length; cbn [Nat.sub]).
  rewrite rd_front by exact D.
  do 4 (rewrite rd_skip by (rewrite le_bytes_length; lia); rewrite le_bytes_length; cbn [Nat.sub]).
  rewrite rd_front by exact E. destruct h; reflexivity.
Qed.

Lemma u16_app a rest off : (length a <= off)%nat -> u16 (a ++ rest) off = u16 rest (off - length a).
Proof. intros H. unfold u16. rewrite !app_nth2 by lia. replace (S off - length a)%nat with (S (off - length a)) by lia. reflexivity. Qed.
Lemma u32_app a rest off : (length a <= off)%nat -> u32 (a ++ rest) off = u32 rest (off - length a).
Proof. intros H. unfold u32. rewrite !u16_app by lia. replace (2 + off - length a)%nat with (2 + (off - length a))%nat by lia. reflexivity. Qed.
Lemma u64_app a rest off : (length a <= off)%nat -> u64 (a ++ rest) off = u64 rest (off - length a).
Proof. intros H. unfold u64. rewrite !u32_app by lia. replace (4 + off - length a)%nat with (4 + (off - length a))%nat by lia. reflexivity. Qed.

Lemma u16_le x rest : x < 65536 -> u16 (le_bytes 2 x ++ rest) 0 = x.
Proof.
  intros H. pose proof (le_val_le_bytes 2 x) as L. change (256 ^ N.of_nat 2) with 65536 in L. rewrite (N.mod_small _ _ H) in L.
  etransitivity; [|exact L]. unfold u16, le_bytes, le_val, app, nth. lia.
Qed.
Lemma u32_le x rest : x < 4294967296 -> u32 (le_bytes 4 x ++ rest) 0 = x.
Proof.
  intros H. pose proof (le_val_le_bytes 4 x) as L. change (256 ^ N.of_nat 4) with 4294967296 in L. rewrite (N.mod_small _ _ H) in L.
  etransitivity; [|exact L]. unfold u32, u16, le_bytes, le_val, app, nth, Nat.add. lia.
Qed.
Lemma u64_le x rest : x < 18446744073709551616 -> u64 (le_bytes 8 x ++ rest) 0 = x.
Proof.
  intros H. pose proof (le_val_le_bytes 8 x) as L. change (256 ^ N.of_nat 8) with 18446744073709551616 in L. rewrite (N.mod_small _ _ H) in L.
  etransitivity; [|exact L]. unfold u64, u32, u16, le_bytes, le_val, app, nth, Nat.add. lia.
Qed.

Lemma enc_wire h rest : hdr_ok h -> on_wire (enc_header h ++ rest) (hd_id h) (hd_cmd h) (hd_size h) (hd_flags h) (hd_error h) rest.
Proof.
  intros (A & B & C & D & E). split.
  6: { rewrite skipn_app, enc_length. replace 16%nat with (length (enc_header h)) at 1 by apply enc_length. rewrite skipn_all. reflexivity. }
  6: { rewrite app_length, enc_length. lia. }
  all: unfold enc_header; rewrite <- !app_assoc;
    repeat (rewrite u16_app by (rewrite le_bytes_length; lia); rewrite le_bytes_length; cbn [Nat.sub]);
    repeat (rewrite u32_app by (rewrite le_bytes_length; lia); rewrite le_bytes_length; cbn [Nat.sub]);
    first [apply u16_le | apply u32_le]; assumption.
Qed.

(* The fields read by the model are the fields of the layout. *)
Lemma rd_u16 b off : (off + 2 <= length b)%nat -> rd b off 2 = Some (u16 b off).
Proof.
  intros H. unfold rd. destruct (slice_some b off 2 H) as (s & Q). rewrite Q. f_equal.
  pose proof (slice_length _ _ _ _ Q) as L.
  destruct s as [|x [|y [|]]]; try discriminate L.
  pose proof (slice_nth _ _ _ _ 0 Q ltac:(lia)) as A. pose proof (slice_nth _ _ _ _ 1 Q ltac:(lia)) as B.
  cbn [nth] in A, B. unfold u16, le_val. rewrite A, B. rewrite Nat.add_0_r, Nat.add_1_r. lia.
Qed.
Lemma rd_u32 b off : (off + 4 <= length b)%nat -> rd b off 4 = Some (u32 b off).
Proof.
  intros H. unfold rd. destruct (slice_some b off 4 H) as (s & Q). rewrite Q. f_equal.
  pose proof (slice_length _ _ _ _ Q) as L.
  destruct s as [|x [|y [|z [|t [|]]]]]; try discriminate L.
  pose proof (slice_nth _ _ _ _ 0 Q ltac:(lia)) as A. pose proof (slice_nth _ _ _ _ 1 Q ltac:(lia)) as B.
  pose proof (slice_nth _ _ _ _ 2 Q ltac:(lia)) as C. pose proof (slice_nth _ _ _ _ 3 Q ltac:(lia)) as D.
  cbn [nth] in A, B, C, D. unfold u32, u16, le_val. rewrite A, B, C, D.
  replace (off + 0)%nat with off by lia. replace (off + 1)%nat with (S off) by lia.
  replace (off + 2)%nat with (2 + off)%nat by lia. replace (off + 3)%nat with (S (2 + off)) by lia. lia.
Qed.
Lemma rd_u64 b off : (off + 8 <= length b)%nat -> rd b off 8 = Some (u64 b off).
Proof.
  intros H. unfold rd. destruct (slice_some b off 8 H) as (s & Q). rewrite Q. f_equal.
  pose proof (slice_length _ _ _ _ Q) as L.
  assert (N8 : forall i, (i < 8)%nat -> nth i s 0 = nth (i + off) b 0).
  { intros i I. rewrite (slice_nth _ _ _ _ i Q I). f_equal. lia. }
  do 8 (destruct s as [|? s]; [discriminate L|]). destruct s; [|discriminate L].
  unfold u64, u32, u16, le_val.
  change (S (4 + off))%nat with (5 + off)%nat. change (2 + (4 + off))%nat with (6 + off)%nat. change (S (6 + off)) with (7 + off)%nat.
  change (S (2 + off)) with (3 + off)%nat. change (S off) with (1 + off)%nat.
  rewrite <- (N8 1%nat), <- (N8 2%nat), <- (N8 3%nat), <- (N8 4%nat), <- (N8 5%nat), <- (N8 6%nat), <- (N8 7%nat) by lia.
  change (nth off b 0) with (nth (0 + off) b 0). rewrite <- (N8 0%nat) by lia. cbn [nth]. lia.
Qed.

Lemma dec_wire b : (16 <= length b)%nat ->
  dec_header b = Some (mk_header (u16 b 0) (u16 b 2) (u32 b 4) (u32 b 8) (u32 b 12)).
Proof. intros H. unfold dec_header. rewrite !rd_u16, !rd_u32 by lia. reflexivity. Qed.
Lemma dec_short b : (length b < 16)%nat -> dec_header b = None.
Proof.
  intros H. unfold dec_header. rewrite (rd_none b 12 4) by lia.
  destruct (rd b 0 2), (rd b 2 2), (rd b 4 4), (rd b 8 4); reflexivity.
Qed.

Lemma enc_dec b : length b = 16%nat -> bytes b -> exists h, dec_header b = Some h /\ hdr_ok h /\ enc_header h = b.
Proof.
  intros L B. rewrite dec_wire by lia. eexists. split; [reflexivity|].
  assert (N8 : forall i, nth i b 0 < 256) by (intros i; apply bytes_nth; exact B).
  assert (U16 : forall o, u16 b o < 65536) by (intros o; unfold u16; pose proof (N8 o); pose proof (N8 (S o)); lia).
  assert (U32 : forall o, u32 b o < 4294967296) by (intros o; unfold u32; pose proof (U16 o); pose proof (U16 (2 + o)%nat); lia).
  split; [unfold hdr_ok; cbn; auto|].
  assert (P2 : forall o, le_bytes 2 (u16 b o) = [nth o b 0; nth (S o) b 0]).
  { intros o. pose proof (le_bytes_le_val [nth o b 0; nth (S o) b 0]) as Q. cbn [length] in Q. rewrite <- Q at 1.
    - f_equal. unfold u16, le_val. rewrite N.mul_0_r, N.add_0_r. reflexivity.
    - repeat constructor; apply N8. }
  assert (P4 : forall o, le_bytes 4 (u32 b o) = [nth o b 0; nth (S o) b 0; nth (2 + o) b 0; nth (3 + o) b 0]).
  { intros o. pose proof (le_bytes_le_val [nth o b 0; nth (S o) b 0; nth (2 + o) b 0; nth (3 + o) b 0]) as Q. cbn [length] in Q. rewrite <- Q at 1.
    - f_equal. unfold u32, u16, le_val. change (S (2 + o)) with (3 + o)%nat. lia.
    - repeat constructor; apply N8. }
  unfold enc_header. cbn [hd_id hd_cmd hd_size hd_flags hd_error]. rewrite !P2, !P4.
  do 16 (destruct b as [|? b]; [discriminate L|]). destruct b; [|discriminate L]. reflexivity.
Qed.
