(** The buffer of buff.go: a write is found where it was made, nothing else
    changes. *)
From Coq Require Import String List ZArith Lia Bool.
From Verif Require Import Base BaseProofs Ttf TtfSpec TtfProofs Subset FontFile FontClosure.
Open Scope Z_scope.
Open Scope list_scope.

Lemma u8_in : forall x d y p, 0 <= p < blen d -> u8 (x ++ d ++ y) (blen x + p) = u8 d p.
Proof. exact u8_app. Qed.
Lemma u8_left : forall x y p, p < blen x -> u8 (x ++ y) p = u8 x p.
Proof. intros x y p H. unfold u8. destruct (Z.ltb_spec p 0); [auto|]. apply nth_error_app1. unfold blen in H. lia. Qed.
Lemma u8_right : forall x y p, 0 <= p -> u8 (x ++ y) (blen x + p) = u8 y p.
Proof.
  intros x y p H. unfold u8. pose proof (blen_nonneg x). destruct (Z.ltb_spec (blen x + p) 0); [lia|]. destruct (Z.ltb_spec p 0); [lia|].
  rewrite nth_error_app2 by (unfold blen in *; lia). f_equal. unfold blen in *. lia.
Qed.
Lemma u8_zeros : forall n p, 0 <= p < Z.of_nat n -> u8 (repeat 0 n) p = Some 0.
Proof.
  intros n p H. unfold u8. destruct (Z.ltb_spec p 0); [lia|]. assert (L : (Z.to_nat p < n)%nat) by lia. revert L. generalize (Z.to_nat p). clear.
  induction n as [|n IH]; intros k L; [lia|]. destruct k; [reflexivity|]. apply IH. lia.
Qed.

Lemma split_at : forall (x : bytes) n, 0 <= n <= blen x -> exists a b, x = a ++ b /\ blen a = n.
Proof.
  intros x n H. exists (firstn (Z.to_nat n) x), (skipn (Z.to_nat n) x). rewrite firstn_skipn. split; [auto|].
  unfold blen in *. rewrite firstn_length. lia.
Qed.

Theorem write_spec : forall pos x p, 0 <= pos ->
  let b := bwrite (mkBuff pos x) p in
  bpos b = pos + blen p /\ bytes_at (bdat b) pos (blen p) = Some p /\
  blen (bdat b) = Z.max (blen x) (pos + blen p) /\
  (forall q, q < blen x -> q < pos \/ pos + blen p <= q -> u8 (bdat b) q = u8 x q) /\
  (forall q, blen x <= q < pos -> u8 (bdat b) q = Some 0).
Proof.
  intros pos x p Hp. cbv zeta. pose proof (blen_nonneg p). pose proof (blen_nonneg x).
  assert (Mid : forall a q c, bytes_at (a ++ q ++ c) (blen a) (blen q) = Some q).
  { intros a q c. replace (blen a) with (blen a + 0) by lia. rewrite bytes_at_app by (pose proof (blen_nonneg q); lia). apply bytes_at_all. }
  destruct (Z.le_gt_cases (blen x) pos).
  - rewrite bwrite_end by lia. cbn [bpos bdat]. split; [auto|].
    assert (E : blen (x ++ repeat 0 (Z.to_nat (pos - blen x))) = pos) by (rewrite blen_app, blen_repeat; lia).
    split; [|split; [|split]].
    + rewrite app_assoc. rewrite <- E at 2. rewrite <- (app_nil_r p) at 1. apply Mid.
    + rewrite !blen_app, blen_repeat. lia.
    + intros q Hq _. apply u8_left. auto.
    + intros q Hq. replace q with (blen x + (q - blen x)) by lia. rewrite u8_right by lia. rewrite u8_left by (rewrite blen_repeat; lia).
      apply u8_zeros. lia.
  - destruct (split_at x pos ltac:(lia)) as (a & y & -> & <-). rewrite blen_app in *.
    destruct (Z.le_gt_cases (blen y) (blen p)).
    + rewrite bwrite_over by (first [assumption|lia]). cbn [bpos bdat]. split; [auto|]. split; [|split; [|split]].
      * rewrite <- (app_nil_r p) at 1. apply Mid.
      * rewrite blen_app. lia.
      * intros q Hq [Hq'|Hq']; [|lia]. rewrite !u8_left by lia. auto.
      * intros q Hq. lia.
    + destruct (split_at y (blen p) ltac:(lia)) as (y1 & z & -> & Ey). rewrite bwrite_mid by auto. cbn [bpos bdat]. rewrite blen_app in *. split; [auto|].
      split; [apply Mid|]. split; [rewrite !blen_app; lia|]. split; [|intros q Hq; rewrite ?blen_app in Hq; pose proof (blen_nonneg y1); pose proof (blen_nonneg z); lia].
      intros q Hq [Hq'|Hq']; [rewrite !u8_left by lia; auto|].
      replace q with (blen (a ++ p) + (q - blen a - blen p)) at 1 by (rewrite blen_app; lia). rewrite app_assoc, u8_right by lia.
      replace q with (blen (a ++ y1) + (q - blen a - blen p)) at 2 by (rewrite blen_app; lia). rewrite (app_assoc a y1 z), u8_right by lia. auto.
Qed.

Lemma u16_of_bytes : forall d p b, bytes_at d p 2 = Some b -> u16 d p = u16 b 0.
Proof. intros d p b H. apply bytes_at_some in H as (_ & _ & _ & L & x & y & -> & <-). rewrite <- (u16_app x b y 0) by lia. f_equal. lia. Qed.
Lemma u32_of_bytes : forall d p b, bytes_at d p 4 = Some b -> u32 d p = u32 b 0.
Proof. intros d p b H. apply bytes_at_some in H as (_ & _ & _ & L & x & y & -> & <-). rewrite <- (u32_app x b y 0) by lia. f_equal. lia. Qed.

Theorem write16_read : forall pos x v, 0 <= pos -> 0 <= v < 65536 ->
  readUShort (bdat (writeUInt16 (mkBuff pos x) v)) pos = Ok (v, pos + 2).
Proof.
  intros pos x v Hp Hv. destruct (write_spec pos x (be2 v) Hp) as (_ & E & _). rewrite be2_len in E. apply u16_of_bytes in E. rewrite be2_u16 in E by auto.
  unfold writeUInt16. rewrite readUShort_eq, E by auto. reflexivity.
Qed.
Theorem write16_signed : forall pos x v, 0 <= pos -> -32768 <= v < 32768 ->
  readShort (bdat (writeUInt16 (mkBuff pos x) v)) pos = Ok (v, pos + 2).
Proof.
  intros pos x v Hp Hv. assert (W : writeUInt16 (mkBuff pos x) v = writeUInt16 (mkBuff pos x) (v mod 65536)).
  { unfold writeUInt16. f_equal. unfold be2, byte. f_equal; [|f_equal]; lia. }
  rewrite W. unfold readShort. rewrite write16_read by lia. cbn [bind]. do 2 f_equal. destruct (Z.leb_spec 32768 (v mod 65536)); lia.
Qed.
Theorem write32_read : forall pos x v, 0 <= pos -> 0 <= v < 4294967296 ->
  readULong (bdat (writeUInt32 (mkBuff pos x) v)) pos = Ok (v, pos + 4).
Proof.
  intros pos x v Hp Hv. destruct (write_spec pos x (be4 v) Hp) as (_ & E & _). rewrite be4_len in E. apply u32_of_bytes in E. rewrite be4_u32 in E by auto.
  unfold writeUInt32. rewrite readULong_eq, E by auto. reflexivity.
Qed.
